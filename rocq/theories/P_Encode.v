(** The LZ coder produces tokens that stand for its input, and the block coder
    writes them down. *)
From Verif Require Import Go GoLemmas S_Bits P_Bits S_Huff M_Crc P_Crc M_Bitio P_Bitio P_Huff
  M_Maketree M_Maketbl P_Maketree P_Maketbl M_Huf P_HufCode P_HufTables P_HufLens P_HufBlock P_HufSend
  P_HufEnc P_HufOut P_HufStream M_Slide S_Lz P_Lz P_Decode P_Slide.

(** The tokens a run may emit. *)
Definition etok (k mx : Z) (t : tok) : Prop := lz_ok (2 ^ k - 1) mx (tokz t).

Lemma etok_ok k mx t : 4 <= mx <= 256 -> etok k mx t -> tok_ok k t.
Proof.
  intros Hm H. destruct t as [b|c p]; unfold etok in H; cbn [tokz lz_ok] in H; cbn [tok_ok]; [lia|]. unfold Nc. lia.
Qed.

Record EI (body : list Z) (k : Z) (P : prm) (n pb : Z) (w0 : wst) (e : est) (toks : list tok) : Prop := {
  ei_si : SI body k P (e_sl e) (e_pos e) (e_count e) (e_pos e + 1);
  ei_h : hst n pb (e_huf e);
  ei_w : wwf (e_w e);
  ei_rel : wrel w0 (e_w e);
  ei_len : 0 <= m_len (e_match e) <= s_rem (e_sl e);
  ei_mx : m_len (e_match e) <= p_maxmatch P;
  ei_real : 3 <= m_len (e_match e) -> realm body k (e_count e) (m_len (e_match e)) (m_off (e_match e));
  ei_tok : Forall (etok k (p_maxmatch P)) toks;
  ei_exp : unpackable (e_w e) = false -> expand toks = take (e_count e) body;
  ei_strm : unpackable (e_w e) = false -> strm k n pb w0 (e_huf e) (e_w e) toks;
  ei_some : 0 < e_count e -> toks <> []
}.

Lemma skip_tokens_ok body k P cnt : pok k P -> 0 <= cnt -> forall tok pos q s,
  0 <= tok < hshsiz -> SI body k P s pos q (pos + 1) -> cnt <= s_rem s ->
  exists tok' pos' s', skip_tokens P cnt tok pos s = Ok (tok', pos', s') /\ 0 <= tok' < hshsiz /\
    SI body k P s' pos' (q + cnt) (pos' + 1) /\ s_rem s - cnt <= s_rem s'.
Proof.
  intros PK Hc tok pos q s Ht I Hr. unfold skip_tokens.
  set (body' := fun (_ : Z) '(token, pos0, s0) => _).
  destruct (forZ_inv (fun i '(t', p', s') => 0 <= t' < hshsiz /\ SI body k P s' p' (q + i) (p' + 1) /\ s_rem s - i <= s_rem s') body' 0 cnt (tok, pos, s))
    as [[[t' p'] s'] [E [X1 [X2 X3]]]].
  - exact Hc.
  - intros i [[t' p'] s'] Hi [Y1 [Y2 Y3]]. unfold body'.
    destruct (nextToken_ok body k P s' p' (q + i) t' PK Y2 ltac:(lia)) as [t2 [p2 [s2 [E2 [H2 [I2 R2]]]]]]. rewrite E2. cbn [bind].
    destruct (insertHash_ok body k P s2 p2 (q + i + 1) t2 PK I2 H2) as [s3 [E3 [I3 [_ R3]]]]. rewrite E3. cbn [bind].
    eexists. split; [reflexivity|]. cbn beta iota. split; [exact H2|]. split; [|lia].
    replace (q + (i + 1)) with (q + i + 1) by lia. exact I3.
  - cbn beta iota. split; [exact Ht|]. split; [|lia]. now replace (q + 0) with q by lia.
  - exists t', p', s'. auto.
Qed.

Lemma vin_byte body q : bytes body -> is_byte (vin body q).
Proof.
  intros B. unfold vin. destruct (q <? 0); [unfold is_byte; lia|].
  destruct (Nat.lt_ge_cases (Z.to_nat q) (length body)) as [L|L].
  - unfold bytes in B. rewrite Forall_forall in B. apply B. now apply nth_In.
  - rewrite nth_overflow by lia. unfold is_byte; lia.
Qed.

(** A real match reproduces the input. *)
Lemma realm_expand body k q len off toks : bytes body -> expand toks = take q body -> 0 <= q -> 3 <= len -> q + len <= zlen body ->
  realm body k q len off -> expand (toks ++ [Mat (len + 253) (off - 1)]) = take (q + len) body.
Proof.
  intros B E Hq Hl Ht [R1 R2]. rewrite expand_snoc, E. cbn [tokz lz_step].
  replace (len + 253 - 253) with len by lia. replace (off - 1 + 1) with off by lia.
  rewrite lz_copy_prefix; try lia.
  - f_equal. lia.
  - intros i Hi. rewrite back_take by lia. specialize (R2 i ltac:(lia)). unfold vin in R2.
    destruct (Z.ltb_spec (q + i) 0); [lia|]. exact R2.
Qed.

(** One iteration. *)
Lemma encode_step_ok body k P n pb w0 e toks : pok k P -> bytes body -> k < n -> npok n pb ->
  EI body k P n pb w0 e toks ->
  exists c, encode_step P e = Ok c /\
    match c with
    | Go e' => (exists toks', EI body k P n pb w0 e' toks') /\ e_count e < e_count e' <= zlen body
    | Stop e' => e' = e /\ (unpackable (e_w e) = true \/ s_rem (e_sl e) = 0)
    end.
Proof.
  intros PK HB Hkn NP EI0. pose proof EI0 as [I Hh Hw Hrel Hlen Hmx Hreal Htok Hexp Hstrm Hsome].
  destruct (pok_bounds _ _ PK) as [B1 [B2 [B3 B4]]]. pose proof (pk_k _ _ PK) as KK. unfold encode_step.
  destruct (unpackable (e_w e)) eqn:U.
  { rewrite andb_false_r. eexists. split; [reflexivity|]. cbn beta iota. auto. }
  cbn [negb]. rewrite andb_true_r.
  pose proof (si_rem _ _ _ _ _ _ _ I) as R0.
  destruct (Z.ltb_spec 0 (s_rem (e_sl e))) as [Rp|Rz].
  2:{ eexists. split; [reflexivity|]. cbn beta iota. split; [auto|right; lia]. }
  specialize (Hexp eq_refl). specialize (Hstrm eq_refl).
  set (q := e_count e) in *. pose proof (si_q _ _ _ _ _ _ _ I) as Q0. pose proof (si_tot _ _ _ _ _ _ _ I) as QT.
  cbv zeta.
  destruct (nextToken_ok body k P (e_sl e) (e_pos e) q (e_tok e) PK I Rp) as [t1 [p1 [s1 [E1 [T1 [I1 R1]]]]]].
  rewrite E1. cbn [bind].
  destruct (searchDict_ok body k P s1 p1 (q + 1) t1 (m_len (e_match e) - 1) PK I1 T1 ltac:(lia)) as [m [s2 [E2 [I2 [X2 [R2 [L2 [M2 F2]]]]]]]].
  rewrite E2. cbn [bind].
  destruct (insertHash_ok body k P s2 p1 (q + 1) t1 PK I2 T1) as [s3 [E3 [I3 [X3 R3]]]]. rewrite E3. cbn [bind].
  unfold threshold at 1.
  destruct ((m_len (e_match e) <? m_len m) || (m_len (e_match e) <? 3)) eqn:C.
  - (* a literal *)
    pose proof (si_pos _ _ _ _ _ _ _ I3) as PB. pose proof (si_text _ _ _ _ _ _ _ I3) as PT. rewrite aget_ok by lia. cbn [bind].
    pose proof (si_rem _ _ _ _ _ _ _ I3) as R30. pose proof (si_tot _ _ _ _ _ _ _ I3) as QT3.
    rewrite (si_cont _ _ _ _ _ _ _ I3) by lia. replace (q + 1 + (p1 - 1) - p1) with q by lia.
    set (c := vin body q). assert (Cb : is_byte c) by (apply vin_byte; auto). unfold is_byte in Cb.
    assert (ET : etok k (p_maxmatch P) (Lit c)) by (unfold etok; cbn [tokz lz_ok]; lia).
    destruct (strm_step k n pb w0 (e_huf e) (e_w e) toks (Lit c) ltac:(lia) Hkn NP Hstrm (etok_ok _ _ _ B3 ET)) as [h' [w' [E4 [H4 [W4 [L4 G4]]]]]].
    cbn [tokc tokp] in E4. rewrite E4. cbn [bind]. eexists. split; [reflexivity|]. cbn beta iota. split.
    + exists (toks ++ [Lit c]). constructor; cbn [e_sl e_huf e_w e_tok e_pos e_match e_count]; fold q; auto.
      * eapply wrel_trans; eauto.
      * lia.
      * intros M3. apply F2. apply orb_prop in C. destruct C as [C|C]; apply Z.ltb_lt in C; lia.
      * apply Forall_app. split; auto.
      * intros _. rewrite expand_snoc, Hexp. cbn [tokz lz_step]. unfold c, vin. destruct (Z.ltb_spec q 0); [lia|]. apply take_snoc. lia.
      * intros _ X. apply app_eq_nil in X. destruct X; discriminate.
    + cbn [e_count]. fold q. lia.
  - (* a match *)
    apply orb_false_elim in C. destruct C as [C1 C2]. apply Z.ltb_ge in C1, C2.
    set (len := m_len (e_match e)) in *. set (off := m_off (e_match e)) in *.
    pose proof (Hreal ltac:(lia)) as RM. pose proof RM as [O1 _].
    assert (EC : u16 (len + (256 - threshold)) = len + 253) by (unfold threshold; rewrite u16_id by lia; lia). rewrite EC.
    assert (EO : u16 (Z.land (u64 (off - 1)) (p_dicsiz P - 1)) = off - 1).
    { rewrite B2, land_mask by lia. rewrite u64_mod by lia. rewrite Z.mod_small by lia. apply u16_id. lia. }
    rewrite EO.
    assert (ET : etok k (p_maxmatch P) (Mat (len + 253) (off - 1))) by (unfold etok; cbn [tokz lz_ok]; lia).
    destruct (strm_step k n pb w0 (e_huf e) (e_w e) toks (Mat (len + 253) (off - 1)) ltac:(lia) Hkn NP Hstrm (etok_ok _ _ _ B3 ET)) as [h' [w' [E4 [H4 [W4 [L4 G4]]]]]].
    cbn [tokc tokp] in E4. rewrite E4. cbn [bind].
    destruct (skip_tokens_ok body k P (len - 2) PK ltac:(lia) t1 p1 (q + 1) s3 T1 I3 ltac:(lia)) as [t5 [p5 [s5 [E5 [T5 [I5 R5]]]]]].
    rewrite E5. cbn [bind].
    destruct (nextToken_ok body k P s5 p5 (q + 1 + (len - 2)) t5 PK I5 ltac:(lia)) as [t6 [p6 [s6 [E6 [T6 [I6 R6]]]]]].
    rewrite E6. cbn [bind].
    replace (q + 1 + (len - 2) + 1) with (q + len) in I6 by lia.
    destruct (searchDict_ok body k P s6 p6 (q + len) t6 (threshold - 1) PK I6 T6 ltac:(unfold threshold; lia)) as [m7 [s7 [E7 [I7 [X7 [R7 [L7 [M7 F7]]]]]]]].
    rewrite E7. cbn [bind].
    destruct (insertHash_ok body k P s7 p6 (q + len) t6 PK I7 T6) as [s8 [E8 [I8 [X8 R8]]]]. rewrite E8. cbn [bind].
    pose proof (si_rem _ _ _ _ _ _ _ I8) as R80. pose proof (si_tot _ _ _ _ _ _ _ I8) as QT8.
    eexists. split; [reflexivity|]. cbn beta iota. split.
    + exists (toks ++ [Mat (len + 253) (off - 1)]). constructor; cbn [e_sl e_huf e_w e_tok e_pos e_match e_count]; fold q; auto.
      * eapply wrel_trans; eauto.
      * lia.
      * intros M3. apply F7. unfold threshold. lia.
      * apply Forall_app. split; auto.
      * intros _. eapply realm_expand; eauto; lia.
      * intros _ X. apply app_eq_nil in X. destruct X; discriminate.
    + cbn [e_count]. fold q. lia.
Qed.

(** The package variables between calls. *)
Record gok (T : Z) (g : glob) : Prop := {
  gk_h : hsz (g_huf g);
  gk_buf : lay (buf (g_huf g)) [];
  gk_hpos : alen (g_hpos g) = hshsiz;
  gk_hflag : alen (g_hflag g) = hshsiz;
  gk_prevs : alen (g_prevs g) = maxDicsiz;
  gk_text : T + 1 <= alen (g_text g)
}.

Lemma initHash_range text pos a b c : 0 <= pos -> pos + 2 < alen text -> at_ text pos = a -> at_ text (pos + 1) = b -> at_ text (pos + 2) = c ->
  is_byte a -> is_byte b -> is_byte c ->
  exists t, initHash text pos = Ok t /\ (Z.testbit a 5 = false -> 0 <= t < hshsiz) /\ (Z.testbit a 5 = true -> hshsiz <= t).
Proof.
  intros Hp Hl Ea Eb Ec Ba Bb Bc. unfold initHash. rewrite aget_ok by lia. cbn [bind]. rewrite aget_ok by lia. cbn [bind].
  rewrite aget_ok by lia. cbn [bind]. rewrite Ea, Eb, Ec. eexists. split; [reflexivity|].
  unfold is_byte in *.
  change (hshsiz - 1) with (2 ^ 15 - 1). rewrite (land_mask c 15), (Z.mod_small c) by lia.
  rewrite (u16_id (Z.shiftl a 5)) by (rewrite Z.shiftl_mul_pow2 by lia; lia).
  set (y := Z.lxor (Z.shiftl a 5) b). set (t := Z.lxor (u16 (Z.shiftl y 5)) c).
  assert (Y0 : 0 <= y) by (unfold y; apply Z.lxor_nonneg; rewrite Z.shiftl_mul_pow2 by lia; lia).
  assert (UR : 0 <= u16 (Z.shiftl y 5) < 65536) by apply u16_range.
  assert (T0 : 0 <= t) by (unfold t; apply Z.lxor_nonneg; lia).
  assert (TB15 : Z.testbit t 15 = Z.testbit a 5).
  { unfold t. rewrite Z.lxor_spec.
    assert (Z.testbit c 15 = false) as ->.
    { destruct (Z.eq_dec c 0) as [->|]; [apply Z.bits_0|]. apply Z.bits_above_log2; [lia|]. apply Z.log2_lt_pow2; lia. }
    rewrite xorb_false_r. unfold u16. change 65536 with (2 ^ 16). rewrite Z.mod_pow2_bits_low by lia.
    rewrite Z.shiftl_spec by lia. unfold y. rewrite Z.lxor_spec. rewrite Z.shiftl_spec by lia.
    assert (Z.testbit b (15 - 5) = false) as ->.
    { destruct (Z.eq_dec b 0) as [->|]; [apply Z.bits_0|]. apply Z.bits_above_log2; [lia|]. apply Z.log2_lt_pow2; lia. }
    rewrite xorb_false_r. reflexivity. }
  assert (HI : forall m, 16 <= m -> Z.testbit t m = false).
  { intros m Hm. unfold t. rewrite Z.lxor_spec.
    assert (G : forall v, 0 <= v < 65536 -> Z.testbit v m = false).
    { intros v Hv. destruct (Z.eq_dec v 0) as [->|]; [apply Z.bits_0|]. apply Z.bits_above_log2; [lia|].
      assert (Z.log2 v < 16) by (apply Z.log2_lt_pow2; lia). lia. }
    rewrite G by lia. rewrite G by lia. reflexivity. }
  assert (MT : t = t mod 2 ^ 16).
  { apply Z.bits_inj'. intros m Hm. destruct (Z_lt_ge_dec m 16).
    - now rewrite Z.mod_pow2_bits_low by lia.
    - rewrite Z.mod_pow2_bits_high by lia. apply HI. lia. }
  unfold hshsiz. split; intros A5; rewrite A5 in TB15.
  - split; [exact T0|].
    assert (MT2 : t = t mod 2 ^ 15).
    { apply Z.bits_inj'. intros m Hm. destruct (Z_lt_ge_dec m 15).
      - now rewrite Z.mod_pow2_bits_low by lia.
      - rewrite Z.mod_pow2_bits_high by lia. destruct (Z.eq_dec m 15) as [->|]; [exact TB15|apply HI; lia]. }
    pose proof (Z.mod_pos_bound t (2 ^ 15) ltac:(lia)). lia.
  - destruct (Z_lt_ge_dec t 32768) as [L|L]; [|lia]. exfalso.
    assert (Z.testbit t 15 = false); [|congruence].
    destruct (Z.eq_dec t 0) as [->|]; [apply Z.bits_0|]. apply Z.bits_above_log2; [lia|]. apply Z.log2_lt_pow2; lia.
Qed.

(** What a call of encode achieves. *)
Record enc_post (k n pb mx size : Z) (body : list Z) (er : encres) (toks : list tok) (w : wst) : Prop := {
  ep_out : er_out er = rev (wout w);
  ep_packed : er_packed er = wcompsize w;
  ep_u : er_unpackable er = unpackable w;
  ep_w : wwf w;
  ep_rel : wrel (initPutbits size) w;
  ep_err : er_err er = false;
  ep_tok : Forall (etok k mx) toks;
  ep_orig : 0 <= er_original er <= zlen body;
  ep_in : zlen body <= 2 ^ k + mx -> er_in er = [];
  ep_short : zlen (er_in er) < zlen body;
  ep_good : er_unpackable er = false -> expand toks = body /\ er_original er = zlen body /\ er_crc er = calcCrc 0 body /\
     exists bits, BLKS k n pb toks bits /\ emits (initPutbits size) w (bits ++ repeat false 7)
}.

Theorem encode_ok k mx n pb size body g : 8 <= k <= 16 -> 4 <= mx <= 256 -> k < n -> npok n pb -> 12 < n ->
  np (set_np_pbit k (g_huf g)) = n -> pbit (set_np_pbit k (g_huf g)) = pb ->
  gok (2 * 2 ^ k + mx) g -> body <> [] -> bytes body -> 0 <= size ->
  Z.testbit (hd 0 body) 5 = false ->
  exists er toks w, encode k mx size body g = Ok er /\ gok (2 * 2 ^ k + mx) (er_glob er) /\
    np (g_huf (er_glob er)) = n /\ pbit (g_huf (er_glob er)) = pb /\
    enc_post k n pb mx size body er toks w.
Proof.
  intros Hk Hmx Hkn NP Hn12 EN EP G Hne HB Hsz H5. unfold encode. rewrite Z.shiftl_1_l. cbv zeta. cbn [p_dicsiz p_txtsiz p_maxmatch].
  set (d := 2 ^ k). set (P := PRM d (2 * d + mx) mx).
  assert (PK : pok k P) by (constructor; unfold P, d; cbn [p_dicsiz p_txtsiz p_maxmatch]; lia).
  destruct (pok_bounds _ _ PK) as [B1 _]. fold d in B1. destruct G as [G1 G2 G3 G4 G5 G6]. fold d in G6.
  destruct (forZ_inv (fun i '(hp, hf) => alen hp = hshsiz /\ alen hf = hshsiz /\ forall j, 0 <= j < i -> at_ hp j = 0)
    (fun i '(hp, hf) => hp <- aset hp i 0 ;; hf <- aset hf i 0 ;; Ok (hp, hf)) 0 hshsiz (g_hpos g, g_hflag g)) as [[hp hf] [E1 [A1 [A2 A3]]]].
  { unfold hshsiz; lia. }
  { intros i [hp hf] Hi [X1 [X2 X3]]. rewrite aset_ok by lia. cbn [bind]. rewrite aset_ok by lia. cbn [bind].
    eexists. split; [reflexivity|]. cbn beta iota. rewrite !alen_upd. split; [auto|]. split; [auto|].
    intros j Hj. rewrite at_upd by lia. destruct (Z.eqb_spec j i); [reflexivity|apply X3; lia]. }
  { split; [auto|]. split; [auto|]. intros; lia. }
  rewrite E1. cbn [bind].
  destruct (encodeStartSt1_ok k n pb (g_huf g) G1 G2) as [h0 [E2 C2]]; auto. { destruct NP; lia. }
  rewrite E2. cbn [bind].
  destruct (fill_ok 0 (2 * d + mx + 1) 32 (g_text g)) as [t0 [E3 [A4 A5]]]; [lia|lia|]. rewrite E3. cbn [bind].
  destruct body as [|b0 body'] eqn:EB; [congruence|]. rewrite <- EB in *.
  assert (HBn : 1 <= zlen body) by (rewrite EB, zlen_cons; pose proof (zlen_nonneg body'); lia).
  unfold freadCrc. set (rd := take (2 * d + mx - d) body).
  assert (ZR : zlen rd = Z.min (d + mx) (zlen body)) by (unfold rd; rewrite zlen_take_min by lia; lia).
  destruct (blit_ok rd t0 d) as [t1 [E4 [A6 A7]]]; [lia|lia|]. rewrite E4. cbn [bind].
  assert (HC : forall i, 0 <= i < d + zlen rd -> at_ t1 i = vin body (0 + i - d)).
  { intros i Hi. rewrite A7 by lia. unfold vin. replace (0 + i - d) with (i - d) by lia.
    destruct (Z.leb_spec d i); cbn [andb]; destruct (Z.ltb_spec (i - d) 0); try lia.
    - destruct (Z.ltb_spec i (d + zlen rd)); [|lia]. unfold rd. rewrite nth_take by lia. reflexivity.
    - rewrite A5 by lia. replace (_ && _) with true; [reflexivity|]. symmetry. apply andb_true_intro. split; [apply Z.leb_le|apply Z.ltb_lt]; lia. }
  assert (HBy : forall i, 0 <= i < 2 * d + mx + 1 -> is_byte (at_ t1 i)).
  { intros i Hi. rewrite A7 by lia. destruct ((d <=? i) && (i <? d + zlen rd)) eqn:C.
    - apply andb_prop in C. destruct C as [C1 C2']. apply Z.leb_le in C1. apply Z.ltb_lt in C2'. unfold rd. rewrite nth_take by lia.
      pose proof (vin_byte body (i - d) HB) as V. unfold vin in V. destruct (Z.ltb_spec (i - d) 0); [lia|exact V].
    - rewrite A5 by lia. replace ((0 <=? i) && (i <? 2 * d + mx + 1)) with true; [unfold is_byte; lia|].
      symmetry. apply andb_true_intro. split; [apply Z.leb_le|apply Z.ltb_lt]; lia. }
  assert (HH : at_ t1 d = hd 0 body).
  { rewrite HC by lia. unfold vin. destruct (Z.ltb_spec (0 + d - d) 0); [lia|]. replace (0 + d - d) with 0 by lia. rewrite EB. reflexivity. }
  destruct (initHash_range t1 d _ _ _ ltac:(lia) ltac:(lia) eq_refl eq_refl eq_refl (HBy d ltac:(lia)) (HBy (d + 1) ltac:(lia)) (HBy (d + 2) ltac:(lia)))
    as [tk [E5 [T5 _]]].
  rewrite E5. cbn [bind]. rewrite HH in T5. specialize (T5 H5).
  set (s0 := SL t1 hp hf (g_prevs g) (zlen rd) (drop (2 * d + mx - d) body) (calcCrc 0 rd)).
  assert (I0 : SI body k P s0 d 0 d).
  { constructor; unfold s0, P; cbn [s_text s_hpos s_hflag s_prevs s_rem s_in s_crc p_txtsiz]; fold d; auto; try lia.
    - rewrite drop_min by lia. f_equal. lia.
    - f_equal. rewrite ZR. unfold rd. rewrite (take_min (2 * d + mx - d)) by lia. f_equal. lia. }
  destruct (insertHash_ok body k P s0 d 0 tk PK I0 T5) as [s1 [E6 [I1 [X1 R1]]]]. rewrite E6. cbn [bind].
  set (m0 := if zlen rd <? threshold - 1 then MD (zlen rd) 0 else MD (threshold - 1) 0).
  assert (EI0 : EI body k P n pb (initPutbits size) (EST s1 h0 (initPutbits size) tk d m0 0) []).
  { destruct (initPutbits_Wr size Hsz) as [W0 L0].
    constructor; cbn [e_sl e_huf e_w e_tok e_pos e_match e_count].
    - exact I1.
    - eapply hcur_hst; eauto.
    - exact W0.
    - apply wrel_refl.
    - rewrite R1. unfold s0, m0, threshold. cbn [s_rem]. destruct (Z.ltb_spec (zlen rd) (3 - 1)); cbn [m_len]; lia.
    - unfold m0, threshold, P. cbn [p_maxmatch]. destruct (Z.ltb_spec (zlen rd) (3 - 1)); cbn [m_len]; lia.
    - unfold m0, threshold. destruct (Z.ltb_spec (zlen rd) (3 - 1)); cbn [m_len]; lia.
    - constructor.
    - reflexivity.
    - intros _. now apply strm_start.
    - lia. }
  destruct (loop_wf (fun e => exists toks, EI body k P n pb (initPutbits size) e toks)
    (fun e => (exists toks, EI body k P n pb (initPutbits size) e toks) /\ (unpackable (e_w e) = true \/ s_rem (e_sl e) = 0))
    (fun e => zlen body - e_count e) (zlen body + 2) (encode_step P) (EST s1 h0 (initPutbits size) tk d m0 0)) as [e [E7 [[toks HE] Hstop]]].
  { intros e [toks He]. destruct (encode_step_ok body k P n pb (initPutbits size) e toks PK HB Hkn NP He) as [c [Ec Hc]].
    exists c. split; [exact Ec|]. destruct c as [e'|e'].
    - destruct Hc as [Hc1 Hc2]. split; [exact Hc1|lia].
    - destruct Hc as [-> Hc]. split; [now exists toks|exact Hc]. }
  { now exists []. }
  { cbn [e_count]. lia. }
  rewrite E7. cbn [bind].
  destruct HE as [I Hh Hw Hrel Hlen Hmx' Hreal Htok Hexp Hstrm Hsome].
  assert (GG : forall h' d1 p1, hst n pb h' -> gok (2 * 2 ^ k + mx) (GLOB h' (s_hpos (e_sl e)) (s_hflag (e_sl e)) (s_prevs (e_sl e)) (s_text (e_sl e)) d1 p1)).
  { intros h' d1 p1 [HZ [_ [_ HL]]]. destruct I. constructor; cbn [g_huf g_hpos g_hflag g_prevs g_text]; auto. }
  assert (OR : 0 <= e_count e <= zlen body).
  { pose proof (si_tot _ _ _ _ _ _ _ I). pose proof (si_q _ _ _ _ _ _ _ I). pose proof (si_rem _ _ _ _ _ _ _ I). lia. }
  assert (INN : zlen body <= 2 ^ k + mx -> s_in (e_sl e) = []).
  { intros X. rewrite (si_in _ _ _ _ _ _ _ I). unfold drop. apply skipn_all2.
    assert (zlen body <= e_count e + s_rem (e_sl e)); [|unfold zlen in *; lia].
    destruct (Z_lt_ge_dec (e_count e + s_rem (e_sl e)) (zlen body)) as [Y|Y]; [|lia].
    pose proof (si_full _ _ _ _ _ _ _ I Y) as F. pose proof (si_off _ _ _ _ _ _ _ I) as O. unfold P in F. cbn [p_txtsiz] in F. fold d in O, X. lia. }
  assert (SHT : zlen (s_in (e_sl e)) < zlen body).
  { rewrite (si_in _ _ _ _ _ _ _ I). unfold drop, zlen at 1. rewrite skipn_length.
    assert (1 <= e_count e + s_rem (e_sl e)); [|unfold zlen in *; lia].
    destruct (Z_lt_ge_dec (e_count e + s_rem (e_sl e)) (zlen body)) as [Y|Y]; [|lia].
    pose proof (si_full _ _ _ _ _ _ _ I Y) as F. pose proof (si_off _ _ _ _ _ _ _ I) as O. unfold P in F. cbn [p_txtsiz] in F. fold d in O. lia. }
  destruct (unpackable (e_w e)) eqn:U.
  - (* did not fit *)
    unfold encodeEndSt1. rewrite U. cbn [bind]. eexists _, toks, (e_w e). split; [reflexivity|]. cbn [er_glob g_huf].
    split; [now apply GG|]. destruct Hh as [_ [Hh1 [Hh2 _]]]. split; [exact Hh1|]. split; [exact Hh2|].
    constructor; cbn [er_out er_packed er_unpackable er_err er_original er_crc er_in]; auto; try congruence.
  - destruct Hstop as [|Hstop]; [congruence|].
    assert (QN : e_count e = zlen body).
    { pose proof (si_tot _ _ _ _ _ _ _ I). pose proof (si_full _ _ _ _ _ _ _ I) as F. pose proof (si_pos _ _ _ _ _ _ _ I) as PP.
      unfold P in F. cbn [p_txtsiz] in F. fold d in PP. lia. }
    assert (TN : toks <> []) by (apply Hsome; lia).
    destruct (strm_end k n pb (initPutbits size) (e_huf e) (e_w e) toks ltac:(lia) Hkn NP (Hstrm eq_refl) TN) as [h' [w' [E8 [H8 [W8 [R8 G8]]]]]].
    rewrite E8. cbn [bind]. eexists _, toks, w'. split; [reflexivity|]. cbn [er_glob g_huf].
    split; [now apply GG|]. destruct H8 as [_ [Hh1 [Hh2 _]]]. split; [exact Hh1|]. split; [exact Hh2|].
    constructor; cbn [er_out er_packed er_unpackable er_err er_original er_crc er_in]; auto.
    + eapply wrel_trans; eauto.
    + intros U'. split; [|split; [exact QN|split]].
      * rewrite (Hexp eq_refl), QN. unfold take, zlen. rewrite Nat2Z.id. apply firstn_all.
      * rewrite (si_crc _ _ _ _ _ _ _ I). f_equal. rewrite Hstop, QN, Z.add_0_r. unfold take, zlen. rewrite Nat2Z.id. apply firstn_all.
      * apply G8. exact U'.
Qed.
