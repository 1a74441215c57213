(** Process histories and the round trip of the LZ/Huffman methods. *)
From Verif Require Import Go GoLemmas M_Crc M_Bitio P_Bitio M_Maketree M_Maketbl M_Huf M_Slide M_Lzhuf P_HufCode P_HufTables P_HufLens P_HufBlock P_HufSend P_HufEnc P_HufOut P_HufStream
  S_Lz P_Lz P_Decode P_Slide P_Encode P_DecAny P_EncKeep M_Decode P_DecOld.

From Verif Require Export S_History.

(** The first compression decided the size of the window buffer. *)
Definition lz_method (m : Z) : bool := (m =? 1) || (m =? 5) || (m =? 6) || (m =? 7).

Fixpoint first_method (cs : list call) : option Z :=
  match cs with
  | [] => None
  | CallEnc m _ _ :: cs' => if lz_method m then Some m else first_method cs'
  | CallDec _ _ _ _ _ :: cs' => first_method cs'
  end.

Definition window (m : Z) : Z := match method_params m with Some (k, mx) => 2 * 2 ^ k + mx + 1 | None => 0 end.

(** ** Invariant *)

Record hinv (h : huf) : Prop := {
  hi_d : dinv h;
  hi_cc : alen (cCode h) = Nc;
  hi_pc : alen (ptCode h) = Npt;
  hi_cf : alen (cFreq h) = 1019;
  hi_pf : alen (pFreq h) = 33;
  hi_tf : alen (tFreq h) = 37;
  hi_buf : bytearr (buf h);
  hi_pb : 0 <= pbit h < 256
}.

Record ginv (fm : option Z) (g : glob) : Prop := {
  gi_h : hinv (g_huf g);
  gi_alloc : match fm with
    | None => alen (g_hpos g) = 0
    | Some m => lz_method m = true /\ alen (buf (g_huf g)) = 65535 /\ alen (g_hpos g) = hshsiz /\ alen (g_hflag g) = hshsiz /\
        alen (g_prevs g) = maxDicsiz /\ alen (g_text g) = window m
    end
}.

Lemma ginv_start : ginv None glob0.
Proof.
  constructor; [|reflexivity]. constructor; try reflexivity; try apply bytearr_amake; [|cbn; lia].
  constructor; try apply bytearr_amake. constructor; reflexivity.
Qed.

Lemma hinv_np k h : hinv h -> hinv (set_np_pbit k h).
Proof.
  intros [[[] ? ?] ? ? ? ? ? ?]. unfold set_np_pbit. destruct (k =? 12), (k =? 13), (k =? 15), (k =? 16);
    constructor; auto; try (constructor; auto; constructor; auto); try (cbn; lia).
Qed.

Lemma hinv_hsame h h' : hinv h -> hsame h h' -> hinv h'.
Proof.
  intros [[[] ? ?] ? ? ? ? ? ?] []. destruct hs_cl, hs_pl, hs_buf.
  constructor; try congruence; auto. constructor; auto. constructor; congruence.
Qed.

Lemma hinv_dframe h h' : hinv h -> dinv h' -> dframe h h' -> hinv h'.
Proof. intros [? ? ? ? ? ? ? ?] D []. constructor; try congruence; rewrite ?df_buf, ?df_pb; auto. Qed.

Lemma hinv_oframe h h' : hinv h -> dinv h' -> oframe h h' -> hinv h'.
Proof. intros [? ? ? ? ? ? ? ?] D []. constructor; try congruence; rewrite ?of_buf, ?of_pb; auto. Qed.

Lemma lz_params m k mx : method_params m = Some (k, mx) -> 0 <= mx /\ 0 <= k <= 16 /\ lz_method m = true.
Proof.
  unfold method_params, lz_method. destruct (m =? 1), (m =? 5), (m =? 6), (m =? 7); cbn [orb]; intros H; try discriminate; injection H as <- <-; unfold Maxmatch; auto with zarith.
Qed.

Lemma lz_none m : method_params m = None -> lz_method m = false.
Proof. unfold method_params, lz_method. destruct (m =? 1), (m =? 5), (m =? 6), (m =? 7); try discriminate; reflexivity. Qed.

(** The invariant just before encode runs. *)
Lemma alloc_inv fm g m k mx : method_params m = Some (k, mx) -> ginv fm g ->
  ginv (match fm with Some m0 => Some m0 | None => Some m end) (encodeAlloc (2 * Z.shiftl 1 k + mx) g).
Proof.
  intros E [H A]. destruct (lz_params _ _ _ E) as [X1 [X2 X3]]. unfold encodeAlloc. destruct fm as [m0|].
  - destruct A as [A0 [A1 [A2 [A3 [A4 A5]]]]]. rewrite A2. change (hshsiz =? 0) with false. constructor; auto. repeat split; auto.
  - rewrite A. change (0 =? 0) with true. cbn [bind]. constructor.
    + destruct H as [[[] ? ?] ? ? ? ? ? ?]. cbn [g_huf]. constructor; auto; try apply bytearr_amake. constructor; auto. constructor; auto.
    + cbn [g_huf g_hpos g_hflag g_prevs g_text]. split; [exact X3|]. split; [reflexivity|]. split; [reflexivity|]. split; [reflexivity|]. split; [reflexivity|].
      unfold window. rewrite E, Z.shiftl_1_l. unfold amake. cbn [alen]. assert (0 < 2 ^ k) by (apply Z.pow_pos_nonneg; lia). lia.
Qed.

Lemma run_call_inv c g g' fm : call_ok c -> ginv fm g -> run_call c g = Some g' ->
  ginv (match fm with Some m => Some m | None => first_method [c] end) g'.
Proof.
  intros Hc I R. destruct c as [m size inp|m broken orig packed inp]; cbn [run_call first_method] in *.
  - unfold EncodeLzhuf in R. destruct (0 <? m) eqn:Pm.
    + destruct (method_params m) as [[k mx]|] eqn:PM.
      * pose proof (alloc_inv fm g m k mx PM I) as J. destruct (lz_params _ _ _ PM) as [X1 [X2 X3]]. rewrite X3.
        destruct (encode k mx size inp (encodeAlloc (2 * Z.shiftl 1 k + mx) g)) as [er| |] eqn:EE; cbn [bind] in R; try discriminate.
        destruct (er_original er =? 0); [discriminate|]. injection R as <-. cbn [eo_glob]. apply encode_keep in EE. destruct EE as [H1 H2 H3 H4 H5].
        destruct J as [J1 J2]. constructor.
        -- eapply hinv_hsame; [|exact H1]. now apply hinv_np.
        -- assert (NB : alen (buf (set_np_pbit k (g_huf (encodeAlloc (2 * Z.shiftl 1 k + mx) g)))) = alen (buf (g_huf (encodeAlloc (2 * Z.shiftl 1 k + mx) g))))
             by (unfold set_np_pbit; destruct (k =? 12), (k =? 13), (k =? 15), (k =? 16); reflexivity).
           destruct fm as [m0|]; destruct J2 as [K0 [K1 [K2 [K3 [K4 K5]]]]]; (split; [exact K0|]); (split; [rewrite (proj1 (hs_buf _ _ H1)), NB; exact K1|]); repeat split; congruence.
      * rewrite (lz_none _ PM). destruct (copyfile size inp) as [[[o r] rest]| |] eqn:CE; cbn [bind] in R; try discriminate. destruct (r =? 0); [discriminate|].
        injection R as <-. cbn [eo_glob]. destruct fm; exact I.
    + assert (LF : lz_method m = false). { apply Z.ltb_ge in Pm. unfold lz_method. destruct (Z.eqb_spec m 1), (Z.eqb_spec m 5), (Z.eqb_spec m 6), (Z.eqb_spec m 7); try lia; reflexivity. }
      rewrite LF. destruct (copyfile size inp) as [[[o r] rest]| |] eqn:CE; cbn [bind] in R; try discriminate. destruct (r =? 0); [discriminate|].
      injection R as <-. cbn [eo_glob]. destruct fm; exact I.
  - replace (match fm with Some m0 => Some m0 | None => None end) with fm by (destruct fm; reflexivity).
    unfold DecodeLzhuf in R. destruct (dec_dicbit m) as [k|] eqn:DD.
    2: { destruct (decode_old m (old_dicbit m) broken orig packed inp g) as [[g1 x]| |] eqn:DE; cbn [bind] in R; try discriminate. injection R as <-.
      destruct Hc as [C1 [C2 C3]]. destruct I as [I1 I2]. apply decode_old_any in DE; auto; [|unfold old_dicbit; destruct (m =? 1), (m =? 8), (m =? 9); lia|apply (hi_d _ I1)].
      destruct DE as [D1 [D2 [D3 [D4 [D5 [D6 _]]]]]]. constructor; [eapply hinv_oframe; eauto|].
      rewrite D3, D4, D5, D6, (of_buf _ _ D2). exact I2. }
    destruct (k =? 0) eqn:K0.
    + destruct (copyfile orig inp) as [[[o r] rest]| |]; cbn [bind] in R; try discriminate. injection R as <-. exact I.
    + destruct (decode k broken orig packed inp (g_huf g)) as [x| |] eqn:DE; cbn [bind] in R; try discriminate. injection R as <-.
      destruct Hc as [C1 [C2 C3]]. destruct I as [I1 I2].
      assert (KR : 0 <= k <= 16) by (unfold dec_dicbit in DD; destruct (m =? 0), (m =? 4), (m =? 5), (m =? 6), (m =? 7), (m =? 10), (m =? 12); try discriminate; injection DD as <-; lia).
      pose proof (hinv_np k _ I1) as I3.
      apply decode_any in DE; auto; [|apply (hi_d _ I1)|apply (hi_pb _ I3)].
      destruct DE as [D1 [D2 _]]. constructor; cbn [g_huf g_hpos g_hflag g_prevs g_text].
      * eapply hinv_dframe; [exact I3|exact D1|exact D2].
      * destruct fm as [m0|]; [|exact I2]. rewrite (df_buf _ _ D2).
        replace (buf (set_np_pbit k (g_huf g))) with (buf (g_huf g)) by (unfold set_np_pbit; destruct (k =? 12), (k =? 13), (k =? 15), (k =? 16); reflexivity).
        exact I2.
Qed.

Lemma first_method_cons c cs : first_method (c :: cs) = match first_method [c] with Some m => Some m | None => first_method cs end.
Proof. destruct c; cbn [first_method]; [destruct (lz_method method)|]; reflexivity. Qed.

Lemma run_calls_inv : forall cs g g' fm, Forall call_ok cs -> ginv fm g -> run_calls cs g = Some g' ->
  ginv (match fm with Some m => Some m | None => first_method cs end) g'.
Proof.
  induction cs as [|c cs IH]; intros g g' fm F I R; cbn [run_calls] in R.
  - injection R as <-. cbn [first_method]. destruct fm; exact I.
  - inversion F as [|? ? F1 F2]; subst. destruct (run_call c g) as [g1|] eqn:RC; [|discriminate]. pose proof (run_call_inv _ _ _ _ F1 I RC) as I1.
    apply (IH _ _ _ F2 I1) in R. rewrite first_method_cons. destruct fm; [exact R|]. destruct (first_method [c]); exact R.
Qed.

Theorem after_inv cs g : after cs g -> ginv (first_method cs) g.
Proof. intros [F R]. exact (run_calls_inv cs glob0 g None F ginv_start R). Qed.

(** ** Compression of one input *)

(** The window buffer is large enough for method [m]. *)
Definition room (cs : list call) (m : Z) : Prop := forall m0, first_method cs = Some m0 -> m <= m0.

Definition mpar (m : Z) : Z * Z * Z := if m =? 5 then (13, 14, 4) else if m =? 6 then (15, 16, 5) else (16, 17, 5).

Lemma window_mono m m0 : m = 5 \/ m = 6 \/ m = 7 -> m <= m0 -> lz_method m0 = true -> window m <= window m0.
Proof.
  intros Hm L E. unfold lz_method in E. assert (m0 = 5 \/ m0 = 6 \/ m0 = 7).
  { destruct (Z.eqb_spec m0 1), (Z.eqb_spec m0 5), (Z.eqb_spec m0 6), (Z.eqb_spec m0 7); cbn [orb] in E; try discriminate; lia. }
  destruct Hm as [-> | [-> | ->]], H as [-> | [-> | ->]]; try lia; apply Z.leb_le; reflexivity.
Qed.

Theorem encode_after cs g m size body : after cs g -> room cs m -> m = 5 \/ m = 6 \/ m = 7 -> 0 <= size -> bytes body -> body <> [] ->
  Z.testbit (hd 0 body) 5 = false ->
  let '(k, n, pb) := mpar m in
  exists er toks w, encode k 256 size body (encodeAlloc (2 * Z.shiftl 1 k + 256) g) = Ok er /\ enc_post k n pb 256 size body er toks w.
Proof.
  intros A R Hm Hs HB Hne H5. pose proof (after_inv _ _ A) as I.
  assert (PM : exists k n pb, mpar m = (k, n, pb) /\ method_params m = Some (k, 256) /\ 13 <= k <= 16 /\ npok n pb /\ k < n /\ 12 < n /\
     forall h, np (set_np_pbit k h) = n /\ pbit (set_np_pbit k h) = pb).
  { destruct Hm as [-> | [-> | ->]]; eexists _, _, _; (split; [reflexivity|]); (split; [reflexivity|]); (split; [lia|]); (split; [unfold npok; lia|]); (split; [lia|]); (split; [lia|]); intros h; split; reflexivity. }
  destruct PM as [k [n [pb [E1 [E2 [E3 [E4 [E5 [E6 E7]]]]]]]]]. rewrite E1.
  pose proof (alloc_inv _ _ _ _ _ E2 I) as J. set (g1 := encodeAlloc (2 * Z.shiftl 1 k + 256) g) in *.
  assert (G : gok (2 * 2 ^ k + 256) g1).
  { destruct J as [[[[] JB1 JB2] ? ? ? ? ? JB3 ?] J2].
    assert (W : 2 * 2 ^ k + 256 + 1 <= alen (g_text g1) /\ alen (buf (g_huf g1)) = 65535 /\ alen (g_hpos g1) = hshsiz /\ alen (g_hflag g1) = hshsiz /\ alen (g_prevs g1) = maxDicsiz).
    { destruct (first_method cs) as [m0|] eqn:FM.
      - destruct J2 as [K0 [K1 [K2 [K3 [K4 K5]]]]]. split; [|auto]. rewrite K5. pose proof (window_mono m m0 Hm (R m0 FM) K0) as WM.
        unfold window at 1 in WM. rewrite E2 in WM. lia.
      - destruct J2 as [K0 [K1 [K2 [K3 [K4 K5]]]]]. split; [|auto]. rewrite K5. unfold window. rewrite E2. lia. }
    destruct W as [W1 [W2 [W3 [W4 W5]]]]. constructor; auto.
    - constructor; auto.
    - split; [intros i Hi; apply JB3; lia|]. intros i t X. destruct (Z.to_nat i); discriminate X. }
  destruct (encode_ok k 256 n pb size body g1) as [er [toks [w [X1 [X2 [X3 [X4 X5]]]]]]]; auto; try lia; try apply E7.
  exists er, toks, w. split; [exact X1|exact X5].
Qed.

(** Decoding what was packed, in any process. *)
Theorem decode_after cs g k n pb size body er toks w rest broken : after cs g -> enc_post k n pb 256 size body er toks w ->
  13 <= k <= 16 -> npok n pb -> 0 <= size -> bytes rest -> (forall h, np (set_np_pbit k h) = n /\ pbit (set_np_pbit k h) = pb) ->
  er_unpackable er = false -> 2 ^ k < 65536 \/ zlen body < 65536 -> broken = false ->
  exists h, decode k broken (zlen body) (er_packed er) (er_out er ++ rest) (g_huf g) = Ok (DR h (calcCrc 0 body) body (er_packed er) rest).
Proof.
  intros A [P1 P2 P3 P4 P5 P6 P7 P8 P8b P8c P9] Hk NP Hs HR HN U Hsz ->. destruct (P9 U) as [X1 [X2 [X3 [bits [X4 X5]]]]].
  pose proof (after_inv _ _ A) as [[[D _ _] _ _ _ _ _ _ _] _].
  rewrite P3 in U. set (h0 := decodeStartSt1 k (g_huf g)).
  assert (D0 : dsz h0).
  { unfold h0, decodeStartSt1, set_np_pbit. destruct D. destruct (k =? 12), (k =? 13), (k =? 15), (k =? 16); constructor; auto. }
  destruct (stream_decode k n pb size w toks bits rest h0 NP) as [r [h' [r' [S1 [S2 [S3 [S4 S5]]]]]]]; auto; try lia.
  { apply HN. } { apply HN. }
  exists h'. rewrite P1, P2.
  rewrite (decode_run k (zlen body) (wcompsize w) (rev (wout w) ++ rest) (g_huf g) r toks h' r'); auto; try lia.
  - rewrite X1, S4, S5. do 2 f_equal. lia.
  - intros t Ht. eapply etok_ok; [|eapply Forall_forall; [exact P7|exact Ht]]. lia.
  - now rewrite X1.
Qed.

(** ** When compression panics *)

Lemma fill_panic v : forall n lo a, 0 <= lo <= alen a -> alen a < lo + Z.of_nat n -> for_up n lo (fun i t => aset t i v) a = Panic.
Proof.
  induction n; intros lo a H1 H2; [lia|]. cbn [for_up]. destruct (Z.eq_dec lo (alen a)) as [E|E].
  - rewrite aset_panic by lia. reflexivity.
  - rewrite aset_ok by lia. cbn [bind]. apply IHn; rewrite alen_upd; lia.
Qed.

(** What encode sees after encodeAlloc. *)
Lemma alloc_parts cs g m k : after cs g -> method_params m = Some (k, 256) -> 
  let g1 := encodeAlloc (2 * Z.shiftl 1 k + 256) g in
  hsz (g_huf g1) /\ lay (buf (g_huf g1)) [] /\ alen (g_hpos g1) = hshsiz /\ alen (g_hflag g1) = hshsiz /\ alen (g_prevs g1) = maxDicsiz /\
  alen (g_text g1) = window (match first_method cs with Some m0 => m0 | None => m end).
Proof.
  intros A PM g1. pose proof (alloc_inv _ _ _ _ _ PM (after_inv _ _ A)) as J. fold g1 in J.
  destruct J as [[[[] JB1 JB2] ? ? ? ? ? JB3 ?] J2].
  assert (J3 : alen (buf (g_huf g1)) = 65535 /\ alen (g_hpos g1) = hshsiz /\ alen (g_hflag g1) = hshsiz /\ alen (g_prevs g1) = maxDicsiz /\
     alen (g_text g1) = window (match first_method cs with Some m0 => m0 | None => m end)).
  { destruct (first_method cs); destruct J2 as [_ [K1 [K2 [K3 [K4 K5]]]]]; auto. }
  destruct J3 as [W2 [W3 [W4 [W5 W6]]]]. split; [constructor; auto|]. split; [|auto].
  split; [intros i Hi; apply JB3; lia|]. intros i t X. destruct (Z.to_nat i); discriminate X.
Qed.

(** Up to the first read, encode behaves the same for every input. *)
Lemma encode_head k mx size body g : 8 <= k <= 16 -> 4 <= mx <= 256 -> hsz (g_huf g) -> lay (buf (g_huf g)) [] ->
  alen (g_hpos g) = hshsiz -> alen (g_hflag g) = hshsiz -> alen (g_prevs g) = maxDicsiz ->
  (alen (g_text g) < 2 * 2 ^ k + mx + 1 -> encode k mx size body g = Panic) /\
  (2 * 2 ^ k + mx + 1 <= alen (g_text g) -> body <> [] -> bytes body -> Z.testbit (hd 0 body) 5 = true -> encode k mx size body g = Panic).
Proof.
  intros Hk Hmx G1 G2 G3 G4 G5. unfold encode. rewrite Z.shiftl_1_l. cbv zeta. cbn [p_dicsiz p_txtsiz p_maxmatch].
  set (d := 2 ^ k). set (P := PRM d (2 * d + mx) mx).
  assert (PK : pok k P) by (constructor; unfold P, d; cbn [p_dicsiz p_txtsiz p_maxmatch]; lia).
  destruct (pok_bounds _ _ PK) as [B1 _]. fold d in B1.
  destruct (forZ_inv (fun i '(hp, hf) => alen hp = hshsiz /\ alen hf = hshsiz)
    (fun i '(hp, hf) => hp <- aset hp i 0 ;; hf <- aset hf i 0 ;; Ok (hp, hf)) 0 hshsiz (g_hpos g, g_hflag g)) as [[hp hf] [E1 [A1 A2]]].
  { unfold hshsiz; lia. }
  { intros i [hp hf] Hi [X1 X2]. rewrite aset_ok by lia. cbn [bind]. rewrite aset_ok by lia. cbn [bind].
    eexists. split; [reflexivity|]. cbn beta iota. rewrite !alen_upd. auto. }
  { auto. }
  rewrite E1. cbn [bind].
  assert (SS : forall h, left (set_np_pbit k h) = left h /\ cFreq (set_np_pbit k h) = cFreq h /\ pFreq (set_np_pbit k h) = pFreq h /\ buf (set_np_pbit k h) = buf h).
  { intros h. unfold set_np_pbit. destruct (k =? 12), (k =? 13), (k =? 15), (k =? 16); auto. }
  assert (E2 : exists h0, encodeStartSt1 k (g_huf g) = Ok h0).
  { unfold encodeStartSt1. cbv zeta. destruct (SS (g_huf g)) as [_ [S2 [S3 S4]]]. rewrite S2, S3, S4. destruct G1.
    destruct (fill_ok 0 Nc 0 (cFreq (g_huf g))) as [cf [Ec _]]; [unfold Nc; lia|unfold Nc; lia|]. rewrite Ec. cbn [bind].
    destruct (fill_ok 0 Np 0 (pFreq (g_huf g))) as [pf [Ep _]]; [unfold Np; lia|unfold Np; lia|]. rewrite Ep. cbn [bind].
    rewrite aset_ok by lia. cbn [bind]. eauto. }
  destruct E2 as [h0 E2]. rewrite E2. cbn [bind]. split.
  - intros L. unfold forZ. destruct (Z_lt_ge_dec (alen (g_text g)) 0) as [N|N].
    + destruct (Z.to_nat (2 * d + mx + 1 - 0)) eqn:EN; [lia|]. cbn [for_up]. rewrite aset_panic by lia. reflexivity.
    + rewrite fill_panic; [reflexivity|lia|lia].
  - intros L Hne HB H5.
    destruct (fill_ok 0 (2 * d + mx + 1) 32 (g_text g)) as [t0 [E3 [A4 A5]]]; [lia|lia|]. rewrite E3. cbn [bind].
    destruct body as [|b0 body'] eqn:EB; [congruence|]. rewrite <- EB in *.
    assert (HBn : 1 <= zlen body) by (rewrite EB, zlen_cons; pose proof (zlen_nonneg body'); lia).
    unfold freadCrc. set (rd := take (2 * d + mx - d) body).
    assert (ZR : zlen rd = Z.min (d + mx) (zlen body)) by (unfold rd; rewrite zlen_take_min by lia; lia).
    destruct (blit_ok rd t0 d) as [t1 [E4 [A6 A7]]]; [lia|lia|]. rewrite E4. cbn [bind].
    assert (HBy : forall i, 0 <= i < 2 * d + mx + 1 -> is_byte (at_ t1 i)).
    { intros i Hi. rewrite A7 by lia. destruct ((d <=? i) && (i <? d + zlen rd)) eqn:C.
      - apply andb_prop in C. destruct C as [C1 C2']. apply Z.leb_le in C1. apply Z.ltb_lt in C2'. unfold rd. rewrite nth_take by lia.
        pose proof (vin_byte body (i - d) HB) as V. unfold vin in V. destruct (Z.ltb_spec (i - d) 0); [lia|exact V].
      - rewrite A5 by lia. replace ((0 <=? i) && (i <? 2 * d + mx + 1)) with true; [unfold is_byte; lia|].
        symmetry. apply andb_true_intro. split; [apply Z.leb_le|apply Z.ltb_lt]; lia. }
    assert (HH : at_ t1 d = hd 0 body).
    { rewrite A7 by lia. destruct (Z.leb_spec d d); [|lia]. destruct (Z.ltb_spec d (d + zlen rd)); [|lia]. cbn [andb].
      unfold rd. rewrite nth_take by lia. replace (d - d) with 0 by lia. rewrite EB. reflexivity. }
    destruct (initHash_range t1 d _ _ _ ltac:(lia) ltac:(lia) eq_refl eq_refl eq_refl (HBy d ltac:(lia)) (HBy (d + 1) ltac:(lia)) (HBy (d + 2) ltac:(lia)))
      as [tk [E5 [_ T5]]].
    rewrite E5. cbn [bind]. rewrite HH in T5. specialize (T5 H5). unfold insertHash. cbn [s_hpos]. rewrite aget_panic by lia. reflexivity.
Qed.

Theorem EncodeLzhuf_panic_first_byte cs g m size body : after cs g -> room cs m -> m = 5 \/ m = 6 \/ m = 7 -> bytes body -> body <> [] ->
  Z.testbit (hd 0 body) 5 = true -> EncodeLzhuf m size body g = Panic.
Proof.
  intros A R Hm HB Hne H5.
  assert (PM : exists k, (0 <? m) = true /\ method_params m = Some (k, 256) /\ 13 <= k <= 16) by (destruct Hm as [-> | [-> | ->]]; eexists; (split; [reflexivity|]); (split; [reflexivity|lia])).
  destruct PM as [k [E0 [PM Hk]]]. destruct (alloc_parts cs g m k A PM) as [W1 [W2 [W3 [W4 [W5 W6]]]]].
  unfold EncodeLzhuf. rewrite E0, PM. cbv zeta.
  destruct (encode_head k 256 size body (encodeAlloc (2 * Z.shiftl 1 k + 256) g)) as [_ X]; auto; try lia.
  rewrite X; auto. rewrite W6.
  destruct (first_method cs) as [m0|] eqn:FM.
  - pose proof (gi_alloc _ _ (after_inv _ _ A)) as GA. rewrite FM in GA. destruct GA as [GA _].
    pose proof (window_mono m m0 Hm (R m0 FM) GA) as WM. unfold window at 1 in WM. rewrite PM in WM. lia.
  - unfold window. rewrite PM. lia.
Qed.

Theorem EncodeLzhuf_panic_window cs g m m0 size body : after cs g -> first_method cs = Some m0 -> m = 5 \/ m = 6 \/ m = 7 -> m0 < m ->
  EncodeLzhuf m size body g = Panic.
Proof.
  intros A FM Hm L.
  assert (PM : exists k, (0 <? m) = true /\ method_params m = Some (k, 256) /\ 13 <= k <= 16) by (destruct Hm as [-> | [-> | ->]]; eexists; (split; [reflexivity|]); (split; [reflexivity|lia])).
  destruct PM as [k [E0 [PM Hk]]]. destruct (alloc_parts cs g m k A PM) as [W1 [W2 [W3 [W4 [W5 W6]]]]].
  unfold EncodeLzhuf. rewrite E0, PM. cbv zeta.
  destruct (encode_head k 256 size body (encodeAlloc (2 * Z.shiftl 1 k + 256) g)) as [X _]; auto; try lia.
  rewrite X; auto. rewrite W6, FM. pose proof (gi_alloc _ _ (after_inv _ _ A)) as GA. rewrite FM in GA. destruct GA as [GA _].
  assert (window m0 < window m).
  { unfold lz_method in GA. assert (m0 = 1 \/ m0 = 5 \/ m0 = 6 \/ m0 = 7).
    { destruct (Z.eqb_spec m0 1), (Z.eqb_spec m0 5), (Z.eqb_spec m0 6), (Z.eqb_spec m0 7); cbn [orb] in GA; try discriminate; lia. }
    destruct Hm as [-> | [-> | ->]], H as [-> | [-> | [-> | ->]]]; try lia; apply Z.ltb_lt; reflexivity. }
  unfold window at 2 in H. rewrite PM in H. lia.
Qed.

(** A non-empty input makes the encoder count at least one byte. *)
Lemma encode_progress k mx size body g er : 0 <= k -> 0 <= mx -> encode k mx size body g = Ok er -> body <> [] -> 1 <= er_original er.
Proof.
  intros Hk Hmx H Hne. unfold encode in H. cbv zeta in H. rewrite Z.shiftl_1_l in H. cbn [p_dicsiz p_txtsiz p_maxmatch] in H.
  assert (0 < 2 ^ k) by (apply Z.pow_pos_nonneg; lia).
  apply bind_ok in H. destruct H as [[hp hf] [_ H]]. apply bind_ok in H. destruct H as [h [_ H]].
  apply bind_ok in H. destruct H as [t [_ H]]. destruct body as [|b0 body]; [congruence|].
  apply bind_ok in H. destruct H as [[[[t2 crc] v] inp] [E2 H]]. apply bind_ok in H. destruct H as [tk [_ H]]. apply bind_ok in H. destruct H as [s [E3 H]].
  unfold freadCrc in E2. cbv zeta in E2. apply bind_ok in E2. destruct E2 as [t3 [_ E2]]. injection E2 as _ _ E2 _.
  assert (V : 1 <= v).
  { rewrite <- E2. rewrite zlen_take_min by lia. rewrite zlen_cons. pose proof (zlen_nonneg body). lia. }
  assert (SR : s_rem s = v) by (unfold insertHash in E3; inv; reflexivity).
  apply bind_ok in H. destruct H as [e [E6 H]]. apply bind_ok in H. destruct H as [[h2 w2] [_ H]]. injection H as <-. cbn [er_original].
  match type of E6 with loop _ _ ?e0 = _ => apply (loop_partial (fun e => (0 < s_rem (e_sl e) /\ unpackable (e_w e) = false /\ e_count e = 0) \/ 1 <= e_count e) (fun e => 1 <= e_count e)) in E6 end.
  - exact E6.
  - intros e1 c K X. unfold encode_step in X. cbv zeta in X. match type of X with (if ?b then _ else _) = _ => destruct b eqn:B end.
    + assert (C0 : 0 <= e_count e1) by lia.
      apply bind_ok in X. destruct X as [[[t4 p4] s4] [_ X]]. apply bind_ok in X. destruct X as [[m4 s5] [_ X]]. apply bind_ok in X. destruct X as [s6 [_ X]].
      match type of X with (if ?b then _ else _) = _ => destruct b eqn:B2 end.
      * apply bind_ok in X. destruct X as [ch [_ X]]. apply bind_ok in X. destruct X as [[h3 w3] [_ X]]. injection X as <-. cbn [e_count]. lia.
      * apply orb_false_elim in B2. destruct B2 as [_ B2]. apply Z.ltb_ge in B2. unfold threshold in B2.
        apply bind_ok in X. destruct X as [[h3 w3] [_ X]].
        apply bind_ok in X. destruct X as [[[t6 p6] s7] [_ X]]. apply bind_ok in X. destruct X as [[[t7 p7] s8] [_ X]]. apply bind_ok in X. destruct X as [[m8 s9] [_ X]].
        apply bind_ok in X. destruct X as [s10 [_ X]]. injection X as <-. cbn [e_count]. lia.
    + injection X as <-. destruct K as [[K1 [K2 K3]]|K]; [|exact K]. exfalso. rewrite K2 in B. cbn [negb] in B. rewrite andb_true_r in B. apply Z.ltb_ge in B. lia.
  - left. cbn [e_sl e_w e_count]. split; [lia|]. split; reflexivity.
Qed.
