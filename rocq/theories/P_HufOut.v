(** Adding one token to the encoder's buffer. *)
From Verif Require Import Go GoLemmas S_Bits P_Bits S_Huff M_Bitio P_Bitio P_Huff
  M_Maketree M_Maketbl P_Maketree P_Maketbl M_Huf P_HufCode P_HufTables P_HufLens P_HufBlock P_HufSend P_HufEnc.

Lemma plen_firstn_mono (a b : nat) l : (a <= b)%nat -> plen (firstn a l) <= plen (firstn b l).
Proof.
  intros H. replace (firstn a l) with (firstn a (firstn b l)); [apply plen_firstn|].
  rewrite firstn_firstn. f_equal. lia.
Qed.

Lemma plen_firstn_S (l : list tok) i : 0 <= i < zlen l ->
  plen (firstn (Z.to_nat i) l) + (if i mod 8 =? 0 then 1 else 0) + 1 <= plen (firstn (Z.to_nat (i + 1)) l).
Proof.
  intros H. destruct (nth_error_ex l i H) as [t E]. replace (Z.to_nat (i + 1)) with (S (Z.to_nat i)) by lia.
  rewrite (firstn_snoc l _ t E), plen_snoc, zlen_firstn by lia. destruct t; cbn [tsz]; lia.
Qed.

(** The flag byte of a later or the same group is not a token byte. *)
Lemma fpos_tpos l i t k : 0 <= i -> nth_error l (Z.to_nat i) = Some t -> i < k <= zlen l ->
  fpos l k + 1 <= tpos l i \/ tpos l i + tsz t <= fpos l k.
Proof.
  intros Hi E Hk. set (g := 8 * (k / 8)). pose proof (Z.div_mod k 8 ltac:(lia)) as DM. pose proof (Z.mod_pos_bound k 8 ltac:(lia)) as MB.
  unfold fpos. fold g. assert (Hg : 0 <= g <= k) by lia.
  destruct (Z_lt_ge_dec i g) as [L|G].
  - right. pose proof (plen_firstn_mono (S (Z.to_nat i)) (Z.to_nat g) l ltac:(lia)) as P.
    rewrite (firstn_snoc l _ t E), plen_snoc, zlen_firstn in P by lia. unfold tpos. lia.
  - left. unfold tpos. destruct (Z.eq_dec i g) as [->|Ne].
    + replace (g mod 8) with 0; [change (0 =? 0) with true; cbv iota; lia|]. unfold g. rewrite Z.mul_comm, Z.mod_mul; lia.
    + pose proof (plen_firstn_S l g ltac:(lia)). pose proof (plen_firstn_mono (Z.to_nat (g + 1)) (Z.to_nat i) l ltac:(lia)).
      destruct (i mod 8 =? 0), (g mod 8 =? 0); lia.
Qed.

Lemma fpos_le_tpos l i : 0 <= i < zlen l -> fpos l i + 1 <= tpos l i.
Proof.
  intros Hi. unfold fpos, tpos. pose proof (Z.div_mod i 8 ltac:(lia)) as DM. pose proof (Z.mod_pos_bound i 8 ltac:(lia)) as MB.
  set (g := 8 * (i / 8)) in *. destruct (Z.eqb_spec (i mod 8) 0) as [Z0|NZ].
  - replace g with i by lia. lia.
  - pose proof (plen_firstn_S l g ltac:(lia)). pose proof (plen_firstn_mono (Z.to_nat (g + 1)) (Z.to_nat i) l ltac:(lia)).
    destruct (g mod 8 =? 0); lia.
Qed.

Lemma firstn_app_le {A} k (l m : list A) : (k <= length l)%nat -> firstn k (l ++ m) = firstn k l.
Proof. intros H. rewrite firstn_app. replace (k - length l)%nat with 0%nat by lia. cbn [firstn]. apply app_nil_r. Qed.

Lemma fpos_app l m i : 0 <= i <= zlen l -> fpos (l ++ m) i = fpos l i.
Proof.
  intros H. unfold fpos. rewrite firstn_app_le; auto. unfold zlen in H. pose proof (Z.div_mod i 8 ltac:(lia)). pose proof (Z.mod_pos_bound i 8 ltac:(lia)). lia.
Qed.

Lemma tpos_app l m i : 0 <= i <= zlen l -> tpos (l ++ m) i = tpos l i.
Proof. intros H. unfold tpos. rewrite firstn_app_le; auto. unfold zlen in H. lia. Qed.

Lemma fpos_div l i j : i / 8 = j / 8 -> fpos l i = fpos l j.
Proof. intros H. unfold fpos. now rewrite H. Qed.

Lemma fpos_group_lt l i k : 0 <= i -> i < zlen l -> i / 8 < k / 8 -> k <= zlen l -> fpos l i < fpos l k.
Proof.
  intros H0 H1 H2 H3. pose proof (fpos_le_tpos l i ltac:(lia)). destruct (nth_error_ex l i ltac:(lia)) as [t E].
  assert (i < k) by (pose proof (Z.div_le_mono k i 8); lia).
  pose proof (tpos_bound l i t H0 E). unfold fpos at 2.
  pose proof (Z.div_mod i 8 ltac:(lia)). pose proof (Z.mod_pos_bound i 8 ltac:(lia)). pose proof (Z.div_mod k 8 ltac:(lia)). pose proof (Z.mod_pos_bound k 8 ltac:(lia)).
  pose proof (plen_firstn_mono (S (Z.to_nat i)) (Z.to_nat (8 * (k / 8))) l ltac:(lia)) as P.
  rewrite (firstn_snoc l _ t E), plen_snoc, zlen_firstn in P by lia. unfold tpos in *. destruct t; cbn [tsz] in *; lia.
Qed.

(** ** Encoder state between tokens *)

Definition lastbit (l : list tok) : Z := 7 - (zlen l - 1) mod 8.

Record hcur (dicbit n pb : Z) (h : huf) (l : list tok) : Prop := {
  hq_enc : henc dicbit n pb h l;
  hq_pos : outputPos h = plen l;
  hq_nil : l = [] -> outputMask h = 0;
  hq_mask : l <> [] -> outputMask h = 2 ^ lastbit l /\ cpos h = fpos l (zlen l - 1) /\
     plen l <= 65504 + 3 * ((zlen l - 1) mod 8 + 1) /\
     (forall e, 0 <= e < lastbit l -> Z.testbit (at_ (buf h) (cpos h)) e = false) }.

(** huf.go:252-265, the second half of outputSt1 *)
Definition out_tail (c p : Z) (h : huf) (w : wst) : res (huf * wst) :=
      b <- aset (buf h) (outputPos h) (u8 c) ;;
      f <- incr (cFreq h) c 1 ;;
      let h := set_buf b (set_cFreq f (set_outputPos (u16 (outputPos h + 1)) h)) in
      if 256 <=? c then
        v <- aget (buf h) (cpos h) ;;
        b <- aset (buf h) (cpos h) (Z.lor v (u8 (outputMask h))) ;;
        let q := outputPos h in
        b <- aset b q (u8 (Z.shiftr p 8)) ;;
        b <- aset b (u16 (q + 1)) (u8 p) ;;
        k <- nbits p ;;
        f <- incr (pFreq h) k 1 ;;
        Ok (set_buf b (set_pFreq f (set_outputPos (u16 (q + 2)) h)), w)
      else Ok (h, w).

Definition tokc (t : tok) : Z := match t with Lit b => b | Mat c _ => c end.
Definition tokp (t : tok) : Z := match t with Lit b => 0 | Mat _ p => p end.

Lemma lor_byte v m : 0 <= v < 256 -> 0 <= m <= 7 -> 0 <= Z.lor v (2 ^ m) < 256.
Proof.
  intros Hv Hm. assert (0 <= Z.lor v (2 ^ m)). { apply Z.lor_nonneg. split; [lia|]. apply Z.pow_nonneg. lia. }
  split; auto. destruct (Z.eq_dec (Z.lor v (2 ^ m)) 0); [lia|].
  change 256 with (2 ^ 8). apply Z.log2_lt_pow2; [lia|]. rewrite Z.log2_lor by (try lia; apply Z.pow_nonneg; lia).
  rewrite Z.log2_pow2 by lia. apply Z.max_lub_lt; [|lia].
  destruct (Z.eq_dec v 0); [subst v; cbn; lia|]. apply Z.log2_lt_pow2; change (2 ^ 8) with 256; lia.
Qed.

Lemma place_ok dicbit n pb h l t w : 0 <= dicbit <= 16 -> dicbit < n <= 17 -> henc dicbit n pb h l -> tok_ok dicbit t ->
  outputPos h = tpos l (zlen l) -> outputMask h = 2 ^ (7 - zlen l mod 8) -> cpos h = fpos l (zlen l) ->
  tpos l (zlen l) + tsz t <= 65504 + 3 * (zlen l mod 8 + 1) ->
  (forall e, 0 <= e <= 7 - zlen l mod 8 -> Z.testbit (at_ (buf h) (cpos h)) e = false) ->
  exists h', out_tail (tokc t) (tokp t) h w = Ok (h', w) /\ hcur dicbit n pb h' (l ++ [t]).
Proof.
  intros Hd Hdn H Ot EP EM EC HB HF.
  pose proof (he_sz _ _ _ _ _ H) as HZ. pose proof (hz_buf _ HZ) as BZ. pose proof (zlen_nonneg l) as ZN.
  set (k := zlen l) in *. set (q := tpos l k) in *. set (fp := fpos l k) in *.
  assert (M8 : 0 <= k mod 8 < 8) by (apply Z.mod_pos_bound; lia).
  assert (QP : q = plen l + (if k mod 8 =? 0 then 1 else 0)).
  { unfold q, tpos. f_equal. f_equal. unfold k, zlen. rewrite Nat2Z.id. now rewrite firstn_all. }
  assert (QL : plen l <= q <= plen l + 1) by (rewrite QP; destruct (k mod 8 =? 0); lia).
  assert (FQ : 0 <= fp < q).
  { unfold fp, fpos. split; [apply plen_nonneg|]. rewrite QP.
    pose proof (Z.div_mod k 8 ltac:(lia)) as DM.
    destruct (Z.eqb_spec (k mod 8) 0).
    - pose proof (plen_firstn (Z.to_nat (8 * (k / 8))) l). lia.
    - pose proof (plen_firstn_S l (8 * (k / 8)) ltac:(unfold k in *; lia)).
      pose proof (plen_firstn (Z.to_nat (8 * (k / 8) + 1)) l). destruct ((8 * (k / 8)) mod 8 =? 0); lia. }
  assert (QB : 0 <= q /\ q + tsz t <= 65528) by lia.
  assert (ZS : zlen (l ++ [t]) = k + 1) by (rewrite zlen_app; reflexivity).
  assert (PS : plen (l ++ [t]) = q + tsz t) by (rewrite plen_snoc; fold k; lia).
  pose proof (plen_zlen l) as PZ. fold k in PZ. pose proof (he_plen _ _ _ _ _ H) as PB.
  destruct (he_lay _ _ _ _ _ H) as [LB LL].
  assert (OKS : Forall (tok_ok dicbit) (l ++ [t])) by (apply Forall_app; split; [exact (he_ok _ _ _ _ _ H)|auto]).
  assert (TC : 0 <= tokc t < Nc) by (destruct t; cbn [tokc tok_ok] in *; unfold Nc in *; lia).
  assert (CF : at_ (cFreq h) (tokc t) <= k).
  { rewrite (he_cf _ _ _ _ _ H) by lia. pose proof (countZ_le (map csym l) (tokc t)). rewrite zlen_map in *. unfold k. lia. }
  assert (CF0 : 0 <= at_ (cFreq h) (tokc t)) by (rewrite (he_cf _ _ _ _ _ H) by lia; apply countZ_nonneg).
  set (cf := upd (cFreq h) (tokc t) (at_ (cFreq h) (tokc t) + 1)).
  assert (CFS : forall c, 0 <= c < Nc -> at_ cf c = countZ (map csym (l ++ [t])) c).
  { intros c Hc. unfold cf. rewrite at_upd by (rewrite ?(hz_cf _ HZ); unfold Nc in *; lia). rewrite map_app, countZ_app. cbn [map]. rewrite countZ_one.
    replace (csym t) with (tokc t) by (destruct t; reflexivity).
    destruct (Z.eqb_spec c (tokc t)) as [->|]; rewrite (he_cf _ _ _ _ _ H) by lia; lia. }
  (* what the buffer must satisfy *)
  assert (LAY : forall b, (forall i, 0 <= i < alen b -> 0 <= at_ b i < 256) ->
     (forall i, 0 <= i -> i < q -> i <> fp -> at_ b i = at_ (buf h) i) ->
     (forall e, 0 <= e <= 7 -> Z.testbit (at_ b fp) e = if e =? 7 - k mod 8 then is_mat t else Z.testbit (at_ (buf h) fp) e) ->
     tok_at b q t -> lay b (l ++ [t])).
  { intros b B1 B2 B3 B4. split; auto. intros i t0 E0 H0.
    assert (X : nth_error (l ++ [t]) (Z.to_nat i) <> None) by congruence. apply nth_error_Some in X.
    rewrite app_length in X. cbn [length] in X.
    destruct (Z.eq_dec i k) as [->|Ne].
    - rewrite nth_error_app2 in E0 by (unfold k, zlen; lia). replace (Z.to_nat k - length l)%nat with 0%nat in E0 by (unfold k, zlen; lia).
      injection E0 as <-. rewrite fpos_app, tpos_app by lia. fold fp q. split; auto.
      rewrite B3 by lia. now rewrite Z.eqb_refl.
    - assert (Hi : i < k) by (unfold k, zlen in *; lia).
      rewrite nth_error_app1 in E0 by (unfold k, zlen in *; lia).
      rewrite fpos_app, tpos_app by lia. destruct (LL i t0 E0 H0) as [L1 L2].
      pose proof (tpos_bound l i t0 H0 E0) as TB. pose proof (fpos_tpos l i t0 k H0 E0 ltac:(lia)) as FT. fold fp in FT.
      assert (I8 : 0 <= i mod 8 < 8) by (apply Z.mod_pos_bound; lia).
      split.
      + destruct (Z.eq_dec (i / 8) (k / 8)) as [Eg|Ng].
        * rewrite (fpos_div l i k Eg) in *. fold fp in L1 |- *. rewrite B3 by lia.
          destruct (Z.eqb_spec (7 - i mod 8) (7 - k mod 8)); auto.
          exfalso. pose proof (Z.div_mod i 8 ltac:(lia)). pose proof (Z.div_mod k 8 ltac:(lia)). lia.
        * assert (i / 8 < k / 8) by (pose proof (Z.div_le_mono i k 8 ltac:(lia) ltac:(lia)); lia).
          pose proof (fpos_group_lt l i k H0 ltac:(lia) H1 ltac:(lia)) as FL. fold fp in FL.
          rewrite B2; [exact L1|apply plen_nonneg|lia|lia].
      + destruct t0 as [b0|c0 p0]; cbn [tok_at tsz] in *.
        * rewrite B2 by lia. exact L2.
        * rewrite !B2 by lia. exact L2. }
  (* state after the token *)
  assert (CUR : forall b pf, alen b = 65535 -> lay b (l ++ [t]) -> alen pf = 33 ->
     (forall c, 0 <= c < n -> at_ pf c = countZ (psyms (l ++ [t])) c) ->
     (forall e, 0 <= e < 7 - k mod 8 -> Z.testbit (at_ b fp) e = false) ->
     hcur dicbit n pb (set_buf b (set_pFreq pf (set_outputPos (q + tsz t) (set_cFreq cf h)))) (l ++ [t])).
  { intros b pf B1 B2 P1 P2 F1.
    assert (K8 : (zlen (l ++ [t]) - 1) = k) by lia.
    constructor.
    - constructor; auto.
      + destruct HZ. constructor; auto.
      + exact (he_np _ _ _ _ _ H).
      + exact (he_pb _ _ _ _ _ H).
      + lia.
    - cbn [outputPos set_buf set_pFreq set_outputPos]. lia.
    - intros X. destruct l; discriminate.
    - intros _. unfold lastbit. rewrite K8. cbn [outputMask cpos buf set_buf set_pFreq set_outputPos set_cFreq].
      rewrite EC. rewrite fpos_app by lia. fold fp. split; auto. split; auto. split; [lia|]. auto. }
  unfold out_tail. rewrite EP. fold q.
  assert (TS : 1 <= tsz t <= 3) by (destruct t; cbn; lia).
  rewrite aset_ok by lia. cbn [bind].
  rewrite incr_ok by (rewrite ?(hz_cf _ HZ); unfold Nc in TC; lia). cbn [bind]. fold cf. cbv zeta. rewrite (u16_id (q + 1)) by lia.
  destruct t as [b|c p]; cbn [tokc tokp tsz is_mat tok_at tok_ok] in *.
  - destruct (Z.leb_spec 256 b); [lia|]. rewrite (u8_id b) by lia.
    eexists. split; [reflexivity|].
    match goal with |- hcur _ _ _ ?a _ => replace a with (set_buf (upd (buf h) q b) (set_pFreq (pFreq h) (set_outputPos (q + 1) (set_cFreq cf h)))) by reflexivity end. apply CUR.
    + now rewrite alen_upd.
    + apply LAY.
      * intros i Hi. rewrite alen_upd in Hi. rewrite at_upd by lia. destruct (i =? q); [lia|]. apply LB. lia.
      * intros i Hi Hiq _. rewrite at_upd_ne by lia. reflexivity.
      * intros e He. rewrite at_upd_ne by lia. destruct (Z.eqb_spec e (7 - k mod 8)) as [->|]; auto. apply HF in He || (rewrite <- EC; apply HF; lia).
      * rewrite at_upd_eq by lia. reflexivity.
    + apply (hz_pf _ HZ).
    + intros c Hc. unfold psyms. rewrite flat_map_app. cbn [flat_map]. rewrite app_nil_r. apply (he_pf _ _ _ _ _ H). exact Hc.
    + intros e He. rewrite at_upd_ne by lia. rewrite <- EC. apply HF. lia.
  - destruct Ot as [Oc Op]. destruct (Z.leb_spec 256 c); [|lia].
    assert (PP : 0 <= p < 65536). { assert (2 ^ dicbit <= 2 ^ 16) by (apply Z.pow_le_mono_r; lia). change (2 ^ 16) with 65536 in *. lia. }
    cbn [buf cpos outputMask outputPos pFreq set_buf set_cFreq set_outputPos].
    assert (U8 : u8 c = c - 256).
    { unfold u8. unfold Nc in Oc. symmetry. apply (Z.mod_unique c 256 1 (c - 256)); lia. }
    rewrite U8. rewrite EC. rewrite aget_ok by (rewrite alen_upd; lia). cbn [bind]. rewrite at_upd_ne by lia.
    rewrite aset_ok by (rewrite alen_upd; lia). cbn [bind].
    rewrite EM. assert (P8 : 2 ^ (7 - k mod 8) <= 2 ^ 7) by (apply Z.pow_le_mono_r; lia). change (2 ^ 7) with 128 in P8.
    assert (P80 : 0 < 2 ^ (7 - k mod 8)) by (apply Z.pow_pos_nonneg; lia).
    rewrite (u8_id (2 ^ _)) by lia.
    rewrite aset_ok by (rewrite !alen_upd; lia). cbn [bind]. replace (q + 1 + 1) with (q + 2) by lia. rewrite (u16_id (q + 2)) by lia.
    rewrite aset_ok by (rewrite !alen_upd; lia). cbn [bind]. rewrite nbits_ok by lia. cbn [bind].
    pose proof (nb_range p dicbit Op ltac:(lia)) as NR.
    assert (PF : 0 <= at_ (pFreq h) (nb p) <= k).
    { rewrite (he_pf _ _ _ _ _ H) by lia. pose proof (countZ_nonneg (psyms l) (nb p)). pose proof (countZ_le (psyms l) (nb p)). pose proof (psyms_len l). unfold k. lia. }
    rewrite incr_ok by (rewrite ?(hz_pf _ HZ); lia). cbn [bind].
    rewrite shiftr_div by lia. change (2 ^ 8) with 256.
    assert (PD : 0 <= p / 256 < 256) by (split; [apply Z.div_pos; lia|apply Z.div_lt_upper_bound; lia]).
    rewrite (u8_id (p / 256)) by lia. change (u8 p) with (p mod 256). pose proof (Z.mod_pos_bound p 256 ltac:(lia)) as PM.
    replace (q + 1 + 2) with (q + 3) by lia. rewrite (u16_id (q + 3)) by lia.
    set (F := Z.lor _ _). set (b := upd (upd (upd (upd (buf h) q (c - 256)) fp F) (q + 1) (p / 256)) (q + 2) (p mod 256)).
    set (pf := upd (pFreq h) (nb p) (at_ (pFreq h) (nb p) + 1)).
    assert (FB : 0 <= at_ (buf h) fp < 256) by (apply LB; lia).
    assert (FF : 0 <= F < 256) by (apply lor_byte; lia).
    assert (AB : alen b = 65535) by (unfold b; rewrite !alen_upd; exact BZ).
    assert (VB : forall i, 0 <= i -> at_ b i = if i =? q + 2 then p mod 256 else if i =? q + 1 then p / 256 else if i =? fp then F else if i =? q then c - 256 else at_ (buf h) i).
    { intros i Hi. unfold b. rewrite !at_upd by (rewrite ?alen_upd; lia). reflexivity. }
    assert (VF : at_ b fp = F).
    { rewrite VB by lia. destruct (Z.eqb_spec fp (q + 2)); [lia|]. destruct (Z.eqb_spec fp (q + 1)); [lia|]. now rewrite Z.eqb_refl. }
    eexists. split; [reflexivity|].
    match goal with |- hcur _ _ _ ?a _ => replace a with (set_buf b (set_pFreq pf (set_outputPos (q + 3) (set_cFreq cf h)))) by reflexivity end. apply CUR.
    + exact AB.
    + apply LAY.
      * intros i Hi. rewrite VB by lia. unfold Nc in Oc.
        destruct (i =? q + 2); [lia|]. destruct (i =? q + 1); [lia|]. destruct (i =? fp); [lia|]. destruct (i =? q); [lia|]. apply LB. lia.
      * intros i Hi Hiq Hif. rewrite VB by lia.
        destruct (Z.eqb_spec i (q + 2)); [lia|]. destruct (Z.eqb_spec i (q + 1)); [lia|]. destruct (Z.eqb_spec i fp); [lia|]. destruct (Z.eqb_spec i q); [lia|]. reflexivity.
      * intros e He. rewrite VF. unfold F. rewrite Z.lor_spec. destruct (Z.eqb_spec e (7 - k mod 8)) as [->|Ne].
        -- rewrite Z.pow2_bits_true by lia. apply orb_true_r.
        -- rewrite Z.pow2_bits_false by lia. apply orb_false_r.
      * rewrite !VB by lia. rewrite !Z.eqb_refl.
        destruct (Z.eqb_spec q (q + 2)); [lia|]. destruct (Z.eqb_spec q (q + 1)); [lia|]. destruct (Z.eqb_spec q fp); [lia|].
        destruct (Z.eqb_spec (q + 1) (q + 2)); [lia|]. auto.
    + unfold pf. rewrite alen_upd. apply (hz_pf _ HZ).
    + intros c0 Hc0. unfold pf. pose proof (hz_pf _ HZ) as PFL.  rewrite at_upd by lia.
      unfold psyms. rewrite flat_map_app. cbn [flat_map app]. fold (psyms l). rewrite countZ_app, countZ_one.
      pose proof (he_pf _ _ _ _ _ H) as HPF. 
      destruct (Z.eqb_spec c0 (nb p)) as [->|]; rewrite HPF by lia; lia.
    + intros e He. rewrite VF. unfold F. rewrite Z.lor_spec, Z.pow2_bits_false, orb_false_r by lia. rewrite <- EC. apply HF. lia.
Qed.
