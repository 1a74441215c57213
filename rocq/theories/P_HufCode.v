(** Writing and reading one symbol of a Huffman code. *)
From Verif Require Import Go GoLemmas S_Bits P_Bits S_Huff M_Bitio P_Bitio P_Huff
  M_Maketree M_Maketbl P_Maketree P_Maketbl M_Huf.

(** [emits w w' b]: the writer went from [w] to [w'] by being given the bits [b]. *)
Record emits (w w' : wst) (b : list bool) : Prop := {
  em_wf : wwf w';
  em_rel : wrel w w';
  em_bits : forall l, Wr w l -> unpackable w' = false -> Wr w' (l ++ b);
  em_count : forall T, wcount w T -> wcount w' (T + Z.of_nat (length b)) }.

Lemma emits_nil w : wwf w -> emits w w [].
Proof.
  intros H. constructor; auto.
  - apply wrel_refl.
  - intros. now rewrite app_nil_r.
  - intros T. cbn. now rewrite Z.add_0_r.
Qed.

Lemma emits_app a b c x y : emits a b x -> emits b c y -> emits a c (x ++ y).
Proof.
  intros [A1 A2 A3 A4] [B1 B2 B3 B4]. constructor; auto.
  - eapply wrel_trans; eauto.
  - intros l W U. rewrite app_assoc. apply B3; auto. apply A3; auto.
    destruct (unpackable b) eqn:E; auto. destruct B2 as [_ [B2 _]]. rewrite B2 in U; auto.
  - intros T H. rewrite app_length, Nat2Z.inj_add, Z.add_assoc. auto.
Qed.

Lemma putbits_emits n x w : wwf w -> 0 <= n <= 16 ->
  exists w', putbits n x w = Ok w' /\ emits w w' (to_bits (Z.to_nat n) x).
Proof.
  intros W Hn. destruct (putbits_total n x w W ltac:(lia)) as [w' [E [W' R]]].
  exists w'. split; auto. constructor; auto.
  - intros l Hl U. exact (putbits_bits n x w l w' W Hl Hn E U).
  - intros T HT. rewrite to_bits_length, Z2Nat.id by lia. apply (putbits_count n x w w' T W ltac:(lia) HT E).
Qed.

(** A Huffman code as the encoder has it: symbols satisfying [U] may be sent. *)
Record hcode (n : Z) (len code : arr) (U : Z -> Prop) : Prop := {
  hc_n : 1 <= n <= 510;
  hc_len : n <= alen len;
  hc_code : n <= alen code;
  hc_ok : lengths_ok n (at_ len);
  hc_used : forall c, U c -> 0 <= c < n;
  hc_cases :
    (kraft n (at_ len) = 65536 /\
     forall c, U c -> at_ len c <> 0 /\ at_ code c = canon n (at_ len) c) \/
    ((forall c, 0 <= c < n -> at_ len c = 0) /\
     forall c d, U c -> U d -> c = d /\ at_ code c = 0) }.

Lemma putsym_emits n len code U c w : hcode n len code U -> U c -> wwf w ->
  exists w', putsym len code c w = Ok w' /\ emits w w' (codeword n (at_ len) c).
Proof.
  intros H Uc W. pose proof (hc_used _ _ _ _ H c Uc) as Hc. pose proof (hc_ok _ _ _ _ H c Hc) as HL.
  pose proof (hc_n _ _ _ _ H) as HN.
  unfold putsym. rewrite aget_ok by (pose proof (hc_len _ _ _ _ H); lia). cbn [bind].
  rewrite aget_ok by (pose proof (hc_code _ _ _ _ H); lia). cbn [bind].
  set (k := at_ len c) in *. set (x := at_ code c).
  destruct (putcode_total k x w W ltac:(lia)) as [w' [E [W' R]]].
  exists w'. split; auto.
  assert (C : clean k x /\ to_bits (Z.to_nat k) (x / 2 ^ (16 - k)) = codeword n (at_ len) c).
  { unfold codeword. fold k. destruct (hc_cases _ _ _ _ H) as [[K Hu]|[Z0 Hu]].
    - destruct (Hu c Uc) as [H1 H2]. fold k in H1. fold x in H2. split; [|now rewrite H2].
      split; [rewrite H2; apply canon_range; auto; try lia; apply (hc_ok _ _ _ _ H)|].
      rewrite H2. unfold k. rewrite <- (proj1 (weight_pos (at_ len c) ltac:(unfold k in *; lia))).
      apply canon_aligned; auto; try lia. apply (hc_ok _ _ _ _ H).
    - destruct (Hu c c Uc Uc) as [_ H2]. fold x in H2. specialize (Z0 c Hc). fold k in Z0. rewrite Z0, H2.
      split; [|reflexivity]. split; [lia|apply Z.divide_0_r]. }
  destruct C as [C1 C2]. rewrite <- C2. constructor; auto.
  - intros l Hl Un. exact (putcode_bits k x w l w' W Hl ltac:(lia) C1 E Un).
  - intros T HT. rewrite to_bits_length, Z2Nat.id by lia. exact (putcode_count k x w w' T W ltac:(lia) HT E).
Qed.

Lemma to_bits_fold n len c : codeword n len c = to_bits (Z.to_nat (len c)) (canon n len c / 2 ^ (16 - len c)).
Proof. reflexivity. Qed.

Lemma fillbuf_codeword n len c packed rest r B s : 0 <= len c <= 16 ->
  Rd packed rest r B (codeword n len c ++ s) ->
  exists r', fillbuf (len c) r = Ok r' /\ Rd packed rest r' (B + len c) s.
Proof. intros H R. unfold codeword in R. exact (fillbuf_field (len c) _ packed rest r B s R H). Qed.

(** ** Lookup in a decoding table *)

Lemma nth_to_bits n x k : (k < n)%nat -> nth k (to_bits n x) false = Z.testbit x (Z.of_nat n - 1 - Z.of_nat k).
Proof.
  revert k. induction n as [|n IH]; intros k H; [lia|].
  cbn [to_bits]. destruct k as [|k]; cbn [nth].
  - f_equal; lia.
  - rewrite IH by lia. f_equal; lia.
Qed.

Lemma bitbuf_bit packed rest r B s k : Rd packed rest r B s -> (k < 16)%nat ->
  Z.testbit (bitbuf r) (15 - Z.of_nat k) = nth k s false.
Proof.
  intros R Hk. rewrite <- (Rd_stream _ _ _ _ _ R k). unfold rbits.
  rewrite app_nth1 by (rewrite to_bits_length; lia). rewrite nth_to_bits by lia. f_equal; lia.
Qed.

Lemma land_pow2 x k : 0 <= k -> (Z.land x (2 ^ k) =? 0) = negb (Z.testbit x k).
Proof.
  intros Hk. destruct (Z.testbit x k) eqn:T; cbn [negb].
  - apply Z.eqb_neq. intros E. assert (X : Z.testbit (Z.land x (2 ^ k)) k = true).
    { rewrite Z.land_spec, T, Z.pow2_bits_true by lia. reflexivity. }
    rewrite E, Z.bits_0 in X. discriminate.
  - apply Z.eqb_eq. apply Z.bits_inj'. intros i Hi. rewrite Z.land_spec, Z.bits_0.
    destruct (Z.eq_dec i k) as [->|N]; [now rewrite T|]. rewrite Z.pow2_bits_false by lia. apply andb_false_r.
Qed.

Section Lookup.
Variables (n : Z) (len : Z -> Z) (tb : Z) (left0 right0 : arr) (s : tbl).
Hypothesis Hn : 1 <= n <= 510.
Hypothesis Htb : 1 <= tb <= 12.
Hypothesis Hlen : lengths_ok n len.
Hypothesis Hk : kraft n len = 65536.
Hypothesis Hs : tbl_spec n len tb left0 right0 s.
Hypothesis Hll : 2 * n - 1 <= alen left0.
Hypothesis Hrl : 2 * n - 1 <= alen right0.

Lemma index_short c t : 0 <= c < n -> 1 <= len c <= tb ->
  at_ (t_table s) (peek tb (codeword n len c ++ t)) = c.
Proof.
  intros Hc Hl.
  assert (P : peek tb (codeword n len c ++ t) = peek 16 (codeword n len c ++ t) / 2 ^ (16 - tb)).
  { unfold peek. set (x := codeword n len c ++ t).
    rewrite <- (firstn_skipn (Z.to_nat tb) (firstn (Z.to_nat 16) (x ++ repeat false (Z.to_nat 16)))).
    rewrite of_bits_app. rewrite skipn_length, peek_length.
    assert (E : firstn (Z.to_nat tb) (firstn (Z.to_nat 16) (x ++ repeat false (Z.to_nat 16))) =
                firstn (Z.to_nat tb) (x ++ repeat false (Z.to_nat tb))).
    { apply list_eq_nth.
      - rewrite !firstn_length, !app_length, !repeat_length. lia.
      - intros k Hk'. rewrite firstn_length in Hk'. rewrite !nth_firstn by lia. now rewrite !nth_app_zeros. }
    rewrite E. replace (Z.of_nat (Z.to_nat 16 - Z.to_nat tb)) with (16 - tb) by lia.
    symmetry. pose proof (of_bits_range (skipn (Z.to_nat tb) (firstn (Z.to_nat 16) (x ++ repeat false (Z.to_nat 16))))) as R.
    rewrite skipn_length, peek_length in R. replace (Z.of_nat (Z.to_nat 16 - Z.to_nat tb)) with (16 - tb) in R by lia.
    rewrite Z.add_comm, Z.div_add by (apply Z.pow_nonzero; lia). rewrite Z.div_small by lia. lia. }
  apply (tbs_short _ _ _ _ _ _ Hs); [split; auto; lia|]. rewrite P.
  pose proof (codeword_window n len Hlen c t Hc ltac:(lia) ltac:(lia)) as CW.
  apply (interval_div n len ltac:(lia) Hlen) in CW; auto; [|lia].
  destruct (short_div n len tb ltac:(lia) ltac:(lia) Hlen left0 Hll c ltac:(split; auto; lia)) as [D1 [D2 [D3 [D4 [D5 D6]]]]].
  change (m_ tb) with (16 - tb) in *. rewrite D3.
  assert (0 < 2 ^ (16 - tb)) by (apply Z.pow_pos_nonneg; lia).
  split.
  - apply Z.div_le_mono; lia.
  - apply Z.div_lt_upper_bound; [lia|]. nia.
Qed.

Lemma peek_long c t : 0 <= c < n -> tb < len c -> peek tb (codeword n len c ++ t) = pre n len tb c 0.
Proof.
  intros Hc Hl. pose proof (Hlen c Hc) as HL. unfold peek.
  assert (E : firstn (Z.to_nat tb) ((codeword n len c ++ t) ++ repeat false (Z.to_nat tb)) = firstn (Z.to_nat tb) (codeword n len c)).
  { rewrite <- app_assoc, firstn_app, codeword_length by auto.
    replace (Z.to_nat tb - Z.to_nat (len c))%nat with 0%nat by lia. cbn [firstn]. apply app_nil_r. }
  rewrite E. unfold codeword. rewrite firstn_to_bits by lia. rewrite to_bits_small.
  - unfold pre. rewrite Z.div_div by (try apply Z.pow_nonzero; try apply Z.pow_pos_nonneg; lia).
    f_equal. rewrite <- Z.pow_add_r by lia. f_equal; lia.
  - rewrite Z.div_div by (try apply Z.pow_nonzero; try apply Z.pow_pos_nonneg; lia).
    rewrite <- Z.pow_add_r by lia. replace (16 - len c + Z.of_nat (Z.to_nat (len c) - Z.to_nat tb)) with (16 - tb) by lia.
    rewrite Z2Nat.id by lia. apply div_range; [|lia]. apply canon_range; auto; lia.
Qed.

Lemma codeword_bit c e : 0 <= c < n -> tb + Z.of_nat (S e) <= len c ->
  nth (Z.to_nat tb + e) (codeword n len c) false = Z.odd (pre n len tb c (S e)).
Proof.
  intros Hc Hl. pose proof (Hlen c Hc) as HL. unfold codeword. rewrite nth_to_bits by lia.
  unfold pre. rewrite <- Z.bit0_odd. rewrite <- !Z.shiftr_div_pow2 by lia. rewrite !Z.shiftr_spec by lia.
  f_equal; lia.
Qed.

(** Every proper prefix of a long code leads to a node. *)
Lemma path_nodes c : lng n len tb c -> forall e, (e <= lv len tb c)%nat ->
  exists v, slotv n len tb s e (pre n len tb c e) = Some v /\ 0 <= v < 2 * n - 1 /\
    ((e < lv len tb c)%nat -> n <= v) /\ (e = lv len tb c -> v = c).
Proof.
  intros Hc. pose proof (tbs_long _ _ _ _ _ _ Hs c Hc) as HS.
  destruct Hc as [Hc Hl]. pose proof (Hlen c Hc) as HL.
  assert (D : forall d e, (e + d = lv len tb c)%nat ->
    exists v, slotv n len tb s e (pre n len tb c e) = Some v /\ 0 <= v < 2 * n - 1 /\
    ((e < lv len tb c)%nat -> n <= v) /\ (e = lv len tb c -> v = c)).
  { induction d as [|d IH]; intros e He.
    - rewrite Nat.add_0_r in He. subst e. exists c. split; auto. split; [lia|]. split; [lia|auto].
    - destruct (IH (S e) ltac:(lia)) as [v [E _]]. cbn [slotv] in E.
      rewrite (pre_half n len tb) in E by (unfold lv in He; lia).
      destruct (slotv n len tb s e (pre n len tb c e)) as [k|] eqn:Ek; [|discriminate].
      destruct (Z.ltb_spec k n) as [|L]; [discriminate|].
      exists k. split; auto. split; [apply (tbs_node _ _ _ _ _ _ Hs _ _ _ Ek)|]. split; [auto|lia]. }
  intros e He. apply (D (lv len tb c - e)%nat). lia.
Qed.

(** The tree walk follows the rest of the codeword.  [q] is the number of the
    first bit looked at, counted from the top of the bit buffer. *)
Lemma walk_ok c (r : rst) (q : nat) lft rgt first : lng n len tb c ->
  (q + lv len tb c <= 16)%nat ->
  (forall e, (e < lv len tb c)%nat -> Z.testbit (bitbuf r) (15 - Z.of_nat (q + e)) = Z.odd (pre n len tb c (S e))) ->
  (forall i, n <= i < 2 * n - 1 -> at_ lft i = at_ (t_left s) i /\ at_ rgt i = at_ (t_right s) i) ->
  2 * n - 1 <= alen lft -> 2 * n - 1 <= alen rgt ->
  exists v, slotv n len tb s 0 (pre n len tb c 0) = Some v /\ n <= v /\
    walk lft rgt n first r v (2 ^ (15 - Z.of_nat q)) = Ok c.
Proof.
  intros Hc Hq Hb Hfr HA1 HA2. pose proof (path_nodes c Hc) as PN.
  pose proof (lng_len n len tb Hlen c Hc) as HLc.
  assert (LV : (1 <= lv len tb c)%nat) by (unfold lv; lia).
  destruct (PN 0%nat ltac:(lia)) as [v0 [E0 [R0 [N0 _]]]]. specialize (N0 ltac:(lia)).
  exists v0. split; auto. split; auto. unfold walk, walk_step.
  set (mask := fun e : nat => if Nat.ltb (q + e) 16 then 2 ^ (15 - Z.of_nat (q + e)) else 0).
  set (I := fun st : bool * Z * Z => let '(fst, j, mk) := st in
     exists e, (e <= lv len tb c)%nat /\ slotv n len tb s e (pre n len tb c e) = Some j /\ mk = mask e /\
       (fst = true -> (e < lv len tb c)%nat)).
  set (mu := fun st : bool * Z * Z => let '(_, _, mk) := st in if mk =? 0 then 0 else Z.log2 mk + 1).
  assert (MM : forall e f j, (q + e <= 16)%nat -> mu (f, j, mask e) = 16 - Z.of_nat (q + e)).
  { intros e f j He. unfold mu, mask. destruct (Nat.ltb_spec (q + e) 16) as [L|L].
    - pose proof (Z.pow_pos_nonneg 2 (15 - Z.of_nat (q + e)) ltac:(lia) ltac:(lia)).
      destruct (Z.eqb_spec (2 ^ (15 - Z.of_nat (q + e))) 0); [lia|]. rewrite Z.log2_pow2 by lia. lia.
    - change (0 =? 0) with true. lia. }
  edestruct (loop_wf I (fun v => v = c) mu 70000) as [t [Et Ht]].
  4:{ rewrite Et. now subst t. }
  - intros [[fst j] mk] (e & He & Ej & -> & Hfst).
    destruct (PN e He) as [v [Ev [Rv [Nv Cv]]]]. rewrite Ej in Ev. injection Ev as <-.
    assert (Hcond : (if fst then Ok true else walk_cond lft n j (mask e)) = Ok (Nat.ltb e (lv len tb c))).
    { destruct fst.
      - rewrite (proj2 (Nat.ltb_lt _ _)); auto.
      - unfold walk_cond. destruct (Nat.ltb_spec e (lv len tb c)) as [L|L].
        + specialize (Nv L). destruct (Z.leb_spec n j); [|lia].
          unfold mask. destruct (Nat.ltb_spec (q + e) 16); [|lia].
          destruct (Z.eqb_spec (2 ^ (15 - Z.of_nat (q + e))) 0) as [X|]; [|reflexivity].
          pose proof (Z.pow_pos_nonneg 2 (15 - Z.of_nat (q + e)) ltac:(lia) ltac:(lia)). lia.
        + assert (e = lv len tb c) by lia. rewrite (Cv H).
          destruct Hc as [Hc _]. destruct (Z.leb_spec n c); [lia|reflexivity]. }
    rewrite Hcond. cbn [bind].
    destruct (Nat.ltb_spec e (lv len tb c)) as [L|L].
    + specialize (Nv L).
      assert (Mk : mask e = 2 ^ (15 - Z.of_nat (q + e))).
      { unfold mask. destruct (Nat.ltb_spec (q + e) 16); [reflexivity|lia]. }
      rewrite Mk, land_pow2 by lia. rewrite Hb by exact L.
      assert (Next : slotv n len tb s (S e) (pre n len tb c (S e)) =
         Some (if Z.odd (pre n len tb c (S e)) then at_ (t_right s) j else at_ (t_left s) j)).
      { cbn [slotv]. rewrite (pre_half n len tb) by (unfold lv in L; lia). rewrite Ej.
        destruct (Z.ltb_spec j n); [lia|reflexivity]. }
      destruct (Hfr j ltac:(lia)) as [F1 F2].
      assert (Get : (if negb (Z.odd (pre n len tb c (S e))) then aget lft j else aget rgt j) =
         Ok (if Z.odd (pre n len tb c (S e)) then at_ (t_right s) j else at_ (t_left s) j)).
      { destruct (Z.odd (pre n len tb c (S e))); cbn [negb]; rewrite aget_ok by lia; congruence. }
      rewrite Get. cbn [bind]. eexists. split; [reflexivity|]. cbv beta iota.
      assert (MS : Z.shiftr (2 ^ (15 - Z.of_nat (q + e))) 1 = mask (S e)).
      { rewrite shiftr_div by lia. unfold mask. destruct (Nat.ltb_spec (q + S e) 16).
        - change 2 with (2 ^ 1) at 2. replace (15 - Z.of_nat (q + e)) with (15 - Z.of_nat (q + S e) + 1) by lia.
          rewrite Z.pow_add_r by lia. apply Z.div_mul. lia.
        - replace (15 - Z.of_nat (q + e)) with 0 by lia. reflexivity. }
      rewrite MS. split.
      * exists (S e). split; [lia|]. split; [exact Next|]. split; [reflexivity|]. discriminate.
      * rewrite <- Mk, !MM by lia. lia.
    + eexists. split; [reflexivity|]. cbv beta iota. apply Cv. lia.
  - exists 0%nat. split; [lia|]. split; [exact E0|]. split; [|lia].
    unfold mask. rewrite Nat.add_0_r. destruct (Nat.ltb_spec q 16); [reflexivity|lia].
  - unfold mu. pose proof (Z.pow_pos_nonneg 2 (15 - Z.of_nat q) ltac:(lia) ltac:(lia)).
    destruct (Z.eqb_spec (2 ^ (15 - Z.of_nat q)) 0); [lia|]. rewrite Z.log2_pow2 by lia. lia.
Qed.

End Lookup.
