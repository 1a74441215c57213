(** Proofs about the construction of the Huffman code. *)
From Coq Require Import Permutation.
From Verif Require Import Go GoLemmas S_Bits P_Bits S_Huff P_Huff P_Bitio M_Maketree.

(** ** The heap *)

(** The entries of the heap. *)
Definition hl (heap : arr) (k : Z) : list Z := slice_list heap 1 (Z.to_nat k).

Lemma hl_length heap k : length (hl heap k) = Z.to_nat k.
Proof. apply slice_list_length. Qed.

Lemma nth_hl heap k i : 1 <= i <= k -> nth (Z.to_nat (i - 1)) (hl heap k) 0 = at_ heap i.
Proof. intros. unfold hl. rewrite nth_slice_list by lia. f_equal. lia. Qed.

Lemma hl_perm_swap a k i j v : 1 <= i <= k -> 1 <= j <= k -> i <> j ->
  Permutation (hl (upd (upd a i (at_ a j)) j v) k) (hl (upd a i v) k).
Proof.
  intros Hi Hj N. apply (Permutation_nth _ _ 0). rewrite !hl_length. split; [reflexivity|].
  set (f := fun x : nat => if (x =? Z.to_nat (i - 1))%nat then Z.to_nat (j - 1)
                   else if (x =? Z.to_nat (j - 1))%nat then Z.to_nat (i - 1) else x).
  exists f. cbn zeta. split; [|split].
  - intros x Hx. unfold f. destruct (Nat.eqb_spec x (Z.to_nat (i - 1))), (Nat.eqb_spec x (Z.to_nat (j - 1))); lia.
  - intros x y Hx Hy. unfold f.
    destruct (Nat.eqb_spec x (Z.to_nat (i - 1))), (Nat.eqb_spec x (Z.to_nat (j - 1))),
      (Nat.eqb_spec y (Z.to_nat (i - 1))), (Nat.eqb_spec y (Z.to_nat (j - 1))); lia.
  - intros x Hx. unfold hl. rewrite !nth_slice_list; [|unfold f; destruct (Nat.eqb_spec x (Z.to_nat (i - 1))), (Nat.eqb_spec x (Z.to_nat (j - 1))); lia|lia].
    unfold f. destruct (Nat.eqb_spec x (Z.to_nat (i - 1))) as [E1|E1], (Nat.eqb_spec x (Z.to_nat (j - 1))) as [E2|E2]; try lia.
    + replace (1 + Z.of_nat x) with i by lia. replace (1 + Z.of_nat (Z.to_nat (j - 1))) with j by lia.
      rewrite at_upd_eq, at_upd_eq. reflexivity.
    + replace (1 + Z.of_nat x) with j by lia. replace (1 + Z.of_nat (Z.to_nat (i - 1))) with i by lia.
      rewrite (at_upd_ne _ i j) by lia. rewrite (at_upd_ne _ j i) by lia. now rewrite at_upd_eq.
    + rewrite !at_upd_ne by lia. reflexivity.
Qed.

Lemma slice_list_ext a b i n : (forall k, i <= k < i + Z.of_nat n -> at_ a k = at_ b k) ->
  slice_list a i n = slice_list b i n.
Proof.
  revert i; induction n as [|n IH]; intros i H; [reflexivity|].
  cbn [slice_list]. rewrite (H i) by lia. f_equal. apply IH. intros. apply H. lia.
Qed.

Lemma hl_ext a b k : (forall i, 1 <= i <= k -> at_ a i = at_ b i) -> hl a k = hl b k.
Proof. intros H. apply slice_list_ext. intros. apply H. lia. Qed.

Lemma hl_In a k i : 1 <= i <= k -> In (at_ a i) (hl a k).
Proof.
  intros H. rewrite <- (nth_hl a k i H). apply nth_In. rewrite hl_length. lia.
Qed.

(** [downheap] permutes the heap and cannot fail on indices in range. *)
Lemma downheap_ok i heap k freq :
  1 <= i -> i <= Z.max k 1 -> 0 <= k <= 510 -> alen heap = 511 ->
  (forall v, In v (hl heap (Z.max k 1)) -> 0 <= v < alen freq) -> alen freq <= 32767 ->
  exists heap', downheap i heap k freq = Ok heap' /\ alen heap' = 511 /\
    (i <= k -> Permutation (hl heap' k) (hl heap k)) /\
    (k < i -> forall j, 0 <= j -> at_ heap' j = at_ heap j) /\
    (forall j, k < j -> at_ heap' j = at_ heap j).
Proof.
  intros Hi Hik Hk Ha Hf Hm. unfold downheap. rewrite aget_ok by lia. cbn [bind].
  assert (Hv : 0 <= at_ heap i < alen freq) by (apply Hf, hl_In; lia).
  rewrite (u16_id (at_ heap i)) by lia. rewrite (u16_id i) by lia. rewrite (u16_id (2 * i)) by lia.
  set (v := at_ heap i) in *.
  set (I := fun '(h, i', j) => alen h = 511 /\ 1 <= i' <= Z.max k 1 /\ j = 2 * i' /\
     (i <= k -> i' <= k /\ Permutation (hl (upd h i' v) k) (hl heap k)) /\
     (k < i -> i' = i /\ h = heap) /\
     (forall j, k < j -> at_ (upd h i' v) j = at_ heap j)).
  set (Q := fun '(h, i') => alen h = 511 /\ 1 <= i' <= Z.max k 1 /\
     (i <= k -> Permutation (hl (upd h i' v) k) (hl heap k)) /\
     (k < i -> i' = i /\ h = heap) /\
     (forall j, k < j -> at_ (upd h i' v) j = at_ heap j)).
  assert (IV : forall h i' j', I (h, i', j') -> forall j, 1 <= j <= k -> j <> i' -> 0 <= at_ h j < alen freq).
  { intros h i' j' [I1 [I2 [_ [I4 [I5 I6]]]]] j Hj N.
    destruct (Z_le_gt_dec i k) as [L|L].
    - destruct (I4 L) as [_ P].
      replace (at_ h j) with (at_ (upd h i' v) j) by (apply at_upd_ne; lia).
      apply Hf. replace (Z.max k 1) with k by lia. eapply Permutation_in; [exact P|]. apply hl_In. lia.
    - destruct (I5 ltac:(lia)) as [_ ->]. apply Hf, hl_In. lia. }
  edestruct (loop_wf I Q (fun '(_, i', _) => k + 1 - i') (k + 2)) as [[h i'] [E QT]].
  4:{ rewrite E. cbn [bind]. destruct QT as [Q1 [Q2 [Q4 [Q5 Q6]]]].
      rewrite aset_ok by lia. unfold i16. rewrite (Z.mod_small v) by lia.
      destruct (Z.ltb_spec v 32768); [|lia].
      eexists. split; [reflexivity|]. split; [rewrite alen_upd; auto|].
      split; [exact Q4|]. split; [|exact Q6].
      intros L j Hj. destruct (Q5 L) as [-> ->]. rewrite at_upd by lia.
      destruct (Z.eqb_spec j i) as [->|]; auto. }
  - intros [[h i'] j] HI. pose proof (IV h i' j HI) as IV'.
    destruct HI as [I1 [I2 [I3 [I4 [I5 I6]]]]].
    rewrite (u16_id k) by lia.
    destruct (Z.leb_spec j k) as [L|L].
    2:{ eexists. split; [reflexivity|]. unfold Q. split; [exact I1|]. split; [lia|].
        split; [intros H; apply I4, H|]. split; [exact I5|exact I6]. }
    assert (Hj1 : exists j1, (if j <? k then
                h0 <- aget h j ;;
                f0 <- aget freq h0 ;;
                h1 <- aget h (u16 (j + 1)) ;;
                f1 <- aget freq h1 ;;
                Ok (if f1 <? f0 then u16 (j + 1) else j)
              else Ok j) = Ok j1 /\ j <= j1 <= j + 1 /\ j1 <= k).
    { destruct (Z.ltb_spec j k) as [L'|L'].
      - rewrite aget_ok by lia. cbn [bind].
        assert (0 <= at_ h j < alen freq) by (apply IV'; lia).
        rewrite aget_ok by lia. cbn [bind]. rewrite u16_id by lia. rewrite aget_ok by lia. cbn [bind].
        assert (0 <= at_ h (j + 1) < alen freq) by (apply IV'; lia).
        rewrite aget_ok by lia. cbn [bind].
        eexists. split; [reflexivity|]. destruct (_ <? _); lia.
      - exists j. split; [reflexivity|]. lia. }
    destruct Hj1 as [j1 [E1 [B1 B2]]]. rewrite E1. cbn [bind].
    rewrite aget_ok by lia. cbn [bind]. rewrite (aget_ok h) by lia. cbn [bind].
    assert (0 <= at_ h j1 < alen freq) by (apply IV'; lia).
    rewrite aget_ok by lia. cbn [bind].
    destruct (_ <=? _).
    + eexists. split; [reflexivity|]. unfold Q. split; [exact I1|]. split; [lia|].
      split; [intros H0; apply I4, H0|]. split; [exact I5|exact I6].
    + rewrite aset_ok by lia. cbn [bind].
      eexists. split; [reflexivity|]. split; [|lia].
      assert (i <= k) by (destruct (Z_le_gt_dec i k); [lia|]; destruct (I5 ltac:(lia)); lia).
      unfold I. rewrite u16_id by lia. split; [rewrite alen_upd; auto|]. split; [lia|]. split; [lia|].
      split; [|split].
      * intros _. split; [lia|]. destruct (I4 H0) as [_ P].
        eapply Permutation_trans; [|exact P]. apply hl_perm_swap; lia.
      * lia.
      * intros j0 Hj0. rewrite !at_upd_ne by lia. rewrite <- I6 by lia. rewrite at_upd_ne by lia. reflexivity.
  - unfold I. split; [exact Ha|]. split; [lia|]. split; [reflexivity|].
    split; [intros H; split; [exact H|]|split; [auto|]].
    + assert (E : hl (upd heap i v) k = hl heap k).
      { apply hl_ext. intros x Hx. rewrite at_upd by lia. destruct (Z.eqb_spec x i) as [->|]; auto. }
      rewrite E. apply Permutation_refl.
    + intros j Hj. rewrite at_upd by lia. destruct (Z.eqb_spec j i) as [->|]; auto.
  - cbn beta iota. lia.
Qed.

(** ** Symbols in use *)

Definition zrange (n : Z) : list Z := map Z.of_nat (List.seq 0 (Z.to_nat n)).

Lemma zrange_S n : 0 <= n -> zrange (n + 1) = zrange n ++ [n].
Proof.
  intros. unfold zrange. replace (Z.to_nat (n + 1)) with (S (Z.to_nat n)) by lia.
  rewrite seq_S, map_app. cbn [map plus]. rewrite Z2Nat.id by lia. reflexivity.
Qed.

Lemma zrange_In n c : In c (zrange n) <-> 0 <= c < n.
Proof.
  unfold zrange. rewrite in_map_iff. split.
  - intros [x [<- H]]. apply in_seq in H. lia.
  - intros H. exists (Z.to_nat c). split; [lia|]. apply in_seq. lia.
Qed.

Lemma zrange_NoDup n : NoDup (zrange n).
Proof.
  unfold zrange. apply FinFun.Injective_map_NoDup; [intros x y; lia|apply seq_NoDup].
Qed.

Lemma zrange_length n : length (zrange n) = Z.to_nat n.
Proof. unfold zrange. now rewrite map_length, seq_length. Qed.

Definition usedb (freq : arr) (c : Z) : bool := negb (at_ freq c =? 0).
Definition used (nchar : Z) (freq : arr) : list Z := filter (usedb freq) (zrange nchar).

Lemma used_In nchar freq c : In c (used nchar freq) <-> 0 <= c < nchar /\ at_ freq c <> 0.
Proof.
  unfold used. rewrite filter_In, zrange_In. unfold usedb. destruct (Z.eqb_spec (at_ freq c) 0); simpl; split; intuition congruence.
Qed.

Lemma filter_length_le {A} (f : A -> bool) l : (length (filter f l) <= length l)%nat.
Proof. induction l; simpl; [lia|]. destruct (f a); simpl; lia. Qed.

Lemma used_length nchar freq : 0 <= nchar -> zlen (used nchar freq) <= nchar.
Proof.
  intros. unfold used, zlen. pose proof (filter_length_le (usedb freq) (zrange nchar)) as H0.
  rewrite zrange_length in H0. lia.
Qed.

Lemma used_NoDup nchar freq : NoDup (used nchar freq).
Proof. apply NoDup_filter, zrange_NoDup. Qed.

Lemma slice_list_snoc a i n : slice_list a i (S n) = slice_list a i n ++ [at_ a (i + Z.of_nat n)].
Proof.
  revert i; induction n as [|n IH]; intros i.
  - cbn [slice_list app]. do 2 f_equal. lia.
  - change (slice_list a i (S (S n))) with (at_ a i :: slice_list a (i + 1) (S n)).
    rewrite IH. cbn [slice_list app]. do 4 f_equal. lia.
Qed.

Lemma hl_snoc a k : 0 <= k -> hl a (k + 1) = hl a k ++ [at_ a (k + 1)].
Proof.
  intros. unfold hl. replace (Z.to_nat (k + 1)) with (S (Z.to_nat k)) by lia.
  rewrite slice_list_snoc. do 3 f_equal. lia.
Qed.

Lemma hl_cons a k : 1 <= k -> hl a k = at_ a 1 :: slice_list a 2 (Z.to_nat (k - 1)).
Proof.
  intros. unfold hl. replace (Z.to_nat k) with (S (Z.to_nat (k - 1))) by lia. reflexivity.
Qed.

Lemma mt_collect_ok nchar freq bitlen : 0 <= nchar <= 510 ->
  nchar <= alen freq -> nchar <= alen bitlen ->
  exists heap bitlen', mt_collect nchar freq bitlen = Ok (heap, zlen (used nchar freq), bitlen') /\
    alen heap = 511 /\ hl heap (zlen (used nchar freq)) = used nchar freq /\
    (zlen (used nchar freq) = 0 -> at_ heap 1 = 0) /\
    alen bitlen' = alen bitlen /\
    (forall c, 0 <= c -> at_ bitlen' c = if c <? nchar then 0 else at_ bitlen c).
Proof.
  intros Hn Hf Hb. unfold mt_collect. rewrite aset_ok by (unfold amake, Nc; cbn [alen]; lia). cbn [bind].
  set (h0 := upd (amake (Nc + 1)) 1 0).
  destruct (forZ_inv (fun i '(heap, hs, bl) => alen heap = 511 /\ hs = zlen (used i freq) /\
      hl heap hs = used i freq /\ (hs = 0 -> at_ heap 1 = 0) /\ alen bl = alen bitlen /\
      (forall c, 0 <= c -> at_ bl c = if c <? i then 0 else at_ bitlen c))
    (fun i '(heap, heapsize, bitlen) =>
      bitlen <- aset bitlen i 0 ;;
      f <- aget freq i ;;
      if f =? 0 then Ok (heap, heapsize, bitlen)
      else
        heap <- aset heap (heapsize + 1) i ;;
        Ok (heap, heapsize + 1, bitlen)) 0 nchar (h0, 0, bitlen)) as [[[heap hs] bl] [E H]].
  - lia.
  - intros i [[heap hs] bl] Hi [H1 [H2 [H3 [H4 [H5 H6]]]]].
    pose proof (used_length i freq ltac:(lia)) as UL. pose proof (zlen_nonneg (used i freq)) as UN.
    rewrite aset_ok by lia. cbn [bind]. rewrite aget_ok by lia. cbn [bind].
    assert (US : used (i + 1) freq = used i freq ++ (if at_ freq i =? 0 then [] else [i])).
    { unfold used. rewrite zrange_S by lia. rewrite filter_app. f_equal. cbn [filter]. unfold usedb.
      destruct (at_ freq i =? 0); reflexivity. }
    assert (BL : forall c, 0 <= c -> at_ (upd bl i 0) c = if c <? i + 1 then 0 else at_ bitlen c).
    { intros c Hc. rewrite at_upd by lia. rewrite H6 by lia.
      destruct (Z.eqb_spec c i), (Z.ltb_spec c i), (Z.ltb_spec c (i + 1)); auto; lia. }
    destruct (at_ freq i =? 0) eqn:Ef.
    + eexists. split; [reflexivity|]. rewrite US, app_nil_r. rewrite alen_upd. auto 10.
    + rewrite aset_ok by lia. cbn [bind]. eexists. split; [reflexivity|].
      rewrite US, zlen_app. change (zlen [i]) with 1. rewrite !alen_upd.
      split; [auto|]. split; [lia|]. split; [|split; [lia|auto]].
      rewrite hl_snoc by lia. rewrite at_upd_eq. f_equal. rewrite <- H3.
      apply hl_ext. intros x Hx. rewrite at_upd_ne; auto; lia.
  - split; [reflexivity|]. split; [reflexivity|]. split; [reflexivity|]. split; [|split; [reflexivity|]].
    + intros _. unfold h0. now rewrite at_upd_eq.
    + intros c Hc. destruct (Z.ltb_spec c 0); auto; lia.
  - rewrite E. destruct H as [H1 [H2 [H3 [H4 [H5 H6]]]]]. subst hs. exists heap, bl. auto 10.
Qed.

(** ** Trees *)

Inductive tree := Lf (s : Z) | Nd (l r : tree).

Fixpoint leaves (t : tree) : list Z :=
  match t with Lf s => [s] | Nd l r => leaves l ++ leaves r end.

Inductive rep (left right : arr) (nchar : Z) : Z -> tree -> Prop :=
| rep_leaf s : 0 <= s < nchar -> rep left right nchar s (Lf s)
| rep_node m a b : nchar <= m < alen left -> m < alen right ->
    0 <= at_ left m < m -> 0 <= at_ right m < m ->
    rep left right nchar (at_ left m) a -> rep left right nchar (at_ right m) b ->
    rep left right nchar m (Nd a b).

Lemma rep_nonneg l r nc m t : rep l r nc m t -> 0 <= nc -> 0 <= m.
Proof. intros []; lia. Qed.

Lemma rep_upd l r nc m t x y z : 0 <= nc -> rep l r nc m t -> m < x -> rep (upd l x y) (upd r x z) nc m t.
Proof.
  intros Hc R. induction R as [s Hs|m a b H1 H2 H3 H4 R1 IH1 R2 IH2]; intros Hx.
  - now constructor.
  - assert (E1 : at_ (upd l x y) m = at_ l m) by (apply at_upd_ne; lia).
    assert (E2 : at_ (upd r x z) m = at_ r m) by (apply at_upd_ne; lia).
    constructor; rewrite ?alen_upd, ?E1, ?E2; auto; [apply IH1|apply IH2]; lia.
Qed.

Definition sumf (f : Z -> Z) (l : list Z) : Z := fold_right (fun c a => f c + a) 0 l.

Lemma sumf_app f a b : sumf f (a ++ b) = sumf f a + sumf f b.
Proof. unfold sumf. induction a; simpl; lia. Qed.

Lemma sumf_perm f a b : Permutation a b -> sumf f a = sumf f b.
Proof. unfold sumf. induction 1; simpl; lia. Qed.

(** Invariant of the merging loop.  [freq0] are the frequencies at the start. *)
Record MI (nchar : Z) (freq0 code0 left0 right0 : arr) (s : mt) : Prop := {
  MI_heap : alen (mt_heap s) = 511;
  MI_size : 1 <= mt_heapsize s <= 510;
  MI_avail : mt_avail s = nchar + zlen (used nchar freq0) - mt_heapsize s;
  MI_av : nchar <= mt_avail s;
  MI_freql : alen (mt_freq s) = alen freq0;
  MI_codel : alen (mt_code s) = alen code0;
  MI_leftl : alen (mt_left s) = alen left0;
  MI_rightl : alen (mt_right s) = alen right0;
  MI_freq : forall c, 0 <= c < nchar -> at_ (mt_freq s) c = at_ freq0 c;
  MI_trees : exists L : list (Z * tree),
     Permutation (map fst L) (hl (mt_heap s) (mt_heapsize s)) /\
     Forall (fun '(m, t) => 0 <= m < mt_avail s /\ rep (mt_left s) (mt_right s) nchar m t /\
               at_ (mt_freq s) m = u16 (sumf (at_ freq0) (leaves t))) L /\
     Permutation (flat_map (fun p => leaves (snd p)) L) (used nchar freq0);
  MI_sort : 0 <= mt_sort s;
  MI_perm : Permutation (slice_list (mt_code s) 0 (Z.to_nat (mt_sort s)) ++
               filter (fun c => c <? nchar) (hl (mt_heap s) (mt_heapsize s)))
               (used nchar freq0);
  MI_codes : forall c, nchar <= c -> at_ (mt_code s) c = at_ code0 c }.

Lemma hl_take_last a k : 2 <= k ->
  Permutation (hl (upd a 1 (at_ a k)) (k - 1)) (slice_list a 2 (Z.to_nat (k - 1))).
Proof.
  intros H. rewrite hl_cons by lia. rewrite at_upd_eq.
  replace (Z.to_nat (k - 1)) with (S (Z.to_nat (k - 1 - 1))) by lia.
  rewrite slice_list_snoc. replace (2 + Z.of_nat (Z.to_nat (k - 1 - 1))) with k by lia.
  rewrite (slice_list_ext (upd a 1 (at_ a k)) a) by (intros; rewrite at_upd_ne; lia || auto).
  apply Permutation_cons_append.
Qed.

Lemma hl_upd1 a k v : 1 <= k -> hl (upd a 1 v) k = v :: slice_list a 2 (Z.to_nat (k - 1)).
Proof.
  intros. rewrite hl_cons by lia. rewrite at_upd_eq. f_equal. apply slice_list_ext.
  intros. rewrite at_upd_ne; lia || auto.
Qed.

Lemma filter_perm {A} (f : A -> bool) a b : Permutation a b -> Permutation (filter f a) (filter f b).
Proof.
  induction 1; simpl.
  - constructor.
  - destruct (f x); auto.
  - destruct (f x), (f y); auto. apply perm_swap.
  - eapply Permutation_trans; eauto.
Qed.

Lemma push_sort nchar code sort i tl u code0 :
  0 <= sort -> 0 <= i <= 32767 -> nchar <= alen code -> 0 <= nchar ->
  Permutation (slice_list code 0 (Z.to_nat sort) ++ filter (fun c => c <? nchar) (i :: tl)) u ->
  zlen u <= nchar -> alen code = alen code0 ->
  (forall c, nchar <= c -> at_ code c = at_ code0 c) ->
  exists code' sort',
    (if i <? nchar then
       code <- aset code sort (u16 i) ;; Ok (code, sort + 1)
     else Ok (code, sort)) = Ok (code', sort') /\
    0 <= sort' /\ alen code' = alen code0 /\
    (forall c, nchar <= c -> at_ code' c = at_ code0 c) /\
    Permutation (slice_list code' 0 (Z.to_nat sort') ++ filter (fun c => c <? nchar) tl) u.
Proof.
  intros Hs Hi Hc Hn P Hu Hl Hx.
  cbn [filter] in P. destruct (Z.ltb_spec i nchar) as [L|L].
  - assert (sort < nchar).
    { apply Permutation_length in P. rewrite app_length, slice_list_length in P. cbn [length] in P.
      unfold zlen in Hu. lia. }
    rewrite aset_ok by lia. cbn [bind]. rewrite u16_id by lia.
    eexists _, _. split; [reflexivity|]. split; [lia|]. split; [rewrite alen_upd; auto|]. split.
    + intros c Hc'. rewrite at_upd_ne by lia. auto.
    + replace (Z.to_nat (sort + 1)) with (S (Z.to_nat sort)) by lia.
      rewrite slice_list_snoc, <- app_assoc. cbn [app].
      replace (0 + Z.of_nat (Z.to_nat sort)) with sort by lia. rewrite at_upd_eq.
      rewrite (slice_list_ext (upd code sort i) code) by (intros; rewrite at_upd_ne; lia || auto).
      exact P.
  - eexists _, _. split; [reflexivity|]. auto.
Qed.

Lemma mt_step_ok nchar freq0 code0 left0 right0 s :
  1 <= nchar <= 510 -> nchar <= alen code0 -> 2 * nchar - 1 <= alen freq0 <= 32767 ->
  2 * nchar - 1 <= alen left0 -> 2 * nchar - 1 <= alen right0 ->
  MI nchar freq0 code0 left0 right0 s -> 2 <= mt_heapsize s ->
  exists s', mt_step nchar s = Ok (if mt_heapsize s' <=? 1 then Stop s' else Go s') /\
     MI nchar freq0 code0 left0 right0 s' /\ mt_heapsize s' = mt_heapsize s - 1 /\
     exists t, In (mt_avail s' - 1) (hl (mt_heap s') (mt_heapsize s')) /\
     rep (mt_left s') (mt_right s') nchar (mt_avail s' - 1) t.
Proof.
  intros Hn Hc Hf Hl Hr M Hk. destruct M as [M1 M2 M3 M3' M4 M5 M6 M7 M8 M9 M10 M11 M12].
  destruct M9 as [L [LP [LF LU]]].
  pose proof (used_length nchar freq0 ltac:(lia)) as UL.
  set (k := mt_heapsize s) in *. set (u := used nchar freq0) in *.
  assert (LV : forall v, In v (hl (mt_heap s) k) -> 0 <= v < mt_avail s).
  { intros v Hv. apply Permutation_sym in LP. eapply Permutation_in in Hv; [|exact LP].
    apply in_map_iff in Hv. destruct Hv as [[m t] [<- Hin]].
    rewrite Forall_forall in LF. specialize (LF _ Hin). cbn in LF. apply LF. }
  unfold mt_step. fold k. rewrite aget_ok by lia. cbn [bind].
  set (i := at_ (mt_heap s) 1).
  assert (Hi : 0 <= i < mt_avail s) by (apply LV, hl_In; lia).
  rewrite (hl_cons (mt_heap s) k ltac:(lia)) in M11, LP. fold i in M11, LP.
  destruct (push_sort nchar (mt_code s) (mt_sort s) i (slice_list (mt_heap s) 2 (Z.to_nat (k - 1))) u code0)
    as [code1 [sort1 [E1 [S1 [CL1 [CX1 P1]]]]]]; auto; try lia.
  rewrite E1. cbn [bind]. clear E1.
  rewrite aget_ok by lia. cbn [bind]. rewrite aset_ok by lia. cbn [bind].
  pose proof (hl_take_last (mt_heap s) k Hk) as HP.
  set (heap1 := upd (mt_heap s) 1 (at_ (mt_heap s) k)) in *.
  assert (Tl : forall v, In v (slice_list (mt_heap s) 2 (Z.to_nat (k - 1))) -> 0 <= v < mt_avail s).
  { intros v Hv. apply LV. rewrite hl_cons by lia. right. exact Hv. }
  destruct (downheap_ok 1 heap1 (k - 1) (mt_freq s)) as [heap2 [E2 [A2 [P2 _]]]]; try lia.
  { unfold heap1. now rewrite alen_upd. }
  { intros v Hv. replace (Z.max (k - 1) 1) with (k - 1) in Hv by lia.
    assert (0 <= v < mt_avail s); [|lia]. apply Tl. eapply Permutation_in; [exact HP|exact Hv]. }
  rewrite E2. cbn [bind]. specialize (P2 ltac:(lia)). clear E2.
  rewrite aget_ok by lia. cbn [bind].
  pose proof (Permutation_trans P2 HP) as P3. rewrite (hl_cons heap2) in P3 by lia.
  set (j := at_ heap2 1) in *. set (rest := slice_list heap2 2 (Z.to_nat (k - 1 - 1))) in *.
  assert (Hj : 0 <= j < mt_avail s) by (apply Tl; eapply Permutation_in; [exact P3|left; reflexivity]).
  destruct (push_sort nchar code1 sort1 j rest u code0)
    as [code2 [sort2 [E3 [S2 [CL2 [CX2 P4]]]]]]; auto; try lia.
  { eapply Permutation_trans; [|exact P1]. apply Permutation_app_head. apply filter_perm. exact P3. }
  rewrite E3. cbn [bind]. clear E3.
  rewrite aget_ok by lia. cbn [bind]. rewrite aget_ok by lia. cbn [bind].
  rewrite aset_ok by lia. cbn [bind]. rewrite aset_ok by lia. cbn [bind].
  set (root := mt_avail s) in *.
  set (freq1 := upd (mt_freq s) root (u16 (at_ (mt_freq s) i + at_ (mt_freq s) j))).
  assert (HR : forall v, In v (hl (upd heap2 1 root) (k - 1)) -> 0 <= v < root + 1).
  { rewrite hl_upd1 by lia. fold rest. intros v [<-|Hv]; [lia|].
    assert (0 <= v < root); [|lia]. apply Tl. eapply Permutation_in; [exact P3|right; exact Hv]. }
  destruct (downheap_ok 1 (upd heap2 1 root) (k - 1) freq1) as [heap3 [E4 [A4 [P5 _]]]]; try lia.
  { now rewrite alen_upd. }
  { intros v Hv. replace (Z.max (k - 1) 1) with (k - 1) in Hv by lia.
    unfold freq1. rewrite alen_upd. specialize (HR v Hv). lia. }
  { unfold freq1. rewrite alen_upd. lia. }
  rewrite E4. cbn [bind]. specialize (P5 ltac:(lia)). clear E4.
  rewrite hl_upd1 in P5 by lia. fold rest in P5.
  rewrite aset_ok by lia. cbn [bind]. rewrite aset_ok by lia. cbn [bind].
  rewrite (u16_id i), (u16_id j) by lia.
  assert (LP2 : Permutation (map fst L) (i :: j :: rest)).
  { eapply Permutation_trans; [exact LP|]. apply perm_skip. apply Permutation_sym. exact P3. }
  apply Permutation_sym, Permutation_map_inv in LP2. destruct LP2 as [L' [EL PL]].
  destruct L' as [|[i' ti] [|[j' tj] L']]; try discriminate EL.
  cbn [map fst] in EL. injection EL as Ei Ej Er. subst i' j'.
  assert (LF' := LF). apply (Permutation_Forall PL) in LF'.
  pose proof (Forall_inv LF') as [_ [Ri Fi]]. pose proof (Forall_inv_tail LF') as LF1.
  pose proof (Forall_inv LF1) as [_ [Rj Fj]]. pose proof (Forall_inv_tail LF1) as LF2.
  assert (Rroot : rep (upd (mt_left s) root i) (upd (mt_right s) root j) nchar root (Nd ti tj)).
  { constructor; rewrite ?alen_upd, ?at_upd_eq; try lia; auto.
    - apply rep_upd; auto; lia.
    - apply rep_upd; auto; lia. }
  exists (MT heap3 (k - 1) code2 sort2 (root + 1) freq1 (upd (mt_left s) root i) (upd (mt_right s) root j)).
  split; [cbn [mt_heapsize]; destruct (k - 1 <=? 1); reflexivity|].
  assert (SUMU : flat_map (fun p => leaves (snd p)) ((root, Nd ti tj) :: L') =
                 flat_map (fun p => leaves (snd p)) ((i, ti) :: (j, tj) :: L')).
  { cbn [flat_map snd leaves]. now rewrite app_assoc. }
  split; [|split; [reflexivity|]].
  - constructor; cbn [mt_heap mt_heapsize mt_code mt_sort mt_avail mt_freq mt_left mt_right];
      rewrite ?alen_upd; auto; try lia.
    + fold u. lia.
    + intros c Hc'. unfold freq1. rewrite at_upd_ne by lia. auto.
    + exists ((root, Nd ti tj) :: L'). split; [|split].
      * cbn [map fst]. rewrite <- Er. apply Permutation_sym. exact P5.
      * constructor.
        { split; [lia|]. split; [exact Rroot|]. unfold freq1. rewrite at_upd_eq, Fi, Fj.
          cbn [leaves]. rewrite sumf_app. unfold u16. rewrite <- Z.add_mod by lia. reflexivity. }
        { eapply Forall_impl; [|exact LF2]. intros [m t] [Hm [Rm Fm]]. split; [lia|].
          split; [apply rep_upd; auto; lia|]. unfold freq1. rewrite at_upd_ne by lia. exact Fm. }
      * rewrite SUMU. eapply Permutation_trans; [|exact LU].
        apply Permutation_flat_map. apply Permutation_sym. exact PL.
    + eapply Permutation_trans; [|exact P4]. apply Permutation_app_head.
      eapply Permutation_trans; [apply filter_perm, P5|]. cbn [filter].
      destruct (Z.ltb_spec root nchar); [lia|]. apply Permutation_refl.
  - exists (Nd ti tj). cbn [mt_heap mt_heapsize mt_code mt_sort mt_avail mt_freq mt_left mt_right].
    replace (root + 1 - 1) with root by lia. split; [|exact Rroot].
    eapply Permutation_in; [apply Permutation_sym, P5|left; reflexivity].
Qed.

(** ** Counting leaves *)

Fixpoint lc (t : tree) (d j : Z) : Z :=
  match t with
  | Lf _ => if j =? Z.min d 16 then 1 else 0
  | Nd a b => lc a (d + 1) j + lc b (d + 1) j
  end.

(** Kraft sum of the leaves with depths cut at 16, in 1/65536. *)
Fixpoint cks (t : tree) (d : Z) : Z :=
  match t with
  | Lf _ => 2 ^ (16 - Z.min d 16)
  | Nd a b => cks a (d + 1) + cks b (d + 1)
  end.

Lemma lc_nonneg t : forall d j, 0 <= lc t d j.
Proof.
  induction t; intros; cbn [lc]; [destruct (_ =? _); lia|].
  specialize (IHt1 (d + 1) j). specialize (IHt2 (d + 1) j). lia.
Qed.

Lemma lc_le t : forall d j, lc t d j <= zlen (leaves t).
Proof.
  induction t; intros; cbn [lc leaves].
  - change (zlen [s]) with 1. destruct (_ =? _); lia.
  - rewrite zlen_app. specialize (IHt1 (d + 1) j). specialize (IHt2 (d + 1) j). lia.
Qed.

Lemma sumn_one n f i : 0 <= i < Z.of_nat n -> (forall k, 0 <= k < Z.of_nat n -> k <> i -> f k = 0) ->
  sumn n f = f i.
Proof.
  intros Hi H. rewrite (sumn_upd n (fun _ => 0) f i) by auto. rewrite (sumn_0 n (fun _ => 0)) by auto. lia.
Qed.

Lemma lc_total t : forall d, 0 <= d -> sumn 17 (lc t d) = zlen (leaves t).
Proof.
  induction t; intros d Hd.
  - rewrite (sumn_one 17 _ (Z.min d 16)).
    + cbn [lc]. rewrite Z.eqb_refl. reflexivity.
    + lia.
    + intros k _ N. cbn [lc]. destruct (Z.eqb_spec k (Z.min d 16)); lia.
  - cbn [leaves]. rewrite zlen_app, <- (IHt1 (d + 1)), <- (IHt2 (d + 1)) by lia.
    rewrite <- sumn_add. reflexivity.
Qed.

Lemma cks_sum t : forall d, 0 <= d -> sumn 17 (fun j => lc t d j * 2 ^ (16 - j)) = cks t d.
Proof.
  induction t; intros d Hd.
  - rewrite (sumn_one 17 _ (Z.min d 16)).
    + cbn [lc cks]. rewrite Z.eqb_refl. lia.
    + lia.
    + intros k _ N. cbn [lc]. destruct (Z.eqb_spec k (Z.min d 16)); lia.
  - cbn [cks]. rewrite <- (IHt1 (d + 1)), <- (IHt2 (d + 1)) by lia.
    rewrite <- sumn_add. apply sumn_ext. intros. cbn [lc]. lia.
Qed.

Lemma leaves_pos t : 1 <= zlen (leaves t).
Proof. induction t; cbn [leaves]; [reflexivity|]. rewrite zlen_app. lia. Qed.

Lemma cks_deep t : forall d, 16 <= d -> cks t d = zlen (leaves t) /\ lc t d 16 = zlen (leaves t).
Proof.
  induction t; intros d Hd; cbn [cks lc leaves].
  - replace (Z.min d 16) with 16 by lia. auto.
  - rewrite zlen_app. destruct (IHt1 (d + 1) ltac:(lia)), (IHt2 (d + 1) ltac:(lia)). lia.
Qed.

Lemma cks_excess t : forall d, 0 <= d <= 16 -> exists e, cks t d = 2 ^ (16 - d) + e /\ 0 <= e <= lc t d 16.
Proof.
  induction t; intros d Hd.
  - exists 0. cbn [cks lc]. replace (Z.min d 16) with d by lia. split; [lia|]. destruct (_ =? _); lia.
  - destruct (Z.eq_dec d 16) as [->|N].
    + destruct (cks_deep (Nd t1 t2) 16 ltac:(lia)) as [A B]. exists (zlen (leaves (Nd t1 t2)) - 1).
      pose proof (leaves_pos (Nd t1 t2)). rewrite A, B. change (2 ^ (16 - 16)) with 1. lia.
    + destruct (IHt1 (d + 1) ltac:(lia)) as [e1 [A1 B1]]. destruct (IHt2 (d + 1) ltac:(lia)) as [e2 [A2 B2]].
      exists (e1 + e2). cbn [cks lc]. rewrite A1, A2.
      replace (16 - d) with (Z.succ (16 - (d + 1))) by lia. rewrite Z.pow_succ_r by lia. lia.
Qed.

Lemma countLeaf_ok left right nchar t : forall fuel m ln d, rep left right nchar m t -> 0 <= nchar ->
  m < Z.of_nat fuel -> alen ln = 17 -> 0 <= d ->
  (forall j, 0 <= j <= 16 -> 0 <= at_ ln j /\ at_ ln j + zlen (leaves t) <= 65535) ->
  exists ln', countLeaf fuel left right m nchar ln d = Ok ln' /\ alen ln' = 17 /\
    (forall j, 0 <= j <= 16 -> at_ ln' j = at_ ln j + lc t d j).
Proof.
  induction t as [s|a IHa b IHb]; intros fuel m ln d R Hn Hf Ha Hd Hr.
  - inversion R as [s' Hs|]; subst. destruct fuel as [|f]; [lia|]. cbn [countLeaf].
    destruct (Z.ltb_spec s nchar); [|lia].
    replace (if d <? 16 then d else 16) with (Z.min d 16) by (destruct (Z.ltb_spec d 16); lia).
    rewrite aget_ok by lia. cbn [bind]. rewrite aset_ok by lia.
    eexists. split; [reflexivity|]. split; [rewrite alen_upd; auto|].
    intros j Hj. cbn [lc]. rewrite at_upd by lia. destruct (Z.eqb_spec j (Z.min d 16)) as [->|]; [|lia].
    apply u16_id. specialize (Hr (Z.min d 16) ltac:(lia)). change (zlen (leaves (Lf s))) with 1 in Hr. lia.
  - inversion R as [|m' a' b' H1 H2 H3 H4 Ra Rb]; subst. destruct fuel as [|f]; [lia|]. cbn [countLeaf].
    destruct (Z.ltb_spec m nchar); [lia|].
    rewrite aget_ok by lia. cbn [bind]. cbn [leaves] in Hr.
    assert (Z2 : zlen (leaves a ++ leaves b) = zlen (leaves a) + zlen (leaves b)) by apply zlen_app.
    pose proof (leaves_pos a). pose proof (leaves_pos b).
    destruct (IHa f (at_ left m) ln (d + 1) Ra Hn ltac:(lia) Ha ltac:(lia)) as [ln1 [E1 [A1 B1]]].
    { intros j Hj. specialize (Hr j Hj). lia. }
    rewrite E1. cbn [bind]. rewrite aget_ok by lia. cbn [bind].
    destruct (IHb f (at_ right m) ln1 (d + 1) Rb Hn ltac:(lia) A1 ltac:(lia)) as [ln2 [E2 [A2 B2]]].
    { intros j Hj. specialize (Hr j Hj). rewrite B1 by lia. pose proof (lc_le a (d + 1) j).
      pose proof (lc_nonneg a (d + 1) j). lia. }
    exists ln2. split; [exact E2|]. split; [exact A2|]. intros j Hj. rewrite B2, B1 by lia. cbn [lc]. lia.
Qed.

(** ** Lengths *)

Lemma sumn_head n f : sumn (S n) f = f 0 + sumn n (fun k => f (k + 1)).
Proof.
  change (S n) with (1 + n)%nat. rewrite sumn_split. cbn [sumn]. change (Z.of_nat 0) with 0.
  change (Z.of_nat 1) with 1. lia.
Qed.

Lemma sumn_rev n : forall f, sumn n f = sumn n (fun k => f (Z.of_nat n - 1 - k)).
Proof.
  induction n as [|n IH]; intros f; [reflexivity|].
  rewrite sumn_head, sumn_S. rewrite (IH (fun k => f (k + 1))).
  rewrite (sumn_ext n (fun k => f (Z.of_nat n - 1 - k + 1)) (fun k => f (Z.of_nat (S n) - 1 - k)))
    by (intros; f_equal; lia).
  replace (Z.of_nat (S n) - 1 - Z.of_nat n) with 0 by lia. lia.
Qed.

Definition lnK (ln : Z -> Z) : Z := sumn 17 (fun j => ln j * 2 ^ (16 - j)).
Definition lnT (ln : Z -> Z) : Z := sumn 17 ln.

Record LN (ln : arr) (N : Z) : Prop := {
  LN_len : alen ln = 17;
  LN_nn : forall j, 0 <= j <= 16 -> 0 <= at_ ln j;
  LN_0 : at_ ln 0 = 0;
  LN_K : lnK (at_ ln) = 65536;
  LN_T : lnT (at_ ln) = N }.

Lemma LN_le ln N j : LN ln N -> 0 <= j <= 16 -> at_ ln j <= N.
Proof.
  intros H Hj. rewrite <- (LN_T _ _ H). apply (sumn_term 17 (at_ ln)); [lia|].
  intros. apply (LN_nn _ _ H). lia.
Qed.

Lemma split_leaf_ok ln N : LN ln N -> N <= 60000 ->
  exists ln', split_leaf ln = Ok ln' /\ LN ln' (N + 1).
Proof.
  intros H HN. unfold split_leaf.
  match goal with |- context[for_ctl 15 0 ?b ln] =>
    destruct (for_ctl_inv (fun t s => s = ln /\ forall j, 15 - t < j <= 15 -> at_ ln j = 0)
       (fun s => LN s (N + 1)) b 15 0 ln) as [c [E C]] end.
  - intros t s Ht [-> Hz]. cbn in Ht. pose proof (LN_len _ _ H) as HL.
    rewrite aget_ok by lia. cbn [bind].
    pose proof (LN_nn _ _ H (15 - t) ltac:(lia)) as Hp. pose proof (LN_le _ _ (15 - t) H ltac:(lia)) as Hq.
    destruct (Z.eqb_spec (at_ ln (15 - t)) 0) as [Z0|Z0].
    + eexists. split; [reflexivity|]. split; [reflexivity|]. intros j Hj.
      destruct (Z.eq_dec j (15 - t)) as [->|]; auto. apply Hz. lia.
    + rewrite aset_ok by lia. cbn [bind].
      set (i := 15 - t) in *.
      rewrite aget_ok by (rewrite alen_upd; lia). cbn [bind].
      rewrite aset_ok by (rewrite alen_upd; lia). cbn [bind].
      pose proof (LN_nn _ _ H (i + 1) ltac:(lia)) as Hp1. pose proof (LN_le _ _ (i + 1) H ltac:(lia)) as Hq1.
      rewrite at_upd_ne by lia. rewrite !u16_id by lia.
      eexists. split; [reflexivity|].
      set (ln' := upd (upd ln i (at_ ln i - 1)) (i + 1) (at_ ln (i + 1) + 2)).
      assert (At : forall j, 0 <= j -> at_ ln' j = if j =? i + 1 then at_ ln j + 2 else if j =? i then at_ ln j - 1 else at_ ln j).
      { intros j Hj. unfold ln'. rewrite at_upd by lia. destruct (Z.eqb_spec j (i + 1)) as [->|]; auto.
        rewrite at_upd by lia. destruct (Z.eqb_spec j i) as [->|]; auto. }
      assert (E2 : forall (g : Z -> Z), sumn 17 (fun j => at_ ln' j * g j) =
                 sumn 17 (fun j => at_ ln j * g j) + 2 * g (i + 1) - g i).
      { intros g.
        set (m := fun j => (if j =? i then at_ ln j - 1 else at_ ln j) * g j).
        rewrite (sumn_upd 17 m (fun j => at_ ln' j * g j) (i + 1)).
        2:{ lia. }
        2:{ intros k Hk Nk. unfold m. rewrite At by lia. destruct (Z.eqb_spec k (i + 1)); [lia|reflexivity]. }
        rewrite (sumn_upd 17 (fun j => at_ ln j * g j) m i).
        2:{ lia. }
        2:{ intros k Hk Nk. unfold m. destruct (Z.eqb_spec k i); [lia|reflexivity]. }
        unfold m. rewrite At, !Z.eqb_refl by lia. destruct (Z.eqb_spec (i + 1) i); [lia|]. lia. }
      constructor.
      * unfold ln'. now rewrite !alen_upd.
      * intros j Hj. rewrite At by lia. pose proof (LN_nn _ _ H j Hj).
        destruct (j =? i + 1); [lia|]. destruct (Z.eqb_spec j i) as [->|]; lia.
      * rewrite At by lia. destruct (Z.eqb_spec 0 (i + 1)); [lia|]. destruct (Z.eqb_spec 0 i); [lia|]. apply (LN_0 _ _ H).
      * unfold lnK. rewrite (E2 (fun j => 2 ^ (16 - j))). pose proof (LN_K _ _ H) as K. unfold lnK in K. rewrite K.
        replace (16 - i) with (Z.succ (16 - (i + 1))) by lia. rewrite Z.pow_succ_r by lia. lia.
      * unfold lnT. rewrite (sumn_ext 17 (at_ ln') (fun j => at_ ln' j * 1)) by (intros; lia).
        rewrite (E2 (fun j => 1)). pose proof (LN_T _ _ H) as K. unfold lnT in K.
        rewrite (sumn_ext 17 (fun j => at_ ln j * 1) (at_ ln)) by (intros; lia). lia.
  - split; [reflexivity|]. intros. lia.
  - rewrite E. cbn [bind]. destruct c as [s|s].
    + exfalso. destruct C as [-> Hz].
      pose proof (LN_K _ _ H) as K. unfold lnK in K.
      rewrite (sumn_one 17 _ 16) in K; [|lia|].
      2:{ intros k Hk Nk. destruct (Z.eq_dec k 0) as [->|N0]; [rewrite (LN_0 _ _ H); lia|].
          rewrite Hz by lia. lia. }
      pose proof (LN_le _ _ 16 H ltac:(lia)). change (2 ^ (16 - 16)) with 1 in K. lia.
    + exists s. split; [reflexivity|exact C].
Qed.

Definition cnt (n : Z) (len : Z -> Z) (j : Z) : Z :=
  sumn (Z.to_nat n) (fun c => if len c =? j then 1 else 0).

(** Symbols assigned so far: the first [idx] entries of the sorted list. *)
Record AI (nchar : Z) (bl0 code bl : arr) (idx : Z) : Prop := {
  AI_len : alen bl = alen bl0;
  AI_idx : 0 <= idx;
  AI_out : forall c, nchar <= c -> at_ bl c = at_ bl0 c;
  AI_in : forall p, 0 <= p < idx -> 1 <= at_ bl (at_ code p) <= 16;
  AI_not : forall c, 0 <= c < nchar -> (forall p, 0 <= p < idx -> at_ code p <> c) -> at_ bl c = 0 }.

Lemma assign_step nchar bl0 code bl idx N i :
  AI nchar bl0 code bl idx -> idx < N -> N <= nchar <= alen bl0 -> N <= alen code -> 1 <= i <= 16 ->
  (forall p, 0 <= p < N -> 0 <= at_ code p < nchar) ->
  (forall p q, 0 <= p < N -> 0 <= q < N -> at_ code p = at_ code q -> p = q) ->
  exists bl', (c <- aget code idx ;; bitlen <- aset bl c i ;; Ok (bitlen, idx + 1)) = Ok (bl', idx + 1) /\
    AI nchar bl0 code bl' (idx + 1) /\
    (forall j, 1 <= j -> cnt nchar (at_ bl') j = cnt nchar (at_ bl) j + (if j =? i then 1 else 0)).
Proof.
  intros [A1 A2 A3 A4 A5] Hi HN Hc H16 Hr Hinj.
  rewrite aget_ok by lia. cbn [bind]. specialize (Hr idx ltac:(lia)) as Hx.
  rewrite aset_ok by lia. cbn [bind]. eexists. split; [reflexivity|].
  assert (Z0 : at_ bl (at_ code idx) = 0).
  { apply A5; [lia|]. intros p Hp E. apply Hinj in E; lia. }
  split.
  - constructor; try rewrite alen_upd; auto; try lia.
    + intros c Hc'. rewrite at_upd_ne by lia. auto.
    + intros p Hp. destruct (Z.eq_dec p idx) as [->|Np]; [rewrite at_upd_eq; lia|].
      specialize (Hr p ltac:(lia)) as Hy.
      assert (at_ code p <> at_ code idx) by (intros E; apply Hinj in E; lia).
      rewrite at_upd_ne by lia. apply A4. lia.
    + intros c Hc' Hno. assert (at_ code idx <> c) by (apply Hno; lia).
      rewrite at_upd_ne by lia. apply A5; [lia|]. intros p Hp. apply Hno. lia.
  - intros j Hj. unfold cnt.
    rewrite (sumn_upd (Z.to_nat nchar) (fun c => if at_ bl c =? j then 1 else 0)
              (fun c => if at_ (upd bl (at_ code idx) i) c =? j then 1 else 0) (at_ code idx)).
    + rewrite at_upd_eq, Z0. rewrite (Z.eqb_sym j i).
      destruct (Z.eqb_spec 0 j); [lia|]. destruct (i =? j); lia.
    + lia.
    + intros k Hk Nk. rewrite at_upd_ne by lia. reflexivity.
Qed.

Definition tailsum (ln : Z -> Z) (t : Z) : Z := sumn (Z.to_nat t) (fun k => ln (16 - k)).

Lemma tailsum_S ln t : 0 <= t -> tailsum ln (t + 1) = tailsum ln t + ln (16 - t).
Proof.
  intros. unfold tailsum. replace (Z.to_nat (t + 1)) with (S (Z.to_nat t)) by lia.
  rewrite sumn_S, Z2Nat.id by lia. reflexivity.
Qed.

Lemma tailsum_mono ln t u : 0 <= t <= u -> u <= 17 -> (forall j, 0 <= j <= 16 -> 0 <= ln j) ->
  tailsum ln t <= tailsum ln u.
Proof.
  intros H Hu Hn. unfold tailsum. replace (Z.to_nat u) with (Z.to_nat t + Z.to_nat (u - t))%nat by lia.
  rewrite sumn_split.
  assert (0 <= sumn (Z.to_nat (u - t)) (fun k => ln (16 - (k + Z.of_nat (Z.to_nat t))))); [|lia].
  apply sumn_nonneg. intros. apply Hn. lia.
Qed.

Lemma tailsum_total ln : ln 0 = 0 -> tailsum ln 16 = lnT ln.
Proof.
  intros H. unfold lnT. rewrite sumn_rev. unfold tailsum. change (Z.to_nat 16) with 16%nat.
  rewrite (sumn_S 16 (fun k => ln (Z.of_nat 17 - 1 - k))).
  change (Z.of_nat 17 - 1 - Z.of_nat 16) with 0. rewrite H.
  rewrite (sumn_ext 16 (fun k => ln (Z.of_nat 17 - 1 - k)) (fun k => ln (16 - k))); [lia|].
  intros. f_equal.
Qed.

Lemma makeLen_assign nchar bl0 code ln N :
  0 <= nchar -> LN ln N -> N <= nchar <= alen bl0 -> N <= alen code ->
  (forall p, 0 <= p < N -> 0 <= at_ code p < nchar) ->
  (forall p q, 0 <= p < N -> 0 <= q < N -> at_ code p = at_ code q -> p = q) ->
  (forall c, 0 <= c < nchar -> at_ bl0 c = 0) ->
  exists bl, forZ 0 16 (fun t '(bitlen, sortIndex) =>
      k <- aget ln (16 - t) ;;
      forZ 0 k (fun _ '(bitlen, sortIndex) =>
        c <- aget code sortIndex ;;
        bitlen <- aset bitlen c (16 - t) ;;
        Ok (bitlen, sortIndex + 1)) (bitlen, sortIndex)) (bl0, 0) = Ok (bl, N) /\
    AI nchar bl0 code bl N /\
    (forall j, 1 <= j <= 16 -> cnt nchar (at_ bl) j = at_ ln j).
Proof.
  intros Hn0 HLN HN Hc Hr Hinj Hz.
  assert (TS : tailsum (at_ ln) 16 = N).
  { rewrite tailsum_total by apply (LN_0 _ _ HLN). apply (LN_T _ _ HLN). }
  set (Inv := fun t '(bl, idx) => idx = tailsum (at_ ln) t /\ AI nchar bl0 code bl idx /\
     (forall j, 1 <= j <= 16 -> cnt nchar (at_ bl) j = if 16 - t <? j then at_ ln j else 0)).
  edestruct (forZ_inv Inv) as [[bl idx] [E H]].
  4:{ rewrite E. unfold Inv in H. destruct H as [-> [H1 H2]]. rewrite TS in *. exists bl.
      split; [reflexivity|]. split; [exact H1|]. intros j Hj. rewrite H2 by lia.
      destruct (Z.ltb_spec (16 - 16) j); [reflexivity|lia]. }
  - lia.
  - intros t [bl idx] Ht [I1 [I2 I3]]. rewrite aget_ok by (rewrite (LN_len _ _ HLN); lia). cbn [bind].
    set (i := 16 - t). pose proof (LN_nn _ _ HLN i ltac:(lia)) as Hi.
    assert (T1 : tailsum (at_ ln) (t + 1) <= N).
    { rewrite <- TS. apply tailsum_mono; try lia. apply (LN_nn _ _ HLN). }
    rewrite tailsum_S in T1 by lia. fold i in T1.
    edestruct (forZ_inv (fun m '(bl, idx) => idx = tailsum (at_ ln) t + m /\ AI nchar bl0 code bl idx /\
      (forall j, 1 <= j <= 16 -> cnt nchar (at_ bl) j = if i <? j then at_ ln j else if j =? i then m else 0)))
      as [[bl1 idx1] [E1 H1]]; [exact Hi| | |].
    3:{ rewrite E1. eexists. split; [reflexivity|]. destruct H1 as [H1 [H2 H3]]. unfold Inv.
        rewrite tailsum_S by lia. fold i. split; [exact H1|]. split; [exact H2|].
        intros j Hj. rewrite H3 by lia. 
        destruct (Z.ltb_spec i j), (Z.ltb_spec (16 - (t + 1)) j), (Z.eqb_spec j i) as [->|]; auto; lia. }
    + intros m [b x] Hm [J1 [J2 J3]].
      destruct (assign_step nchar bl0 code b x N i J2 ltac:(lia) ltac:(lia) ltac:(lia) ltac:(lia) Hr Hinj)
        as [b' [E' [K1 K2]]].
      exists (b', x + 1). split; [exact E'|]. split; [lia|]. split; [exact K1|].
      intros j Hj. rewrite K2, J3 by lia. destruct (Z.ltb_spec i j), (Z.eqb_spec j i); lia.
    + split; [lia|]. split; [exact I2|]. intros j Hj. rewrite I3 by lia. fold i.
      destruct (i <? j), (j =? i); reflexivity.
  - unfold Inv. split; [reflexivity|]. split.
    + constructor; auto; lia.
    + intros j Hj. destruct (Z.ltb_spec (16 - 0) j); [lia|]. unfold cnt. apply sumn_0.
      intros k Hk. rewrite Hz by lia. destruct (Z.eqb_spec 0 j); lia.
Qed.

Lemma makeLen_cum ln : alen ln = 17 ->
  forZ 0 16 (fun t cum =>
    v <- aget ln (16 - t) ;;
    Ok (cum + Z.shiftl v (16 - (16 - t)))) 0 = Ok (lnK (at_ ln) - at_ ln 0 * 65536).
Proof.
  intros Hl.
  destruct (forZ_inv (fun t cum => cum = sumn (Z.to_nat t) (fun k => at_ ln (16 - k) * 2 ^ (16 - (16 - k))))
    (fun t cum => v <- aget ln (16 - t) ;; Ok (cum + Z.shiftl v (16 - (16 - t)))) 0 16 0) as [c [E H]].
  - lia.
  - intros i s Hi ->. rewrite aget_ok by lia. cbn [bind]. eexists. split; [reflexivity|].
    replace (Z.to_nat (i + 1)) with (S (Z.to_nat i)) by lia. rewrite sumn_S, Z2Nat.id by lia.
    rewrite shiftl_mul by lia. reflexivity.
  - reflexivity.
  - rewrite E, H. f_equal. unfold lnK. rewrite (sumn_rev 17). change (Z.to_nat 16) with 16%nat.
    rewrite (sumn_S 16 (fun k => at_ ln (Z.of_nat 17 - 1 - k) * 2 ^ (16 - (Z.of_nat 17 - 1 - k)))).
    rewrite (sumn_ext 16 (fun k => at_ ln (Z.of_nat 17 - 1 - k) * 2 ^ (16 - (Z.of_nat 17 - 1 - k)))
               (fun k => at_ ln (16 - k) * 2 ^ (16 - (16 - k)))) by (intros; do 2 f_equal).
    change (Z.of_nat 17 - 1 - Z.of_nat 16) with 0. change (2 ^ (16 - 0)) with 65536. lia.
Qed.

Lemma makeLen_ok nchar bl0 code ln t N :
  0 <= nchar <= 510 -> alen ln = 17 ->
  (forall j, 0 <= j <= 16 -> at_ ln j = lc t 0 j) -> lc t 0 0 = 0 -> zlen (leaves t) = N ->
  N <= nchar <= alen bl0 -> N <= alen code ->
  (forall p, 0 <= p < N -> 0 <= at_ code p < nchar) ->
  (forall p q, 0 <= p < N -> 0 <= q < N -> at_ code p = at_ code q -> p = q) ->
  (forall c, 0 <= c < nchar -> at_ bl0 c = 0) ->
  exists bl ln', makeLen bl0 code ln = Ok (bl, ln') /\
    AI nchar bl0 code bl N /\ LN ln' N /\
    (forall j, 1 <= j <= 16 -> cnt nchar (at_ bl) j = at_ ln' j).
Proof.
  intros Hn Hl Hlc Hlc0 HNt HN Hc Hr Hinj Hz. unfold makeLen.
  rewrite (makeLen_cum ln Hl). cbn [bind].
  assert (K : lnK (at_ ln) = cks t 0).
  { rewrite <- cks_sum by lia. unfold lnK. apply sumn_ext. intros. rewrite Hlc by lia. reflexivity. }
  assert (T : lnT (at_ ln) = N).
  { rewrite <- HNt, <- (lc_total t 0) by lia. apply sumn_ext. intros. apply Hlc. lia. }
  destruct (cks_excess t 0 ltac:(lia)) as [e [Ee He]]. change (2 ^ (16 - 0)) with 65536 in Ee.
  pose proof (lc_le t 0 16) as Le. rewrite HNt in Le.
  rewrite (Hlc 0), Hlc0 by lia.
  assert (Ecum : Z.land (lnK (at_ ln) - 0 * 65536) 65535 = e).
  { rewrite K, Ee. change 65535 with (Z.ones 16). rewrite Z.land_ones by lia.
    replace (65536 + e - 0 * 65536) with (e + 1 * 2 ^ 16) by lia. rewrite Z.mod_add by lia.
    apply Z.mod_small. lia. }
  rewrite Ecum.
  assert (Fix : exists ln', (if e =? 0 then Ok ln
     else
       v <- aget ln 16 ;;
       leafNum <- aset ln 16 (u16 (v - u16 e)) ;;
       forZ 0 e (fun _ leafNum => split_leaf leafNum) leafNum) = Ok ln' /\ LN ln' N).
  { destruct (Z.eqb_spec e 0) as [E0|E0].
    - exists ln. split; [reflexivity|]. constructor; auto.
      + intros. rewrite Hlc by lia. apply lc_nonneg.
      + rewrite Hlc; lia.
      + lia.
    - rewrite aget_ok by lia. cbn [bind]. rewrite aset_ok by lia. cbn [bind].
      rewrite (u16_id e) by lia. rewrite (Hlc 16) by lia. rewrite u16_id by lia.
      set (ln1 := upd ln 16 (lc t 0 16 - e)).
      assert (H1 : LN ln1 (N - e)).
      { assert (At : forall j, 0 <= j -> at_ ln1 j = if j =? 16 then lc t 0 16 - e else at_ ln j).
        { intros j Hj. unfold ln1. now rewrite at_upd by lia. }
        constructor.
        - unfold ln1. now rewrite alen_upd.
        - intros j Hj. rewrite At by lia. destruct (Z.eqb_spec j 16); [lia|]. rewrite Hlc by lia. apply lc_nonneg.
        - rewrite At by lia. change (0 =? 16) with false. cbv iota. rewrite Hlc by lia. exact Hlc0.
        - unfold lnK. rewrite (sumn_upd 17 (fun j => at_ ln j * 2 ^ (16 - j)) _ 16).
          + unfold lnK in K. rewrite K, Ee. rewrite At by lia. rewrite Z.eqb_refl, (Hlc 16) by lia.
            change (2 ^ (16 - 16)) with 1. lia.
          + lia.
          + intros k Hk Nk. rewrite At by lia. destruct (Z.eqb_spec k 16); [lia|reflexivity].
        - unfold lnT. rewrite (sumn_upd 17 (at_ ln) _ 16).
          + unfold lnT in T. rewrite T. rewrite At by lia. rewrite Z.eqb_refl, (Hlc 16) by lia. lia.
          + lia.
          + intros k Hk Nk. rewrite At by lia. destruct (Z.eqb_spec k 16); [lia|reflexivity]. }
      destruct (forZ_inv (fun m l => LN l (N - e + m)) (fun _ l => split_leaf l) 0 e ln1) as [ln' [E' H']].
      + lia.
      + intros m l Hm HL. destruct (split_leaf_ok l _ HL ltac:(lia)) as [l' [El Hl']].
        exists l'. split; [exact El|]. replace (N - e + (m + 1)) with (N - e + m + 1) by lia. exact Hl'.
      + replace (N - e + 0) with (N - e) by lia. exact H1.
      + exists ln'. split; [exact E'|]. replace N with (N - e + e) by lia. exact H'. }
  destruct Fix as [ln' [Ef HLN]]. rewrite Ef. cbn [bind].
  destruct (makeLen_assign nchar bl0 code ln' N ltac:(lia) HLN HN Hc Hr Hinj Hz) as [bl [Ea [Ha1 Ha2]]].
  cbn zeta. rewrite Ea. cbn [bind]. exists bl, ln'. auto.
Qed.

(** ** Codes *)

Definition base (n : Z) (len : Z -> Z) (i : Z) : Z :=
  sumn (Z.to_nat n) (fun k => if len k <? i then weight (len k) else 0).

Lemma base_S n len i : 1 <= i -> base n len (i + 1) = base n len i + 2 ^ (16 - i) * cnt n len i.
Proof.
  intros Hi. unfold base, cnt. rewrite <- sumn_scale, <- sumn_add. apply sumn_ext. intros k Hk.
  unfold weight. destruct (Z.ltb_spec (len k) (i + 1)), (Z.ltb_spec (len k) i), (Z.eqb_spec (len k) i) as [E|]; try lia.
  rewrite E. destruct (Z.eqb_spec i 0); lia.
Qed.

Lemma base_1 n len : lengths_ok n len -> 0 <= n -> base n len 1 = 0.
Proof.
  intros H Hn. apply sumn_0. intros k Hk. specialize (H k ltac:(lia)).
  destruct (Z.ltb_spec (len k) 1); auto. replace (len k) with 0 by lia. reflexivity.
Qed.

Lemma base_17 n len : lengths_ok n len -> 0 <= n -> base n len 17 = kraft n len.
Proof.
  intros H Hn. apply sumn_ext. intros k Hk. specialize (H k ltac:(lia)).
  destruct (Z.ltb_spec (len k) 17); auto; lia.
Qed.

Lemma kraft_of_counts n len (ln : Z -> Z) : lengths_ok n len -> 0 <= n ->
  (forall j, 1 <= j <= 16 -> cnt n len j = ln j) -> ln 0 = 0 -> lnK ln = kraft n len.
Proof.
  intros H Hn Hc H0. rewrite <- base_17 by auto.
  assert (G : forall m : nat, (m <= 16)%nat ->
     base n len (Z.of_nat m + 1) = sumn (S m) (fun j => ln j * 2 ^ (16 - j))).
  { induction m as [|m IH]; intros Hm.
    - cbn [sumn]. change (Z.of_nat 0 + 1) with 1. change (Z.of_nat 0) with 0. rewrite H0, base_1 by auto. reflexivity.
    - replace (Z.of_nat (S m) + 1) with (Z.of_nat m + 1 + 1) by lia. rewrite base_S by lia. rewrite IH by lia.
      rewrite (sumn_S (S m)). rewrite Hc by lia. replace (Z.of_nat (S m)) with (Z.of_nat m + 1) by lia. lia. }
  symmetry. exact (G 16%nat ltac:(lia)).
Qed.

Lemma canon_base n len c : 0 <= c < n -> len c <> 0 ->
  canon n len c = base n len (len c) + weight (len c) * sumn (Z.to_nat c) (fun k => if len k =? len c then 1 else 0).
Proof.
  intros Hc Hl. unfold canon, base.
  rewrite <- sumn_scale.
  replace (Z.to_nat n) with (Z.to_nat c + Z.to_nat (n - c))%nat by lia.
  rewrite !sumn_split.
  rewrite (sumn_ext (Z.to_nat c) (fun k => if before len k c then weight (len k) else 0)
     (fun k => (if len k <? len c then weight (len k) else 0) + weight (len c) * (if len k =? len c then 1 else 0))).
  - rewrite sumn_add.
    rewrite (sumn_ext (Z.to_nat (n - c)) (fun k => if before len (k + Z.of_nat (Z.to_nat c)) c then weight (len (k + Z.of_nat (Z.to_nat c))) else 0)
      (fun k => if len (k + Z.of_nat (Z.to_nat c)) <? len c then weight (len (k + Z.of_nat (Z.to_nat c))) else 0)).
    + lia.
    + intros k Hk. unfold before. destruct (Z.ltb_spec (k + Z.of_nat (Z.to_nat c)) c); [lia|].
      now rewrite andb_false_r, orb_false_r.
  - intros k Hk. unfold before. destruct (Z.ltb_spec k c); [|lia]. rewrite andb_true_r.
    destruct (Z.ltb_spec (len k) (len c)), (Z.eqb_spec (len k) (len c)) as [E|]; cbn [orb]; try lia. rewrite E. lia.
Qed.

Lemma makeCode_ok nchar bitlen code ln :
  0 <= nchar <= alen bitlen -> nchar <= alen code -> alen ln = 17 ->
  lengths_ok nchar (at_ bitlen) -> kraft nchar (at_ bitlen) <= 65536 ->
  (forall j, 1 <= j <= 16 -> cnt nchar (at_ bitlen) j = at_ ln j) ->
  exists code', makeCode nchar bitlen code ln = Ok code' /\ alen code' = alen code /\
    (forall c, nchar <= c -> at_ code' c = at_ code c) /\
    (forall c, 0 <= c < nchar -> at_ code' c =
       if at_ bitlen c =? 0 then 0 else canon nchar (at_ bitlen) c).
Proof.
  intros Hb Hc Hl Hok Hk Hcnt. unfold makeCode. set (len := at_ bitlen) in *.
  set (I1 := fun i '(start, weight, total) => alen start = 17 /\ alen weight = 17 /\
     total = u16 (base nchar len i) /\ at_ start 0 = 0 /\ at_ weight 0 = 0 /\
     (forall j, 1 <= j < i -> at_ start j = u16 (base nchar len j) /\ at_ weight j = 2 ^ (16 - j))).
  edestruct (forZ_inv I1) as [[[start wt] total] [E1 H1]].
  4:{ rewrite E1. cbn [bind]. destruct H1 as [A1 [A2 [_ [A3 [A4 A5]]]]].
    set (I2 := fun c '(st, cd) => alen st = 17 /\ alen cd = alen code /\ at_ st 0 = 0 /\
       (forall j, 1 <= j <= 16 -> at_ st j = u16 (base nchar len j + 2 ^ (16 - j) * sumn (Z.to_nat c) (fun k => if len k =? j then 1 else 0))) /\
       (forall k, nchar <= k -> at_ cd k = at_ code k) /\
       (forall k, 0 <= k < c -> at_ cd k = if len k =? 0 then 0 else canon nchar len k)).
    edestruct (forZ_inv I2) as [[st cd] [E2 H2]].
    4:{ rewrite E2. cbn [bind]. exists cd. destruct H2 as [_ [B2 [_ [_ [B5 B6]]]]]. auto. }
    - lia.
    - intros c [st cd] Hc' [B1 [B2 [B3 [B4 [B5 B6]]]]].
      rewrite aget_ok by lia. cbn [bind]. fold len. fold (len c). pose proof (Hok c ltac:(lia)) as HL.
      rewrite aget_ok by lia. cbn [bind]. rewrite aset_ok by lia. cbn [bind].
      rewrite aget_ok by lia. cbn [bind]. rewrite aset_ok by lia. cbn [bind].
      eexists. split; [reflexivity|]. unfold I2. rewrite !alen_upd.
      split; [exact B1|]. split; [exact B2|].
      assert (CS : forall j, sumn (Z.to_nat (c + 1)) (fun k => if len k =? j then 1 else 0) =
          sumn (Z.to_nat c) (fun k => if len k =? j then 1 else 0) + (if len c =? j then 1 else 0)).
      { intros j. replace (Z.to_nat (c + 1)) with (S (Z.to_nat c)) by lia. rewrite sumn_S, Z2Nat.id by lia. reflexivity. }
      split; [|split; [|split]].
      + rewrite at_upd by lia. destruct (Z.eqb_spec 0 (len c)) as [E|]; [|exact B3]. rewrite <- E, A4, B3. reflexivity.
      + intros j Hj. rewrite CS. rewrite at_upd by lia. rewrite (Z.eqb_sym (len c) j).
        destruct (Z.eqb_spec j (len c)) as [E|].
        * rewrite <- E. rewrite B4 by lia. rewrite (proj2 (A5 j ltac:(lia))).
          unfold u16. rewrite Z.add_mod_idemp_l by lia. f_equal. lia.
        * rewrite B4 by lia. do 2 f_equal. lia.
      + intros k Hk'. rewrite at_upd_ne by lia. auto.
      + intros k Hk'. rewrite at_upd by lia. destruct (Z.eqb_spec k c) as [->|]; [|apply B6; lia].
        destruct (Z.eqb_spec (len c) 0) as [E|E]; [now rewrite E, B3|].
        rewrite B4 by lia. rewrite <- (proj1 (weight_pos (len c) ltac:(lia))).
        rewrite <- canon_base by lia. apply u16_id. apply canon_range; auto; lia.
    - unfold I2. split; [exact A1|]. split; [reflexivity|]. split; [exact A3|]. split; [|split; [auto|intros; lia]].
      intros j Hj. rewrite (proj1 (A5 j ltac:(lia))). change (Z.to_nat 0) with 0%nat. cbn [sumn]. f_equal. lia. }
  - lia.
  - intros i [[start wt] total] Hi [A1 [A2 [A0 [A3 [A4 A5]]]]].
    rewrite aset_ok by lia. cbn [bind]. rewrite aset_ok by lia. cbn [bind]. rewrite aget_ok by lia. cbn [bind].
    rewrite shiftl_mul by lia. rewrite Z.mul_1_l.
    eexists. split; [reflexivity|]. unfold I1. rewrite !alen_upd.
    split; [exact A1|]. split; [exact A2|]. split; [|split; [|split]].
    + rewrite base_S by lia. rewrite Hcnt by lia. rewrite A0. unfold u16. rewrite <- Z.add_mod by lia. reflexivity.
    + rewrite at_upd_ne by lia. exact A3.
    + rewrite at_upd_ne by lia. exact A4.
    + intros j Hj. rewrite !at_upd by lia. destruct (Z.eqb_spec j i) as [->|]; [auto|]. apply A5. lia.
  - unfold I1. split; [reflexivity|]. split; [reflexivity|]. rewrite base_1 by (auto; lia).
    split; [reflexivity|]. rewrite !at_amake. split; [reflexivity|]. split; [reflexivity|]. intros; lia.
Qed.

(** ** The whole construction *)

Lemma buildheap_ok heap k freq : 1 <= k <= 510 -> alen heap = 511 ->
  (forall v, In v (hl heap k) -> 0 <= v < alen freq) -> alen freq <= 32767 ->
  exists heap', forZ 0 (k / 2) (fun t heap => downheap (k / 2 - t) heap k freq) heap = Ok heap' /\
    alen heap' = 511 /\ Permutation (hl heap' k) (hl heap k).
Proof.
  intros Hk Hl Hv Hf.
  pose proof (Z.div_mod k 2 ltac:(lia)). pose proof (Z.mod_pos_bound k 2 ltac:(lia)).
  apply (forZ_inv (fun _ h => alen h = 511 /\ Permutation (hl h k) (hl heap k))).
  - lia.
  - intros i h Hi [A P].
    destruct (downheap_ok (k / 2 - i) h k freq) as [h' [E [A' [P' _]]]]; try lia.
    { intros v Hin. replace (Z.max k 1) with k in Hin by lia. apply Hv. eapply Permutation_in; eauto. }
    exists h'. split; [exact E|]. split; [exact A'|].
    eapply Permutation_trans; [apply P'; lia|exact P].
  - split; auto.
Qed.

Lemma slice_NoDup_inj a n p q : NoDup (slice_list a 0 n) ->
  0 <= p < Z.of_nat n -> 0 <= q < Z.of_nat n -> at_ a p = at_ a q -> p = q.
Proof.
  intros ND Hp Hq E.
  apply Nat2Z.inj_iff in E || idtac.
  assert (Z.to_nat p = Z.to_nat q); [|lia].
  apply (NoDup_nth (slice_list a 0 n) 0) with (i := Z.to_nat p) (j := Z.to_nat q); auto.
  - rewrite slice_list_length. lia.
  - rewrite slice_list_length. lia.
  - rewrite !nth_slice_list by lia. replace (0 + Z.of_nat (Z.to_nat p)) with p by lia.
    replace (0 + Z.of_nat (Z.to_nat q)) with q by lia. exact E.
Qed.

Lemma slice_In a n p : 0 <= p < Z.of_nat n -> In (at_ a p) (slice_list a 0 n).
Proof.
  intros H. replace (at_ a p) with (nth (Z.to_nat p) (slice_list a 0 n) 0).
  - apply nth_In. rewrite slice_list_length. lia.
  - rewrite nth_slice_list by lia. f_equal. lia.
Qed.

Lemma In_slice a n x : In x (slice_list a 0 n) -> exists p, 0 <= p < Z.of_nat n /\ at_ a p = x.
Proof.
  intros H. apply (In_nth _ _ 0) in H. destruct H as [i [Hi E]]. rewrite slice_list_length in Hi.
  rewrite nth_slice_list in E by lia. exists (Z.of_nat i). split; [lia|]. rewrite <- E. f_equal.
Qed.

(** What [makeTree] produces. *)
Record tree_spec (nchar : Z) (freq bitlen code left right : arr) (r : mtres) : Prop := {
  ts_freql : alen (r_freq r) = alen freq;
  ts_bitl : alen (r_bitlen r) = alen bitlen;
  ts_codel : alen (r_code r) = alen code;
  ts_leftl : alen (r_left r) = alen left;
  ts_rightl : alen (r_right r) = alen right;
  ts_freq : forall c, 0 <= c < nchar -> at_ (r_freq r) c = at_ freq c;
  ts_bit : forall c, nchar <= c -> at_ (r_bitlen r) c = at_ bitlen c;
  ts_small : zlen (used nchar freq) < 2 ->
     0 <= r_root r < nchar /\ (forall c, 0 <= c < nchar -> at_ (r_bitlen r) c = 0) /\
     (forall c, used nchar freq = [c] -> r_root r = c) /\
     at_ (r_code r) (r_root r) = 0;
  ts_big : 2 <= zlen (used nchar freq) ->
     nchar <= r_root r < 2 * nchar - 1 /\
     at_ (r_freq r) (r_root r) = u16 (sumf (at_ freq) (used nchar freq)) /\
     (forall c, 0 <= c < nchar -> (at_ freq c <> 0 -> 1 <= at_ (r_bitlen r) c <= 16) /\
                                 (at_ freq c = 0 -> at_ (r_bitlen r) c = 0)) /\
     kraft nchar (at_ (r_bitlen r)) = 65536 /\
     (forall c, 0 <= c < nchar -> at_ freq c <> 0 ->
        at_ (r_code r) c = canon nchar (at_ (r_bitlen r)) c) }.

Theorem makeTree_ok nchar freq bitlen code left right :
  1 <= nchar <= 510 -> nchar <= alen bitlen -> nchar <= alen code ->
  2 * nchar - 1 <= alen freq <= 32767 ->
  2 * nchar - 1 <= alen left -> 2 * nchar - 1 <= alen right ->
  (forall c, 0 <= c < nchar -> 0 <= at_ freq c < 65536) ->
  exists r, makeTree nchar freq bitlen code left right = Ok r /\
    tree_spec nchar freq bitlen code left right r.
Proof.
  intros Hn Hb Hc Hf Hl Hr Hfr. unfold makeTree.
  destruct (mt_collect_ok nchar freq bitlen ltac:(lia) ltac:(lia) ltac:(lia))
    as [heap [bl [E [A1 [A2 [A3 [A4 A5]]]]]]].
  rewrite E. cbn [bind]. clear E. set (u := used nchar freq) in *. set (N := zlen u) in *.
  pose proof (used_length nchar freq ltac:(lia)) as UL. fold u N in UL.
  pose proof (zlen_nonneg u) as UN. fold N in UN.
  assert (Uin : forall c, In c u -> 0 <= c < nchar) by (intros c H; apply used_In in H; lia).
  destruct (Z.ltb_spec N 2) as [L|L].
  - rewrite aget_ok by lia. cbn [bind].
    assert (HR : 0 <= at_ heap 1 < nchar).
    { destruct (Z.eq_dec N 0) as [Z0|Z0]; [rewrite A3 by exact Z0; lia|].
      apply Uin. rewrite <- A2. apply hl_In. lia. }
    rewrite aset_ok by lia. cbn [bind]. eexists. split; [reflexivity|].
    constructor; cbn [r_freq r_bitlen r_code r_left r_right r_root]; rewrite ?alen_upd; auto.
    + intros c Hc'. rewrite A5 by lia. destruct (Z.ltb_spec c nchar); auto; lia.
    + intros _. split; [exact HR|]. split; [|split].
      * intros c Hc'. rewrite A5 by lia. destruct (Z.ltb_spec c nchar); auto; lia.
      * intros c Ec. fold u in Ec. assert (N1 : N = 1) by (unfold N; rewrite Ec; reflexivity).
        rewrite N1, Ec in A2. change (hl heap 1) with [at_ heap 1] in A2. congruence.
      * apply at_upd_eq.
    + intros. fold u N in H. lia.
  - assert (HeapV : forall v, In v (hl heap N) -> 0 <= v < alen freq).
    { intros v Hv. rewrite A2 in Hv. apply Uin in Hv. lia. }
    destruct (buildheap_ok heap N freq ltac:(lia) A1 HeapV ltac:(lia)) as [heap1 [E1 [B1 B2]]].
    rewrite E1. cbn [bind]. clear E1. rewrite A2 in B2.
    set (s0 := MT heap1 N code 0 nchar freq left right).
    assert (M0 : MI nchar freq code left right s0).
    { constructor; cbn [s0 mt_heap mt_heapsize mt_code mt_sort mt_avail mt_freq mt_left mt_right]; auto; try lia.
      - fold u N. lia.
      - exists (map (fun c => (c, Lf c)) u). split; [|split].
        + rewrite map_map. cbn [fst]. rewrite map_id. apply Permutation_sym. exact B2.
        + apply Forall_forall. intros [m t] Hin. apply in_map_iff in Hin. destruct Hin as [c [E Hin]].
          injection E as <- <-. apply Uin in Hin. split; [lia|]. split; [constructor; lia|].
          cbn [leaves sumf fold_right]. rewrite Z.add_0_r. symmetry. apply u16_id. apply Hfr. lia.
        + fold u. replace (flat_map (fun p : Z * tree => leaves (snd p)) (map (fun c => (c, Lf c)) u)) with u; [apply Permutation_refl|].
          clear. induction u; cbn [map flat_map snd leaves app]; congruence.
      - cbn [Z.to_nat slice_list app]. fold u.
        eapply Permutation_trans; [apply filter_perm, B2|].
        replace (filter (fun c => c <? nchar) u) with u; [apply Permutation_refl|].
        clear -Uin. induction u as [|x u IH]; [reflexivity|]. cbn [filter].
        destruct (Z.ltb_spec x nchar).
        + f_equal. apply IH. intros. apply Uin. now right.
        + specialize (Uin x (or_introl eq_refl)). lia. }
    edestruct (loop_wf (fun s => MI nchar freq code left right s /\ 2 <= mt_heapsize s)
       (fun s => MI nchar freq code left right s /\ mt_heapsize s = 1 /\
          In (mt_avail s - 1) (hl (mt_heap s) 1) /\ nchar < mt_avail s)
       (fun s => mt_heapsize s) (N + 1) (mt_step nchar) s0) as [s [E2 [MS [K1 [RT RV]]]]].
    { intros s [M K]. destruct (mt_step_ok nchar freq code left right s) as [s' [E [M' [K' [t [T1 T2]]]]]]; auto.
      eexists. split; [exact E|]. destruct (Z.leb_spec (mt_heapsize s') 1) as [LE|LE].
      - pose proof (MI_size _ _ _ _ _ _ M'). assert (H1 : mt_heapsize s' = 1) by lia. rewrite H1 in T1.
        split; [exact M'|]. split; [exact H1|]. split; [exact T1|].
        pose proof (MI_av _ _ _ _ _ _ M). pose proof (MI_avail _ _ _ _ _ _ M). pose proof (MI_avail _ _ _ _ _ _ M'). lia.
      - split; [split; [exact M'|lia]|lia]. }
    { split; [exact M0|]. cbn. lia. }
    { cbn [s0 mt_heapsize]. lia. }
    rewrite E2. cbn [bind]. clear E2.
    destruct MS as [S1 S2 S3 S3' S4 S5 S6 S7 S8 S9 S10 S11 S12].
    destruct S9 as [LT [LP [LF LU]]]. rewrite K1 in *. fold u N in S3.
    assert (ROOT : hl (mt_heap s) 1 = [mt_avail s - 1]).
    { change (hl (mt_heap s) 1) with [at_ (mt_heap s) 1] in *. destruct RT as [->|[]]. reflexivity. }
    rewrite ROOT in *. set (root := mt_avail s - 1) in *.
    apply Permutation_sym, Permutation_length_1_inv in LP.
    destruct LT as [|[m t] [|? ?]]; try discriminate LP. injection LP as ->.
    pose proof (Forall_inv LF) as [Hroot [Rroot Froot]].
    cbn [flat_map snd] in LU. rewrite app_nil_r in LU. fold u in LU.
    cbn [filter] in S11. destruct (Z.ltb_spec root nchar); [lia|]. rewrite app_nil_r in S11. fold u in S11.
    assert (HNt : zlen (leaves t) = N).
    { unfold N, zlen. f_equal. now apply Permutation_length. }
    destruct (countLeaf_ok (mt_left s) (mt_right s) nchar t (Z.to_nat (root + 1)) root (amake 17) 0)
      as [ln [E3 [C1 C2]]]; auto; try lia.
    { intros j Hj. rewrite at_amake. lia. }
    rewrite E3. cbn [bind]. clear E3.
    assert (SL : mt_sort s = N).
    { apply Permutation_length in S11. rewrite slice_list_length in S11. unfold N, zlen. lia. }
    rewrite SL in S11.
    assert (ND : NoDup (slice_list (mt_code s) 0 (Z.to_nat N))).
    { eapply Permutation_NoDup; [apply Permutation_sym, S11|]. apply used_NoDup. }
    assert (PIN : forall p, 0 <= p < N -> In (at_ (mt_code s) p) u).
    { intros p Hp. eapply Permutation_in; [exact S11|]. apply slice_In. lia. }
    assert (NDt : exists a b, t = Nd a b).
    { inversion Rroot; subst; [lia|eauto]. }
    destruct (makeLen_ok nchar bl (mt_code s) ln t N) as [bl2 [ln2 [E4 [D1 [D2 D3]]]]]; auto; try lia.
    { intros j Hj. rewrite C2, at_amake by lia. lia. }
    { destruct NDt as [a [b ->]]. cbn [lc].
      assert (Z1 : forall x d, 1 <= d -> lc x d 0 = 0).
      { clear. induction x; intros d Hd; cbn [lc].
        - destruct (Z.eqb_spec 0 (Z.min d 16)); lia.
        - rewrite IHx1, IHx2 by lia. reflexivity. }
      rewrite !Z1 by lia. reflexivity. }
    { intros p q Hp Hq Epq. eapply slice_NoDup_inj; eauto; lia. }
    { intros c Hc'. rewrite A5 by lia. destruct (Z.ltb_spec c nchar); auto; lia. }
    rewrite E4. cbn [bind]. clear E4.
    destruct D1 as [F1 F2 F3 F4 F5].
    assert (LenU : forall c, 0 <= c < nchar -> (at_ freq c <> 0 -> 1 <= at_ bl2 c <= 16) /\ (at_ freq c = 0 -> at_ bl2 c = 0)).
    { intros c Hc'. split; intros H1.
      - assert (In c (slice_list (mt_code s) 0 (Z.to_nat N))).
        { eapply Permutation_in; [apply Permutation_sym, S11|]. apply used_In. auto. }
        apply In_slice in H0. destruct H0 as [p [Hp <-]]. apply F4. lia.
      - apply F5; auto. intros p Hp Ep. assert (In c u) by (rewrite <- Ep; apply PIN; lia).
        apply used_In in H0. tauto. }
    assert (LOK : lengths_ok nchar (at_ bl2)).
    { intros c Hc'. destruct (LenU c Hc'). destruct (Z.eq_dec (at_ freq c) 0); [rewrite H1; lia|specialize (H0 n); lia]. }
    assert (KR : kraft nchar (at_ bl2) = 65536).
    { rewrite <- (kraft_of_counts nchar (at_ bl2) (at_ ln2)); auto; try lia; [apply (LN_K _ _ D2)|apply (LN_0 _ _ D2)]. }
    destruct (makeCode_ok nchar bl2 (mt_code s) ln2) as [code2 [E5 [G1 [G2 G3]]]]; auto; try lia.
    { apply (LN_len _ _ D2). }
    rewrite E5. cbn [bind]. eexists. split; [reflexivity|].
    constructor; cbn [r_freq r_bitlen r_code r_left r_right r_root]; auto; try lia.
    + intros c Hc'. rewrite F3 by lia. rewrite A5 by lia. destruct (Z.ltb_spec c nchar); auto; lia.
    + intros H0. exfalso. fold u N in H0. lia.
    + intros _. split; [lia|]. split; [|split; [exact LenU|split; [exact KR|]]].
      * rewrite Froot. f_equal. apply sumf_perm. exact LU.
      * intros c Hc' H0. rewrite G3 by lia. destruct (LenU c Hc') as [Hu _]. specialize (Hu H0).
        destruct (Z.eqb_spec (at_ bl2 c) 0); [lia|reflexivity].
Qed.
