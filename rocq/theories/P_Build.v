(** The trees built from leaves by S_Lh1.v are well formed. *)
From Coq Require Import Permutation Sorted.
From Verif Require Import Go GoLemmas S_Bits S_Huff S_Lz S_Lh1 P_Tree.

Definition d0 : Z * what := (0, Leaf 0).
Definition le1 (x y : Z * what) : Prop := fst x <= fst y.
Definition is_fork (x : Z * what) : bool := negb (is_leaf x).

Lemma SS_app {A} (R : A -> A -> Prop) a : forall b, StronglySorted R (a ++ b) <->
  StronglySorted R a /\ StronglySorted R b /\ (forall x y, In x a -> In y b -> R x y).
Proof.
  induction a as [|x a IH]; intros b; cbn [app].
  - split; [intros H; split; [constructor|split; [exact H|intros x y []]]|tauto].
  - split.
    + intros H. inversion H as [|? ? H1 H2]; subst. apply IH in H1. destruct H1 as [A1 [A2 A3]]. apply Forall_app in H2. destruct H2 as [B1 B2].
      split; [constructor; assumption|]. split; [exact A2|]. intros u y [->|U] Y; [exact (proj1 (Forall_forall _ _) B2 y Y)|auto].
    + intros [A1 [A2 A3]]. inversion A1 as [|? ? H1 H2]; subst. constructor.
      * apply IH. split; [exact H1|]. split; [exact A2|]. intros u y U Y. apply A3; [now right|exact Y].
      * apply Forall_app. split; [exact H2|]. apply Forall_forall. intros y Y. apply A3; [now left|exact Y].
Qed.

Lemma SS_nth l i j : StronglySorted le1 l -> (i <= j < length l)%nat -> fst (nth i l d0) <= fst (nth j l d0).
Proof.
  intros S. revert i j. induction S as [|x l S IH F]; intros i j H; [cbn in H; lia|]. cbn [length] in H.
  destruct i as [|i], j as [|j]; cbn [nth]; try lia.
  - apply (proj1 (Forall_forall _ _) F). apply nth_In. lia.
  - apply IH. lia.
Qed.

Lemma lighter_ok f : forall l lo hi, StronglySorted le1 l -> lighter f l = (lo, hi) ->
  l = lo ++ hi /\ (forall x, In x lo -> fst x <= f) /\ (forall x, In x hi -> f < fst x).
Proof.
  induction l as [|x l IH]; intros lo hi S E; cbn [lighter] in E.
  - injection E as <- <-. repeat split; intros ? [].
  - inversion S as [|? ? S1 F]; subst. destruct (Z.leb_spec (fst x) f).
    + destruct (lighter f l) as [a b]. injection E as <- <-. destruct (IH a b S1 eq_refl) as [A [B C]]. subst l.
      repeat split; auto. intros y [->|Y]; auto.
    + injection E as <- <-. split; [reflexivity|]. split; [intros ? []|]. intros y [->|Y]; [lia|]. pose proof (proj1 (Forall_forall _ _) F y Y) as Q. unfold le1 in Q. lia.
Qed.

Definition w (P : tree) (k : nat) : Z := fst (nth k P d0).

Record JI (n : nat) (last : Z) (L : tree) (t : nat) (P R : tree) : Prop := {
  ji_sort : StronglySorted le1 (P ++ R);
  ji_leaf : filter is_leaf (P ++ R) = L;
  ji_fork : map snd (filter is_fork (P ++ R)) = map (fun i => Fork (last - Z.of_nat i)) (List.seq 0 t);
  ji_R : forall x, In x R -> is_leaf x = true;
  ji_len : (length P + length R = n + t)%nat;
  ji_P : (t = 0%nat /\ P = []) \/ ((1 <= t)%nat /\ (2 * t + 1 <= length P)%nat /\ forall x, In x P -> fst x <= w P (2 * t - 2) + w P (2 * t - 1));
  ji_str : forall idx f m, (idx < length P)%nat -> nth idx P d0 = (f, Fork m) ->
    exists i, (i < t)%nat /\ m = last - Z.of_nat i /\ (2 * i + 2 <= idx)%nat /\ f = w P (2 * i) + w P (2 * i + 1);
  ji_pos : forall x, In x (P ++ R) -> 1 <= fst x
}.

Lemma filter_all {A} (f : A -> bool) l : (forall x, In x l -> f x = true) -> filter f l = l.
Proof. induction l; intros H; [reflexivity|]. cbn [filter]. rewrite H by (now left). f_equal. apply IHl. intros; apply H; now right. Qed.
Lemma filter_none {A} (f : A -> bool) l : (forall x, In x l -> f x = false) -> filter f l = [].
Proof. induction l; intros H; [reflexivity|]. cbn [filter]. rewrite H by (now left). apply IHl. intros; apply H; now right. Qed.

Lemma w_app P Q k : (k < length P)%nat -> w (P ++ Q) k = w P k.
Proof. intros. unfold w. now rewrite app_nth1. Qed.

Lemma join_step n last L t P R : (2 <= n)%nat -> (t + 2 <= n)%nat -> JI n last L t P R ->
  let need := (2 * t + 2 - length P)%nat in
  let P1 := P ++ firstn need R in
  let f := fst (nth (2 * t) P1 (0, Leaf 0)) + fst (nth (2 * t + 1) P1 (0, Leaf 0)) in
  (2 * t + 2 <= length P1)%nat /\ (length P1 <= n + t)%nat /\
  forall lo hi, lighter f (skipn need R) = (lo, hi) -> JI n last L (S t) (P1 ++ lo ++ [(f, Fork (last - Z.of_nat t))]) hi.
Proof.
  intros Hn Ht [S LE FO RL LEN PP ST PO]. cbv zeta. set (need := (2 * t + 2 - length P)%nat). set (P1 := P ++ firstn need R). set (R1 := skipn need R).
  assert (NR : (need <= length R)%nat) by lia.
  assert (L1 : (length P1 = length P + need)%nat) by (unfold P1; rewrite app_length, firstn_length; lia).
  assert (EQ : P ++ R = P1 ++ R1) by (unfold P1, R1; rewrite <- app_assoc, firstn_skipn; reflexivity).
  change (fst (nth (2 * t) P1 (0, Leaf 0))) with (w P1 (2 * t)). change (fst (nth (2 * t + 1) P1 (0, Leaf 0))) with (w P1 (2 * t + 1)).
  set (f := w P1 (2 * t) + w P1 (2 * t + 1)).
  split; [lia|]. split; [lia|]. intros lo hi E. rewrite EQ in *.
  apply SS_app in S. destruct S as [S1 [S2 S3]].
  destruct (lighter_ok f R1 lo hi S2 E) as [ER [Elo Ehi]].
  assert (RL1 : forall x, In x R1 -> is_leaf x = true) by (intros x X; apply RL; rewrite <- (firstn_skipn need R); apply in_or_app; now right).
  assert (P1in : forall k, (k < length P1)%nat -> 1 <= w P1 k) by (intros k K; apply PO; apply in_or_app; left; now apply nth_In).
  assert (BIG : forall x, In x P1 -> fst x <= f).
  { intros x X. destruct (Nat.eq_dec need 0) as [N0|N0].
    - assert (E1 : P1 = P) by (unfold P1; rewrite N0; cbn [firstn]; now rewrite app_nil_r).
      destruct PP as [[Z1 Z2]|[T1 [T2 T3]]]; [unfold need in N0; rewrite Z2 in N0; cbn [length] in N0; lia|]. rewrite <- E1 in T3. pose proof (T3 x X).
      pose proof (SS_nth P1 (2 * t - 2) (2 * t) S1 ltac:(lia)). pose proof (SS_nth P1 (2 * t - 1) (2 * t + 1) S1 ltac:(lia)). unfold f, w in *. lia.
    - destruct (In_nth _ _ d0 X) as [k [K1 K2]]. subst x. pose proof (SS_nth P1 k (2 * t + 1) S1 ltac:(lia)).
      pose proof (P1in (2 * t)%nat ltac:(lia)). unfold f, w in *. lia. }
  set (nf := (f, Fork (last - Z.of_nat t))).
  assert (SL : StronglySorted le1 lo /\ StronglySorted le1 hi /\ forall x y, In x lo -> In y hi -> le1 x y) by (rewrite ER in S2; now apply SS_app).
  destruct SL as [SL1 [SL2 SL3]].
  assert (EQ2 : forall g, filter g ((P1 ++ lo ++ [nf]) ++ hi) = filter g P1 ++ filter g lo ++ filter g [nf] ++ filter g hi) by (intros; rewrite !filter_app, <- !app_assoc; reflexivity).
  rewrite ER in LE, FO. rewrite !filter_app in LE, FO.
  constructor.
  - apply SS_app. split; [|split; [exact SL2|]].
    + apply SS_app. split; [exact S1|]. split.
      * apply SS_app. split; [exact SL1|]. split; [repeat constructor|]. intros x y X [<-|[]]. unfold le1, nf. cbn [fst]. now apply Elo.
      * intros x y X Y. apply in_app_or in Y. destruct Y as [Y|[<-|[]]]; [apply S3; [exact X|rewrite ER; apply in_or_app; now left]|unfold le1, nf; cbn [fst]; now apply BIG].
    + intros x y X Y. apply in_app_or in X. destruct X as [X|X]; [apply S3; [exact X|rewrite ER; apply in_or_app; now right]|].
      apply in_app_or in X. destruct X as [X|[<-|[]]]; [now apply SL3|]. unfold le1, nf. cbn [fst]. specialize (Ehi y Y). lia.
  - rewrite EQ2. exact LE.
  - rewrite EQ2. rewrite seq_S, (map_app _ (List.seq 0 t)), <- FO. rewrite !map_app.
    assert (H1 : filter is_fork lo = []) by (apply filter_none; intros x X; unfold is_fork; rewrite RL1 by (rewrite ER; apply in_or_app; now left); reflexivity).
    assert (H2 : filter is_fork hi = []) by (apply filter_none; intros x X; unfold is_fork; rewrite RL1 by (rewrite ER; apply in_or_app; now right); reflexivity).
    rewrite H1, H2. cbn [map app filter]. unfold is_fork at 2. unfold nf. cbn [is_leaf snd negb map]. now rewrite !app_nil_r.
  - intros x X. apply RL1. rewrite ER. apply in_or_app. now right.
  - rewrite !app_length. cbn [length]. assert (length R1 = length R - need)%nat by (unfold R1; rewrite skipn_length; reflexivity).
    assert (length R1 = length lo + length hi)%nat by (rewrite ER, app_length; reflexivity). lia.
  - right. split; [lia|]. split; [rewrite !app_length; cbn [length]; lia|].
    intros x X. replace (2 * S t - 2)%nat with (2 * t)%nat by lia. replace (2 * S t - 1)%nat with (2 * t + 1)%nat by lia. rewrite !w_app by lia. fold f.
    apply in_app_or in X. destruct X as [X|X]; [now apply BIG|]. apply in_app_or in X. destruct X as [X|[<-|[]]]; [now apply Elo|]. unfold nf. cbn [fst]. lia.
  - intros idx g m I H. rewrite !app_length in I. cbn [length] in I.
    destruct (Nat.lt_ge_cases idx (length P1)) as [I1|I1].
    + rewrite app_nth1 in H by lia.
      assert (I2 : (idx < length P)%nat).
      { destruct (Nat.lt_ge_cases idx (length P)); [assumption|]. exfalso. assert (X : In (nth idx P1 d0) (firstn need R)).
        { unfold P1. rewrite app_nth2 by lia. apply nth_In. rewrite firstn_length. lia. }
        rewrite H in X. assert (Y : In (g, Fork m) R) by (rewrite <- (firstn_skipn need R); apply in_or_app; now left). apply RL in Y. discriminate Y. }
      unfold P1 in H. rewrite app_nth1 in H by lia. destruct (ST idx g m I2 H) as [i [A [B [C D]]]].
      exists i. split; [lia|]. split; [exact B|]. split; [exact C|]. rewrite !w_app by lia. unfold P1. rewrite !w_app by lia. exact D.
    + rewrite app_nth2 in H by lia. destruct (Nat.lt_ge_cases (idx - length P1) (length lo)) as [I2|I2].
      * rewrite app_nth1 in H by lia. exfalso. assert (X : In (g, Fork m) R1) by (rewrite ER; apply in_or_app; left; rewrite <- H; apply nth_In; lia). apply RL1 in X. discriminate X.
      * rewrite app_nth2 in H by lia. replace (idx - length P1 - length lo)%nat with 0%nat in H by lia. cbn [nth] in H. injection H as <- <-.
        exists t. split; [lia|]. split; [reflexivity|]. split; [lia|]. rewrite !w_app by lia. reflexivity.
  - intros x X. apply in_app_or in X. destruct X as [X|X].
    + apply in_app_or in X. destruct X as [X|X]; [apply PO; apply in_or_app; now left|]. apply in_app_or in X. destruct X as [X|[<-|[]]].
      * apply PO. apply in_or_app. right. rewrite ER. apply in_or_app. now left.
      * unfold nf. cbn [fst]. pose proof (P1in (2 * t)%nat ltac:(lia)). pose proof (P1in (2 * t + 1)%nat ltac:(lia)). unfold f. lia.
    + apply PO. apply in_or_app. right. rewrite ER. apply in_or_app. now right.
Qed.

Lemma joins_ok n last L : (2 <= n)%nat -> forall k t P R, (k + t + 1 = n)%nat -> JI n last L t P R -> JI n last L (n - 1) (joins k last t R P) [].
Proof.
  intros Hn. induction k as [|k IH]; intros t P R K J.
  - cbn [joins]. replace (n - 1)%nat with t by lia. destruct (ji_P _ _ _ _ _ _ J) as [[-> ->]|[T1 [T2 T3]]]; [lia|].
    pose proof (ji_len _ _ _ _ _ _ J). destruct R as [|x R]; [exact J|]. cbn [length] in *. lia.
  - cbn [joins]. pose proof (join_step n last L t P R Hn ltac:(lia) J) as X. cbv zeta in X. destruct X as [_ [_ X]].
    destruct (lighter _ _) as [lo hi] eqn:E. apply IH; [lia|]. now apply X.
Qed.

Lemma map_nth_in {A B} (f : A -> B) l k a b : (k < length l)%nat -> nth k (map f l) b = f (nth k l a).
Proof. intros. rewrite nth_indep with (d' := f a) by (rewrite map_length; lia). apply map_nth. Qed.

Lemma NoDup_nth_map {A B} (f : A -> B) l a i j : NoDup (map f l) -> (i < length l)%nat -> (j < length l)%nat -> f (nth i l a) = f (nth j l a) -> i = j.
Proof.
  intros N I J E. rewrite <- (map_nth f l a i), <- (map_nth f l a j) in E.
  eapply NoDup_nth; eauto; rewrite map_length; lia.
Qed.

Lemma filter_split {A} (f : A -> bool) l : Permutation (filter f l ++ filter (fun x => negb (f x)) l) l.
Proof.
  induction l as [|x l IH]; [constructor|]. cbn [filter]. destruct (f x); cbn [negb app].
  - now constructor.
  - apply Permutation_sym, Permutation_cons_app, Permutation_sym. exact IH.
Qed.

Lemma NoDup_app_intro {A} (a b : list A) : NoDup a -> NoDup b -> (forall x, In x a -> ~ In x b) -> NoDup (a ++ b).
Proof.
  induction a as [|x a IH]; intros NA NB D; [exact NB|]. inversion NA as [|? ? N1 N2]; subst. cbn [app]. constructor.
  - intros H. apply in_app_or in H. destruct H as [H|H]; [now apply N1|]. apply (D x); [now left|exact H].
  - apply IH; auto. intros y Y. apply D. now right.
Qed.

(** The leaves: all symbols once, with positive weights, the heaviest first. *)
Record leaves_ok (n : nat) (leaves : tree) : Prop := {
  lv_len : length leaves = n;
  lv_sort : StronglySorted le1 (rev leaves);
  lv_leaf : forall x, In x leaves -> is_leaf x = true;
  lv_pos : forall x, In x leaves -> 1 <= fst x;
  lv_syms : Permutation (map snd leaves) (map (fun i => Leaf (Z.of_nat i)) (List.seq 0 n))
}.

Lemma build_ok n leaves : (2 <= n)%nat -> leaves_ok n leaves ->
  wf (Z.of_nat n) (build leaves) 0 /\ Permutation (filter is_leaf (build leaves)) leaves.
Proof.
  intros Hn [LL LS LF LP LY]. unfold build. rewrite LL. set (last := Z.of_nat n - 1).
  assert (J0 : JI n last (rev leaves) 0 [] (rev leaves)).
  { constructor; cbn [app length].
    - exact LS.
    - apply filter_all. intros x X. apply LF. now apply in_rev.
    - rewrite filter_none; [reflexivity|]. intros x X. unfold is_fork. rewrite LF by (now apply in_rev). reflexivity.
    - intros x X. apply LF. now apply in_rev.
    - rewrite rev_length. lia.
    - left. auto.
    - intros idx f m I. lia.
    - intros x X. apply LP. now apply in_rev. }
  apply (joins_ok n last (rev leaves) Hn (n - 1) 0) in J0; [|lia]. set (P := joins (n - 1) last 0 (rev leaves) []) in *.
  destruct J0 as [S LE FO RL LEN PP ST PO]. rewrite app_nil_r in *. cbn [length] in LEN.
  assert (LN : length P = (2 * n - 1)%nat) by lia.
  assert (ND : forall i, 0 <= i < 2 * Z.of_nat n - 1 -> node (rev P) i = nth (2 * n - 2 - Z.to_nat i) P d0).
  { intros i I. unfold node. fold d0. rewrite rev_nth by lia. rewrite LN. f_equal. lia. }
  assert (PM : Permutation (map snd P) (map (fun i => Leaf (Z.of_nat i)) (List.seq 0 n) ++ map (fun i => Fork (last - Z.of_nat i)) (List.seq 0 (n - 1)))).
  { rewrite <- (filter_split is_leaf P). rewrite map_app. apply Permutation_app.
    - rewrite LE. rewrite <- LY. apply Permutation_map. apply Permutation_sym, Permutation_rev.
    - rewrite <- FO. apply Permutation_refl. }
  assert (NDP : NoDup (map snd P)).
  { apply (Permutation_NoDup (Permutation_sym PM)). apply NoDup_app_intro.
    - apply FinFun.Injective_map_NoDup; [|apply seq_NoDup]. intros x y E. injection E as E. lia.
    - apply FinFun.Injective_map_NoDup; [|apply seq_NoDup]. intros x y E. injection E as E. lia.
    - intros x X Y. apply in_map_iff in X. destruct X as [a [<- _]]. apply in_map_iff in Y. destruct Y as [b [E _]]. discriminate E. }
  split.
  - constructor.
    + unfold zlen. rewrite rev_length. lia.
    + intros i j I J. unfold wt. rewrite !ND by lia. apply (SS_nth P); [exact S|]. lia.
    + intros i I. unfold wt. rewrite ND by lia. apply PO. apply nth_In. lia.
    + intros i s I E. unfold wh in E. rewrite ND in E by lia.
      assert (X : In (Leaf s) (map snd P)) by (rewrite <- E; apply in_map; apply nth_In; lia).
      apply (Permutation_in _ PM) in X. apply in_app_or in X. destruct X as [X|X]; apply in_map_iff in X; destruct X as [k [E2 K]]; [|discriminate E2].
      apply in_seq in K. injection E2 as <-. lia.
    + intros i m I E. unfold wh in E. rewrite ND in E by lia. destruct (nth (2 * n - 2 - Z.to_nat i) P d0) as [f x] eqn:Q. cbn [snd] in E. subst x.
      destruct (ST (2 * n - 2 - Z.to_nat i)%nat f m ltac:(lia) Q) as [k [K1 [K2 [K3 K4]]]]. unfold last in K2. split; [lia|]. split; [lia|].
      unfold wt. rewrite !ND by lia. rewrite Q. cbn [fst]. rewrite K4. unfold w, is.
      replace (2 * n - 2 - Z.to_nat (2 * m - 1))%nat with (2 * k + 1)%nat by lia. replace (2 * n - 2 - Z.to_nat (2 * m))%nat with (2 * k)%nat by lia. lia.
    + intros i j I J E. unfold wh in E. rewrite !ND in E by lia.
      assert (X : (2 * n - 2 - Z.to_nat i = 2 * n - 2 - Z.to_nat j)%nat) by (apply (NoDup_nth_map snd P d0); auto; lia). lia.
    + intros s H. assert (X : In (Leaf s) (map snd P)).
      { apply (Permutation_in _ (Permutation_sym PM)). apply in_or_app. left. apply in_map_iff. exists (Z.to_nat s). split; [f_equal; lia|apply in_seq; lia]. }
      apply in_map_iff in X. destruct X as [x [E X]]. destruct (In_nth _ _ d0 X) as [k [K1 K2]].
      exists (Z.of_nat (2 * n - 2 - k)). split; [lia|]. unfold wh. rewrite ND by lia. replace (2 * n - 2 - Z.to_nat (Z.of_nat (2 * n - 2 - k)))%nat with k by lia. rewrite K2. exact E.
    + intros m H. assert (X : In (Fork m) (map snd P)).
      { apply (Permutation_in _ (Permutation_sym PM)). apply in_or_app. right. apply in_map_iff. exists (Z.to_nat (last - m)). unfold last. split; [f_equal; lia|apply in_seq; lia]. }
      apply in_map_iff in X. destruct X as [x [E X]]. destruct (In_nth _ _ d0 X) as [k [K1 K2]].
      exists (Z.of_nat (2 * n - 2 - k)). split; [lia|]. unfold wh. rewrite ND by lia. replace (2 * n - 2 - Z.to_nat (Z.of_nat (2 * n - 2 - k)))%nat with k by lia. rewrite K2. exact E.
  - assert (FR : forall (g : Z * what -> bool) l, filter g (rev l) = rev (filter g l)).
    { intros g l. induction l as [|x l IH]; [reflexivity|]. cbn [rev filter]. rewrite filter_app, IH. cbn [filter]. destruct (g x); cbn [rev]; [reflexivity|apply app_nil_r]. }
    rewrite FR, LE, rev_involutive. apply Permutation_refl.
Qed.

(** ** The weight of the root is the sum of the weights of the leaves *)

Definition zsum (l : list Z) : Z := fold_right Z.add 0 l.
Lemma zsum_app a b : zsum (a ++ b) = zsum a + zsum b.
Proof. induction a; cbn [app zsum fold_right]; [reflexivity|]. fold (zsum (a0 ++ b)). fold (zsum a0). lia. Qed.
Lemma zsum_perm a b : Permutation a b -> zsum a = zsum b.
Proof. intros P. induction P; cbn [zsum fold_right] in *; unfold zsum in *; lia. Qed.

Lemma NoDup_map_filter {A B} (f : A -> B) g l : NoDup (map f l) -> NoDup (map f (filter g l)).
Proof.
  induction l as [|x l IH]; intros N; [constructor|]. cbn [map] in N. inversion N as [|? ? N1 N2]; subst. cbn [filter].
  destruct (g x); [|auto]. cbn [map]. constructor; [|auto]. intros H. apply N1. apply in_map_iff in H. destruct H as [y [E Y]]. apply filter_In in Y. rewrite <- E. apply in_map. tauto.
Qed.

Lemma wf_NoDup n t c : 1 <= n -> wf n t c -> NoDup (map snd t).
Proof.
  intros Hn W. pose proof (wf_len _ _ _ W) as L. unfold zlen in L. apply (proj2 (NoDup_nth (map snd t) (Leaf 0))). rewrite map_length. intros i j I J E.
  change (Leaf 0) with (snd d0) in E. rewrite !map_nth in E.
  assert (X : Z.of_nat i = Z.of_nat j); [|lia]. apply (wf_inj _ _ _ W); [lia|lia|]. unfold wh, node. rewrite !Nat2Z.id. exact E.
Qed.

Lemma in_node t x : In x t -> exists i, 0 <= i < zlen t /\ node t i = x.
Proof.
  intros X. destruct (In_nth _ _ d0 X) as [k [K1 K2]]. exists (Z.of_nat k). unfold zlen, node. rewrite Nat2Z.id. split; [lia|exact K2].
Qed.

Lemma node_in t i : 0 <= i < zlen t -> In (node t i) t.
Proof. intros I. unfold node, zlen in *. apply nth_In. lia. Qed.

Lemma wf_leaves n t c : wf (Z.of_nat n) t c -> (2 <= n)%nat -> Permutation (map snd (filter is_leaf t)) (map (fun i => Leaf (Z.of_nat i)) (List.seq 0 n)).
Proof.
  intros W Hn. pose proof (wf_len _ _ _ W) as L. apply NoDup_Permutation.
  - apply NoDup_map_filter. now apply (wf_NoDup (Z.of_nat n) t c); [lia|].
  - apply FinFun.Injective_map_NoDup; [|apply seq_NoDup]. intros x y E. injection E as E. lia.
  - intros x. split; intros H.
    + apply in_map_iff in H. destruct H as [y [E Y]]. apply filter_In in Y. destruct Y as [Y1 Y2]. destruct (in_node t y Y1) as [i [I1 I2]].
      destruct y as [f [s|m]]; [|discriminate Y2]. cbn [snd] in E. subst x. apply in_map_iff. exists (Z.to_nat s).
      pose proof (wf_leaf _ _ _ W i s ltac:(lia) ltac:(unfold wh; rewrite I2; reflexivity)). split; [f_equal; lia|apply in_seq; lia].
    + apply in_map_iff in H. destruct H as [k [<- K]]. apply in_seq in K. destruct (wf_hasleaf _ _ _ W (Z.of_nat k) ltac:(lia)) as [i [I E]].
      apply in_map_iff. exists (node t i). split; [exact E|]. apply filter_In. split; [apply node_in; lia|]. unfold is_leaf. unfold wh in E. now rewrite E.
Qed.

Lemma wf_forks n t c : wf (Z.of_nat n) t c -> (2 <= n)%nat -> Permutation (map snd (filter is_fork t)) (map (fun i => Fork (Z.of_nat i)) (List.seq 1 (n - 1))).
Proof.
  intros W Hn. pose proof (wf_len _ _ _ W) as L. apply NoDup_Permutation.
  - apply NoDup_map_filter. now apply (wf_NoDup (Z.of_nat n) t c); [lia|].
  - apply FinFun.Injective_map_NoDup; [|apply seq_NoDup]. intros x y E. injection E as E. lia.
  - intros x. split; intros H.
    + apply in_map_iff in H. destruct H as [y [E Y]]. apply filter_In in Y. destruct Y as [Y1 Y2]. destruct (in_node t y Y1) as [i [I1 I2]].
      destruct y as [f [s|m]]; [discriminate Y2|]. cbn [snd] in E. subst x. apply in_map_iff. exists (Z.to_nat m).
      pose proof (wf_fork _ _ _ W i m ltac:(lia) ltac:(unfold wh; rewrite I2; reflexivity)) as [Q _]. split; [f_equal; lia|apply in_seq; lia].
    + apply in_map_iff in H. destruct H as [k [<- K]]. apply in_seq in K. destruct (wf_hasfork _ _ _ W (Z.of_nat k) ltac:(lia)) as [i [I E]].
      apply in_map_iff. exists (node t i). split; [exact E|]. apply filter_In. split; [apply node_in; lia|]. unfold is_fork, is_leaf. unfold wh in E. now rewrite E.
Qed.

Lemma sum_nodes (t : tree) : zsum (map fst t) = zsum (map (fun i => wt t (Z.of_nat i)) (List.seq 0 (length t))).
Proof.
  f_equal. apply nth_ext with (d := 0) (d' := 0).
  - now rewrite !map_length, seq_length.
  - intros k K. rewrite map_length in K. change 0 with (fst d0) at 1. rewrite map_nth. rewrite (map_nth_in _ _ k 0%nat) by (rewrite seq_length; lia).
    rewrite seq_nth by lia. unfold wt, node. now rewrite Nat2Z.id.
Qed.

Lemma sum_pairs (g : Z -> Z) : forall k, zsum (map (fun i => g (Z.of_nat i)) (List.seq 0 (2 * k + 1))) =
  g 0 + zsum (map (fun m => g (2 * Z.of_nat m - 1) + g (2 * Z.of_nat m)) (List.seq 1 k)).
Proof.
  induction k as [|k IH].
  - unfold zsum. cbn [Nat.mul Nat.add List.seq map fold_right]. change (Z.of_nat 0) with 0. lia.
  - replace (2 * S k + 1)%nat with (S (S (2 * k + 1))) by lia. rewrite !seq_S, !map_app, !zsum_app. rewrite IH. cbn [map zsum fold_right].
    replace (Z.of_nat (0 + S (2 * k + 1))) with (2 * Z.of_nat (1 + k)) by lia. replace (Z.of_nat (0 + (2 * k + 1))) with (2 * Z.of_nat (1 + k) - 1) by lia. lia.
Qed.

Lemma wf_total n t : wf (Z.of_nat n) t 0 -> (2 <= n)%nat -> zsum (map fst (filter is_leaf t)) = wt t 0.
Proof.
  intros W Hn. pose proof (wf_len _ _ _ W) as L.
  set (g := fun x : what => match x with Leaf _ => 0 | Fork m => wt t (2 * m - 1) + wt t (2 * m) end).
  assert (A : zsum (map fst (filter is_leaf t)) + zsum (map fst (filter is_fork t)) = zsum (map fst t)).
  { rewrite <- zsum_app, <- map_app. apply zsum_perm, Permutation_map, filter_split. }
  assert (B : map fst (filter is_fork t) = map g (map snd (filter is_fork t))).
  { rewrite map_map. apply map_ext_in. intros x X. apply filter_In in X. destruct X as [X1 X2]. destruct (in_node t x X1) as [i [I E]].
    destruct x as [f [s|m]]; [discriminate X2|]. cbn [fst snd g].
    destruct (wf_fork _ _ _ W i m ltac:(lia) ltac:(unfold wh; rewrite E; reflexivity)) as [_ [_ C]]. unfold wt in C at 1. rewrite E in C. cbn [fst] in C. lia. }
  rewrite B in A. rewrite (zsum_perm _ _ (Permutation_map g (wf_forks n t 0 W Hn))) in A. rewrite map_map in A. cbn [g] in A.
  rewrite (sum_nodes t) in A. replace (length t) with (2 * (n - 1) + 1)%nat in A by (unfold zlen in L; lia). 
rewrite (sum_pairs (wt t)) in A. lia.
Qed.

(** ** Halving, the start, and adapting *)

Lemma SS_of_nth l : (forall i j, (i <= j < length l)%nat -> fst (nth i l d0) <= fst (nth j l d0)) -> StronglySorted le1 l.
Proof.
  induction l as [|x l IH]; intros H; [constructor|]. constructor.
  - apply IH. intros i j I. apply (H (S i) (S j)). cbn [length]. lia.
  - apply Forall_forall. intros y Y. destruct (In_nth _ _ d0 Y) as [k [K1 K2]]. rewrite <- K2. apply (H 0%nat (S k)). cbn [length]. lia.
Qed.

Lemma SS_filter g l : StronglySorted le1 l -> StronglySorted le1 (filter g l).
Proof.
  intros S. induction S as [|x l S IH F]; [constructor|]. cbn [filter]. destruct (g x); [|exact IH]. constructor; [exact IH|].
  apply Forall_forall. intros y Y. apply filter_In in Y. apply (proj1 (Forall_forall _ _) F). tauto.
Qed.

Lemma SS_map (h : Z * what -> Z * what) l : (forall x y, le1 x y -> le1 (h x) (h y)) -> StronglySorted le1 l -> StronglySorted le1 (map h l).
Proof.
  intros H S. induction S as [|x l S IH F]; [constructor|]. cbn [map]. constructor; [exact IH|].
  apply Forall_forall. intros y Y. apply in_map_iff in Y. destruct Y as [z [<- Z1]]. apply H. now apply (proj1 (Forall_forall _ _) F).
Qed.

Lemma filter_rev {A} (g : A -> bool) l : filter g (rev l) = rev (filter g l).
Proof. induction l as [|x l IH]; [reflexivity|]. cbn [rev filter]. rewrite filter_app, IH. cbn [filter]. destruct (g x); cbn [rev]; [reflexivity|apply app_nil_r]. Qed.

Definition halved (t : tree) : tree := map (fun x => ((fst x + 1) / 2, snd x)) (filter is_leaf t).

Lemma halved_ok n t : (2 <= n)%nat -> wf (Z.of_nat n) t 0 -> leaves_ok n (halved t).
Proof.
  intros Hn W. pose proof (wf_len _ _ _ W) as L. pose proof (wf_leaves n t 0 W Hn) as PL. unfold halved. constructor.
  - rewrite map_length. rewrite <- (map_length snd). rewrite (Permutation_length PL), map_length, seq_length. reflexivity.
  - rewrite <- map_rev. apply SS_map.
    + intros x y H. unfold le1 in *. cbn [fst]. apply Z.div_le_mono; lia.
    + rewrite <- filter_rev. apply SS_filter. apply SS_of_nth. rewrite rev_length. intros i j I. rewrite !rev_nth by lia.
      unfold zlen in L. pose proof (wf_sort _ _ _ W (Z.of_nat (length t - S j)) (Z.of_nat (length t - S i)) ltac:(lia) ltac:(lia)) as Q.
      unfold wt, node in Q. rewrite !Nat2Z.id in Q. exact Q.
  - intros x X. apply in_map_iff in X. destruct X as [y [<- Y]]. apply filter_In in Y. destruct Y as [_ Y]. exact Y.
  - intros x X. apply in_map_iff in X. destruct X as [y [<- Y]]. apply filter_In in Y. destruct Y as [Y _]. destruct (in_node t y Y) as [i [I E]].
    pose proof (wf_pos _ _ _ W i ltac:(lia)) as Q. unfold wt in Q. rewrite E in Q. cbn [fst]. apply Z.div_le_lower_bound; lia.
  - rewrite map_map. cbn [snd]. exact PL.
Qed.

Lemma halved_sum l : 2 * zsum (map fst (map (fun x : Z * what => ((fst x + 1) / 2, snd x)) l)) <= zsum (map fst l) + Z.of_nat (length l).
Proof.
  induction l as [|x l IH]; [cbn; lia|]. cbn [map zsum fold_right length fst]. fold (zsum (map fst l)). fold (zsum (map fst (map (fun x : Z * what => ((fst x + 1) / 2, snd x)) l))).
  pose proof (Z.mul_div_le (fst x + 1) 2 ltac:(lia)). lia.
Qed.

Lemma build_total n leaves : (2 <= n)%nat -> leaves_ok n leaves -> wt (build leaves) 0 = zsum (map fst leaves).
Proof.
  intros Hn LO. destruct (build_ok n leaves Hn LO) as [W P]. rewrite <- (wf_total n _ W Hn). apply zsum_perm, Permutation_map, P.
Qed.

Lemma halve_ok n t : (2 <= n)%nat /\ Z.of_nat n <= 10000 -> wf (Z.of_nat n) t 0 -> wt t 0 = 32768 -> wf (Z.of_nat n) (halve t) 0 /\ wt (halve t) 0 < 32768.
Proof.
  intros Hn W E. pose proof (halved_ok n t ltac:(lia) W) as LO. change (halve t) with (build (halved t)).
  split; [now apply (build_ok n)|]. rewrite (build_total n) by (auto; lia). pose proof (halved_sum (filter is_leaf t)) as Q. fold (halved t) in Q.
  rewrite (wf_total n t W) in Q by lia. pose proof (lv_len _ _ LO) as LL. unfold halved in LL. rewrite map_length in LL. lia.
Qed.

Lemma adapt_ok n t s : (2 <= n)%nat /\ Z.of_nat n <= 10000 -> wf (Z.of_nat n) t 0 -> wt t 0 <= 32768 -> 0 <= s < Z.of_nat n ->
  wf (Z.of_nat n) (adapt t s) 0 /\ wt (adapt t s) 0 <= 32768.
Proof.
  intros Hn W B S. unfold adapt. set (t1 := if wt t 0 =? 32768 then halve t else t).
  assert (X : wf (Z.of_nat n) t1 0 /\ wt t1 0 < 32768).
  { unfold t1. destruct (Z.eqb_spec (wt t 0) 32768) as [E|]; [now apply halve_ok|]. split; [exact W|lia]. }
  destruct X as [W1 B1]. pose proof (wf_len _ _ _ W1) as L. destruct (find_leaf (Z.of_nat n) t1 0 s W1 S) as [F1 F2].
  pose proof (count_root (Z.of_nat n) t1 _ s W1 F1 F2) as W2.
  destruct (climb_ok (Z.of_nat n) ltac:(lia) (length t1) _ _ W2 F1) as [A C]; [unfold zlen in L; lia|].
  split; [exact A|]. rewrite C. unfold wt at 1. rewrite node_put by lia. rewrite Z.eqb_refl. cbn [fst]. lia.
Qed.

Lemma start_leaves_ok n : leaves_ok n (rev (map (fun i => (1, Leaf (Z.of_nat i))) (List.seq 0 n))).
Proof.
  constructor.
  - now rewrite rev_length, map_length, seq_length.
  - rewrite rev_involutive. apply SS_of_nth. rewrite map_length, seq_length. intros i j I. rewrite !(map_nth_in _ _ _ 0%nat) by (rewrite seq_length; lia). cbn [fst]. lia.
  - intros x X. apply in_rev in X. apply in_map_iff in X. destruct X as [i [<- _]]. reflexivity.
  - intros x X. apply in_rev in X. apply in_map_iff in X. destruct X as [i [<- _]]. cbn [fst]. lia.
  - rewrite map_rev, map_map. cbn [snd]. apply Permutation_sym, Permutation_rev.
Qed.

Lemma start_ok n : (2 <= n)%nat /\ Z.of_nat n <= 10000 -> wf (Z.of_nat n) (start_tree n) 0 /\ wt (start_tree n) 0 = Z.of_nat n.
Proof.
  intros Hn. pose proof (start_leaves_ok n) as LO. unfold start_tree. split; [apply build_ok; auto; lia|].
  rewrite (build_total n) by (auto; lia). rewrite (zsum_perm _ _ (Permutation_map fst (Permutation_sym (Permutation_rev _)))). rewrite map_map. cbn [fst].
  generalize 0%nat. clear. induction n; intros k; [reflexivity|]. cbn [List.seq map zsum fold_right]. fold (zsum (map (fun _ : nat => 1) (List.seq (S k) n))). rewrite IHn. lia.
Qed.
