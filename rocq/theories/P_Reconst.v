(** dhuf.go rebuilds the tree as S_Lh1.v does: reconst. *)
From Coq Require Import Sorted Permutation.
From Verif Require Import Go GoLemmas M_Bitio M_Dhuf S_Bits S_Huff S_Lz S_Lh1 P_Tree P_Build P_Blocks P_Dhuf.

Definition holds (ch fr : arr) (pos : Z) (x : Z * what) : Prop := at_ fr pos = fst x /\ at_ ch pos = enc (snd x).

(** ** Making the inner nodes *)

(** The placed nodes are at the end, the rest of the leaves at the front. *)
Record Seg (N : Z) (ch fr : arr) (i j : Z) (P R : tree) : Prop := {
  sg_ch : alen ch = 884;
  sg_fr : alen fr = 884;
  sg_P : Z.of_nat (length P) = N - 1 - i;
  sg_R : Z.of_nat (length R) = j + 1;
  sg_p : forall k, (k < length P)%nat -> holds ch fr (N - 1 - Z.of_nat k) (nth k P d0);
  sg_r : forall k, (k < length R)%nat -> holds ch fr (j - Z.of_nat k) (nth k R d0)
}.

Lemma seg_put N ch fr i j P R x : Seg N ch fr i j P R -> j < i < N -> N <= 627 -> 0 <= i ->
  Seg N (upd ch i (enc (snd x))) (upd fr i (fst x)) (i - 1) j (P ++ [x]) R.
Proof.
  intros [C F SP SR HP HR] I HN I0. constructor; rewrite ?alen_upd, ?app_length; cbn [length]; auto; try lia.
  - intros k K. unfold holds. rewrite !at_upd by lia. destruct (Z.eqb_spec (N - 1 - Z.of_nat k) i) as [E|E].
    + rewrite app_nth2 by lia. replace (k - length P)%nat with 0%nat by lia. cbn [nth]. auto.
    + rewrite app_nth1 by lia. apply HP. lia.
  - intros k K. unfold holds. rewrite !at_upd by lia. destruct (Z.eqb_spec (j - Z.of_nat k) i) as [E|E]; [lia|]. now apply HR.
Qed.

Lemma seg_tail N ch fr i j P x R : Seg N ch fr i j P (x :: R) -> Seg N ch fr i (j - 1) P R.
Proof.
  intros [C F SP SR HP HR]. cbn [length] in *. constructor; auto; try lia.
  intros k K. specialize (HR (S k) ltac:(lia)). cbn [nth] in HR. replace (j - 1 - Z.of_nat k) with (j - Z.of_nat (S k)) by lia. exact HR.
Qed.

Section Join.
Variables (pa bl ed st sn : arr) (tp av mo nn nx n1 nm : Z).
Let D ch fr := DH ch pa bl ed st sn fr tp av mo nn nx n1 nm.

Lemma moves (N : Z) (b : bool) lim : N <= 627 -> forall m k ch fr i j P R, Seg N ch fr i j P R -> j < i < N -> (m <= length R)%nat ->
  m = Z.to_nat ((if b then i else j) - lim + 1) -> (m < k)%nat ->
  exists ch' fr', loopN k (reconst_move b lim) (i, j, D ch fr) = Ok (Stop (i - Z.of_nat m, j - Z.of_nat m, D ch' fr')) /\
    Seg N ch' fr' (i - Z.of_nat m) (j - Z.of_nat m) (P ++ firstn m R) (skipn m R).
Proof.
  intros HN. induction m as [|m IH]; intros k ch fr i j P R SG I MR ME MK; (destruct k as [|k]; [lia|]); cbn [loopN]; unfold reconst_move at 1.
  - destruct (Z.leb_spec lim (if b then i else j)); [lia|]. cbn [bind]. exists ch, fr. rewrite !Z.sub_0_r. cbn [firstn skipn]. rewrite app_nil_r. auto.
  - destruct (Z.leb_spec lim (if b then i else j)) as [L|L]; [|lia]. destruct R as [|x R]; [cbn [length] in MR; lia|]. cbn [length] in MR.
    pose proof (sg_R _ _ _ _ _ _ _ SG) as SR. cbn [length] in SR. destruct (sg_r _ _ _ _ _ _ _ SG 0%nat ltac:(cbn [length]; lia)) as [H1 H2]. cbn [nth] in H1, H2. rewrite Z.sub_0_r in H1, H2.
    pose proof (sg_ch _ _ _ _ _ _ _ SG). pose proof (sg_fr _ _ _ _ _ _ _ SG). unfold D. dred. dget. dput. dget. dput. fold (D (upd ch i (at_ ch j)) (upd fr i (at_ fr j))). rewrite H1, H2.
    apply seg_tail in SG. apply (seg_put _ _ _ _ _ _ _ x) in SG; [|lia|lia|lia].
    destruct (IH k _ _ _ _ _ _ SG) as [ch' [fr' [E S']]]; [lia|lia|destruct b; lia|lia|].
    exists ch', fr'. unfold D in *. rewrite E. replace (i - 1 - Z.of_nat m) with (i - Z.of_nat (S m)) in * by lia. replace (j - 1 - Z.of_nat m) with (j - Z.of_nat (S m)) in * by lia. split; [reflexivity|].
    cbn [firstn skipn]. rewrite <- app_assoc in S'. exact S'.
Qed.

Lemma moves_loop (N : Z) (b : bool) lim m ch fr i j P R : N <= 627 -> Seg N ch fr i j P R -> j < i < N -> (m <= length R)%nat ->
  m = Z.to_nat ((if b then i else j) - lim + 1) -> Z.of_nat m < 884 ->
  exists ch' fr', loop (treesize + 2) (reconst_move b lim) (i, j, D ch fr) = Ok (i - Z.of_nat m, j - Z.of_nat m, D ch' fr') /\
    Seg N ch' fr' (i - Z.of_nat m) (j - Z.of_nat m) (P ++ firstn m R) (skipn m R).
Proof.
  intros HN SG I MR ME MK. destruct (moves N b lim HN m (Z.to_nat (treesize + 2)) ch fr i j P R SG I MR ME) as [ch' [fr' [E S']]]; [unfold treesize; lia|].
  exists ch', fr'. rewrite loop_loopN by reflexivity. rewrite E. auto.
Qed.

Lemma scan (fr : arr) l f : alen fr = 884 -> 0 <= l < 884 -> at_ fr l <= f ->
  exists k, loop (treesize + 2) (fun k => g <- aget fr k ;; if f <? g then Ok (Go (k + 1)) else Ok (Stop k)) 0 = Ok k /\
    (0 <= k <= l /\ at_ fr k <= f /\ forall x, 0 <= x < k -> f < at_ fr x).
Proof.
  intros ZF L FL. apply (loop_wf (fun k => 0 <= k <= l /\ forall x, 0 <= x < k -> f < at_ fr x) _ (fun k => l - k)).
  - intros k [K1 K2]. rewrite aget_ok by lia. cbn [bind]. destruct (Z.ltb_spec f (at_ fr k)).
    + eexists. split; [reflexivity|]. assert (k <> l) by congruence || (intros ->; lia). split; [|lia]. split; [lia|]. intros x X. destruct (Z.eq_dec x k) as [->|]; [lia|apply K2; lia].
    + eexists. split; [reflexivity|]. split; [lia|]. split; [lia|exact K2].
  - split; [lia|intros; lia].
  - unfold treesize. lia.
Qed.

Lemma join_one (n : nat) L t P R ch fr i j l : (2 <= n)%nat /\ Z.of_nat n <= 314 -> (t + 2 <= n)%nat ->
  let N := 2 * Z.of_nat n - 1 in let last := Z.of_nat n - 1 in
  JI n last L t P R -> Seg N ch fr i j P R -> l = N - 2 - 2 * Z.of_nat t ->
  let need := (2 * t + 2 - length P)%nat in
  let P1 := P ++ firstn need R in
  let f := fst (nth (2 * t) P1 (0, Leaf 0)) + fst (nth (2 * t + 1) P1 (0, Leaf 0)) in
  f <= 60000 ->
  forall lo hi, lighter f (skipn need R) = (lo, hi) ->
  exists ch' fr' i' j', reconst_join 0 (i, j, l, D ch fr) = Ok (Go (i', j', l - 2, D ch' fr')) /\
    Seg N ch' fr' i' j' (P1 ++ lo ++ [(f, Fork (last - Z.of_nat t))]) hi.
Proof.
  intros Hn Ht N last J SG El need P1 f Hf lo hi EL.
  pose proof (join_step n last L t P R ltac:(lia) Ht J) as X. cbv zeta in X. fold need in X. fold P1 in X. fold f in X. destruct X as [LP1 [LP2 X]]. specialize (X lo hi EL).
  pose proof (sg_P _ _ _ _ _ _ _ SG) as SP. pose proof (sg_R _ _ _ _ _ _ _ SG) as SR. pose proof (ji_len _ _ _ _ _ _ J) as JL.
  assert (IJ : j < i < N) by (unfold N in *; lia).
  assert (NR : (need <= length R)%nat). { unfold P1 in LP1. rewrite app_length, firstn_length in LP1. unfold need in *. lia. }
  assert (I0 : 0 <= i) by (pose proof (zlen_nonneg R) as Q; unfold zlen in Q; lia).
  unfold reconst_join. destruct (Z.leb_spec 0 i); [|lia].
  destruct (moves_loop N true l need ch fr i j P R ltac:(unfold N; lia) SG IJ NR) as [ch1 [fr1 [E1 S1]]]; [unfold need, N in *; lia|unfold need; lia|].
  rewrite E1. cbn [bind]. fold P1 in S1. set (i1 := i - Z.of_nat need) in *. set (j1 := j - Z.of_nat need) in *. set (R1 := skipn need R) in *.
  pose proof (sg_P _ _ _ _ _ _ _ S1) as SP1. pose proof (sg_R _ _ _ _ _ _ _ S1) as SR1. pose proof (sg_ch _ _ _ _ _ _ _ S1) as ZC. pose proof (sg_fr _ _ _ _ _ _ _ S1) as ZF.
  assert (RL : (length P1 + length R1 = n + t)%nat). { unfold P1, R1. rewrite app_length, firstn_length, skipn_length. lia. }
  destruct (sg_p _ _ _ _ _ _ _ S1 (2 * t)%nat ltac:(lia)) as [W1 _]. destruct (sg_p _ _ _ _ _ _ _ S1 (2 * t + 1)%nat ltac:(lia)) as [W2 _].
  replace (N - 1 - Z.of_nat (2 * t)) with (l + 1) in W1 by (unfold N in *; lia). replace (N - 1 - Z.of_nat (2 * t + 1)) with l in W2 by (unfold N in *; lia).
  unfold d0 in W1, W2. unfold D. dred. dget. dget. rewrite W1, W2.
  assert (POS : forall k, (k < length P1)%nat -> 1 <= fst (nth k P1 (0, Leaf 0))).
  { intros k K. apply (ji_pos _ _ _ _ _ _ X). apply in_or_app. left. apply in_or_app. left. now apply nth_In. }
  pose proof (POS (2 * t)%nat ltac:(lia)) as Q1. pose proof (POS (2 * t + 1)%nat ltac:(lia)) as Q2.
  assert (U : u16 (fst (nth (2 * t + 1) P1 (0, Leaf 0)) + fst (nth (2 * t) P1 (0, Leaf 0))) = f). { unfold f in *. unfold u16. rewrite Z.mod_small by lia. lia. }
  rewrite U. clear U. fold (D ch1 fr1).
  destruct (scan fr1 l f ZF ltac:(unfold N in *; lia)) as [k [EK [K1 [K2 K3]]]]; [rewrite W2; unfold f; lia|]. dredin EK. rewrite EK.
  assert (S1' : StronglySorted le1 R1).
  { pose proof (ji_sort _ _ _ _ _ _ J) as SS. apply SS_app in SS. destruct SS as [_ [SS _]]. rewrite <- (firstn_skipn need R) in SS. apply SS_app in SS. tauto. }
  destruct (lighter_ok f R1 lo hi S1' EL) as [ER [LO HI]].
  assert (LR : length R1 = (length lo + length hi)%nat) by (rewrite ER; apply app_length).
  assert (ML : length lo = Z.to_nat (j1 - k + 1)).
  { assert (KH : Z.of_nat (length hi) <= k).
    { destruct (Z_lt_le_dec k (Z.of_nat (length hi))) as [LT|]; [|lia]. exfalso.
      destruct (sg_r _ _ _ _ _ _ _ S1 (length R1 - 1 - Z.to_nat k)%nat ltac:(lia)) as [V _]. replace (j1 - Z.of_nat (length R1 - 1 - Z.to_nat k)) with k in V by lia.
      assert (IN : In (nth (length R1 - 1 - Z.to_nat k) R1 d0) hi). { rewrite ER at 2. rewrite app_nth2 by lia. apply nth_In. lia. }
      apply HI in IN. lia. }
    destruct lo as [|y lo'].
    - cbn [length] in *. lia.
    - destruct (Z_lt_le_dec (Z.of_nat (length hi)) k) as [LT|]; [|cbn [length] in *; lia]. exfalso.
      specialize (K3 (Z.of_nat (length hi)) ltac:(lia)).
      destruct (sg_r _ _ _ _ _ _ _ S1 (length R1 - 1 - length hi)%nat ltac:(cbn [length] in *; lia)) as [V _]. replace (j1 - Z.of_nat (length R1 - 1 - length hi)) with (Z.of_nat (length hi)) in V by (cbn [length] in *; lia).
      assert (IN : In (nth (length R1 - 1 - length hi) R1 d0) (y :: lo')). { rewrite ER at 2. rewrite app_nth1 by (cbn [length] in *; lia). apply nth_In. cbn [length] in *. lia. }
      apply LO in IN. lia. }
  destruct (moves_loop N false k (length lo) ch1 fr1 i1 j1 P1 R1 ltac:(unfold N; lia) S1) as [ch2 [fr2 [E2 S2]]]; [unfold i1, j1; lia|lia|exact ML|lia|].
  cbv beta iota. rewrite E2. cbv beta iota. rewrite ER in S2. rewrite firstn_app, Nat.sub_diag, firstn_all, skipn_app, Nat.sub_diag, skipn_all in S2. cbn [firstn skipn] in S2. rewrite app_nil_r in S2. cbn [app] in S2.
  set (i2 := i1 - Z.of_nat (length lo)) in *. set (j2 := j1 - Z.of_nat (length lo)) in *.
  pose proof (sg_ch _ _ _ _ _ _ _ S2) as ZC2. pose proof (sg_fr _ _ _ _ _ _ _ S2) as ZF2.
  assert (I2 : 0 <= i2) by (pose proof (sg_R _ _ _ _ _ _ _ S2); unfold i2, j2, i1, j1 in *; lia).
  assert (I3 : j2 < i2 < N) by (unfold i2, j2, i1, j1 in *; lia).
  unfold D. unfold N in I3. dput. dput. do 4 eexists. split; [reflexivity|].
  apply (seg_put _ _ _ _ _ _ _ (f, Fork (last - Z.of_nat t))) in S2; [|unfold N in *; lia|unfold N; lia|lia].
  cbn [fst snd enc] in S2. replace (2 * (last - Z.of_nat t)) with (l + 1) in S2 by (unfold last, N in *; lia). rewrite <- app_assoc in S2. exact S2.
Qed.

Lemma joins_prefix : forall k last t R P, exists X, joins k last t R P = P ++ X.
Proof.
  induction k as [|k IH]; intros last t R P; cbn [joins]; [exists []; now rewrite app_nil_r|].
  destruct (lighter _ _) as [lo hi]. match goal with |- exists X, joins _ _ _ _ ?Q = _ => destruct (IH last (S t) hi Q) as [X E]; rewrite E end.
  rewrite <- !app_assoc. eexists. reflexivity.
Qed.

Lemma joins_loop (n : nat) L : (2 <= n)%nat /\ Z.of_nat n <= 314 -> let N := 2 * Z.of_nat n - 1 in let last := Z.of_nat n - 1 in
  forall k t P R ch fr i j l fuel, (k + t + 1 = n)%nat -> JI n last L t P R -> Seg N ch fr i j P R -> l = N - 2 - 2 * Z.of_nat t ->
  (forall x, In x (joins k last t R P) -> fst x <= 60000) -> (k < fuel)%nat ->
  exists ch' fr', loopN fuel (reconst_join 0) (i, j, l, D ch fr) = Ok (Stop (D ch' fr')) /\ Seg N ch' fr' (-1) (-1) (joins k last t R P) [].
Proof.
  intros Hn N last. induction k as [|k IH]; intros t P R ch fr i j l fuel K J SG El BD FU; (destruct fuel as [|fuel]; [lia|]); cbn [loopN].
  - cbn [joins] in *. pose proof (sg_P _ _ _ _ _ _ _ SG) as SP. pose proof (sg_R _ _ _ _ _ _ _ SG) as SR. pose proof (ji_len _ _ _ _ _ _ J) as JL.
    destruct (ji_P _ _ _ _ _ _ J) as [[-> ->]|[T1 [T2 T3]]]; [lia|]. assert (R = []) as -> by (destruct R; [reflexivity|cbn [length] in *; lia]). cbn [length] in *.
    replace i with (-1) in * by (unfold N in *; lia). replace j with (-1) in * by lia. unfold reconst_join. exists ch, fr. split; [reflexivity|exact SG].
  - cbn [joins] in *. destruct (lighter _ _) as [lo hi] eqn:EL.
    pose proof (join_step n last L t P R ltac:(lia) ltac:(lia) J) as X. cbv zeta in X. destruct X as [_ [_ X]]. specialize (X lo hi EL).
    pose proof (join_one n L t P R ch fr i j l Hn ltac:(lia) J SG El) as Y. cbv zeta in Y.
    match type of Y with ?f <= 60000 -> _ => assert (FB : f <= 60000) end.
    { match type of BD with forall x, In x (joins _ _ _ _ (?A ++ ?B ++ [?c])) -> _ => apply (BD c); destruct (joins_prefix k last (S t) hi (A ++ B ++ [c])) as [XX EX] end.
      rewrite EX. rewrite <- !app_assoc. apply in_or_app. right. apply in_or_app. right. apply in_or_app. right. cbn [app]. now left. }
    specialize (Y FB lo hi EL). destruct Y as [ch' [fr' [i' [j' [E S']]]]]. rewrite E. cbn [bind].
    apply (IH (S t)); auto; try lia.
Qed.
End Join.

(** ** Gathering the leaves *)

Lemma firstn_node (t : tree) i : 0 <= i < zlen t -> firstn (Z.to_nat (i + 1)) t = firstn (Z.to_nat i) t ++ [node t i].
Proof.
  intros I. unfold zlen in I. unfold node. replace (Z.to_nat (i + 1)) with (S (Z.to_nat i)) by lia. assert (K : (Z.to_nat i < length t)%nat) by lia. clear I. revert t K.
  induction (Z.to_nat i) as [|k IH]; intros [|x t] K; cbn [length] in K; try lia; [reflexivity|].
  change (firstn (S (S k)) (x :: t)) with (x :: firstn (S k) t). rewrite IH by lia. reflexivity.
Qed.

Lemma filter_length_le {A} (f : A -> bool) l : (length (filter f l) <= length l)%nat.
Proof. induction l; cbn [filter length]; [lia|]. destruct (f a); cbn [length]; lia. Qed.

Definition halved_to (t : tree) (i : Z) : tree := halved (firstn (Z.to_nat i) t).

Lemma halved_step t i : 0 <= i < zlen t -> halved_to t (i + 1) = halved_to t i ++ (match wh t i with Leaf s => [((wt t i + 1) / 2, Leaf s)] | Fork _ => [] end).
Proof.
  intros I. unfold halved_to, halved. rewrite firstn_node by exact I. rewrite filter_app, map_app. f_equal. cbn [filter]. unfold is_leaf, wh, wt. destruct (node t i) as [f [s|m]]; reflexivity.
Qed.

Lemma halved_len t i : 0 <= i -> Z.of_nat (length (halved_to t i)) <= i.
Proof.
  intros I. unfold halved_to, halved. rewrite map_length. pose proof (filter_length_le is_leaf (firstn (Z.to_nat i) t)). pose proof (firstn_le_length (Z.to_nat i) t). lia.
Qed.

Lemma gather n t d : 2 <= n <= 314 -> wf n t 0 -> wt t 0 <= 40000 -> Rep n t d ->
  exists b ch fr st, forZ 0 (2 * n - 1) reconst_leaves (0, 0, d) =
      Ok (zlen (halved t), b, DH ch (k_parent d) (k_block d) (k_edge d) st (k_snode d) fr (k_totalP d) 1 (k_mostP d) (k_nn d) (k_next d) (k_n1 d) (k_nMax d)) /\
    alen ch = 884 /\ alen fr = 884 /\ alen st = 884 /\
    (forall k, 0 <= k < zlen (halved t) -> holds ch fr k (node (halved t) k)) /\
    (forall k, 1 <= k < 628 -> 0 < at_ st k < 628) /\ (forall k l, 1 <= k < 628 -> 1 <= l < 628 -> at_ st k = at_ st l -> k = l).
Proof.
  intros Hn W B0 R. destruct d as [ch0 pa bl ed st0 sn fr0 tp av0 mo nn nx n1 nm]. destruct R as [[Z1 Z2 Z3 Z4 Z5 Z6 Z7] RF RC RL RB RE].
  dredin Z1. dredin Z2. dredin Z3. dredin Z4. dredin Z5. dredin Z6. dredin Z7. dredin RF. dredin RC. dredin RL. dredin RB. dredin RE. dred.
  assert (HN : 3 <= 2 * n - 1 <= 627) by lia. set (N := 2 * n - 1) in *. pose proof (wf_len _ _ _ W) as TL. fold N in TL.
  assert (SO : forall i j, 0 <= i <= j -> j < N -> at_ fr0 j <= at_ fr0 i) by (intros; rewrite !RF by lia; apply (wf_sort _ _ _ W); lia).
  assert (FB : forall i, 0 <= i < N -> 1 <= wt t i < 60000). { intros i I. pose proof (wf_pos _ _ _ W i I). pose proof (wf_sort _ _ _ W 0 i ltac:(lia) ltac:(lia)). lia. }
  set (Inv := fun (i : Z) (s : Z * Z * dh) => exists b ch fr st av, s = (zlen (halved_to t i), b, DH ch pa bl ed st sn fr tp av mo nn nx n1 nm) /\
    alen ch = 884 /\ alen fr = 884 /\ alen st = 884 /\ av = av0 - lead (at_ fr0) (Z.to_nat i) /\
    (forall k, 0 <= k < zlen (halved_to t i) -> holds ch fr k (node (halved_to t i) k)) /\
    (forall k, i <= k < N -> holds ch fr k (node t k)) /\
    (forall k, av <= k < 628 -> 0 < at_ st k < 628 /\ forall x, i <= x < N -> at_ ed (at_ bl x) = x -> at_ st k <> at_ bl x) /\
    (forall k l, av <= k < 628 -> av <= l < 628 -> at_ st k = at_ st l -> k = l)).
  destruct (forZ_inv Inv reconst_leaves 0 N (0, 0, DH ch0 pa bl ed st0 sn fr0 tp av0 mo nn nx n1 nm)) as [s' [E IN]]; [lia| | |].
  - intros i s I [b [ch [fr [st [av [-> [ZC [ZF [ZS [AV [H1 [H2 [H3 H4]]]]]]]]]]]]]. unfold reconst_leaves.
    pose proof (halved_len t i ltac:(lia)) as HL. destruct (H2 i ltac:(lia)) as [Hf Hc]. fold (wt t i) in Hf. fold (wh t i) in Hc.
    pose proof (b_rng _ _ _ _ _ _ RB i ltac:(lia)) as BR.
    dred. dget. rewrite Hc.
    assert (STEP : exists ch1 fr1, (if enc (wh t i) <? 0 then
        match aget fr i with Ok a => match put_freq (zlen (halved_to t i)) (u16 (a + 1) / 2) (DH ch pa bl ed st sn fr tp av mo nn nx n1 nm) with
          Ok a0 => match put_child (zlen (halved_to t i)) (enc (wh t i)) a0 with Ok a1 => Ok (zlen (halved_to t i) + 1, a1) | Panic => Panic | NoFuel => NoFuel end | Panic => Panic | NoFuel => NoFuel end | Panic => Panic | NoFuel => NoFuel end
        else Ok (zlen (halved_to t i), DH ch pa bl ed st sn fr tp av mo nn nx n1 nm)) = Ok (zlen (halved_to t (i + 1)), DH ch1 pa bl ed st sn fr1 tp av mo nn nx n1 nm) /\
        alen ch1 = 884 /\ alen fr1 = 884 /\ (forall k, 0 <= k < zlen (halved_to t (i + 1)) -> holds ch1 fr1 k (node (halved_to t (i + 1)) k)) /\
        (forall k, i + 1 <= k < N -> holds ch1 fr1 k (node t k))).
    { rewrite halved_step by lia. pose proof (zlen_nonneg (halved_to t i)) as ZN. assert (HL' : zlen (halved_to t i) <= i) by exact HL. destruct (wh t i) as [s|m] eqn:WI; cbn [enc].
      - pose proof (wf_leaf _ _ _ W i s I WI). destruct (Z.ltb_spec (- s - 1) 0); [|lia]. dget. rewrite Hf. pose proof (FB i I). assert (U : u16 (wt t i + 1) = wt t i + 1) by (unfold u16; apply Z.mod_small; lia). rewrite U.
        dput. dput. do 2 eexists. split; [rewrite zlen_app; reflexivity|]. rewrite !alen_upd. split; [exact ZC|]. split; [exact ZF|]. split.
        + intros k K. rewrite zlen_app in K. change (zlen [((wt t i + 1) / 2, Leaf s)]) with 1 in K. unfold holds. rewrite !at_upd by lia. destruct (Z.eqb_spec k (zlen (halved_to t i))) as [->|Q].
          * unfold node. rewrite app_nth2 by (unfold zlen; lia). replace (Z.to_nat (zlen (halved_to t i)) - length (halved_to t i))%nat with 0%nat by (unfold zlen; lia). cbn [nth fst snd enc]. auto.
          * unfold node. rewrite app_nth1 by (unfold zlen in *; lia). apply H1. lia.
        + intros k K. unfold holds. rewrite !at_upd by lia. destruct (Z.eqb_spec k (zlen (halved_to t i))); [lia|]. apply H2. lia.
      - destruct (wf_fork _ _ _ W i m I WI) as [M _]. destruct (Z.ltb_spec (2 * m) 0); [lia|]. exists ch, fr. rewrite app_nil_r. repeat split; auto; intros; try (apply H1; lia); apply H2; lia. }
    destruct STEP as [ch1 [fr1 [ES [ZC1 [ZF1 [P1 P2]]]]]]. dredin ES. rewrite ES. dred. dget. dget.
    pose proof (isl_edge _ _ _ _ _ _ i RB SO I) as IE. pose proof (lead_S (at_ fr0) i ltac:(lia)) as LS.
    pose proof (lead_range (at_ fr0) (Z.to_nat i)) as LR. pose proof (b_avail _ _ _ _ _ _ RB) as A0.
    destruct (Z.eqb_spec (at_ ed (at_ bl i)) i) as [EI|EI].
    + assert (LM : forall k m, (k <= m)%nat -> lead (at_ fr0) k <= lead (at_ fr0) m). { intros k m M. induction M; [lia|]. cbn [lead]. pose proof (isl_range (at_ fr0) (Z.of_nat m)). lia. }
      pose proof (LM (Z.to_nat (i + 1)) (Z.to_nat N) ltac:(lia)) as LN. pose proof (lead_range (at_ fr0) (Z.to_nat N)) as LR2.
      dput. eexists. split; [reflexivity|]. unfold Inv. do 5 eexists. split; [reflexivity|]. rewrite alen_upd. split; [exact ZC1|]. split; [exact ZF1|]. split; [exact ZS|]. split; [lia|]. split; [exact P1|]. split; [exact P2|]. split.
      * intros k K. rewrite at_upd by lia. destruct (Z.eqb_spec k (av - 1)) as [->|].
        -- split; [exact BR|]. intros x X EX Q. assert (at_ ed (at_ bl i) = at_ ed (at_ bl x)) by congruence. lia.
        -- destruct (H3 k ltac:(lia)) as [F1 F2]. split; [exact F1|]. intros x X. apply F2. lia.
      * intros k l K L. rewrite !at_upd by lia. destruct (Z.eqb_spec k (av - 1)), (Z.eqb_spec l (av - 1)); intros Q; try lia.
        -- exfalso. destruct (H3 l ltac:(lia)) as [_ F2]. apply (F2 i); [lia|exact EI|congruence].
        -- exfalso. destruct (H3 k ltac:(lia)) as [_ F2]. apply (F2 i); [lia|exact EI|congruence].
        -- apply H4; lia.
    + eexists. split; [reflexivity|]. unfold Inv. do 5 eexists. split; [reflexivity|]. split; [exact ZC1|]. split; [exact ZF1|]. split; [exact ZS|]. split; [lia|]. split; [exact P1|]. split; [exact P2|]. split; [|exact H4].
      intros k K. destruct (H3 k K) as [F1 F2]. split; [exact F1|]. intros x X. apply F2. lia.
  - unfold Inv. exists 0, ch0, fr0, st0, av0. split; [reflexivity|]. do 3 (split; [assumption|]). split; [change (lead (at_ fr0) (Z.to_nat 0)) with 0; lia|]. split; [intros k K; change (zlen (halved_to t 0)) with 0 in K; lia|]. split; [intros k K; split; [apply RF|apply RC]; lia|]. split.
    + intros k K. destruct (b_free _ _ _ _ _ _ RB k K) as [F1 F2]. split; [exact F1|]. intros x X _. now apply F2.
    + apply (b_inj _ _ _ _ _ _ RB).
  - destruct IN as [b [ch [fr [st [av [-> [ZC [ZF [ZS [AV [H1 [_ [H3 H4]]]]]]]]]]]]].
    assert (HA : halved_to t N = halved t) by (unfold halved_to; rewrite firstn_all2; [reflexivity|unfold zlen in TL; lia]). rewrite HA in *.
    assert (av = 1) as -> by (rewrite (b_avail _ _ _ _ _ _ RB) in AV; lia).
    exists b, ch, fr, st. split; [exact E|]. split; [exact ZC|]. split; [exact ZF|]. split; [exact ZS|]. split; [exact H1|]. split; [intros k K; now apply H3|exact H4].
Qed.

(** ** Links and blocks of the new tree *)

Lemma links n t ch pa0 bl0 ed0 st sn0 fr tp mo nn nx n1 nm b0 : 2 <= n <= 314 -> wf n t 0 ->
  alen ch = 884 -> alen pa0 = 884 -> alen bl0 = 884 -> alen ed0 = 884 -> alen st = 884 -> alen sn0 = 442 -> alen fr = 884 ->
  (forall i, 0 <= i < 2 * n - 1 -> holds ch fr i (node t i)) ->
  (forall k, 1 <= k < 628 -> 0 < at_ st k < 628) -> (forall k l, 1 <= k < 628 -> 1 <= l < 628 -> at_ st k = at_ st l -> k = l) ->
  at_ bl0 (2 * n - 1) = 0 ->
  exists f b d', forZ 0 (2 * n - 1) reconst_links (0, b0, DH ch pa0 bl0 ed0 st sn0 fr tp 1 mo nn nx n1 nm) = Ok (f, b, d') /\ Rep n t d' /\ k_n1 d' = n1 /\ k_nMax d' = nm.
Proof.
  intros Hn W ZC ZP ZB ZE ZS ZN ZF HH S1 S2 BE. assert (HN : 3 <= 2 * n - 1 <= 627) by lia. set (N := 2 * n - 1) in *.
  assert (RF : forall i, 0 <= i < N -> at_ fr i = wt t i) by (intros i I; apply (HH i I)).
  assert (RC : forall i, 0 <= i < N -> at_ ch i = enc (wh t i)) by (intros i I; apply (HH i I)).
  set (Inv := fun (i : Z) (s : Z * Z * dh) => exists f b pa bl ed sn av, s = (f, b, DH ch pa bl ed st sn fr tp av mo nn nx n1 nm) /\
    alen pa = 884 /\ alen bl = 884 /\ alen ed = 884 /\ alen sn = 442 /\ at_ bl N = 0 /\
    (if i =? 0 then f = 0 else f = at_ fr (i - 1) /\ b = at_ bl (i - 1)) /\
    (forall x, 0 <= x < i -> linked pa sn (wh t x) x) /\ Blk i (at_ fr) (at_ bl) (at_ ed) (at_ st) av).
  destruct (forZ_inv Inv reconst_links 0 N (0, b0, DH ch pa0 bl0 ed0 st sn0 fr tp 1 mo nn nx n1 nm)) as [s' [E IN]]; [lia| | |].
  - intros i s I [f [b [pa [bl [ed [sn [av [-> [Zp [Zb [Ze [Zn [BN [FB [LK BK]]]]]]]]]]]]]]]. unfold reconst_links.
    pose proof (wf_valid n t 0 i W I) as V. dred. dget. rewrite RC by lia.
    assert (STEP : (if enc (wh t i) <? 0 then put_snode (- enc (wh t i) - 1) i (DH ch pa bl ed st sn fr tp av mo nn nx n1 nm)
        else match put_parent (enc (wh t i) - 1) i (DH ch pa bl ed st sn fr tp av mo nn nx n1 nm) with Ok a => put_parent (enc (wh t i)) i a | Panic => Panic | NoFuel => NoFuel end) =
        Ok (let '(pa', sn') := relink pa sn (wh t i) i in DH ch pa' bl ed st sn' fr tp av mo nn nx n1 nm)).
    { destruct (wh t i) as [s|m]; cbn [enc relink].
      - destruct (Z.ltb_spec (- s - 1) 0); [|lia]. replace (- (- s - 1) - 1) with s by lia. dput. reflexivity.
      - destruct (Z.ltb_spec (2 * m) 0); [lia|]. dput. dput. reflexivity. }
    rewrite STEP. clear STEP. destruct (relink pa sn (wh t i) i) as [pa' sn'] eqn:RE. destruct (relink_len _ _ _ _ _ _ RE) as [Zp' Zn']. dred. dget.
    assert (LK' : forall x, 0 <= x < i + 1 -> linked pa' sn' (wh t x) x).
    { intros x X. apply (relink_ok n _ _ _ _ _ _ _ _ RE V (wf_valid n t 0 x W ltac:(lia))). destruct (Z.eq_dec x i) as [->|]; [now left|]. right. split; [intros Q; apply (wf_inj _ _ _ W) in Q; lia|apply LK; lia]. }
    pose proof (wf_pos _ _ _ W i I) as PI. destruct (Z.eqb_spec (at_ fr i) f) as [EF|EF].
    + destruct (Z.eqb_spec i 0) as [->|]; [rewrite RF in EF by lia; lia|]. destruct FB as [Ff Fb].
      dput. eexists. split; [reflexivity|]. unfold Inv. do 7 eexists. split; [reflexivity|]. rewrite alen_upd. split; [lia|]. split; [exact Zb|]. split; [exact Ze|]. split; [lia|]. split; [rewrite at_upd_ne by lia; exact BN|]. split.
      * destruct (Z.eqb_spec (i + 1) 0); [lia|]. replace (i + 1 - 1) with i by lia. rewrite at_upd_eq. auto.
      * split; [exact LK'|]. apply (blk_app_same i (at_ fr) (at_ bl)); auto; [lia|congruence|]. intros x X. rewrite at_upd by lia. now rewrite Fb.
    + assert (NE : forall x, 0 <= x < i -> at_ fr x <> at_ fr i).
      { intros x X Q. destruct (Z.eqb_spec i 0) as [->|]; [lia|]. destruct FB as [Ff _]. apply EF. rewrite Ff. rewrite !RF in * by lia.
        pose proof (wf_sort _ _ _ W x (i - 1) ltac:(lia) ltac:(lia)). pose proof (wf_sort _ _ _ W (i - 1) i ltac:(lia) ltac:(lia)). lia. }
      destruct (blk_app_new i (at_ fr) (at_ bl) (at_ ed) (at_ st) av (at_ (upd bl i (at_ st av))) (fun y => if y =? at_ st av then i else at_ ed y) ltac:(lia) BK NE) as [AV _]; [intros; apply at_upd; lia|reflexivity|].
      destruct (b_free _ _ _ _ _ _ BK av ltac:(lia)) as [SR _].
      unfold new_block. dred. dget. dput. dput. dget. rewrite at_upd_eq. eexists. split; [reflexivity|]. unfold Inv. do 7 eexists. split; [reflexivity|]. rewrite !alen_upd. split; [lia|]. split; [exact Zb|]. split; [exact Ze|]. split; [lia|]. split; [rewrite at_upd_ne by lia; exact BN|]. split.
      * destruct (Z.eqb_spec (i + 1) 0); [lia|]. replace (i + 1 - 1) with i by lia. rewrite at_upd_eq. auto.
      * split; [exact LK'|]. apply (blk_app_new i (at_ fr) (at_ bl) (at_ ed) (at_ st)); auto; try lia; intros; apply at_upd; lia.
  - unfold Inv. exists 0, b0, pa0, bl0, ed0, sn0, 1. split; [reflexivity|]. repeat (split; [assumption|]). split; [reflexivity|]. split; [intros; lia|].
    constructor; auto; try (intros; lia). intros k K. split; [now apply S1|intros; lia].
  - destruct IN as [f [b [pa [bl [ed [sn [av [-> [Zp [Zb [Ze [Zn [BN [FB [LK BK]]]]]]]]]]]]]]].
    exists f, b. eexists. split; [exact E|]. split; [|split; reflexivity]. constructor; dred; auto. constructor; dred; auto.
Qed.

(** ** The whole of reconst *)

Theorem reconst_ok (n : nat) t d : (2 <= n)%nat /\ Z.of_nat n <= 314 -> wf (Z.of_nat n) t 0 -> wt t 0 = 32768 -> Rep (Z.of_nat n) t d ->
  exists d', reconst 0 (2 * Z.of_nat n - 1) d = Ok d' /\ Rep (Z.of_nat n) (halve t) d' /\ same d d'.
Proof.
  intros Hn W B0 R. destruct (gather (Z.of_nat n) t d ltac:(lia) W ltac:(lia) R) as [b [ch [fr [st [E [ZC [ZF [ZS [H1 [H2 H3]]]]]]]]]].
  pose proof (halved_ok n t ltac:(lia) W) as LO. pose proof (lv_len _ _ LO) as LL. destruct (halve_ok n t ltac:(lia) W B0) as [WH BH].
  pose proof (wf_len _ _ _ WH) as LH. unfold reconst. rewrite E. cbn [bind].
  assert (J0 : JI n (Z.of_nat n - 1) (rev (halved t)) 0 [] (rev (halved t))).
  { destruct LO as [_ LS LF LP LY]. constructor; cbn [app length].
    - exact LS.
    - apply filter_all. intros x X. apply LF. now apply in_rev.
    - rewrite filter_none; [reflexivity|]. intros x X. unfold is_fork. rewrite LF by (now apply in_rev). reflexivity.
    - intros x X. apply LF. now apply in_rev.
    - rewrite rev_length. lia.
    - now left.
    - intros idx f m I. lia.
    - intros x X. apply LP. now apply in_rev. }
  assert (SG : Seg (2 * Z.of_nat n - 1) ch fr (2 * Z.of_nat n - 1 - 1) (zlen (halved t) - 1) [] (rev (halved t))).
  { constructor; auto; cbn [length]; try (intros; lia).
    - rewrite rev_length. unfold zlen. lia.
    - intros k K. rewrite rev_length in K. rewrite rev_nth by lia. specialize (H1 (zlen (halved t) - 1 - Z.of_nat k) ltac:(unfold zlen; lia)).
      unfold node in H1. replace (Z.to_nat (zlen (halved t) - 1 - Z.of_nat k)) with (length (halved t) - S k)%nat in H1 by (unfold zlen; lia). exact H1. }
  assert (HB : halve t = rev (joins (n - 1) (Z.of_nat n - 1) 0 (rev (halved t)) [])). { change (halve t) with (build (halved t)). unfold build. now rewrite LL. }
  destruct (joins_loop (k_parent d) (k_block d) (k_edge d) st (k_snode d) (k_totalP d) 1 (k_mostP d) (k_nn d) (k_next d) (k_n1 d) (k_nMax d) n (rev (halved t)) Hn (n - 1) 0 [] (rev (halved t)) ch fr (2 * Z.of_nat n - 1 - 1) (zlen (halved t) - 1) (2 * Z.of_nat n - 1 - 2) (Z.to_nat (treesize + 2))) as [ch' [fr' [E2 S2]]]; auto.
  - lia.
  - lia.
  - intros x X. apply in_rev in X. rewrite <- HB in X. destruct (in_node _ _ X) as [i [I EI]]. pose proof (wf_sort _ _ _ WH 0 i ltac:(lia) ltac:(lia)) as Q. unfold wt in Q at 1. rewrite EI in Q. lia.
  - unfold treesize. lia.
  - rewrite loop_loopN by reflexivity. rewrite E2. cbn [bind].
    destruct (r_sz _ _ _ R) as [Z1 Z2 Z3 Z4 Z5 Z6 Z7].
    destruct (links (Z.of_nat n) (halve t) ch' (k_parent d) (k_block d) (k_edge d) st (k_snode d) fr' (k_totalP d) (k_mostP d) (k_nn d) (k_next d) (k_n1 d) (k_nMax d) b) as [f [b' [d' [E3 [R' [N1 N2]]]]]]; auto; try lia.
    + apply (sg_ch _ _ _ _ _ _ _ S2).
    + apply (sg_fr _ _ _ _ _ _ _ S2).
    + intros i I. rewrite HB. unfold node. set (Q := joins _ _ _ _ _) in *. pose proof (sg_P _ _ _ _ _ _ _ S2) as LQ.
      rewrite rev_nth by lia. pose proof (sg_p _ _ _ _ _ _ _ S2 (length Q - S (Z.to_nat i))%nat ltac:(lia)) as G. replace (2 * Z.of_nat n - 1 - 1 - Z.of_nat (length Q - S (Z.to_nat i))) with i in G by lia. exact G.
    + apply (r_end _ _ _ R).
    + rewrite E3. cbn [bind]. exists d'. split; [reflexivity|]. split; [exact R'|]. split; assumption.
Qed.

(** ** updateC *)

Theorem updateC_ok (n : nat) t d s : (2 <= n)%nat /\ Z.of_nat n <= 314 -> wf (Z.of_nat n) t 0 -> wt t 0 <= 32768 -> Rep (Z.of_nat n) t d ->
  k_nMax d = Z.of_nat n -> 0 <= s < Z.of_nat n ->
  exists d', updateC s d = Ok d' /\ Rep (Z.of_nat n) (adapt t s) d' /\ same d d'.
Proof.
  intros Hn W B0 R NM S. set (N := Z.of_nat n) in *. unfold updateC, adapt, rootC.
  pose proof (z_freq _ (r_sz _ _ _ R)) as ZF. rewrite aget_ok by lia. cbn [bind]. rewrite (r_freq _ _ _ R) by lia.
  set (t1 := if wt t 0 =? 32768 then halve t else t).
  assert (X : exists d1, (if wt t 0 =? 32768 then reconst 0 (k_nMax d * 2 - 1) d else Ok d) = Ok d1 /\ Rep N t1 d1 /\ same d d1 /\ wf N t1 0 /\ wt t1 0 <= 32768).
  { unfold t1. destruct (Z.eqb_spec (wt t 0) 32768) as [E|E].
    - rewrite NM. replace (N * 2 - 1) with (2 * N - 1) by lia. destruct (reconst_ok n t d Hn W E R) as [d1 [E1 [R1 S1]]]. destruct (halve_ok n t ltac:(lia) W E) as [W1 B1].
      exists d1. split; [exact E1|]. split; [exact R1|]. split; [exact S1|]. split; [exact W1|lia].
    - exists d. split; [reflexivity|]. split; [exact R|]. split; [split; reflexivity|]. split; [exact W|lia]. }
  destruct X as [d1 [E1 [R1 [S1 [W1 B1]]]]]. rewrite E1. cbn [bind]. clear E1.
  pose proof (z_freq _ (r_sz _ _ _ R1)) as ZF1. rewrite aget_ok by lia. cbn [bind]. rewrite (r_freq _ _ _ R1) by lia.
  assert (U : u16 (wt t1 0 + 1) = wt t1 0 + 1). { pose proof (wf_pos _ _ _ W1 0 ltac:(lia)). unfold u16. apply Z.mod_small. lia. } rewrite U.
  rewrite put_freq_ok by lia. cbn [bind]. set (d2 := set_freq (upd (k_freq d1) 0 (wt t1 0 + 1)) d1). set (t2 := put t1 0 (wt t1 0 + 1, wh t1 0)).
  destruct (find_leaf N t1 0 s W1 S) as [F1 F2]. set (p := find_what (Leaf s) t1) in *.
  pose proof (count_root N t1 p s W1 F1 F2) as W2. fold t2 in W2.
  pose proof (wf_len _ _ _ W1) as L1.
  assert (P0 : p <> 0). { intros Q. rewrite Q in F2. rewrite (wf_root N ltac:(lia) t1 0 W1) in F2. discriminate F2. }
  assert (ND : forall i, 0 <= i -> node t2 i = if i =? 0 then (wt t1 0 + 1, wh t1 0) else node t1 i) by (intros; apply node_put; lia).
  assert (R2 : Rep N t2 d2).
  { destruct d1 as [ch pa bl ed st sn fr tp av mo nn nx n1 nm]. unfold d2. destruct R1 as [[Z1 Z2 Z3 Z4 Z5 Z6 Z7] RF RC RL RB RE]. dredin Z1. dredin Z2. dredin Z3. dredin Z4. dredin Z5. dredin Z6. dredin Z7. dredin RF. dredin RC. dredin RL. dredin RB. dredin RE. dred.
    constructor; dred; auto.
    - constructor; dred; rewrite ?alen_upd; auto.
    - intros i I. rewrite at_upd by lia. unfold wt at 2. rewrite ND by lia. destruct (i =? 0); [reflexivity|now apply RF].
    - intros i I. unfold wh. rewrite ND by lia. destruct (Z.eqb_spec i 0) as [->|]; now apply RC.
    - intros i I. unfold wh. rewrite ND by lia. destruct (Z.eqb_spec i 0) as [->|]; now apply RL.
    - apply (blk_root (2 * N - 1) (at_ fr)); [lia|exact RB| |].
      + intros x X. rewrite !RF by lia. pose proof (wf_root_wt N ltac:(lia) t2 p W2 ltac:(lia) x ltac:(lia)) as Q.
        destruct (wf_fork _ _ _ W1 0 1 ltac:(lia) (wf_root N ltac:(lia) t1 0 W1)) as [_ [_ D]]. unfold is in D. rewrite Z.eqb_refl in D. change (2 * 1 - 1) with 1 in D. change (2 * 1) with 2 in D.
        pose proof (wf_pos _ _ _ W1 2 ltac:(lia)). pose proof (wf_sort _ _ _ W1 1 x ltac:(lia) ltac:(lia)). lia.
      + intros x X. rewrite at_upd by lia. rewrite (RF 0) by lia. reflexivity. }
  assert (SN : aget (k_snode d2) s = Ok p).
  { pose proof (z_snode _ (r_sz _ _ _ R2)) as ZS. rewrite aget_ok by lia. f_equal. pose proof (r_link _ _ _ R2 p F1) as Q. unfold wh in Q. rewrite ND in Q by lia. destruct (Z.eqb_spec p 0); [lia|]. fold (wh t1 p) in Q. rewrite F2 in Q. exact Q. }
  rewrite SN. cbn [bind]. rewrite loop_loopN by reflexivity.
  assert (BT : wt t2 0 <= 40000) by (unfold wt at 1; rewrite ND by lia; change (0 =? 0) with true; cbv iota; cbn [fst]; lia).
  destruct (climb_loop N ltac:(lia) (Z.to_nat (treesize + 2)) t2 p d2 W2 F1 ltac:(unfold treesize; lia) P0 BT R2) as [d3 [E3 [R3 S3]]].
  unfold rootC in E3. rewrite E3. cbn [bind]. exists d3. split; [reflexivity|]. split.
  - rewrite (climb_fuel N ltac:(lia) (length t1) (Z.to_nat (treesize + 2)) t2 p W2 F1) by (unfold zlen in L1; unfold treesize; lia). exact R3.
  - destruct S1 as [N1 N2], S3 as [N3 N4]. split; [rewrite N3, <- N1|rewrite N4, <- N2]; reflexivity.
Qed.
