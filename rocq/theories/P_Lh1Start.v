(** dhuf.go starts with the tree of S_Lh1.v: startCDyn. *)
From Coq Require Import Sorted Permutation.
From Verif Require Import Go GoLemmas M_Bitio M_Dhuf S_Bits S_Huff S_Lz S_Lh1 P_Tree P_Build P_Blocks P_Dhuf P_Reconst.

(** ** The start tree *)

Lemma joins_rest n : forall k t P, (k + t + 1 = n)%nat -> (2 <= n)%nat -> length P = (n + t)%nat ->
  let Q := joins k (Z.of_nat n - 1) t [] P in
  length Q = (2 * n - 1)%nat /\ (forall i, (i < length P)%nat -> nth i Q d0 = nth i P d0) /\
  (forall s, (t <= s < n - 1)%nat -> nth (n + s) Q d0 = (w Q (2 * s) + w Q (2 * s + 1), Fork (Z.of_nat n - 1 - Z.of_nat s))).
Proof.
  induction k as [|k IH]; intros t P K Hn LP; cbn [joins]; cbv zeta.
  - split; [lia|]. split; [reflexivity|]. intros s S. lia.
  - replace (2 * t + 2 - length P)%nat with 0%nat by lia. cbn [firstn skipn lighter app]. rewrite !app_nil_r.
    set (f := fst (nth (2 * t) P (0, Leaf 0)) + fst (nth (2 * t + 1) P (0, Leaf 0))). set (x := (f, Fork (Z.of_nat n - 1 - Z.of_nat t))).
    destruct (IH (S t) (P ++ [x]) ltac:(lia) Hn) as [A [B C]]; [rewrite app_length; cbn [length]; lia|]. set (Q := joins _ _ _ _ _) in *.
    rewrite app_length in B. cbn [length] in B. split; [exact A|]. split; [intros i I; rewrite B by lia; now rewrite app_nth1 by lia|].
    intros s S. destruct (Nat.eq_dec s t) as [->|]; [|apply C; lia].
    rewrite B by lia. rewrite app_nth2 by lia. replace (n + t - length P)%nat with 0%nat by lia. cbn [nth]. unfold x, f, w. rewrite !B by lia. rewrite !app_nth1 by lia. reflexivity.
Qed.

Lemma lighter_all f l : (forall x, In x l -> fst x <= f) -> lighter f l = (l, []).
Proof.
  induction l as [|x l IH]; intros H; [reflexivity|]. cbn [lighter]. destruct (Z.leb_spec (fst x) f); [|specialize (H x ltac:(now left)); lia]. rewrite IH; [reflexivity|]. intros; apply H; now right.
Qed.

Lemma start_node n x : (2 <= n)%nat -> 0 <= x < 2 * Z.of_nat n - 1 ->
  let t := start_tree n in
  node t x = if x <? Z.of_nat n - 1 then (wt t (2 * x + 2) + wt t (2 * x + 1), Fork (x + 1)) else (1, Leaf (2 * Z.of_nat n - 2 - x)).
Proof.
  intros Hn X. cbv zeta. unfold start_tree, build. rewrite rev_involutive, rev_length, map_length, seq_length.
  set (l := map (fun i => (1, Leaf (Z.of_nat i))) (List.seq 0 n)).
  assert (LL : length l = n) by (unfold l; now rewrite map_length, seq_length).
  assert (L1 : forall i, (i < n)%nat -> nth i l d0 = (1, Leaf (Z.of_nat i))). { intros i I. unfold l. rewrite (map_nth_in _ _ i 0%nat) by (rewrite seq_length; lia). now rewrite seq_nth by lia. }
  destruct n as [|n']; [lia|]. replace (S n' - 1)%nat with (S (n' - 1)) by lia. cbn [joins]. change (2 * 0 + 2 - length (@nil (Z * what)))%nat with 2%nat. cbn [app].
  assert (LF : length (firstn 2 l) = 2%nat) by (rewrite firstn_length; lia).
  assert (F0 : fst (nth (2 * 0) (firstn 2 l) (0, Leaf 0)) = 1 /\ fst (nth (2 * 0 + 1) (firstn 2 l) (0, Leaf 0)) = 1).
  { pose proof (L1 0%nat ltac:(lia)) as A. pose proof (L1 1%nat ltac:(lia)) as B. destruct l as [|a [|b r]]; cbn [length] in LL; try lia. cbn [nth] in A, B. subst a b. split; reflexivity. }
  destruct F0 as [-> ->]. rewrite lighter_all by (intros y Y; assert (Y1 : In y l) by (rewrite <- (firstn_skipn 2 l); apply in_or_app; now right); unfold l in Y1; apply in_map_iff in Y1; destruct Y1 as [i [<- _]]; cbn [fst]; lia).
  rewrite app_assoc, firstn_skipn. set (y := (1 + 1, Fork (Z.of_nat (S n') - 1 - Z.of_nat 0))).
  destruct (joins_rest (S n') (n' - 1) 1 (l ++ [y]) ltac:(lia) Hn) as [A [B C]]; [rewrite app_length; cbn [length]; lia|]. set (Q := joins _ _ _ _ _) in *. rewrite app_length in B. cbn [length] in B.
  assert (QL : forall i, (i < S n')%nat -> nth i Q d0 = (1, Leaf (Z.of_nat i))) by (intros i I; rewrite B by lia; rewrite app_nth1 by lia; apply L1; lia).
  assert (QF : forall s, (s < n')%nat -> nth (S n' + s) Q d0 = (w Q (2 * s) + w Q (2 * s + 1), Fork (Z.of_nat (S n') - 1 - Z.of_nat s))).
  { intros s SS. destruct s as [|s]; [|apply C; lia]. rewrite B by lia. rewrite app_nth2 by lia. replace (S n' + 0 - length l)%nat with 0%nat by lia. cbn [nth]. unfold w. rewrite !QL by lia. reflexivity. }
  assert (NQ : forall z, 0 <= z < 2 * Z.of_nat (S n') - 1 -> node (rev Q) z = nth (2 * S n' - 2 - Z.to_nat z) Q d0). { intros z Z. unfold node. rewrite rev_nth by lia. rewrite A. unfold d0. f_equal. lia. }
  rewrite NQ by lia. destruct (Z.ltb_spec x (Z.of_nat (S n') - 1)).
  - set (s := (n' - 1 - Z.to_nat x)%nat). replace (2 * S n' - 2 - Z.to_nat x)%nat with (S n' + s)%nat by lia. rewrite QF by lia. f_equal; [|f_equal; lia].
    unfold wt. rewrite !NQ by lia. unfold w. f_equal; f_equal; f_equal; lia.
  - rewrite QL by lia. f_equal. f_equal. lia.
Qed.

(** ** The loops of startCDyn *)

Section Start.
Variable n : nat.
Hypothesis Hn : (2 <= n)%nat /\ Z.of_nat n <= 314.
Let z := Z.of_nat n.
Let N := 2 * z - 1.
Let t := start_tree n.

Theorem startCDyn_ok mm d : Sz d -> exists d', startCDyn z mm d = Ok d' /\ Rep z t d' /\ k_nMax d' = z /\
  k_n1 d' = (if u16 (256 + mm - 3 + 1) <=? z then z - 1 else 512).
Proof.
  intros SZ. destruct d as [ch0 pa0 bl0 ed0 st0 sn0 fr0 tp av0 mo nn nx n10 nm0]. destruct SZ as [Z1 Z2 Z3 Z4 Z5 Z6 Z7]. dredin Z1. dredin Z2. dredin Z3. dredin Z4. dredin Z5. dredin Z6. dredin Z7.
  unfold startCDyn. cbv zeta. dred. set (n1 := if _ <=? z then z - 1 else 512).
  destruct (start_ok n ltac:(lia)) as [W WR]. fold t in W, WR. fold z in W, WR.
  assert (HN : 3 <= N <= 627) by (unfold N, z; lia). assert (HZ : 2 <= z <= 314) by (unfold z; lia).
  (* clear *)
  set (I1 := fun (i : Z) (d : dh) => exists bl st, d = DH ch0 pa0 bl ed0 st sn0 fr0 tp av0 mo nn nx n1 z /\ alen bl = 884 /\ alen st = 884 /\
    (forall k, 0 <= k < i -> at_ st k = k /\ at_ bl k = 0)).
  destruct (forZ_inv I1 start_clear 0 treesizeC (DH ch0 pa0 bl0 ed0 st0 sn0 fr0 tp av0 mo nn nx n1 z)) as [d1 [E1 IN1]]; [unfold treesizeC; lia| | |].
  { intros i s I [bl [st [-> [B [S H]]]]]. unfold treesizeC in I. unfold start_clear. dput. dput. eexists. split; [reflexivity|]. do 2 eexists. split; [reflexivity|]. rewrite !alen_upd. split; [exact B|]. split; [exact S|].
    intros k K. rewrite !at_upd by lia. destruct (Z.eqb_spec k i) as [->|]; [auto|apply H; lia]. }
  { do 2 eexists. split; [reflexivity|]. split; [exact Z3|]. split; [exact Z5|]. intros; lia. }
  dredin E1. rewrite E1. dred. destruct IN1 as [bl1 [st [-> [ZB [ZS H1]]]]]. unfold treesizeC in H1. clear E1 I1.
  (* leaves *)
  set (I2 := fun (i : Z) (d : dh) => exists ch bl sn fr, d = DH ch pa0 bl ed0 st sn fr tp av0 mo nn nx n1 z /\ alen ch = 884 /\ alen bl = 884 /\ alen sn = 442 /\ alen fr = 884 /\
    at_ bl N = 0 /\ (forall x, N - 1 - i < x < N -> at_ fr x = 1 /\ at_ ch x = enc (Leaf (N - 1 - x)) /\ at_ sn (N - 1 - x) = x /\ at_ bl x = 1)).
  destruct (forZ_inv I2 (start_leaf z) 0 z (DH ch0 pa0 bl1 ed0 st sn0 fr0 tp av0 mo nn nx n1 z)) as [d2 [E2 IN2]]; [lia| | |].
  { intros i s I [ch [bl [sn [fr [-> [A1 [A2 [A3 [A4 [A5 A6]]]]]]]]]]. unfold start_leaf. cbv zeta. replace (2 * z - 2 - i) with (N - 1 - i) by (unfold N; lia).
    assert (i < N - 1 - i + 1) by (unfold N; lia). dput. dput. dput. dput. eexists. split; [reflexivity|]. do 4 eexists. split; [reflexivity|]. rewrite !alen_upd. do 4 (split; [assumption|]). split; [rewrite at_upd_ne by lia; exact A5|].
    intros x X. rewrite !at_upd by lia. destruct (Z.eqb_spec x (N - 1 - i)) as [->|].
    - replace (N - 1 - (N - 1 - i)) with i by lia. rewrite Z.eqb_refl. cbn [enc]. auto.
    - destruct (Z.eqb_spec (N - 1 - x) i); [lia|]. apply A6. lia. }
  { do 4 eexists. split; [reflexivity|]. do 4 (split; [assumption|]). split; [apply H1; lia|]. intros; lia. }
  dredin E2. rewrite E2. dred. destruct IN2 as [ch2 [bl2 [sn [fr2 [-> [A1 [A2 [A3 [A4 [A5 A6]]]]]]]]]]. clear E2 I2. dput.
  (* inner nodes *)
  assert (NT : forall x, 0 <= x < N -> node t x = if x <? z - 1 then (wt t (2 * x + 2) + wt t (2 * x + 1), Fork (x + 1)) else (1, Leaf (N - 1 - x))).
  { intros x X. unfold t. rewrite start_node by (unfold N, z in *; lia). fold z. replace (2 * z - 2 - x) with (N - 1 - x) by (unfold N; lia). reflexivity. }
  set (F := wt t).
  set (I3 := fun (c : Z) (d : dh) => exists ch pa bl ed fr av, d = DH ch pa bl ed st sn fr tp av mo nn nx n1 z /\ alen ch = 884 /\ alen pa = 884 /\ alen bl = 884 /\ alen ed = 884 /\ alen fr = 884 /\
    at_ bl N = 0 /\ (forall x, z - 1 - c <= x < N -> holds ch fr x (node t x) /\ linked pa sn (wh t x) x) /\
    (forall x, z - 1 - c <= x < N -> 1 <= at_ bl x < av) /\
    (forall x y, z - 1 - c <= x < N -> z - 1 - c <= y < N -> (at_ bl x = at_ bl y <-> F x = F y)) /\
    (forall x, z - 1 - c <= x < N -> z - 1 - c <= at_ ed (at_ bl x) <= x /\ F (at_ ed (at_ bl x)) = F x /\ forall j, z - 1 - c <= j < at_ ed (at_ bl x) -> F j <> F x) /\
    av = 2 + lead F (Z.to_nat N) - lead F (Z.to_nat (z - 1 - c + 1))).
  destruct (forZ_inv I3 (start_inner z) 0 (z - 1) (DH ch2 pa0 bl2 (upd ed0 1 (z - 1)) st sn fr2 tp 2 mo nn nx n1 z)) as [d3 [E3 IN3]]; [lia| | |].
  - intros c s C [ch [pa [bl [ed [fr [av [-> [B1 [B2 [B3 [B4 [B5 [B6 [B7 [B8 [B9 [B10 B11]]]]]]]]]]]]]]]]].
    unfold start_inner. cbv zeta. set (j := z - 2 - c). replace (z - 1 - c) with (j + 1) in * by (unfold j; lia). replace (2 * z - 2 - 2 * c) with (2 * j + 2) by (unfold j; lia). replace (2 * j + 2 - 1) with (2 * j + 1) by lia.
    assert (J : 0 <= j < z - 1) by (unfold j; lia). assert (J2 : 2 * j + 2 < N) by (unfold N; lia).
    destruct (B7 (2 * j + 2) ltac:(lia)) as [[G1 _] _]. destruct (B7 (2 * j + 1) ltac:(lia)) as [[G2 _] _]. fold (wt t (2 * j + 2)) in G1. fold (wt t (2 * j + 1)) in G2.
    dred. dget. dget. rewrite G1, G2. pose proof (NT j ltac:(lia)) as NJ. destruct (Z.ltb_spec j (z - 1)) as [_|]; [|lia].
    assert (FJ : F j = wt t (2 * j + 2) + wt t (2 * j + 1)) by (unfold F, wt; rewrite NJ; reflexivity). assert (WJ : wh t j = Fork (j + 1)) by (unfold wh; rewrite NJ; reflexivity).
    assert (U : u16 (wt t (2 * j + 2) + wt t (2 * j + 1)) = F j).
    { rewrite <- FJ. pose proof (wf_pos _ _ _ W j ltac:(unfold N in *; lia)). pose proof (wf_sort _ _ _ W 0 j ltac:(lia) ltac:(unfold N in *; lia)). unfold u16. apply Z.mod_small. unfold F. lia. }
    rewrite U. dput. dput. dput. dput. dget.
    assert (LK : forall pa', pa' = upd (upd pa (2 * j + 1) j) (2 * j + 2) j -> forall x, j <= x < N -> linked pa' sn (wh t x) x).
    { intros pa' -> x X. assert (V : match wh t j with Leaf s => 0 <= s < z | Fork m => 1 <= m < z end) by (apply (wf_valid z t 0 j W); unfold N in *; lia).
      apply (relink_ok z pa sn (wh t j) j _ _ (wh t x) x); auto.
      - rewrite WJ. cbn [relink]. replace (2 * (j + 1)) with (2 * j + 2) by lia. replace (2 * j + 2 - 1) with (2 * j + 1) by lia. reflexivity.
      - apply (wf_valid z t 0 x W). unfold N in *. lia.
      - destruct (Z.eq_dec x j) as [->|]; [now left|]. right. split; [intros Q; apply (wf_inj _ _ _ W) in Q; unfold N in *; lia|apply B7; lia]. }
    assert (HO : forall x, j <= x < N -> holds (upd ch j (2 * j + 2)) (upd fr j (F j)) x (node t x)).
    { intros x X. unfold holds. rewrite !at_upd by lia. destruct (Z.eqb_spec x j) as [->|]; [|apply B7; lia]. rewrite NJ. cbn [fst snd enc]. rewrite FJ. split; [reflexivity|lia]. }
    assert (LS : lead F (Z.to_nat (j + 1 + 1)) = lead F (Z.to_nat (j + 1)) + isl F (j + 1)) by (apply lead_S; lia).
    assert (IJ : isl F (j + 1) = if F j =? F (j + 1) then 0 else 1). { unfold isl. destruct (Z.eqb_spec (j + 1) 0); [lia|]. replace (j + 1 - 1) with j by lia. destruct (F j =? F (j + 1)); reflexivity. }
    assert (SO : forall x y, j <= x <= y -> y < N -> F y <= F x) by (intros; apply (wf_sort _ _ _ W); unfold N in *; lia).
    rewrite at_upd_ne by lia. destruct (B7 (j + 1) ltac:(lia)) as [[G3 _] _]. fold (wt t (j + 1)) in G3. fold (F (j + 1)) in G3. rewrite G3.
    assert (LR : lead F (Z.to_nat N) - lead F (Z.to_nat (j + 1 + 1)) <= N - (j + 1 + 1)).
    { assert (LM : forall k m, (k <= m)%nat -> lead F m - lead F k <= Z.of_nat m - Z.of_nat k). { intros k m M. induction M; [lia|]. cbn [lead]. pose proof (isl_range F (Z.of_nat m)). lia. }
      specialize (LM (Z.to_nat (j + 1 + 1)) (Z.to_nat N) ltac:(lia)). lia. }
    assert (LR0 : 0 <= lead F (Z.to_nat N) - lead F (Z.to_nat (j + 1 + 1))).
    { assert (LM : forall k m, (k <= m)%nat -> lead F k <= lead F m). { intros k m M. induction M; [lia|]. cbn [lead]. pose proof (isl_range F (Z.of_nat m)). lia. }
      specialize (LM (Z.to_nat (j + 1 + 1)) (Z.to_nat N) ltac:(lia)). lia. }
    pose proof (B8 (j + 1) ltac:(lia)) as BJ.
    destruct (Z.eqb_spec (F j) (F (j + 1))) as [EF|EF].
    + dget. dput. dput. eexists. split; [reflexivity|]. unfold I3. replace (z - 1 - (c + 1)) with j by (unfold j; lia). do 6 eexists. split; [reflexivity|]. rewrite !alen_upd. do 5 (split; [assumption|]).
      split; [rewrite at_upd_ne by lia; exact B6|]. split; [intros x X; split; [now apply HO|now apply LK]|].
      assert (BB : forall x, j <= x < N -> at_ (upd bl j (at_ bl (j + 1))) x = if x =? j then at_ bl (j + 1) else at_ bl x) by (intros; apply at_upd; lia).
      split; [intros x X; rewrite BB by lia; destruct (Z.eqb_spec x j); apply B8; lia|].
      split; [intros x y X Y; rewrite !BB by lia; destruct (Z.eqb_spec x j) as [->|], (Z.eqb_spec y j) as [->|]; rewrite ?EF; try tauto; apply B9; lia|].
      split; [|lia].
      intros x X. rewrite BB by lia. destruct (Z.eqb_spec x j) as [->|].
      * rewrite at_upd_eq. split; [lia|]. split; [reflexivity|intros; lia].
      * pose proof (B8 x ltac:(lia)). rewrite at_upd by lia. destruct (Z.eqb_spec (at_ bl x) (at_ bl (j + 1))) as [Q|Q].
        -- apply B9 in Q; [|lia|lia]. split; [lia|]. split; [congruence|intros; lia].
        -- destruct (B10 x ltac:(lia)) as [X1 [X2 X3]]. split; [lia|]. split; [exact X2|]. intros k K. destruct (Z.eq_dec k j) as [->|]; [|apply X3; lia]. intros C2. apply Q. apply B9; [lia|lia|congruence].
    + unfold new_block. dred. dget. assert (SA : at_ st av = av) by (apply H1; lia). rewrite SA. dput. dput. eexists. split; [reflexivity|]. unfold I3. replace (z - 1 - (c + 1)) with j by (unfold j; lia). do 6 eexists. split; [reflexivity|]. rewrite !alen_upd. do 5 (split; [assumption|]).
      split; [rewrite at_upd_ne by lia; exact B6|]. split; [intros x X; split; [now apply HO|now apply LK]|].
      assert (BB : forall x, j <= x < N -> at_ (upd bl j av) x = if x =? j then av else at_ bl x) by (intros; apply at_upd; lia).
      assert (UJ : forall x, j + 1 <= x < N -> F x <> F j). { intros x X. pose proof (SO j (j + 1) ltac:(lia) ltac:(lia)). pose proof (SO (j + 1) x ltac:(lia) ltac:(lia)). lia. }
      split; [intros x X; rewrite BB by lia; destruct (Z.eqb_spec x j); [lia|]; pose proof (B8 x ltac:(lia)); lia|].
      split.
      { intros x y X Y. rewrite !BB by lia. destruct (Z.eqb_spec x j) as [->|], (Z.eqb_spec y j) as [->|]; try tauto.
        - pose proof (B8 y ltac:(lia)). pose proof (UJ y ltac:(lia)). split; intros; [lia|congruence].
        - pose proof (B8 x ltac:(lia)). pose proof (UJ x ltac:(lia)). split; intros; [lia|congruence].
        - apply B9; lia. }
      split; [|lia].
      intros x X. rewrite BB by lia. destruct (Z.eqb_spec x j) as [->|].
      * rewrite at_upd_eq. split; [lia|]. split; [reflexivity|intros; lia].
      * pose proof (B8 x ltac:(lia)). rewrite at_upd_ne by lia. destruct (B10 x ltac:(lia)) as [X1 [X2 X3]]. split; [lia|]. split; [exact X2|].
        intros k K. destruct (Z.eq_dec k j) as [->|]; [|apply X3; lia]. intros C2. apply (UJ x); [lia|congruence].
  - unfold I3. rewrite Z.sub_0_r. do 6 eexists. split; [reflexivity|]. rewrite alen_upd. do 5 (split; [assumption|]). split; [exact A5|].
    assert (NL : forall x, z - 1 <= x < N -> node t x = (1, Leaf (N - 1 - x))). { intros x X. rewrite NT by lia. destruct (Z.ltb_spec x (z - 1)); [lia|reflexivity]. }
    assert (FL : forall x, z - 1 <= x < N -> F x = 1) by (intros x X; unfold F, wt; rewrite NL by lia; reflexivity).
    assert (AL : forall x, z - 1 <= x < N -> at_ fr2 x = 1 /\ at_ ch2 x = enc (Leaf (N - 1 - x)) /\ at_ sn (N - 1 - x) = x /\ at_ bl2 x = 1) by (intros x X; apply A6; unfold N; lia).
    split; [intros x X; destruct (AL x X) as [Q1 [Q2 [Q3 Q4]]]; unfold holds, wh; rewrite NL by lia; cbn [fst snd linked]; auto|].
    split; [intros x X; destruct (AL x X) as [_ [_ [_ ->]]]; lia|].
    split; [intros x y X Y; destruct (AL x X) as [_ [_ [_ ->]]]; destruct (AL y Y) as [_ [_ [_ ->]]]; rewrite !FL by lia; tauto|].
    split; [intros x X; destruct (AL x X) as [_ [_ [_ ->]]]; rewrite at_upd_eq; split; [lia|]; rewrite !FL by (unfold N; lia); split; [reflexivity|intros; lia]|].
    assert (LC : forall m : nat, z - 1 + 1 <= Z.of_nat m <= N -> lead F m = lead F (Z.to_nat (z - 1 + 1))).
    { induction m as [|m IH]; intros M; [lia|]. destruct (Z.eq_dec (Z.of_nat (S m)) (z - 1 + 1)) as [Q|]; [f_equal; lia|]. cbn [lead]. rewrite IH by lia. unfold isl. destruct (Z.eqb_spec (Z.of_nat m) 0); [lia|]. rewrite !FL by lia. rewrite Z.eqb_refl. cbn [negb orb]. lia. }
    rewrite (LC (Z.to_nat N)) by (unfold N; lia). lia.
  - dredin E3. exists d3. split; [exact E3|]. destruct IN3 as [ch [pa [bl [ed [fr [av [-> [B1 [B2 [B3 [B4 [B5 [B6 [B7 [B8 [B9 [B10 B11]]]]]]]]]]]]]]]]].
    replace (z - 1 - (z - 1)) with 0 in * by lia. split; [|split; reflexivity].
    assert (FE : forall x, 0 <= x < N -> at_ fr x = F x) by (intros x X; apply (B7 x X)).
    change (lead F (Z.to_nat (0 + 1))) with (0 + isl F 0) in B11. change (isl F 0) with 1 in B11.
    pose proof (lead_range F (Z.to_nat N)) as LR.
    fold N. constructor; dred.
    + constructor; dred; assumption.
    + intros i I. now apply FE.
    + intros i I. apply (B7 i I).
    + intros i I. apply (B7 i I).
    + fold N. constructor.
      * rewrite (lead_ext F) by (intros x X; apply FE; lia). lia.
      * intros x X. pose proof (B8 x X). lia.
      * intros x y X Y. rewrite !FE by lia. now apply B9.
      * intros x X. destruct (B10 x X) as [X1 [X2 X3]]. split; [lia|]. rewrite !FE by lia. split; [exact X2|]. intros k K. rewrite FE by lia. now apply X3.
      * intros k K. destruct (H1 k ltac:(lia)) as [-> _]. split; [lia|]. intros x X. pose proof (B8 x X). lia.
      * intros k l K L. destruct (H1 k ltac:(lia)) as [-> _]. destruct (H1 l ltac:(lia)) as [-> _]. auto.
    + exact B6.
Qed.
End Start.
