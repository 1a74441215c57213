(** A new leaf in a tree of S_Lh2.v. *)
From Verif Require Import Go GoLemmas S_Bits S_Huff S_Lz S_Lh1 S_Lh2 P_Tree P_Build P_Dhuf.

Lemma wf_one : wf 1 [(1, Leaf 0)] 0.
Proof.
  assert (Z0 : forall i, 0 <= i < 2 * 1 - 1 -> i = 0) by (intros; lia).
  constructor.
  - reflexivity.
  - intros i j I J. assert (i = 0) by lia. assert (j = 0) by lia. subst. apply Z.le_refl.
  - intros i I. rewrite (Z0 i I). vm_compute. discriminate.
  - intros i s I E. rewrite (Z0 i I) in E. injection E as <-. lia.
  - intros i m I E. rewrite (Z0 i I) in E. discriminate E.
  - intros i j I J _. rewrite (Z0 i I), (Z0 j J). reflexivity.
  - intros s S. exists 0. split; [lia|]. replace s with 0 by lia. reflexivity.
  - intros m M. lia.
Qed.

Section New.
Variables (n : Z) (t : tree).
Hypothesis Hn : 1 <= n.
Hypothesis W : wf n t 0.
Notation m := (2 * n - 2).

Lemma last_leaf : exists s, wh t m = Leaf s /\ 0 <= s < n.
Proof.
  destruct (wh t m) as [s|f] eqn:E; [exists s; split; [reflexivity|apply (wf_leaf _ _ _ W m); [lia|exact E]]|].
  destruct (wf_fork _ _ _ W m f ltac:(lia) E) as [A [B _]]. lia.
Qed.

Lemma node_app a b i : 0 <= i -> node (a ++ b) i = if i <? zlen a then node a i else node b (i - zlen a).
Proof.
  intros I. unfold node, zlen. destruct (Z.ltb_spec i (Z.of_nat (length a))).
  - rewrite app_nth1 by lia. reflexivity.
  - rewrite app_nth2 by lia. f_equal. lia.
Qed.

Lemma add_leaf_node i : 0 <= i <= 2 * n ->
  node (add_leaf t n) i = if i =? 2 * n then (0, Leaf n) else if i =? 2 * n - 1 then node t m else if i =? m then (wt t m, Fork n) else node t i.
Proof.
  intros I. pose proof (wf_len _ _ _ W) as L. unfold add_leaf. replace (Z.of_nat (length t) - 1) with m by (unfold zlen in L; lia).
  replace ((m + 2) / 2) with n by (replace (m + 2) with (n * 2) by lia; now rewrite Z.div_mul).
  rewrite node_app by lia. rewrite zlen_put, L. destruct (Z.ltb_spec i (2 * n - 1)).
  - rewrite node_put by lia. destruct (Z.eqb_spec i (2 * n)); [lia|]. destruct (Z.eqb_spec i (2 * n - 1)); [lia|]. reflexivity.
  - destruct (Z.eqb_spec i (2 * n)) as [->|].
    + replace (2 * n - (2 * n - 1)) with 1 by lia. reflexivity.
    + destruct (Z.eqb_spec i (2 * n - 1)) as [->|]; [|lia]. rewrite Z.sub_diag. unfold wt, wh. change (node [(fst (node t m), snd (node t m)); (0, Leaf n)] 0) with (fst (node t m), snd (node t m)). symmetry. apply surjective_pairing.
Qed.

Lemma add_leaf_len : zlen (add_leaf t n) = 2 * n + 1.
Proof. pose proof (wf_len _ _ _ W) as L. unfold add_leaf. rewrite zlen_app, zlen_put, L. change (zlen [_; _]) with 2. lia. Qed.

(** With the root counted, and with the new leaf counted too. *)
Definition ta : tree := put (add_leaf t n) 0 (wt (add_leaf t n) 0 + 1, wh (add_leaf t n) 0).
Definition tb : tree := put (put ta (2 * n) (0, Leaf n)) (2 * n) (1, Leaf n).

Lemma add_leaf_root : wt (add_leaf t n) 0 = wt t 0.
Proof.
  unfold wt. rewrite add_leaf_node by lia. destruct (Z.eqb_spec 0 (2 * n)); [lia|]. destruct (Z.eqb_spec 0 (2 * n - 1)); [lia|].
  destruct (Z.eqb_spec 0 m) as [->|]; reflexivity.
Qed.

Lemma ta_len : zlen ta = 2 * n + 1.
Proof. unfold ta. rewrite zlen_put. apply add_leaf_len. Qed.

Lemma ta_wt i : 0 <= i <= 2 * n -> wt ta i = if i =? 2 * n then 0 else if i =? 2 * n - 1 then wt t m else if i =? 0 then wt t 0 + 1 else wt t i.
Proof.
  intros I. unfold wt at 1, ta. rewrite node_put by (rewrite ?add_leaf_len; lia). destruct (Z.eqb_spec i 0) as [->|].
  - destruct (Z.eqb_spec 0 (2 * n)); [lia|]. destruct (Z.eqb_spec 0 (2 * n - 1)); [lia|]. cbn [fst]. now rewrite add_leaf_root.
  - rewrite add_leaf_node by lia. destruct (Z.eqb_spec i (2 * n)); [reflexivity|]. destruct (Z.eqb_spec i (2 * n - 1)); [reflexivity|]. destruct (Z.eqb_spec i m) as [->|]; reflexivity.
Qed.

Lemma ta_wh i : 0 <= i <= 2 * n -> wh ta i = if i =? 2 * n then Leaf n else if i =? 2 * n - 1 then wh t m else if i =? m then Fork n else wh t i.
Proof.
  intros I. assert (X : wh ta i = wh (add_leaf t n) i).
  { unfold wh at 1, ta. rewrite node_put by (rewrite ?add_leaf_len; lia). destruct (Z.eqb_spec i 0) as [->|]; reflexivity. }
  rewrite X. unfold wh at 1. rewrite add_leaf_node by lia. destruct (i =? 2 * n); [reflexivity|]. destruct (i =? 2 * n - 1); [reflexivity|]. destruct (i =? m); reflexivity.
Qed.

Lemma tb_wt i : 0 <= i <= 2 * n -> wt tb i = if i =? 2 * n then 1 else wt ta i.
Proof.
  intros I. unfold wt at 1, tb. pose proof ta_len. rewrite node_put by (rewrite ?zlen_put; lia). destruct (Z.eqb_spec i (2 * n)); [reflexivity|].
  rewrite node_put by lia. destruct (Z.eqb_spec i (2 * n)); [lia|reflexivity].
Qed.

Lemma tb_wh i : 0 <= i <= 2 * n -> wh tb i = wh ta i.
Proof.
  intros I. unfold wh at 1, tb. pose proof ta_len. rewrite node_put by (rewrite ?zlen_put; lia). destruct (Z.eqb_spec i (2 * n)) as [->|].
  - rewrite ta_wh by lia. now rewrite Z.eqb_refl.
  - rewrite node_put by lia. destruct (Z.eqb_spec i (2 * n)); [lia|reflexivity].
Qed.

Lemma ta_pos i : 0 <= i < 2 * n -> 1 <= wt ta i.
Proof.
  intros I. rewrite ta_wt by lia. destruct (Z.eqb_spec i (2 * n)); [lia|]. destruct (Z.eqb_spec i (2 * n - 1)); [apply (wf_pos _ _ _ W); lia|].
  destruct (Z.eqb_spec i 0); [pose proof (wf_pos _ _ _ W 0 ltac:(lia)); lia|]. apply (wf_pos _ _ _ W). lia.
Qed.

Lemma tb_wf : wf (n + 1) tb m.
Proof.
  destruct last_leaf as [sl [SL SR]].
  assert (WT : forall i, 0 <= i <= 2 * n -> wt tb i = if i =? 2 * n then 1 else if i =? 2 * n - 1 then wt t m else if i =? 0 then wt t 0 + 1 else wt t i).
  { intros i I. rewrite tb_wt, ta_wt by lia. destruct (i =? 2 * n); reflexivity. }
  assert (WH : forall i, 0 <= i <= 2 * n -> wh tb i = if i =? 2 * n then Leaf n else if i =? 2 * n - 1 then Leaf sl else if i =? m then Fork n else wh t i).
  { intros i I. rewrite tb_wh, ta_wh by lia. now rewrite SL. }
  constructor.
  - unfold tb. rewrite !zlen_put, ta_len. lia.
  - intros i j I J. rewrite !WT by lia. pose proof (wf_pos _ _ _ W m ltac:(lia)).
    assert (A : forall x, 0 <= x < 2 * n - 1 -> wt t m <= wt t x) by (intros; apply (wf_sort _ _ _ W); lia).
    assert (B : forall x, 0 <= x < 2 * n - 1 -> wt t x <= wt t 0) by (intros; apply (wf_sort _ _ _ W); lia).
    destruct (Z.eqb_spec j (2 * n)), (Z.eqb_spec i (2 * n)); try lia.
    + destruct (Z.eqb_spec i (2 * n - 1)); [lia|]. pose proof (A i ltac:(lia)). pose proof (A 0 ltac:(lia)). destruct (Z.eqb_spec i 0); lia.
    + destruct (Z.eqb_spec j (2 * n - 1)), (Z.eqb_spec i (2 * n - 1)); try lia.
      * pose proof (A i ltac:(lia)). pose proof (A 0 ltac:(lia)). destruct (Z.eqb_spec i 0); lia.
      * pose proof (B j ltac:(lia)). pose proof (wf_sort _ _ _ W i j ltac:(lia) ltac:(lia)). destruct (Z.eqb_spec j 0), (Z.eqb_spec i 0); lia.
  - intros i I. rewrite tb_wt by lia. destruct (Z.eqb_spec i (2 * n)); [lia|]. apply ta_pos. lia.
  - intros i s I E. rewrite WH in E by lia. destruct (Z.eqb_spec i (2 * n)); [injection E as <-; lia|]. destruct (Z.eqb_spec i (2 * n - 1)); [injection E as <-; lia|].
    destruct (Z.eqb_spec i m); [discriminate E|]. pose proof (wf_leaf _ _ _ W i s ltac:(lia) E). lia.
  - intros i f I E. rewrite WH in E by lia. destruct (Z.eqb_spec i (2 * n)); [discriminate E|]. destruct (Z.eqb_spec i (2 * n - 1)); [discriminate E|].
    destruct (Z.eqb_spec i m) as [->|].
    + injection E as <-. split; [lia|]. split; [lia|]. rewrite !WT by lia. rewrite !Z.eqb_refl. unfold is. rewrite Z.eqb_refl.
      destruct (Z.eqb_spec m (2 * n)); [lia|]. destruct (Z.eqb_spec m (2 * n - 1)); [lia|]. destruct (Z.eqb_spec (2 * n - 1) (2 * n)); [lia|].
      destruct (Z.eqb_spec m 0) as [Z0|]; [rewrite Z0; lia|lia].
    + destruct (wf_fork _ _ _ W i f ltac:(lia) E) as [A [B C]]. split; [lia|]. split; [lia|]. rewrite !WT by lia. unfold is in *.
      repeat match goal with |- context [?a =? ?b] => destruct (Z.eqb_spec a b); try lia end; destruct (Z.eqb_spec i 0); try lia; subst i; lia.
  - intros i j I J E. rewrite !WH in E by lia.
    destruct (Z.eqb_spec i (2 * n)), (Z.eqb_spec j (2 * n)); try lia; try (subst; congruence).
    + destruct (Z.eqb_spec j (2 * n - 1)); [injection E; lia|]. destruct (Z.eqb_spec j m); [discriminate E|]. symmetry in E. pose proof (wf_leaf _ _ _ W j n ltac:(lia) E). lia.
    + destruct (Z.eqb_spec i (2 * n - 1)); [injection E; lia|]. destruct (Z.eqb_spec i m); [discriminate E|]. pose proof (wf_leaf _ _ _ W i n ltac:(lia) E). lia.
    + destruct (Z.eqb_spec i (2 * n - 1)), (Z.eqb_spec j (2 * n - 1)); try lia.
      * destruct (Z.eqb_spec j m); [discriminate E|]. rewrite <- SL in E. pose proof (wf_inj _ _ _ W m j ltac:(lia) ltac:(lia) E). lia.
      * destruct (Z.eqb_spec i m); [discriminate E|]. rewrite <- SL in E. pose proof (wf_inj _ _ _ W i m ltac:(lia) ltac:(lia) E). lia.
      * destruct (Z.eqb_spec i m), (Z.eqb_spec j m); try lia.
        -- symmetry in E. destruct (wf_fork _ _ _ W j n ltac:(lia) E) as [A _]. lia.
        -- destruct (wf_fork _ _ _ W i n ltac:(lia) E) as [A _]. lia.
        -- apply (wf_inj _ _ _ W); [lia|lia|exact E].
  - intros s S. destruct (Z.eq_dec s n) as [->|]; [exists (2 * n); split; [lia|]; rewrite WH by lia; now rewrite Z.eqb_refl|].
    destruct (wf_hasleaf _ _ _ W s ltac:(lia)) as [i [I E]]. destruct (Z.eq_dec i m) as [->|].
    + exists (2 * n - 1). split; [lia|]. rewrite WH by lia. destruct (Z.eqb_spec (2 * n - 1) (2 * n)); [lia|]. rewrite Z.eqb_refl. congruence.
    + exists i. split; [lia|]. rewrite WH by lia. destruct (Z.eqb_spec i (2 * n)); [lia|]. destruct (Z.eqb_spec i (2 * n - 1)); [lia|]. destruct (Z.eqb_spec i m); [lia|exact E].
  - intros f F. destruct (Z.eq_dec f n) as [->|].
    + exists m. split; [lia|]. rewrite WH by lia. destruct (Z.eqb_spec m (2 * n)); [lia|]. destruct (Z.eqb_spec m (2 * n - 1)); [lia|]. now rewrite Z.eqb_refl.
    + destruct (wf_hasfork _ _ _ W f ltac:(lia)) as [i [I E]]. assert (i <> m) by (intros ->; rewrite SL in E; discriminate E).
      exists i. split; [lia|]. rewrite WH by lia. destruct (Z.eqb_spec i (2 * n)); [lia|]. destruct (Z.eqb_spec i (2 * n - 1)); [lia|]. destruct (Z.eqb_spec i m); [lia|exact E].
Qed.

Lemma above_tb : above tb (2 * n) = m.
Proof.
  unfold above. replace ((2 * n + 1) / 2) with n by (apply (Z.div_unique _ _ _ 1); lia).
  destruct (find_fork (n + 1) tb m n tb_wf ltac:(lia)) as [A B]. apply (wf_inj _ _ _ tb_wf); [lia|lia|]. rewrite B.
  rewrite tb_wh, ta_wh by lia. destruct (Z.eqb_spec m (2 * n)); [lia|]. destruct (Z.eqb_spec m (2 * n - 1)); [lia|]. now rewrite Z.eqb_refl.
Qed.

(** What S_Lh2.v makes of it. *)
Lemma adapt_new total : total <> 32768 -> lh2_adapt (add_leaf t n, total) n = (climb (Z.to_nat (2 * n)) tb m, total + 1).
Proof.
  intros T. unfold lh2_adapt. cbn [fst snd]. destruct (Z.eqb_spec total 32768); [lia|].
  pose proof add_leaf_len as L. unfold zlen in L. destruct (Nat.eqb_spec (length (add_leaf t n)) 1); [lia|].
  f_equal. change (put (add_leaf t n) 0 (wt (add_leaf t n) 0 + 1, wh (add_leaf t n) 0)) with ta.
  assert (F : find_what (Leaf n) (add_leaf t n) = 2 * n).
  { assert (WH : forall i, 0 <= i <= 2 * n -> wh (add_leaf t n) i = wh tb i).
    { intros i I. rewrite tb_wh by lia. unfold ta, wh at 2. rewrite node_put by (unfold zlen; lia). destruct (Z.eqb_spec i 0) as [->|]; reflexivity. }
    assert (N2 : wh tb (2 * n) = Leaf n) by (rewrite tb_wh, ta_wh by lia; now rewrite Z.eqb_refl).
    destruct (find_what_first (Leaf n) (add_leaf t n) (2 * n)) as [A B]; [unfold zlen; lia|rewrite WH by lia; exact N2|].
    apply (wf_inj _ _ _ tb_wf); [lia|lia|]. rewrite N2, <- WH by lia. exact B. }
  rewrite F. replace (length (add_leaf t n)) with (S (Z.to_nat (2 * n))) by lia. cbn [climb]. destruct (Z.eqb_spec (2 * n) 0); [lia|].
  assert (W0 : wt ta (2 * n) = 0) by (rewrite ta_wt by lia; now rewrite Z.eqb_refl).
  assert (G : grow ta (2 * n) = (tb, 2 * n)).
  { unfold grow. rewrite W0. destruct (find_weight_first 0 ta (2 * n)) as [A [B _]]; [rewrite ta_len; lia|exact W0|].
    assert (Q : find_weight 0 ta = 2 * n). { destruct (Z.eq_dec (find_weight 0 ta) (2 * n)); [assumption|]. pose proof (ta_pos (find_weight 0 ta) ltac:(lia)). lia. }
    rewrite Q, W0. rewrite (ta_wh (2 * n)) by lia. rewrite Z.eqb_refl. reflexivity. }
  rewrite G. now rewrite above_tb.
Qed.
End New.
