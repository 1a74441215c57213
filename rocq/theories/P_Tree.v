(** The trees of S_Lh1.v stay well formed. *)
From Coq Require Import Permutation.
From Verif Require Import Go GoLemmas S_Bits S_Huff S_Lz S_Lh1.

(** ** Lists of nodes *)

Lemma set_at_length {A} (v : A) : forall l n, length (set_at n v l) = length l.
Proof. induction l; intros n; destruct n; cbn [set_at length]; auto. Qed.

Lemma nth_set_at {A} (v d : A) : forall l n k, (n < length l)%nat -> nth k (set_at n v l) d = if (k =? n)%nat then v else nth k l d.
Proof.
  induction l as [|x l IH]; intros n k H; [cbn in H; lia|]. destruct n, k; cbn [set_at nth Nat.eqb]; try reflexivity.
  apply IH. cbn in H. lia.
Qed.

Lemma zlen_put t i v : zlen (put t i v) = zlen t.
Proof. unfold zlen, put. now rewrite set_at_length. Qed.

Lemma node_put t p v i : 0 <= p < zlen t -> 0 <= i -> node (put t p v) i = if i =? p then v else node t i.
Proof.
  intros P I. unfold node, put, zlen in *. rewrite nth_set_at by lia.
  destruct (Nat.eqb_spec (Z.to_nat i) (Z.to_nat p)), (Z.eqb_spec i p); try reflexivity; lia.
Qed.

Lemma what_eqb_spec a b : what_eqb a b = true <-> a = b.
Proof.
  destruct a, b; cbn [what_eqb]; try (split; discriminate); rewrite Z.eqb_eq; split; congruence.
Qed.

Lemma node_S x t i : 0 <= i -> node (x :: t) (1 + i) = node t i.
Proof. intros. unfold node. now replace (Z.to_nat (1 + i)) with (S (Z.to_nat i)) by lia. Qed.

Lemma find_what_first w : forall t i, 0 <= i < zlen t -> wh t i = w ->
  0 <= find_what w t <= i /\ wh t (find_what w t) = w.
Proof.
  induction t as [|x t IH]; intros i I E; [unfold zlen in I; cbn [length] in I; lia|]. cbn [find_what].
  destruct (what_eqb (snd x) w) eqn:Q.
  - apply what_eqb_spec in Q. split; [lia|exact Q].
  - destruct (Z.eq_dec i 0) as [->|].
    + exfalso. assert (what_eqb (snd x) w = true) by (apply what_eqb_spec; exact E). congruence.
    + rewrite zlen_cons in I. replace i with (1 + (i - 1)) in E by lia. unfold wh in E. rewrite node_S in E by lia.
      destruct (IH (i - 1)) as [A B]; [lia|exact E|]. split; [lia|]. unfold wh. rewrite node_S by lia. exact B.
Qed.

Lemma find_weight_first f : forall t i, 0 <= i < zlen t -> wt t i = f ->
  0 <= find_weight f t <= i /\ wt t (find_weight f t) = f /\ forall j, 0 <= j < find_weight f t -> wt t j <> f.
Proof.
  induction t as [|x t IH]; intros i I E; [unfold zlen in I; cbn [length] in I; lia|]. cbn [find_weight].
  destruct (Z.eqb_spec (fst x) f) as [Q|Q].
  - split; [lia|]. split; [exact Q|lia].
  - destruct (Z.eq_dec i 0) as [->|].
    + now exfalso.
    + rewrite zlen_cons in I. replace i with (1 + (i - 1)) in E by lia. unfold wt in E. rewrite node_S in E by lia.
      destruct (IH (i - 1)) as [A [B C]]; [lia|exact E|]. split; [lia|]. unfold wt. rewrite node_S by lia. split; [exact B|].
      intros j J. destruct (Z.eq_dec j 0) as [->|]; [exact Q|]. replace j with (1 + (j - 1)) by lia. rewrite node_S by lia. apply C. lia.
Qed.

(** ** Well-formed trees of [n] symbols.  While the tree is being adapted, the root
    is already counted and node [c] is not yet. *)
Definition is (a b : Z) : Z := if a =? b then 1 else 0.

Record wf (n : Z) (t : tree) (c : Z) : Prop := {
  wf_len : zlen t = 2 * n - 1;
  wf_sort : forall i j, 0 <= i <= j -> j < 2 * n - 1 -> wt t j <= wt t i;
  wf_pos : forall i, 0 <= i < 2 * n - 1 -> 1 <= wt t i;
  wf_leaf : forall i s, 0 <= i < 2 * n - 1 -> wh t i = Leaf s -> 0 <= s < n;
  wf_fork : forall i m, 0 <= i < 2 * n - 1 -> wh t i = Fork m ->
    1 <= m < n /\ i < 2 * m - 1 /\ wt t i = wt t (2 * m - 1) + wt t (2 * m) + is i 0 - is i c;
  wf_inj : forall i j, 0 <= i < 2 * n - 1 -> 0 <= j < 2 * n - 1 -> wh t i = wh t j -> i = j;
  wf_hasleaf : forall s, 0 <= s < n -> exists i, 0 <= i < 2 * n - 1 /\ wh t i = Leaf s;
  wf_hasfork : forall m, 1 <= m < n -> exists i, 0 <= i < 2 * n - 1 /\ wh t i = Fork m
}.

Section Tree.
Variable n : Z.
Hypothesis Hn : 2 <= n.

Lemma find_leaf t c s : wf n t c -> 0 <= s < n ->
  0 <= find_what (Leaf s) t < 2 * n - 1 /\ wh t (find_what (Leaf s) t) = Leaf s.
Proof.
  intros W S. destruct (wf_hasleaf _ _ _ W s S) as [i [I E]]. pose proof (wf_len _ _ _ W).
  destruct (find_what_first (Leaf s) t i) as [A B]; auto; [lia|]. split; [lia|exact B].
Qed.

Lemma find_fork t c m : wf n t c -> 1 <= m < n ->
  0 <= find_what (Fork m) t < 2 * n - 1 /\ wh t (find_what (Fork m) t) = Fork m.
Proof.
  intros W S. destruct (wf_hasfork _ _ _ W m S) as [i [I E]]. pose proof (wf_len _ _ _ W).
  destruct (find_what_first (Fork m) t i) as [A B]; auto; [lia|]. split; [lia|exact B].
Qed.

Lemma half p : 1 <= p -> p = 2 * ((p + 1) / 2) - 1 \/ p = 2 * ((p + 1) / 2).
Proof. intros. pose proof (Z.div_mod (p + 1) 2 ltac:(lia)). pose proof (Z.mod_pos_bound (p + 1) 2 ltac:(lia)). lia. Qed.

Lemma half_range p : 1 <= p < 2 * n - 1 -> 1 <= (p + 1) / 2 < n.
Proof. intros. pose proof (half p ltac:(lia)). lia. Qed.

Lemma half_of m p : p = 2 * m - 1 \/ p = 2 * m -> (p + 1) / 2 = m.
Proof. intros [-> | ->]; [replace (2 * m - 1 + 1) with (m * 2) by lia; apply Z.div_mul; lia|]. symmetry. apply (Z.div_unique _ _ _ 1); lia. Qed.

(** The root is always the parent of nodes 1 and 2. *)
Lemma wf_root t c : wf n t c -> wh t 0 = Fork 1.
Proof.
  intros W. destruct (wf_hasfork _ _ _ W 1 ltac:(lia)) as [i [I E]]. destruct (wf_fork _ _ _ W i 1 I E) as [A [B C]].
  replace 0 with i by lia. exact E.
Qed.

Lemma wf_root_wt t c : wf n t c -> 0 < c -> forall i, 1 <= i < 2 * n - 1 -> wt t i < wt t 0.
Proof.
  intros W C i I. destruct (wf_fork _ _ _ W 0 1 ltac:(lia) (wf_root _ _ W)) as [A [B D]].
  unfold is in D. rewrite Z.eqb_refl in D. destruct (Z.eqb_spec 0 c); [lia|]. change (2 * 1 - 1) with 1 in D. change (2 * 1) with 2 in D.
  pose proof (wf_pos _ _ _ W 2 ltac:(lia)). pose proof (wf_sort _ _ _ W 1 i ltac:(lia) ltac:(lia)). lia.
Qed.

Lemma above_ok t c p : wf n t c -> 1 <= p < 2 * n - 1 ->
  0 <= above t p < p /\ wh t (above t p) = Fork ((p + 1) / 2).
Proof.
  intros W P. unfold above. destruct (find_fork t c ((p + 1) / 2) W (half_range p P)) as [A B].
  destruct (wf_fork _ _ _ W _ _ A B) as [C [D _]]. pose proof (half p ltac:(lia)). split; [lia|exact B].
Qed.

(** One step of the way up. *)
Lemma grow_ok t p t1 q : wf n t p -> 1 <= p < 2 * n - 1 -> grow t p = (t1, q) ->
  1 <= q <= p /\ wt t q = wt t p /\ (forall j, 0 <= j < q -> wt t j <> wt t p) /\
  (forall i, 0 <= i -> wt t1 i = if i =? q then wt t p + 1 else wt t i) /\
  (forall i, 0 <= i -> wh t1 i = if i =? q then wh t p else if i =? p then wh t q else wh t i) /\
  wf n t1 (above t1 q).
Proof.
  intros W P G. unfold grow in G. apply pair_equal_spec in G. destruct G as [G1 G2].
  pose proof (wf_len _ _ _ W) as L.
  destruct (find_weight_first (wt t p) t p) as [Q1 [Q2 Q3]]; [lia|reflexivity|]. rewrite G2 in *.
  assert (Q0 : 1 <= q <= p).
  { pose proof (wf_root_wt t p W ltac:(lia) p ltac:(lia)). destruct (Z.eq_dec q 0) as [X|]; [|lia]. rewrite X in Q2. lia. }
  assert (ND : forall i, 0 <= i -> node t1 i = if i =? q then (wt t p + 1, wh t p) else if i =? p then (wt t q, wh t q) else node t i).
  { intros i I. subst t1. rewrite node_put by (rewrite ?zlen_put; lia). destruct (i =? q); [reflexivity|]. now rewrite node_put by lia. }
  assert (WT : forall i, 0 <= i -> wt t1 i = if i =? q then wt t p + 1 else wt t i).
  { intros i I. unfold wt at 1. rewrite ND by lia. destruct (i =? q); [reflexivity|]. destruct (Z.eqb_spec i p) as [->|]; [exact Q2|reflexivity]. }
  assert (WH : forall i, 0 <= i -> wh t1 i = if i =? q then wh t p else if i =? p then wh t q else wh t i).
  { intros i I. unfold wh at 1. rewrite ND by lia. destruct (i =? q); [reflexivity|]. destruct (i =? p); reflexivity. }
  do 5 (split; [assumption|]).
  assert (GT : forall j, 0 <= j < q -> wt t p + 1 <= wt t j).
  { intros j J. pose proof (Q3 j J). pose proof (wf_sort _ _ _ W j p ltac:(lia) ltac:(lia)). lia. }
  assert (WI : forall i, 0 <= i < 2 * n - 1 -> exists j, 0 <= j < 2 * n - 1 /\ wh t1 i = wh t j /\ j = (if i =? q then p else if i =? p then q else i)).
  { intros i I. rewrite WH by lia. exists (if i =? q then p else if i =? p then q else i). destruct (i =? q); [split; [lia|auto]|]. destruct (i =? p); split; try lia; auto. }
  assert (IDX : forall i m, 0 <= i < 2 * n - 1 -> wh t1 i = Fork m -> 1 <= m < n /\ i < 2 * m - 1 /\
     (i = q -> p < 2 * m - 1) /\ (i <> q -> i = p -> p < 2 * m - 1)).
  { intros i m I E. rewrite WH in E by lia. destruct (Z.eqb_spec i q) as [->|Nq].
    - destruct (wf_fork _ _ _ W p m ltac:(lia) E) as [A [B _]]. repeat split; lia.
    - destruct (Z.eqb_spec i p) as [->|Np].
      + destruct (wf_fork _ _ _ W q m ltac:(lia) E) as [A [B C]].
        assert (p < 2 * m - 1).
        { destruct (Z_lt_le_dec p (2 * m - 1)) as [|LE]; [assumption|]. exfalso.
          pose proof (wf_sort _ _ _ W (2 * m - 1) p ltac:(lia) ltac:(lia)). pose proof (wf_pos _ _ _ W (2 * m) ltac:(lia)).
          unfold is in C. destruct (Z.eqb_spec q 0); [lia|]. destruct (Z.eqb_spec q p); lia. }
        repeat split; lia.
      + destruct (wf_fork _ _ _ W i m ltac:(lia) E) as [A [B _]]. repeat split; lia. }
  assert (HF : forall m, 1 <= m < n -> exists i, 0 <= i < 2 * n - 1 /\ wh t1 i = Fork m).
  { intros m M. destruct (wf_hasfork _ _ _ W m M) as [i [I E]]. exists (if i =? q then p else if i =? p then q else i).
    split; [destruct (i =? q); [lia|destruct (i =? p); lia]|].
    destruct (Z.eqb_spec i q) as [->|]; [rewrite WH by lia; destruct (Z.eqb_spec p q) as [->|]; [exact E|rewrite Z.eqb_refl; exact E]|].
    destruct (Z.eqb_spec i p) as [->|]; rewrite WH by lia; [rewrite Z.eqb_refl; exact E|]. destruct (Z.eqb_spec i q); [lia|]. destruct (Z.eqb_spec i p); [lia|exact E]. }
  assert (IJ : forall i j, 0 <= i < 2 * n - 1 -> 0 <= j < 2 * n - 1 -> wh t1 i = wh t1 j -> i = j).
  { intros i j I J E. destruct (WI i I) as [i' [I1 [I2 I3]]]. destruct (WI j J) as [j' [J1 [J2 J3]]].
    assert (X : i' = j') by (apply (wf_inj _ _ _ W); congruence || lia). subst i' j'.
    destruct (Z.eqb_spec i q), (Z.eqb_spec j q), (Z.eqb_spec i p), (Z.eqb_spec j p); lia. }
  assert (L1 : zlen t1 = 2 * n - 1) by (subst t1; now rewrite !zlen_put).
  set (u := above t1 q).
  assert (U : 0 <= u < 2 * n - 1 /\ wh t1 u = Fork ((q + 1) / 2)).
  { destruct (HF ((q + 1) / 2) (half_range q ltac:(lia))) as [i [I E]].
    destruct (find_what_first (Fork ((q + 1) / 2)) t1 i) as [A B]; [lia|exact E|]. unfold u, above. split; [lia|exact B]. }
  destruct U as [U1 U2]. destruct (IDX _ _ U1 U2) as [U3 [U4 [U5 U6]]]. pose proof (half q ltac:(lia)) as HQ.
  assert (UQ : u < q) by lia.
  constructor; auto.
  - intros i j I J. rewrite !WT by lia. destruct (Z.eqb_spec i q) as [->|], (Z.eqb_spec j q) as [->|]; try lia.
    + pose proof (wf_sort _ _ _ W q j ltac:(lia) ltac:(lia)). lia.
    + apply GT. lia.
    + apply (wf_sort _ _ _ W); lia.
  - intros i I. rewrite WT by lia. pose proof (wf_pos _ _ _ W i ltac:(lia)). pose proof (wf_pos _ _ _ W p ltac:(lia)). destruct (i =? q); lia.
  - intros i s I E. destruct (WI i I) as [j [J1 [J2 _]]]. apply (wf_leaf _ _ _ W j); congruence.
  - intros i m I E. destruct (IDX i m I E) as [M1 [M2 [M3 M4]]]. split; [lia|]. split; [lia|].
    assert (CU : (2 * m - 1 = q \/ 2 * m = q) <-> i = u).
    { split.
      - intros H. apply IJ; [lia|lia|]. rewrite E, U2. f_equal. symmetry. apply half_of. lia.
      - intros ->. rewrite U2 in E. injection E as <-. lia. }
    rewrite (WT i), (WT (2 * m - 1)), (WT (2 * m)) by lia. rewrite WH in E by lia.
    destruct (Z.eqb_spec i q) as [Iq|Nq].
    + specialize (M3 Iq). destruct (wf_fork _ _ _ W p m ltac:(lia) E) as [A [B C]].
      destruct (Z.eqb_spec (2 * m - 1) q); [lia|]. destruct (Z.eqb_spec (2 * m) q); [lia|].
      unfold is in *. destruct (Z.eqb_spec i u); [lia|]. destruct (Z.eqb_spec p p); [|lia]. destruct (Z.eqb_spec p 0); [lia|]. destruct (Z.eqb_spec i 0); lia.
    + destruct (Z.eqb_spec i p) as [Ip|Np].
      * specialize (M4 Nq Ip). destruct (wf_fork _ _ _ W q m ltac:(lia) E) as [A [B C]].
        destruct (Z.eqb_spec (2 * m - 1) q); [lia|]. destruct (Z.eqb_spec (2 * m) q); [lia|].
        unfold is in *. destruct (Z.eqb_spec i u); [lia|]. destruct (Z.eqb_spec q 0); [lia|]. destruct (Z.eqb_spec q p); [lia|]. destruct (Z.eqb_spec i 0); [lia|]. rewrite Ip. lia.
      * destruct (wf_fork _ _ _ W i m ltac:(lia) E) as [A [B C]].
        unfold is in *. rewrite (proj2 (Z.eqb_neq i p)) in C by assumption. destruct CU as [CU1 CU2]. clear - C CU1 CU2 Q2.
        destruct (Z.eqb_spec i u) as [Iu|Nu].
        { destruct (CU2 Iu) as [X|X].
          - rewrite X in *. rewrite Z.eqb_refl. destruct (Z.eqb_spec (2 * m) q); lia.
          - rewrite X in *. rewrite Z.eqb_refl. destruct (Z.eqb_spec (q - 1) q); lia. }
        { destruct (Z.eqb_spec (2 * m - 1) q) as [X|]; [exfalso; apply Nu; auto|]. destruct (Z.eqb_spec (2 * m) q) as [X|]; [exfalso; apply Nu; auto|]. lia. }
  - intros s S. destruct (wf_hasleaf _ _ _ W s S) as [i [I E]]. exists (if i =? q then p else if i =? p then q else i).
    split; [destruct (i =? q); [lia|destruct (i =? p); lia]|].
    destruct (Z.eqb_spec i q) as [->|]; [rewrite WH by lia; destruct (Z.eqb_spec p q) as [->|]; [exact E|rewrite Z.eqb_refl; exact E]|].
    destruct (Z.eqb_spec i p) as [->|]; rewrite WH by lia; [rewrite Z.eqb_refl; exact E|]. destruct (Z.eqb_spec i q); [lia|]. destruct (Z.eqb_spec i p); [lia|exact E].
Qed.

Lemma climb_ok : forall k t p, wf n t p -> 0 <= p < 2 * n - 1 -> p < Z.of_nat k -> wf n (climb k t p) 0 /\ wt (climb k t p) 0 = wt t 0.
Proof.
  induction k as [|k IH]; intros t p W P K; [lia|]. cbn [climb]. destruct (Z.eqb_spec p 0) as [->|]; [auto|].
  destruct (grow t p) as [t1 q] eqn:G. destruct (grow_ok t p t1 q W ltac:(lia) G) as [Q [_ [_ [WT [_ W1]]]]].
  destruct (above_ok t1 _ q W1 ltac:(lia)) as [U _]. destruct (IH t1 (above t1 q) W1 ltac:(lia) ltac:(lia)) as [A B].
  split; [exact A|]. rewrite B, WT by lia. destruct (Z.eqb_spec 0 q); [lia|reflexivity].
Qed.

(** Counting the root. *)
Lemma count_root t p s : wf n t 0 -> 0 <= p < 2 * n - 1 -> wh t p = Leaf s -> wf n (put t 0 (wt t 0 + 1, wh t 0)) p.
Proof.
  intros W P E. pose proof (wf_len _ _ _ W) as L. set (t1 := put t 0 (wt t 0 + 1, wh t 0)).
  assert (ND : forall i, 0 <= i -> node t1 i = if i =? 0 then (wt t 0 + 1, wh t 0) else node t i) by (intros; apply node_put; lia).
  assert (WT : forall i, 0 <= i -> wt t1 i = if i =? 0 then wt t 0 + 1 else wt t i) by (intros; unfold wt at 1; rewrite ND by lia; now destruct (i =? 0)).
  assert (WH : forall i, 0 <= i -> wh t1 i = wh t i) by (intros i I; unfold wh at 1; rewrite ND by lia; destruct (Z.eqb_spec i 0) as [->|]; reflexivity).
  constructor.
  - unfold t1. now rewrite zlen_put.
  - intros i j I J. rewrite !WT by lia. pose proof (wf_sort _ _ _ W i j I J). destruct (Z.eqb_spec i 0) as [->|], (Z.eqb_spec j 0) as [->|]; lia.
  - intros i I. rewrite WT by lia. pose proof (wf_pos _ _ _ W i I). destruct (Z.eqb_spec i 0) as [->|]; lia.
  - intros i x I H. rewrite WH in H by lia. now apply (wf_leaf _ _ _ W i).
  - intros i m I H. rewrite WH in H by lia. destruct (wf_fork _ _ _ W i m I H) as [A [B C]]. split; [lia|]. split; [lia|].
    rewrite !WT by lia. destruct (Z.eqb_spec (2 * m - 1) 0); [lia|]. destruct (Z.eqb_spec (2 * m) 0); [lia|].
    unfold is in *. destruct (Z.eqb_spec i p) as [->|]; [congruence|]. destruct (Z.eqb_spec i 0) as [->|]; lia.
  - intros i j I J H. rewrite !WH in H by lia. now apply (wf_inj _ _ _ W).
  - intros x X. destruct (wf_hasleaf _ _ _ W x X) as [i [I H]]. exists i. rewrite WH by lia. auto.
  - intros x X. destruct (wf_hasfork _ _ _ W x X) as [i [I H]]. exists i. rewrite WH by lia. auto.
Qed.

(** ** The way down *)

Inductive desc (t : tree) : Z -> list bool -> Z -> Prop :=
| desc_end p : desc t p [] p
| desc_step p m (b : bool) l q : wh t p = Fork m -> desc t (if b then 2 * m - 1 else 2 * m) l q -> desc t p (b :: l) q.

Lemma desc_snoc t p l q m b : desc t p l q -> wh t q = Fork m -> desc t p (l ++ [b]) (if b then 2 * m - 1 else 2 * m).
Proof.
  intros D. revert b m. induction D as [p|p k b0 l q E D IH]; intros b m H.
  - eapply desc_step; [exact H|constructor].
  - cbn [app]. eapply desc_step; [exact E|]. now apply IH.
Qed.

Lemma path_desc t c : wf n t c -> forall k p, 0 <= p < 2 * n - 1 -> p < Z.of_nat k -> desc t 0 (path k t p) p.
Proof.
  intros W. induction k as [|k IH]; intros p P K; [lia|]. cbn [path]. destruct (Z.eqb_spec p 0) as [->|]; [constructor|].
  destruct (above_ok t c p W ltac:(lia)) as [U E]. specialize (IH (above t p) ltac:(lia) ltac:(lia)).
  apply (desc_snoc _ _ _ _ _ (Z.odd p)) with (2 := E) in IH.
  replace (if Z.odd p then 2 * ((p + 1) / 2) - 1 else 2 * ((p + 1) / 2)) with p in IH; [exact IH|].
  destruct (half p ltac:(lia)) as [H|H].
  - assert (O : Z.odd p = true). { rewrite H, Z.odd_sub, Z.odd_mul. reflexivity. } now rewrite O.
  - assert (O : Z.odd p = false). { rewrite H, Z.odd_mul. reflexivity. } now rewrite O.
Qed.

Lemma code_desc t c s : wf n t c -> 0 <= s < n -> desc t 0 (sym_code t s) (find_what (Leaf s) t).
Proof.
  intros W S. unfold sym_code. destruct (find_leaf t c s W S) as [A B]. apply (path_desc t c W); [lia|].
  pose proof (wf_len _ _ _ W) as L. unfold zlen in L. lia.
Qed.

End Tree.
