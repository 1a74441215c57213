(** The blocks of dhuf.go: nodes of the same weight share a block, whose edge is the
    first of them.  [F], [B], [E], [S] are the contents of freq, block, edge and stock. *)
From Verif Require Import Go GoLemmas.

(** Number of nodes whose weight differs from that of the node before. *)
Definition isl (F : Z -> Z) (x : Z) : Z := if (x =? 0) || negb (F (x - 1) =? F x) then 1 else 0.
Fixpoint lead (F : Z -> Z) (k : nat) : Z :=
  match k with
  | O => 0
  | S k' => lead F k' + isl F (Z.of_nat k')
  end.

Lemma isl_range F x : 0 <= isl F x <= 1.
Proof. unfold isl. destruct (_ || _); lia. Qed.

Lemma lead_range F k : 0 <= lead F k <= Z.of_nat k.
Proof. induction k; cbn [lead]; [lia|]. pose proof (isl_range F (Z.of_nat k)). lia. Qed.

Lemma lead_pos F k : (1 <= k)%nat -> 1 <= lead F k.
Proof.
  induction k; intros H; [lia|]. cbn [lead]. destruct k; [cbn; discriminate|]. pose proof (isl_range F (Z.of_nat (Datatypes.S k))). specialize (IHk ltac:(lia)). lia.
Qed.

Lemma lead_ext F G k : (forall x, 0 <= x < Z.of_nat k -> G x = F x) -> lead G k = lead F k.
Proof.
  induction k; intros H; [reflexivity|]. cbn [lead]. rewrite IHk by (intros; apply H; lia). f_equal. unfold isl. rewrite (H (Z.of_nat k)) by lia.
  destruct (Z.eqb_spec (Z.of_nat k) 0); [reflexivity|]. now rewrite H by lia.
Qed.

Lemma lead_change F G p k : 0 <= p -> (forall x, 0 <= x -> x <> p -> G x = F x) ->
  lead G k = lead F k + (if p <? Z.of_nat k then isl G p - isl F p else 0) + (if p + 1 <? Z.of_nat k then isl G (p + 1) - isl F (p + 1) else 0).
Proof.
  intros P H. induction k; [cbn [lead]; destruct (Z.ltb_spec p (Z.of_nat 0)), (Z.ltb_spec (p + 1) (Z.of_nat 0)); lia|].
  cbn [lead]. rewrite IHk. set (z := Z.of_nat k).
  destruct (Z.eq_dec z p) as [E1|E1].
  - rewrite E1. destruct (Z.ltb_spec p p), (Z.ltb_spec (p + 1) p), (Z.ltb_spec p (Z.of_nat (Datatypes.S k))), (Z.ltb_spec (p + 1) (Z.of_nat (Datatypes.S k))); lia.
  - destruct (Z.eq_dec z (p + 1)) as [E2|E2].
    + rewrite E2. destruct (Z.ltb_spec p (p + 1)), (Z.ltb_spec (p + 1) (p + 1)), (Z.ltb_spec p (Z.of_nat (Datatypes.S k))), (Z.ltb_spec (p + 1) (Z.of_nat (Datatypes.S k))); lia.
    + assert (X : isl G z = isl F z). { unfold isl. rewrite (H z) by lia. destruct (Z.eqb_spec z 0); [reflexivity|]. now rewrite H by lia. }
      rewrite X. destruct (Z.ltb_spec p z), (Z.ltb_spec (p + 1) z), (Z.ltb_spec p (Z.of_nat (Datatypes.S k))), (Z.ltb_spec (p + 1) (Z.of_nat (Datatypes.S k))); lia.
Qed.

Record Blk (N : Z) (F B E S : Z -> Z) (av : Z) : Prop := {
  b_avail : av = 1 + lead F (Z.to_nat N);
  b_rng : forall x, 0 <= x < N -> 0 < B x < 628;
  b_eq : forall x y, 0 <= x < N -> 0 <= y < N -> (B x = B y <-> F x = F y);
  b_edge : forall x, 0 <= x < N -> 0 <= E (B x) <= x /\ F (E (B x)) = F x /\ forall j, 0 <= j < E (B x) -> F j <> F x;
  b_free : forall k, av <= k < 628 -> 0 < S k < 628 /\ forall x, 0 <= x < N -> S k <> B x;
  b_inj : forall k l, av <= k < 628 -> av <= l < 628 -> S k = S l -> k = l
}.

Section Blk.
Variables (N av q : Z) (F B E S F' : Z -> Z).
Hypothesis HN : 3 <= N <= 627.
Hypothesis HB : Blk N F B E S av.
Hypothesis HS : forall i j, 0 <= i <= j -> j < N -> F j <= F i.
Hypothesis Hq : 1 <= q < N.
Hypothesis Hfirst : forall j, 0 <= j < q -> F j <> F q.
Hypothesis HF : forall x, 0 <= x -> F' x = if x =? q then F q + 1 else F x.

Lemma isl_first : isl F q = 1.
Proof. unfold isl. destruct (Z.eqb_spec q 0); [reflexivity|]. destruct (Z.eqb_spec (F (q - 1)) (F q)); [exfalso; apply (Hfirst (q - 1)); lia|reflexivity]. Qed.

Lemma isl_q' : isl F' q = if F (q - 1) =? F q + 1 then 0 else 1.
Proof.
  unfold isl. destruct (Z.eqb_spec q 0); [lia|]. rewrite !HF by lia. rewrite Z.eqb_refl. destruct (Z.eqb_spec (q - 1) q); [lia|]. cbn [orb]. now destruct (_ =? _).
Qed.

Lemma isl_next' : q + 1 < N -> isl F' (q + 1) = 1.
Proof.
  intros L. unfold isl. destruct (Z.eqb_spec (q + 1) 0); [reflexivity|]. rewrite !HF by lia. replace (q + 1 - 1) with q by lia. rewrite Z.eqb_refl. destruct (Z.eqb_spec (q + 1) q); [lia|].
  pose proof (HS q (q + 1) ltac:(lia) L). destruct (Z.eqb_spec (F q + 1) (F (q + 1))); [lia|reflexivity].
Qed.

Lemma isl_next : isl F (q + 1) = if F (q + 1) =? F q then 0 else 1.
Proof.
  unfold isl. destruct (Z.eqb_spec (q + 1) 0); [lia|]. replace (q + 1 - 1) with q by lia. rewrite (Z.eqb_sym (F q)). cbn [orb]. now destruct (_ =? _).
Qed.

Lemma lead_F' : lead F' (Z.to_nat N) = lead F (Z.to_nat N) - (if F (q - 1) =? F q + 1 then 1 else 0) +
  (if (q + 1 <? N) && (F (q + 1) =? F q) then 1 else 0).
Proof.
  rewrite (lead_change F F' q); [|lia|intros x X Y; rewrite HF by lia; destruct (Z.eqb_spec x q); [lia|reflexivity]].
  rewrite Z2Nat.id by lia. destruct (Z.ltb_spec q N); [|lia]. rewrite isl_first, isl_q'.
  destruct (Z.ltb_spec (q + 1) N) as [L|L]; cbn [andb].
  - rewrite isl_next' by lia. rewrite isl_next. destruct (F (q + 1) =? F q), (F (q - 1) =? F q + 1); lia.
  - destruct (F (q - 1) =? F q + 1); lia.
Qed.

Lemma below_first x : 0 <= x < q -> F q + 1 <= F x.
Proof. intros X. pose proof (HS x q ltac:(lia) ltac:(lia)). pose proof (Hfirst x X). lia. Qed.

(** The block is shared: the next node becomes its edge, and [q] joins the block before. *)
Lemma blk_join B' E' : q + 1 < N -> F (q + 1) = F q -> F (q - 1) = F q + 1 ->
  (forall x, 0 <= x -> B' x = if x =? q then B (q - 1) else B x) ->
  (forall y, 0 <= y -> E' y = if y =? B q then q + 1 else E y) -> Blk N F' B' E' S av.
Proof.
  intros L EN EP HB' HE'. destruct HB as [A R EQ ED FR IN].
  assert (NB : B (q - 1) <> B q) by (intros X; apply EQ in X; lia).
  constructor.
  - rewrite lead_F', EP, EN, !Z.eqb_refl. destruct (Z.ltb_spec (q + 1) N); [|lia]. cbn [andb]. lia.
  - intros x X. rewrite HB' by lia. destruct (x =? q); apply R; lia.
  - intros x y X Y. rewrite !HB', !HF by lia. destruct (Z.eqb_spec x q), (Z.eqb_spec y q); try tauto; rewrite EQ by lia; rewrite ?EP; tauto.
  - intros x X. rewrite HB' by lia. destruct (Z.eqb_spec x q) as [->|Nx].
    + rewrite HE' by (pose proof (R (q - 1)); lia). destruct (Z.eqb_spec (B (q - 1)) (B q)); [lia|].
      destruct (ED (q - 1) ltac:(lia)) as [E1 [E2 E3]]. split; [lia|]. rewrite !HF by lia. rewrite Z.eqb_refl. destruct (Z.eqb_spec (E (B (q - 1))) q); [lia|].
      split; [lia|]. intros j J. rewrite HF by lia. destruct (Z.eqb_spec j q); [lia|]. specialize (E3 j J). lia.
    + destruct (ED x X) as [E1 [E2 E3]]. rewrite HE' by (pose proof (R x); lia). destruct (Z.eqb_spec (B x) (B q)) as [Bq|Bq].
      * apply EQ in Bq; [|lia|lia]. assert (q < x) by (destruct (Z_lt_le_dec q x); [assumption|]; exfalso; apply (Hfirst x); lia).
        split; [lia|]. rewrite !HF by lia. destruct (Z.eqb_spec (q + 1) q); [lia|]. destruct (Z.eqb_spec x q); [lia|]. split; [lia|].
        intros j J. rewrite HF by lia. destruct (Z.eqb_spec j q); [lia|]. rewrite Bq. apply Hfirst. lia.
      * split; [lia|]. assert (NQ : F x <> F q) by (intros Q; apply Bq; apply EQ; lia).
        assert (E (B x) <> q) by (intros Q; rewrite Q in E2; lia).
        rewrite !HF by lia. destruct (Z.eqb_spec (E (B x)) q); [lia|]. destruct (Z.eqb_spec x q); [lia|]. split; [exact E2|].
        intros j J. rewrite HF by lia. destruct (Z.eqb_spec j q) as [->|]; [|now apply E3]. intros Q. apply (E3 (q - 1)); [lia|lia].
  - intros k K. destruct (FR k K) as [F1 F2]. split; [exact F1|]. intros x X. rewrite HB' by lia. destruct (x =? q); apply F2; lia.
  - exact IN.
Qed.

(** The block is shared and [q] gets a new one. *)
Lemma blk_new B' E' : q + 1 < N -> F (q + 1) = F q -> F (q - 1) <> F q + 1 ->
  (forall x, 0 <= x -> B' x = if x =? q then S av else B x) ->
  (forall y, 0 <= y -> E' y = if y =? S av then q else if y =? B q then q + 1 else E y) -> av < 628 /\ Blk N F' B' E' S (av + 1).
Proof.
  intros L EN EP HB' HE'. destruct HB as [A R EQ ED FR IN].
  assert (LF : lead F' (Z.to_nat N) = lead F (Z.to_nat N) + 1).
  { rewrite lead_F', EN, Z.eqb_refl. destruct (Z.eqb_spec (F (q - 1)) (F q + 1)); [lia|]. destruct (Z.ltb_spec (q + 1) N); [cbn [andb]; lia|lia]. }
  assert (AV : av <= N). { pose proof (lead_range F' (Z.to_nat N)). rewrite A. lia. }
  assert (AP : 1 <= av). { pose proof (lead_range F (Z.to_nat N)). lia. }
  destruct (FR av ltac:(lia)) as [S1 S2]. split; [lia|].
  assert (UQ : forall y, 0 <= y < N -> y <> q -> F y <> F q + 1).
  { intros y Y Ny. destruct (Z_lt_le_dec y q).
    - pose proof (below_first (q - 1) ltac:(lia)). pose proof (HS y (q - 1) ltac:(lia) ltac:(lia)). lia.
    - pose proof (HS q y ltac:(lia) ltac:(lia)). lia. }
  constructor.
  - lia.
  - intros x X. rewrite HB' by lia. destruct (x =? q); [lia|apply R; lia].
  - intros x y X Y. rewrite !HB', !HF by lia. destruct (Z.eqb_spec x q), (Z.eqb_spec y q).
    + tauto.
    + split; intros Q; exfalso; [apply (S2 y Y); congruence|apply (UQ y); auto].
    + split; intros Q; exfalso; [apply (S2 x X); congruence|apply (UQ x); auto].
    + now apply EQ.
  - intros x X. rewrite HB' by lia. destruct (Z.eqb_spec x q) as [->|Nx].
    + rewrite HE' by lia. rewrite Z.eqb_refl. split; [lia|]. split; [reflexivity|]. intros j J. rewrite !HF by lia. rewrite Z.eqb_refl. destruct (Z.eqb_spec j q); [lia|]. apply UQ; lia.
    + destruct (ED x X) as [E1 [E2 E3]]. rewrite HE' by (pose proof (R x); lia). destruct (Z.eqb_spec (B x) (S av)) as [C|_]; [exfalso; now apply (S2 x X)|].
      destruct (Z.eqb_spec (B x) (B q)) as [Bq|Bq].
      * apply EQ in Bq; [|lia|lia]. assert (q < x) by (destruct (Z_lt_le_dec q x); [assumption|]; exfalso; apply (Hfirst x); lia).
        split; [lia|]. rewrite !HF by lia. destruct (Z.eqb_spec (q + 1) q); [lia|]. destruct (Z.eqb_spec x q); [lia|]. split; [lia|].
        intros j J. rewrite HF by lia. destruct (Z.eqb_spec j q); [lia|]. rewrite Bq. apply Hfirst. lia.
      * split; [lia|]. assert (NQ : F x <> F q) by (intros Q; apply Bq; apply EQ; lia).
        assert (E (B x) <> q) by (intros Q; rewrite Q in E2; lia).
        rewrite !HF by lia. destruct (Z.eqb_spec (E (B x)) q); [lia|]. destruct (Z.eqb_spec x q); [lia|]. split; [exact E2|].
        intros j J. rewrite HF by lia. destruct (Z.eqb_spec j q) as [->|]; [|now apply E3]. intros Q. now apply (UQ x X).
  - intros k K. destruct (FR k ltac:(lia)) as [F1 F2]. split; [exact F1|]. intros x X. rewrite HB' by lia. destruct (x =? q); [|apply F2; lia].
    intros Q. apply IN in Q; lia.
  - intros k l K M. apply IN; lia.
Qed.

(** [q] was alone in its block, which is given back. *)
Lemma blk_free B' S' : (forall x, 0 <= x < N -> F x = F q -> x = q) -> F (q - 1) = F q + 1 ->
  (forall x, 0 <= x -> B' x = if x =? q then B (q - 1) else B x) ->
  (forall k, 0 <= k -> S' k = if k =? av - 1 then B q else S k) -> 2 <= av /\ Blk N F' B' E S' (av - 1).
Proof.
  intros AL EP HB' HS'. destruct HB as [A R EQ ED FR IN].
  assert (NB : B (q - 1) <> B q) by (intros X; apply EQ in X; lia).
  assert (LF : lead F' (Z.to_nat N) = lead F (Z.to_nat N) - 1).
  { rewrite lead_F', EP, Z.eqb_refl. destruct (Z.ltb_spec (q + 1) N); cbn [andb]; [|lia]. destruct (Z.eqb_spec (F (q + 1)) (F q)) as [Q|]; [apply AL in Q; lia|lia]. }
  assert (AP : 2 <= av). { pose proof (lead_pos F' (Z.to_nat N) ltac:(lia)). lia. }
  split; [exact AP|]. constructor.
  - lia.
  - intros x X. rewrite HB' by lia. destruct (x =? q); apply R; lia.
  - intros x y X Y. rewrite !HB', !HF by lia. destruct (Z.eqb_spec x q), (Z.eqb_spec y q); try tauto; rewrite EQ by lia; rewrite ?EP; tauto.
  - intros x X. rewrite HB' by lia. destruct (Z.eqb_spec x q) as [->|Nx].
    + destruct (ED (q - 1) ltac:(lia)) as [E1 [E2 E3]]. split; [lia|]. rewrite !HF by lia. rewrite Z.eqb_refl. destruct (Z.eqb_spec (E (B (q - 1))) q); [lia|].
      split; [lia|]. intros j J. rewrite HF by lia. destruct (Z.eqb_spec j q); [lia|]. specialize (E3 j J). lia.
    + destruct (ED x X) as [E1 [E2 E3]]. split; [lia|]. assert (NQ : F x <> F q) by (intros Q; apply Nx; apply AL; lia).
      assert (E (B x) <> q) by (intros Q; rewrite Q in E2; lia).
      rewrite !HF by lia. destruct (Z.eqb_spec (E (B x)) q); [lia|]. destruct (Z.eqb_spec x q); [lia|]. split; [exact E2|].
      intros j J. rewrite HF by lia. destruct (Z.eqb_spec j q) as [->|]; [|now apply E3]. intros Q. apply (E3 (q - 1)); [lia|lia].
  - intros k K. rewrite HS' by lia. destruct (Z.eqb_spec k (av - 1)).
    + split; [apply R; lia|]. intros x X. rewrite HB' by lia. destruct (Z.eqb_spec x q); [lia|]. intros Q. apply EQ in Q; [|lia|lia]. symmetry in Q. apply AL in Q; lia.
    + destruct (FR k ltac:(lia)) as [F1 F2]. split; [exact F1|]. intros x X. rewrite HB' by lia. destruct (x =? q); apply F2; lia.
  - intros k l K M. rewrite !HS' by lia. destruct (Z.eqb_spec k (av - 1)), (Z.eqb_spec l (av - 1)); intros Q.
    + lia.
    + exfalso. destruct (FR l ltac:(lia)) as [_ F2]. apply (F2 q); [lia|congruence].
    + exfalso. destruct (FR k ltac:(lia)) as [_ F2]. apply (F2 q); [lia|congruence].
    + apply IN; lia.
Qed.

(** [q] was alone in its block and keeps it. *)
Lemma blk_keep : (forall x, 0 <= x < N -> F x = F q -> x = q) -> F (q - 1) <> F q + 1 -> Blk N F' B E S av.
Proof.
  intros AL EP. destruct HB as [A R EQ ED FR IN].
  assert (UQ : forall y, 0 <= y < N -> y <> q -> F y <> F q + 1).
  { intros y Y Ny. destruct (Z_lt_le_dec y q).
    - pose proof (below_first (q - 1) ltac:(lia)). pose proof (HS y (q - 1) ltac:(lia) ltac:(lia)). lia.
    - pose proof (HS q y ltac:(lia) ltac:(lia)). lia. }
  constructor; auto.
  - rewrite A, lead_F'. destruct (Z.eqb_spec (F (q - 1)) (F q + 1)); [lia|]. destruct (Z.ltb_spec (q + 1) N); cbn [andb]; [|lia]. destruct (Z.eqb_spec (F (q + 1)) (F q)) as [Q|]; [apply AL in Q; lia|lia].
  - intros x y X Y. rewrite !HF by lia. rewrite EQ by lia. destruct (Z.eqb_spec x q) as [->|], (Z.eqb_spec y q) as [->|].
    + tauto.
    + split; intros Q; exfalso; [symmetry in Q; apply AL in Q; lia|apply (UQ y); auto].
    + split; intros Q; exfalso; [apply AL in Q; lia|apply (UQ x); auto].
    + tauto.
  - intros x X. destruct (ED x X) as [E1 [E2 E3]]. split; [lia|].
    destruct (Z.eq_dec x q) as [->|Nx].
    + assert (E (B q) = q) by (apply AL; [lia|exact E2]). rewrite H in *. split; [reflexivity|]. intros j J. rewrite !HF by lia. rewrite Z.eqb_refl. destruct (Z.eqb_spec j q); [lia|]. apply UQ; lia.
    + assert (NQ : F x <> F q) by (intros Q; apply Nx; apply AL; lia).
      assert (E (B x) <> q) by (intros Q; rewrite Q in E2; lia).
      rewrite !HF by lia. destruct (Z.eqb_spec (E (B x)) q); [lia|]. destruct (Z.eqb_spec x q); [lia|]. split; [exact E2|].
      intros j J. rewrite HF by lia. destruct (Z.eqb_spec j q) as [->|]; [|now apply E3]. intros Q. now apply (UQ x X).
Qed.
End Blk.

(** Counting the root, which is heavier than all others, leaves the blocks alone. *)
Lemma blk_root N F B E S av F' : 2 <= N -> Blk N F B E S av -> (forall x, 1 <= x < N -> F x < F 0) ->
  (forall x, 0 <= x -> F' x = if x =? 0 then F 0 + 1 else F x) -> Blk N F' B E S av.
Proof.
  intros HN [A R EQ ED FR IN] HT HF. constructor; auto.
  - rewrite A. f_equal. symmetry. rewrite (lead_change F F' 0); [|lia|intros x X Y; rewrite HF by lia; destruct (Z.eqb_spec x 0); [lia|reflexivity]].
    rewrite Z2Nat.id by lia. destruct (Z.ltb_spec 0 N); [|lia]. destruct (Z.ltb_spec (0 + 1) N); [|lia].
    assert (I1 : isl F' (0 + 1) = 1 /\ isl F (0 + 1) = 1).
    { pose proof (HT 1 ltac:(lia)) as H1. unfold isl. change (0 + 1) with 1. change (1 - 1) with 0. rewrite (HF 0), (HF 1) by lia.
      change (1 =? 0) with false. change (0 =? 0) with true. cbv iota.
      destruct (Z.eqb_spec (F 0 + 1) (F 1)), (Z.eqb_spec (F 0) (F 1)); try lia. split; reflexivity. }
    destruct I1 as [-> ->]. change (isl F' 0) with 1. change (isl F 0) with 1. lia.
  - intros x y X Y. rewrite EQ by lia. rewrite !HF by lia. destruct (Z.eqb_spec x 0) as [->|], (Z.eqb_spec y 0) as [->|]; try tauto; [pose proof (HT y ltac:(lia))|pose proof (HT x ltac:(lia))]; lia.
  - intros x X. destruct (ED x X) as [E1 [E2 E3]]. split; [lia|]. rewrite !HF by lia.
    destruct (Z.eqb_spec x 0) as [->|]; [assert (Z0 : E (B 0) = 0) by lia; rewrite Z0; cbn [Z.eqb]; split; [reflexivity|intros; lia]|].
    destruct (Z.eqb_spec (E (B x)) 0) as [Q|]; [rewrite Q in E2; pose proof (HT x ltac:(lia)); lia|]. split; [exact E2|].
    intros j J. rewrite HF by lia. destruct (Z.eqb_spec j 0) as [->|]; [pose proof (HT x ltac:(lia)); lia|now apply E3].
Qed.

(** The edge of a block is where the weight changes. *)
Lemma isl_edge N F B E S av x : Blk N F B E S av -> (forall i j, 0 <= i <= j -> j < N -> F j <= F i) -> 0 <= x < N ->
  isl F x = if E (B x) =? x then 1 else 0.
Proof.
  intros HB HS X. destruct (b_edge _ _ _ _ _ _ HB x X) as [E1 [E2 E3]]. unfold isl. destruct (Z.eqb_spec x 0) as [->|].
  - replace (E (B 0)) with 0 by lia. reflexivity.
  - cbn [orb]. destruct (Z.eqb_spec (E (B x)) x) as [Q|Q].
    + destruct (Z.eqb_spec (F (x - 1)) (F x)) as [C|]; [|reflexivity]. exfalso. apply (E3 (x - 1)); [lia|exact C].
    + pose proof (HS (E (B x)) (x - 1) ltac:(lia) ltac:(lia)). pose proof (HS (x - 1) x ltac:(lia) ltac:(lia)).
      destruct (Z.eqb_spec (F (x - 1)) (F x)); [reflexivity|lia].
Qed.

(** One more node. *)
Lemma lead_S F x : 0 <= x -> lead F (Z.to_nat (x + 1)) = lead F (Z.to_nat x) + isl F x.
Proof. intros X. replace (Z.to_nat (x + 1)) with (Datatypes.S (Z.to_nat x)) by lia. cbn [lead]. now rewrite Z2Nat.id by lia. Qed.

Lemma blk_app_same N F B E S av B' : 1 <= N -> Blk N F B E S av -> F N = F (N - 1) ->
  (forall x, 0 <= x -> B' x = if x =? N then B (N - 1) else B x) -> Blk (N + 1) F B' E S av.
Proof.
  intros HN [A R EQ ED FR IN] FN HB'. constructor; auto.
  - rewrite lead_S by lia. rewrite A. unfold isl. destruct (Z.eqb_spec N 0); [lia|]. rewrite FN, Z.eqb_refl. cbn [orb negb]. lia.
  - intros x X. rewrite HB' by lia. destruct (Z.eqb_spec x N); apply R; lia.
  - intros x y X Y. rewrite !HB' by lia. destruct (Z.eqb_spec x N) as [->|], (Z.eqb_spec y N) as [->|]; rewrite ?FN; try tauto; apply EQ; lia.
  - intros x X. rewrite HB' by lia. destruct (Z.eqb_spec x N) as [->|].
    + destruct (ED (N - 1) ltac:(lia)) as [E1 [E2 E3]]. rewrite FN. split; [lia|]. split; [exact E2|exact E3].
    + apply ED. lia.
  - intros k K. destruct (FR k K) as [F1 F2]. split; [exact F1|]. intros x X. rewrite HB' by lia. destruct (Z.eqb_spec x N); apply F2; lia.
Qed.

Lemma blk_app_new N F B E S av B' E' : 0 <= N < 627 -> Blk N F B E S av -> (forall x, 0 <= x < N -> F x <> F N) ->
  (forall x, 0 <= x -> B' x = if x =? N then S av else B x) -> (forall y, 0 <= y -> E' y = if y =? S av then N else E y) ->
  1 <= av < 628 /\ Blk (N + 1) F B' E' S (av + 1).
Proof.
  intros HN [A R EQ ED FR IN] FN HB' HE'. pose proof (lead_range F (Z.to_nat N)) as LR.
  destruct (FR av ltac:(lia)) as [S1 S2]. split; [lia|]. constructor.
  - rewrite lead_S by lia. rewrite A. unfold isl. destruct (Z.eqb_spec N 0); [cbn [orb]; lia|]. destruct (Z.eqb_spec (F (N - 1)) (F N)) as [Q|]; [exfalso; apply (FN (N - 1)); [lia|exact Q]|]. cbn [orb negb]. lia.
  - intros x X. rewrite HB' by lia. destruct (Z.eqb_spec x N); [exact S1|apply R; lia].
  - intros x y X Y. rewrite !HB' by lia. destruct (Z.eqb_spec x N) as [->|], (Z.eqb_spec y N) as [->|].
    + tauto.
    + split; intros Q; exfalso; [apply (S2 y); [lia|exact Q]|apply (FN y); [lia|congruence]].
    + split; intros Q; exfalso; [apply (S2 x); [lia|congruence]|apply (FN x); [lia|congruence]].
    + apply EQ; lia.
  - intros x X. rewrite HB' by lia. destruct (Z.eqb_spec x N) as [->|].
    + rewrite HE' by lia. rewrite Z.eqb_refl. split; [lia|]. split; [reflexivity|]. intros j J. apply FN. lia.
    + pose proof (R x ltac:(lia)). rewrite HE' by lia. destruct (Z.eqb_spec (B x) (S av)) as [Q|]; [exfalso; apply (S2 x); [lia|congruence]|]. apply ED. lia.
  - intros k K. destruct (FR k ltac:(lia)) as [F1 F2]. split; [exact F1|]. intros x X. rewrite HB' by lia. destruct (Z.eqb_spec x N); [intros Q; apply IN in Q; lia|apply F2; lia].
  - intros k l K M. apply IN; lia.
Qed.
