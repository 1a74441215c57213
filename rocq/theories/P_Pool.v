(** The blocks of dhuf.go when two trees take them from one stock.  [F], [B], [E], [S]
    are the contents of freq, block, edge and stock as seen from one of the trees; the
    root's block is never used and counts as 0.  [O] are the blocks of the other tree,
    which holds [k] of them. *)
From Verif Require Import Go GoLemmas P_Blocks.

Record BlkO (N k : Z) (O : Z -> Prop) (F B E S : Z -> Z) (av : Z) : Prop := {
  o_avail : av = 1 + k + lead F (Z.to_nat N);
  o_rng : forall x, 0 <= x < N -> 0 <= B x < 628;
  o_pos : forall x, 1 <= x < N -> 0 < B x;
  o_eq : forall x y, 0 <= x < N -> 0 <= y < N -> (B x = B y <-> F x = F y);
  o_edge : forall x, 0 <= x < N -> 0 <= E (B x) <= x /\ F (E (B x)) = F x /\ forall j, 0 <= j < E (B x) -> F j <> F x;
  o_free : forall k, av <= k < 628 -> 0 < S k < 628 /\ forall x, 0 <= x < N -> S k <> B x;
  o_inj : forall k l, av <= k < 628 -> av <= l < 628 -> S k = S l -> k = l;
  o_out : forall x, 1 <= x < N -> ~ O (B x);
  o_outS : forall j, av <= j < 628 -> ~ O (S j)
}.

Section BlkO.
Variables (N k0 av q : Z) (O : Z -> Prop) (F B E S F' : Z -> Z).
Hypothesis HN : 2 <= N /\ 0 <= k0 /\ N + k0 <= 627.
Hypothesis HT : 2 <= q \/ F (q - 1) <> F q + 1.
Hypothesis HB : BlkO N k0 O F B E S av.
Hypothesis HS : forall i j, 0 <= i <= j -> j < N -> F j <= F i.
Hypothesis Hq : 1 <= q < N.
Hypothesis Hfirst : forall j, 0 <= j < q -> F j <> F q.
Hypothesis HF : forall x, 0 <= x -> F' x = if x =? q then F q + 1 else F x.

Lemma oisl_first : isl F q = 1.
Proof. unfold isl. destruct (Z.eqb_spec q 0); [reflexivity|]. destruct (Z.eqb_spec (F (q - 1)) (F q)); [exfalso; apply (Hfirst (q - 1)); lia|reflexivity]. Qed.

Lemma oisl_q' : isl F' q = if F (q - 1) =? F q + 1 then 0 else 1.
Proof.
  unfold isl. destruct (Z.eqb_spec q 0); [lia|]. rewrite !HF by lia. rewrite Z.eqb_refl. destruct (Z.eqb_spec (q - 1) q); [lia|]. cbn [orb]. now destruct (_ =? _).
Qed.

Lemma oisl_next' : q + 1 < N -> isl F' (q + 1) = 1.
Proof.
  intros L. unfold isl. destruct (Z.eqb_spec (q + 1) 0); [reflexivity|]. rewrite !HF by lia. replace (q + 1 - 1) with q by lia. rewrite Z.eqb_refl. destruct (Z.eqb_spec (q + 1) q); [lia|].
  pose proof (HS q (q + 1) ltac:(lia) L). destruct (Z.eqb_spec (F q + 1) (F (q + 1))); [lia|reflexivity].
Qed.

Lemma oisl_next : isl F (q + 1) = if F (q + 1) =? F q then 0 else 1.
Proof.
  unfold isl. destruct (Z.eqb_spec (q + 1) 0); [lia|]. replace (q + 1 - 1) with q by lia. rewrite (Z.eqb_sym (F q)). cbn [orb]. now destruct (_ =? _).
Qed.

Lemma olead_F' : lead F' (Z.to_nat N) = lead F (Z.to_nat N) - (if F (q - 1) =? F q + 1 then 1 else 0) +
  (if (q + 1 <? N) && (F (q + 1) =? F q) then 1 else 0).
Proof.
  rewrite (lead_change F F' q); [|lia|intros x X Y; rewrite HF by lia; destruct (Z.eqb_spec x q); [lia|reflexivity]].
  rewrite Z2Nat.id by lia. destruct (Z.ltb_spec q N); [|lia]. rewrite oisl_first, oisl_q'.
  destruct (Z.ltb_spec (q + 1) N) as [L|L]; cbn [andb].
  - rewrite oisl_next' by lia. rewrite oisl_next. destruct (F (q + 1) =? F q), (F (q - 1) =? F q + 1); lia.
  - destruct (F (q - 1) =? F q + 1); lia.
Qed.

Lemma obelow_first x : 0 <= x < q -> F q + 1 <= F x.
Proof. intros X. pose proof (HS x q ltac:(lia) ltac:(lia)). pose proof (Hfirst x X). lia. Qed.

(** The block is shared: the next node becomes its edge, and [q] joins the block before. *)
Lemma pool_join B' E' : q + 1 < N -> F (q + 1) = F q -> F (q - 1) = F q + 1 ->
  (forall x, 0 <= x -> B' x = if x =? q then B (q - 1) else B x) ->
  (forall y, 0 <= y -> E' y = if y =? B q then q + 1 else E y) -> BlkO N k0 O F' B' E' S av.
Proof.
  intros L EN EP HB' HE'. destruct HB as [A R PO EQ ED FR IN OB OS].
  assert (NB : B (q - 1) <> B q) by (intros X; apply EQ in X; lia).
  constructor.
  - rewrite olead_F', EP, EN, !Z.eqb_refl. destruct (Z.ltb_spec (q + 1) N); [|lia]. cbn [andb]. lia.
  - intros x X. rewrite HB' by lia. destruct (x =? q); apply R; lia.
  - intros x X. rewrite HB' by lia. destruct (Z.eqb_spec x q); apply PO; lia.
  - intros x y X Y. rewrite !HB', !HF by lia. destruct (Z.eqb_spec x q), (Z.eqb_spec y q); try tauto; rewrite EQ by lia; rewrite ?EP; tauto.
  - intros x X. rewrite HB' by lia. destruct (Z.eqb_spec x q) as [->|Nx].
    + rewrite HE' by (pose proof (R (q - 1)); lia). destruct (Z.eqb_spec (B (q - 1)) (B q)); [lia|].
      destruct (ED (q - 1) ltac:(lia)) as [E1 [E2 E3]]. split; [lia|]. rewrite !HF by lia. rewrite Z.eqb_refl. destruct (Z.eqb_spec (E (B (q - 1))) q); [lia|].
      split; [lia|]. intros j J. rewrite HF by lia. destruct (Z.eqb_spec j q); [lia|]. specialize (E3 j J). lia.
    + destruct (ED x X) as [E1 [E2 E3]]. rewrite HE' by (pose proof (R x); lia). destruct (Z.eqb_spec (B x) (B q)) as [Bq|Bq].
      * apply EQ in Bq; [|lia|lia]. assert (q < x) by (destruct (Z_lt_le_dec q x); [assumption|]; exfalso; apply (Hfirst x); lia).
        split; [lia|]. rewrite !HF by lia. destruct (Z.eqb_spec (q + 1) q); [lia|]. destruct (Z.eqb_spec x q); [lia|]. split; [lia|].
        intros j J. rewrite HF by lia. destruct (Z.eqb_spec j q); [lia|]. rewrite Bq. apply Hfirst. lia.
      * split; [lia|]. assert (NQ : F x <> F q) by (intros Q; apply Bq; apply EQ; lia).
        assert (E (B x) <> q) by (intros Q; rewrite Q in E2; lia).
        rewrite !HF by lia. destruct (Z.eqb_spec (E (B x)) q); [lia|]. destruct (Z.eqb_spec x q); [lia|]. split; [exact E2|].
        intros j J. rewrite HF by lia. destruct (Z.eqb_spec j q) as [->|]; [|now apply E3]. intros Q. apply (E3 (q - 1)); [lia|lia].
  - intros k K. destruct (FR k K) as [F1 F2]. split; [exact F1|]. intros x X. rewrite HB' by lia. destruct (x =? q); apply F2; lia.
  - exact IN.
  - intros x X. rewrite HB' by lia. destruct (Z.eqb_spec x q); apply OB; lia.
  - exact OS.
Qed.

(** The block is shared and [q] gets a new one. *)
Lemma pool_new B' E' : q + 1 < N -> F (q + 1) = F q -> F (q - 1) <> F q + 1 ->
  (forall x, 0 <= x -> B' x = if x =? q then S av else B x) ->
  (forall y, 0 <= y -> E' y = if y =? S av then q else if y =? B q then q + 1 else E y) -> av < 628 /\ BlkO N k0 O F' B' E' S (av + 1).
Proof.
  intros L EN EP HB' HE'. destruct HB as [A R PO EQ ED FR IN OB OS].
  assert (LF : lead F' (Z.to_nat N) = lead F (Z.to_nat N) + 1).
  { rewrite olead_F', EN, Z.eqb_refl. destruct (Z.eqb_spec (F (q - 1)) (F q + 1)); [lia|]. destruct (Z.ltb_spec (q + 1) N); [cbn [andb]; lia|lia]. }
  assert (AV : av <= N + k0). { pose proof (lead_range F' (Z.to_nat N)). rewrite A. lia. }
  assert (AP : 1 <= av). { pose proof (lead_range F (Z.to_nat N)). lia. }
  destruct (FR av ltac:(lia)) as [S1 S2]. split; [lia|].
  assert (UQ : forall y, 0 <= y < N -> y <> q -> F y <> F q + 1).
  { intros y Y Ny. destruct (Z_lt_le_dec y q).
    - pose proof (obelow_first (q - 1) ltac:(lia)). pose proof (HS y (q - 1) ltac:(lia) ltac:(lia)). lia.
    - pose proof (HS q y ltac:(lia) ltac:(lia)). lia. }
  constructor.
  - lia.
  - intros x X. rewrite HB' by lia. destruct (x =? q); [lia|apply R; lia].
  - intros x X. rewrite HB' by lia. destruct (x =? q); [lia|apply PO; lia].
  - intros x y X Y. rewrite !HB', !HF by lia. destruct (Z.eqb_spec x q), (Z.eqb_spec y q).
    + tauto.
    + split; intros Q; exfalso; [apply (S2 y Y); congruence|apply (UQ y); auto].
    + split; intros Q; exfalso; [apply (S2 x X); congruence|apply (UQ x); auto].
    + now apply EQ.
  - intros x X. rewrite HB' by lia. destruct (Z.eqb_spec x q) as [->|Nx].
    + rewrite HE' by lia. rewrite Z.eqb_refl. split; [lia|]. split; [reflexivity|]. intros j J. rewrite !HF by lia. rewrite Z.eqb_refl. destruct (Z.eqb_spec j q); [lia|]. apply UQ; lia.
    + destruct (ED x X) as [E1 [E2 E3]]. rewrite HE' by (pose proof (R x); lia). destruct (Z.eqb_spec (B x) (S av)) as [C|_]; [exfalso; now apply (S2 x X)|].
      destruct (Z.eqb_spec (B x) (B q)) as [Bq|Bq].
      * apply EQ in Bq; [|lia|lia]. assert (q < x) by (destruct (Z_lt_le_dec q x); [assumption|]; exfalso; apply (Hfirst x); lia).
        split; [lia|]. rewrite !HF by lia. destruct (Z.eqb_spec (q + 1) q); [lia|]. destruct (Z.eqb_spec x q); [lia|]. split; [lia|].
        intros j J. rewrite HF by lia. destruct (Z.eqb_spec j q); [lia|]. rewrite Bq. apply Hfirst. lia.
      * split; [lia|]. assert (NQ : F x <> F q) by (intros Q; apply Bq; apply EQ; lia).
        assert (E (B x) <> q) by (intros Q; rewrite Q in E2; lia).
        rewrite !HF by lia. destruct (Z.eqb_spec (E (B x)) q); [lia|]. destruct (Z.eqb_spec x q); [lia|]. split; [exact E2|].
        intros j J. rewrite HF by lia. destruct (Z.eqb_spec j q) as [->|]; [|now apply E3]. intros Q. now apply (UQ x X).
  - intros k K. destruct (FR k ltac:(lia)) as [F1 F2]. split; [exact F1|]. intros x X. rewrite HB' by lia. destruct (x =? q); [|apply F2; lia].
    intros Q. apply IN in Q; lia.
  - intros k l K M. apply IN; lia.
  - intros x X. rewrite HB' by lia. destruct (x =? q); [apply OS; lia|apply OB; lia].
  - intros j J. apply OS; lia.
Qed.

(** [q] was alone in its block, which is given back. *)
Lemma pool_free B' S' : (forall x, 0 <= x < N -> F x = F q -> x = q) -> F (q - 1) = F q + 1 ->
  (forall x, 0 <= x -> B' x = if x =? q then B (q - 1) else B x) ->
  (forall k, 0 <= k -> S' k = if k =? av - 1 then B q else S k) -> 2 <= av /\ BlkO N k0 O F' B' E S' (av - 1).
Proof.
  intros AL EP HB' HS'. destruct HB as [A R PO EQ ED FR IN OB OS].
  assert (NB : B (q - 1) <> B q) by (intros X; apply EQ in X; lia).
  assert (LF : lead F' (Z.to_nat N) = lead F (Z.to_nat N) - 1).
  { rewrite olead_F', EP, Z.eqb_refl. destruct (Z.ltb_spec (q + 1) N); cbn [andb]; [|lia]. destruct (Z.eqb_spec (F (q + 1)) (F q)) as [Q|]; [apply AL in Q; lia|lia]. }
  assert (AP : 2 <= av). { pose proof (lead_pos F' (Z.to_nat N) ltac:(lia)). lia. }
  split; [exact AP|]. constructor.
  - lia.
  - intros x X. rewrite HB' by lia. destruct (x =? q); apply R; lia.
  - intros x X. rewrite HB' by lia. destruct (Z.eqb_spec x q); apply PO; lia.
  - intros x y X Y. rewrite !HB', !HF by lia. destruct (Z.eqb_spec x q), (Z.eqb_spec y q); try tauto; rewrite EQ by lia; rewrite ?EP; tauto.
  - intros x X. rewrite HB' by lia. destruct (Z.eqb_spec x q) as [->|Nx].
    + destruct (ED (q - 1) ltac:(lia)) as [E1 [E2 E3]]. split; [lia|]. rewrite !HF by lia. rewrite Z.eqb_refl. destruct (Z.eqb_spec (E (B (q - 1))) q); [lia|].
      split; [lia|]. intros j J. rewrite HF by lia. destruct (Z.eqb_spec j q); [lia|]. specialize (E3 j J). lia.
    + destruct (ED x X) as [E1 [E2 E3]]. split; [lia|]. assert (NQ : F x <> F q) by (intros Q; apply Nx; apply AL; lia).
      assert (E (B x) <> q) by (intros Q; rewrite Q in E2; lia).
      rewrite !HF by lia. destruct (Z.eqb_spec (E (B x)) q); [lia|]. destruct (Z.eqb_spec x q); [lia|]. split; [exact E2|].
      intros j J. rewrite HF by lia. destruct (Z.eqb_spec j q) as [->|]; [|now apply E3]. intros Q. apply (E3 (q - 1)); [lia|lia].
  - intros k K. rewrite HS' by lia. destruct (Z.eqb_spec k (av - 1)).
    + split; [pose proof (R q); pose proof (PO q); lia|]. intros x X. rewrite HB' by lia. destruct (Z.eqb_spec x q); [lia|]. intros Q. apply EQ in Q; [|lia|lia]. symmetry in Q. apply AL in Q; lia.
    + destruct (FR k ltac:(lia)) as [F1 F2]. split; [exact F1|]. intros x X. rewrite HB' by lia. destruct (x =? q); apply F2; lia.
  - intros k l K M. rewrite !HS' by lia. destruct (Z.eqb_spec k (av - 1)), (Z.eqb_spec l (av - 1)); intros Q.
    + lia.
    + exfalso. destruct (FR l ltac:(lia)) as [_ F2]. apply (F2 q); [lia|congruence].
    + exfalso. destruct (FR k ltac:(lia)) as [_ F2]. apply (F2 q); [lia|congruence].
    + apply IN; lia.
  - intros x X. rewrite HB' by lia. destruct (Z.eqb_spec x q); apply OB; lia.
  - intros j J. rewrite HS' by lia. destruct (Z.eqb_spec j (av - 1)); [apply OB; lia|apply OS; lia].
Qed.

(** [q] was alone in its block and keeps it. *)
Lemma pool_keep : (forall x, 0 <= x < N -> F x = F q -> x = q) -> F (q - 1) <> F q + 1 -> BlkO N k0 O F' B E S av.
Proof.
  intros AL EP. destruct HB as [A R PO EQ ED FR IN OB OS].
  assert (UQ : forall y, 0 <= y < N -> y <> q -> F y <> F q + 1).
  { intros y Y Ny. destruct (Z_lt_le_dec y q).
    - pose proof (obelow_first (q - 1) ltac:(lia)). pose proof (HS y (q - 1) ltac:(lia) ltac:(lia)). lia.
    - pose proof (HS q y ltac:(lia) ltac:(lia)). lia. }
  constructor; auto.
  - rewrite A, olead_F'. destruct (Z.eqb_spec (F (q - 1)) (F q + 1)); [lia|]. destruct (Z.ltb_spec (q + 1) N); cbn [andb]; [|lia]. destruct (Z.eqb_spec (F (q + 1)) (F q)) as [Q|]; [apply AL in Q; lia|lia].
  - intros x y X Y. rewrite !HF by lia. rewrite EQ by lia. destruct (Z.eqb_spec x q) as [->|], (Z.eqb_spec y q) as [->|].
    + tauto.
    + split; intros Q; exfalso; [symmetry in Q; apply AL in Q; lia|apply (UQ y); auto].
    + split; intros Q; exfalso; [apply AL in Q; lia|apply (UQ x); auto].
    + tauto.
  - intros x X. destruct (ED x X) as [E1 [E2 E3]]. split; [lia|].
    destruct (Z.eq_dec x q) as [->|Nx].
    + assert (E (B q) = q) by (apply AL; [lia|exact E2]). rewrite H in *. split; [reflexivity|]. intros j J. rewrite !HF by lia. rewrite Z.eqb_refl. destruct (Z.eqb_spec j q); [lia|]. apply UQ; lia.
    + assert (NQ : F x <> F q) by (intros Q; apply Nx; apply AL; lia).
      assert (E (B x) <> q) by (intros Q; rewrite Q in E2; lia).
      rewrite !HF by lia. destruct (Z.eqb_spec (E (B x)) q); [lia|]. destruct (Z.eqb_spec x q); [lia|]. split; [exact E2|].
      intros j J. rewrite HF by lia. destruct (Z.eqb_spec j q) as [->|]; [|now apply E3]. intros Q. now apply (UQ x X).
Qed.
End BlkO.


(** One more node, with the block of the last one or with a new one. *)
Lemma pool_app_same N k O F B E S av B' : 2 <= N -> BlkO N k O F B E S av -> F N = F (N - 1) ->
  (forall x, 0 <= x -> B' x = if x =? N then B (N - 1) else B x) -> BlkO (N + 1) k O F B' E S av.
Proof.
  intros HN [A R PO EQ ED FR IN OB OS] FN HB'. constructor; auto.
  - rewrite lead_S by lia. rewrite A. unfold isl. destruct (Z.eqb_spec N 0); [lia|]. rewrite FN, Z.eqb_refl. cbn [orb negb]. lia.
  - intros x X. rewrite HB' by lia. destruct (Z.eqb_spec x N); apply R; lia.
  - intros x X. rewrite HB' by lia. destruct (Z.eqb_spec x N); apply PO; lia.
  - intros x y X Y. rewrite !HB' by lia. destruct (Z.eqb_spec x N) as [->|], (Z.eqb_spec y N) as [->|]; rewrite ?FN; try tauto; apply EQ; lia.
  - intros x X. rewrite HB' by lia. destruct (Z.eqb_spec x N) as [->|].
    + destruct (ED (N - 1) ltac:(lia)) as [E1 [E2 E3]]. rewrite FN. split; [lia|]. split; [exact E2|exact E3].
    + apply ED. lia.
  - intros j K. destruct (FR j K) as [F1 F2]. split; [exact F1|]. intros x X. rewrite HB' by lia. destruct (Z.eqb_spec x N); apply F2; lia.
  - intros x X. rewrite HB' by lia. destruct (Z.eqb_spec x N); apply OB; lia.
Qed.

Lemma pool_app_new N k O F B E S av B' E' : 1 <= N /\ 0 <= k /\ N + k < 627 -> BlkO N k O F B E S av -> (forall x, 0 <= x < N -> F x <> F N) ->
  (forall x, 0 <= x -> B' x = if x =? N then S av else B x) -> (forall y, 0 <= y -> E' y = if y =? S av then N else E y) ->
  1 <= av < 628 /\ BlkO (N + 1) k O F B' E' S (av + 1).
Proof.
  intros HN [A R PO EQ ED FR IN OB OS] FN HB' HE'. pose proof (lead_range F (Z.to_nat N)) as LR.
  destruct (FR av ltac:(lia)) as [S1 S2]. split; [lia|]. constructor.
  - rewrite lead_S by lia. rewrite A. unfold isl. destruct (Z.eqb_spec N 0); [cbn [orb]; lia|]. destruct (Z.eqb_spec (F (N - 1)) (F N)) as [Q|]; [exfalso; apply (FN (N - 1)); [lia|exact Q]|]. cbn [orb negb]. lia.
  - intros x X. rewrite HB' by lia. destruct (Z.eqb_spec x N); [lia|apply R; lia].
  - intros x X. rewrite HB' by lia. destruct (Z.eqb_spec x N); [lia|apply PO; lia].
  - intros x y X Y. rewrite !HB' by lia. destruct (Z.eqb_spec x N) as [->|], (Z.eqb_spec y N) as [->|].
    + tauto.
    + split; intros Q; exfalso; [apply (S2 y); [lia|exact Q]|apply (FN y); [lia|congruence]].
    + split; intros Q; exfalso; [apply (S2 x); [lia|congruence]|apply (FN x); [lia|congruence]].
    + apply EQ; lia.
  - intros x X. rewrite HB' by lia. destruct (Z.eqb_spec x N) as [->|].
    + rewrite HE' by lia. rewrite Z.eqb_refl. split; [lia|]. split; [reflexivity|]. intros j J. apply FN. lia.
    + pose proof (R x ltac:(lia)). rewrite HE' by lia. destruct (Z.eqb_spec (B x) (S av)) as [Q|]; [exfalso; apply (S2 x); [lia|congruence]|]. apply ED. lia.
  - intros j K. destruct (FR j ltac:(lia)) as [F1 F2]. split; [exact F1|]. intros x X. rewrite HB' by lia. destruct (Z.eqb_spec x N); [intros Q; apply IN in Q; lia|apply F2; lia].
  - intros j l K M. apply IN; lia.
  - intros x X. rewrite HB' by lia. destruct (Z.eqb_spec x N); [apply OS; lia|apply OB; lia].
  - intros j J. apply OS; lia.
Qed.

(** Counting the root, which is heavier than all others. *)
Lemma pool_root N k O F B E S av F' : 2 <= N -> BlkO N k O F B E S av -> (forall x, 1 <= x < N -> F x < F 0) ->
  (forall x, 1 <= x -> F' x = F x) -> F 0 <= F' 0 -> BlkO N k O F' B E S av.
Proof.
  intros HN [A R PO EQ ED FR IN OB OS] HT HF H0. constructor; auto.
  - rewrite A. f_equal. symmetry. rewrite (lead_change F F' 0); [|lia|intros x X Y; apply HF; lia].
    rewrite Z2Nat.id by lia. destruct (Z.ltb_spec 0 N); [|lia]. destruct (Z.ltb_spec (0 + 1) N); [|lia].
    assert (I1 : isl F' (0 + 1) = 1 /\ isl F (0 + 1) = 1).
    { pose proof (HT 1 ltac:(lia)) as T1. unfold isl. change (0 + 1) with 1. change (1 - 1) with 0. rewrite (HF 1) by lia.
      change (1 =? 0) with false. cbv iota.
      destruct (Z.eqb_spec (F' 0) (F 1)), (Z.eqb_spec (F 0) (F 1)); try lia. split; reflexivity. }
    destruct I1 as [-> ->]. change (isl F' 0) with 1. change (isl F 0) with 1. lia.
  - intros x y X Y. rewrite EQ by lia. destruct (Z.eq_dec x 0) as [->|], (Z.eq_dec y 0) as [->|]; rewrite ?(HF x), ?(HF y) by lia; try tauto; [pose proof (HT y ltac:(lia))|pose proof (HT x ltac:(lia))]; lia.
  - intros x X. destruct (ED x X) as [E1 [E2 E3]]. split; [lia|].
    destruct (Z.eq_dec x 0) as [->|]; [assert (Z0 : E (B 0) = 0) by lia; rewrite Z0; split; [reflexivity|intros; lia]|].
    assert (E (B x) <> 0) by (intros Q; rewrite Q in E2; pose proof (HT x ltac:(lia)); lia). rewrite !HF by lia. split; [exact E2|].
    intros j J. destruct (Z.eq_dec j 0) as [->|]; [pose proof (HT x ltac:(lia)); lia|]. rewrite HF by lia. now apply E3.
Qed.
