(** Reasoning principles for [Go.v]. *)
From Verif Require Import Go.

(** ** Outcomes *)

Lemma bind_ok {A B} (m : res A) (k : A -> res B) b :
  bind m k = Ok b -> exists a, m = Ok a /\ k a = Ok b.
Proof. destruct m; simpl; intros; try discriminate; eauto. Qed.

Ltac inv_bind H :=
  apply bind_ok in H; destruct H as [? [? H]].

(** ** Slices *)

Lemma apos_inj i j : 0 <= i -> 0 <= j -> apos i = apos j -> i = j.
Proof. unfold apos; intros; apply Z2Pos.inj in H1; lia. Qed.

Lemma at_upd a i j v : 0 <= i -> 0 <= j ->
  at_ (upd a i v) j = if j =? i then v else at_ a j.
Proof.
  intros; unfold at_, upd; simpl.
  destruct (Z.eqb_spec j i).
  - subst; rewrite PositiveMap.gss; reflexivity.
  - rewrite PositiveMap.gso; [reflexivity|].
    intro E; apply apos_inj in E; lia.
Qed.

Lemma at_upd_eq a i v : at_ (upd a i v) i = v.
Proof. unfold at_, upd; simpl. now rewrite PositiveMap.gss. Qed.

Lemma at_upd_ne a i j v : 0 <= i -> 0 <= j -> j <> i -> at_ (upd a i v) j = at_ a j.
Proof.
  intros; rewrite at_upd by lia. destruct (Z.eqb_spec j i); [lia|reflexivity].
Qed.

Lemma at_amake n i : at_ (amake n) i = 0.
Proof. unfold at_, amake; simpl. now rewrite PositiveMap.gempty. Qed.

Lemma at_afill n v i : at_ (afill n v) i = v.
Proof. unfold at_, afill; simpl. now rewrite PositiveMap.gempty. Qed.

Lemma alen_upd a i v : alen (upd a i v) = alen a.
Proof. reflexivity. Qed.

Lemma inb_true a i : inb a i = true <-> 0 <= i < alen a.
Proof. unfold inb. rewrite andb_true_iff, Z.leb_le, Z.ltb_lt. tauto. Qed.

Lemma inb_false a i : inb a i = false <-> ~ (0 <= i < alen a).
Proof.
  destruct (inb a i) eqn:E.
  - apply inb_true in E. split; [discriminate|tauto].
  - split; [|auto]. intros _ C. apply inb_true in C. congruence.
Qed.

Lemma aget_ok a i : 0 <= i < alen a -> aget a i = Ok (at_ a i).
Proof. intros; unfold aget. apply inb_true in H. now rewrite H. Qed.

Lemma aset_ok a i v : 0 <= i < alen a -> aset a i v = Ok (upd a i v).
Proof. intros; unfold aset. apply inb_true in H. now rewrite H. Qed.

Lemma aget_panic a i : ~ (0 <= i < alen a) -> aget a i = Panic.
Proof. intros; unfold aget. apply inb_false in H. now rewrite H. Qed.

Lemma aset_panic a i v : ~ (0 <= i < alen a) -> aset a i v = Panic.
Proof. intros; unfold aset. apply inb_false in H. now rewrite H. Qed.

Lemma aget_inv a i v : aget a i = Ok v -> 0 <= i < alen a /\ v = at_ a i.
Proof.
  unfold aget. destruct (inb a i) eqn:E; intros; try discriminate.
  apply inb_true in E. inversion H; auto.
Qed.

Lemma aset_inv a i v b : aset a i v = Ok b -> 0 <= i < alen a /\ b = upd a i v.
Proof.
  unfold aset. destruct (inb a i) eqn:E; intros; try discriminate.
  apply inb_true in E. inversion H; auto.
Qed.

(** ** Wraps *)

Lemma u8_id x : 0 <= x < 256 -> u8 x = x.
Proof. intros; unfold u8; now rewrite Z.mod_small. Qed.
Lemma u16_id x : 0 <= x < 65536 -> u16 x = x.
Proof. intros; unfold u16; now rewrite Z.mod_small. Qed.
Lemma u8_range x : 0 <= u8 x < 256.
Proof. unfold u8; apply Z.mod_pos_bound; lia. Qed.
Lemma u16_range x : 0 <= u16 x < 65536.
Proof. unfold u16; apply Z.mod_pos_bound; lia. Qed.

Lemma i16_id x : 0 <= x < 32768 -> i16 x = x.
Proof.
  intros. unfold i16. rewrite Z.mod_small by lia.
  destruct (Z.ltb_spec x 32768); lia.
Qed.

(** ** Counted loops *)

Lemma for_up_inv {S} (I : Z -> S -> Prop) (body : Z -> S -> res S) :
  forall n lo s,
  (forall i s, lo <= i < lo + Z.of_nat n -> I i s ->
     exists s', body i s = Ok s' /\ I (i + 1) s') ->
  I lo s ->
  exists s', for_up n lo body s = Ok s' /\ I (lo + Z.of_nat n) s'.
Proof.
  induction n; intros lo s Hb Hi.
  - exists s; split; [reflexivity|]. now replace (lo + Z.of_nat 0) with lo by lia.
  - destruct (Hb lo s) as [s1 [E1 I1]]; [lia|assumption|].
    destruct (IHn (lo + 1) s1) as [s2 [E2 I2]].
    + intros; apply Hb; [lia|assumption].
    + assumption.
    + exists s2. cbn [for_up]. rewrite E1; cbn [bind]. split; [assumption|].
      now replace (lo + Z.of_nat (Datatypes.S n)) with (lo + 1 + Z.of_nat n) by lia.
Qed.

Lemma forZ_inv {S} (I : Z -> S -> Prop) (body : Z -> S -> res S) lo hi s :
  lo <= hi ->
  (forall i s, lo <= i < hi -> I i s -> exists s', body i s = Ok s' /\ I (i + 1) s') ->
  I lo s ->
  exists s', forZ lo hi body s = Ok s' /\ I hi s'.
Proof.
  intros Hle Hb Hi. unfold forZ.
  destruct (for_up_inv I body (Z.to_nat (hi - lo)) lo s) as [s' [E I']].
  - intros; apply Hb; [lia|assumption].
  - assumption.
  - exists s'. split; [assumption|].
    now replace (lo + Z.of_nat (Z.to_nat (hi - lo))) with hi in I' by lia.
Qed.

Lemma for_up_split {S} (body : Z -> S -> res S) n m lo s :
  for_up (n + m) lo body s =
  (s' <- for_up n lo body s ;; for_up m (lo + Z.of_nat n) body s').
Proof.
  revert lo s; induction n; intros; simpl.
  - now replace (lo + 0) with lo by lia.
  - destruct (body lo s); simpl; auto.
    rewrite IHn. now replace (lo + 1 + Z.of_nat n) with (lo + Z.pos (Pos.of_succ_nat n)) by lia.
Qed.

Lemma for_ctl_inv {S T} (I : Z -> S -> Prop) (Q : T -> Prop)
  (body : Z -> S -> res (ctl S T)) :
  forall n lo s,
  (forall i s, lo <= i < lo + Z.of_nat n -> I i s ->
     exists c, body i s = Ok c /\
       match c with Go s' => I (i + 1) s' | Stop t => Q t end) ->
  I lo s ->
  exists c, for_ctl n lo body s = Ok c /\
       match c with Go s' => I (lo + Z.of_nat n) s' | Stop t => Q t end.
Proof.
  induction n; intros lo s Hb Hi.
  - exists (Go s); split; [reflexivity|]. now replace (lo + Z.of_nat 0) with lo by lia.
  - destruct (Hb lo s) as [c [E1 I1]]; [lia|assumption|].
    cbn [for_ctl]. rewrite E1; cbn [bind]. destruct c as [s1|t].
    + destruct (IHn (lo + 1) s1) as [c2 [E2 I2]].
      * intros; apply Hb; [lia|assumption].
      * assumption.
      * exists c2. split; [assumption|].
        replace (lo + Z.of_nat (Datatypes.S n)) with (lo + 1 + Z.of_nat n) by lia.
        assumption.
    + exists (Stop t); auto.
Qed.

(** ** Fuelled loops *)

Lemma loopN_add {S T} (step : S -> res (ctl S T)) n m s :
  loopN (n + m) step s =
  (c <- loopN n step s ;; match c with Stop t => Ok (Stop t) | Go s' => loopN m step s' end).
Proof.
  revert s; induction n; intros; simpl; [reflexivity|].
  destruct (step s) as [[s'|t]| |]; simpl; auto.
Qed.

Lemma loopP_loopN {S T} (step : S -> res (ctl S T)) p s :
  loopP p step s = loopN (Pos.to_nat p) step s.
Proof.
  revert s; induction p; intros s.
  - replace (Pos.to_nat p~1) with (Datatypes.S (Pos.to_nat p + Pos.to_nat p)) by lia.
    cbn [loopP loopN]. destruct (step s) as [[s'|t]| |]; cbn [bind]; auto.
    rewrite loopN_add, <- IHp.
    destruct (loopP p step s') as [[s''|t]| |]; cbn [bind]; auto.
  - replace (Pos.to_nat p~0) with (Pos.to_nat p + Pos.to_nat p)%nat by lia.
    cbn [loopP]. rewrite loopN_add, <- IHp.
    destruct (loopP p step s) as [[s'|t]| |]; cbn [bind]; auto.
  - change (Pos.to_nat 1) with 1%nat. cbn [loopP loopN].
    destruct (step s) as [[s'|t]| |]; cbn [bind]; auto.
Qed.

Lemma loop_loopN {S T} (step : S -> res (ctl S T)) fuel s :
  0 < fuel ->
  loop fuel step s =
  (c <- loopN (Z.to_nat fuel) step s ;;
   match c with Stop t => Ok t | Go _ => NoFuel end).
Proof.
  intros; unfold loop. destruct fuel; try lia.
  rewrite loopP_loopN. now simpl.
Qed.

(** Total correctness: an invariant and a measure that decreases while the loop
    goes on. *)
Lemma loopN_wf {S T} (I : S -> Prop) (Q : T -> Prop) (m : S -> Z)
  (step : S -> res (ctl S T)) :
  forall n s,
  (forall s, I s -> exists c, step s = Ok c /\
      match c with Go s' => I s' /\ 0 <= m s' < m s | Stop t => Q t end) ->
  I s -> 0 <= m s < Z.of_nat n ->
  exists t, loopN n step s = Ok (Stop t) /\ Q t.
Proof.
  induction n; intros s Hs Hi Hm; [lia|].
  destruct (Hs s Hi) as [c [E C]]. simpl. rewrite E; simpl.
  destruct c as [s'|t]; [|eauto].
  destruct C. apply IHn; auto. lia.
Qed.

Lemma loop_wf {S T} (I : S -> Prop) (Q : T -> Prop) (m : S -> Z) fuel
  (step : S -> res (ctl S T)) s :
  (forall s, I s -> exists c, step s = Ok c /\
      match c with Go s' => I s' /\ 0 <= m s' < m s | Stop t => Q t end) ->
  I s -> 0 <= m s < fuel ->
  exists t, loop fuel step s = Ok t /\ Q t.
Proof.
  intros Hs Hi Hm. rewrite loop_loopN by lia.
  destruct (loopN_wf I Q m step (Z.to_nat fuel) s Hs Hi) as [t [E HQ]]; [lia|].
  exists t. rewrite E; auto.
Qed.

(** Partial correctness: whatever a loop returns satisfies the invariant. *)
Lemma loopN_partial {S T} (I : S -> Prop) (Q : T -> Prop)
  (step : S -> res (ctl S T)) :
  (forall s c, I s -> step s = Ok c ->
      match c with Go s' => I s' | Stop t => Q t end) ->
  forall n s c, I s -> loopN n step s = Ok c ->
      match c with Go s' => I s' | Stop t => Q t end.
Proof.
  intros Hs; induction n; intros s c Hi E; simpl in E.
  - inversion E; subst; assumption.
  - apply bind_ok in E. destruct E as [c1 [E1 E2]].
    pose proof (Hs s c1 Hi E1) as H1. destruct c1.
    + exact (IHn _ _ H1 E2).
    + inversion E2; subst; assumption.
Qed.

Lemma loop_partial {S T} (I : S -> Prop) (Q : T -> Prop) fuel
  (step : S -> res (ctl S T)) s t :
  (forall s c, I s -> step s = Ok c ->
      match c with Go s' => I s' | Stop t => Q t end) ->
  I s -> loop fuel step s = Ok t -> Q t.
Proof.
  intros Hs Hi E. destruct (Z_lt_le_dec 0 fuel) as [H|H].
  - rewrite loop_loopN in E by lia. apply bind_ok in E. destruct E as [c [E1 E2]].
    pose proof (loopN_partial I Q step Hs _ _ _ Hi E1). destruct c; [discriminate|].
    inversion E2; subst; auto.
  - unfold loop in E. destruct fuel; try discriminate; lia.
Qed.

Lemma forZ_partial {S} (I : Z -> S -> Prop) (body : Z -> S -> res S) lo hi s s' :
  lo <= hi ->
  (forall i s s', lo <= i < hi -> I i s -> body i s = Ok s' -> I (i + 1) s') ->
  I lo s -> forZ lo hi body s = Ok s' -> I hi s'.
Proof.
  intros Hle Hb. unfold forZ.
  remember (Z.to_nat (hi - lo)) as n.
  assert (hi = lo + Z.of_nat n) by lia. clear Heqn Hle. subst hi.
  revert lo s Hb. induction n; intros lo s Hb Hi E; simpl in E.
  - inversion E; subst. now replace (lo + Z.of_nat 0) with lo by lia.
  - apply bind_ok in E. destruct E as [s1 [E1 E2]].
    replace (lo + Z.of_nat (Datatypes.S n)) with (lo + 1 + Z.of_nat n) in * by lia.
    eapply IHn; [| |exact E2].
    + intros i x y Hx. exact (Hb i x y ltac:(lia)).
    + apply (Hb lo s s1); auto; lia.
Qed.

(** ** Lists *)

Lemma zlen_nonneg {A} (l : list A) : 0 <= zlen l.
Proof. unfold zlen; lia. Qed.
Lemma zlen_app {A} (a b : list A) : zlen (a ++ b) = zlen a + zlen b.
Proof. unfold zlen; rewrite app_length; lia. Qed.
Lemma zlen_cons {A} (x : A) l : zlen (x :: l) = 1 + zlen l.
Proof. unfold zlen; simpl length; lia. Qed.
Lemma zlen_nil {A} : zlen (@nil A) = 0.
Proof. reflexivity. Qed.

Lemma take_drop n l : take n l ++ drop n l = l.
Proof. unfold take, drop; apply firstn_skipn. Qed.

Lemma zlen_take n l : 0 <= n <= zlen l -> zlen (take n l) = n.
Proof. unfold zlen, take; intros. rewrite firstn_length. lia. Qed.

Lemma blit_ok l : forall a i, 0 <= i -> i + zlen l <= alen a ->
  exists a', blit a i l = Ok a' /\ alen a' = alen a /\
   (forall j, 0 <= j -> at_ a' j =
      if (i <=? j) && (j <? i + zlen l) then nth (Z.to_nat (j - i)) l 0 else at_ a j).
Proof.
  induction l as [|x l IH]; intros a i Hi Hl.
  - exists a. simpl. repeat split; auto. intros j Hj.
    rewrite zlen_nil. replace (i + 0) with i by lia.
    destruct (Z.leb_spec i j); destruct (Z.ltb_spec j i); simpl; auto; lia.
  - rewrite zlen_cons in Hl. pose proof (zlen_nonneg l). simpl. rewrite aset_ok by lia. simpl.
    destruct (IH (upd a i x) (i + 1)) as [a' [E [L A]]]; [lia|rewrite alen_upd; lia|].
    exists a'. split; [assumption|]. rewrite L, alen_upd. split; [reflexivity|].
    intros j Hj. rewrite A by assumption. rewrite zlen_cons.
    rewrite at_upd by lia.
    destruct (Z.eqb_spec j i).
    + subst. destruct (Z.leb_spec (i + 1) i); [lia|]. cbn [andb].
      destruct (Z.leb_spec i i); [|lia]. destruct (Z.ltb_spec i (i + (1 + zlen l))); [|lia].
      cbn [andb]. rewrite Z.sub_diag. reflexivity.
    + destruct (Z.leb_spec (i + 1) j); destruct (Z.leb_spec i j); try lia; cbn [andb]; auto.
      replace (i + 1 + zlen l) with (i + (1 + zlen l)) by lia.
      destruct (Z.ltb_spec j (i + (1 + zlen l))); cbn [andb]; auto.
      replace (Z.to_nat (j - i)) with (S (Z.to_nat (j - (i + 1)))) by lia. reflexivity.
Qed.

Lemma nth_skipn {A} n (l : list A) k d : nth k (skipn n l) d = nth (n + k) l d.
Proof.
  revert l. induction n; intros l; [reflexivity|].
  destruct l; simpl; [destruct k; reflexivity|apply IHn].
Qed.

Lemma slice_list_length a i n : length (slice_list a i n) = n.
Proof. revert i; induction n; intros; simpl; auto. Qed.

Lemma nth_slice_list a i n k d : (k < n)%nat ->
  nth k (slice_list a i n) d = at_ a (i + Z.of_nat k).
Proof.
  revert i k; induction n; intros i k H; [lia|].
  destruct k; simpl.
  - now replace (i + 0) with i by lia.
  - rewrite IHn by lia. f_equal; lia.
Qed.

#[global] Arguments Z.add : simpl never.
#[global] Arguments Z.sub : simpl never.
#[global] Arguments Z.mul : simpl never.
#[global] Arguments Z.modulo : simpl never.
#[global] Arguments Z.div : simpl never.
#[global] Arguments Z.pow : simpl never.
#[global] Arguments Z.shiftl : simpl never.
#[global] Arguments Z.shiftr : simpl never.
#[global] Arguments Z.land : simpl never.
#[global] Arguments Z.lor : simpl never.
#[global] Arguments Z.lxor : simpl never.
#[global] Arguments Z.leb : simpl never.
#[global] Arguments Z.ltb : simpl never.
#[global] Arguments Z.eqb : simpl never.
#[global] Arguments Z.to_nat : simpl never.
#[global] Arguments Z.of_nat : simpl never.
#[global] Arguments Z.testbit : simpl never.
#[global] Arguments u8 : simpl never.
#[global] Arguments u16 : simpl never.
#[global] Arguments i16 : simpl never.

(** A loop whose first iteration panics. *)
Lemma loop_unfold_panic {S T} fuel (step : S -> res (ctl S T)) s : 0 < fuel -> step s = Panic -> loop fuel step s = Panic.
Proof.
  intros H E. rewrite loop_loopN by lia. destruct (Z.to_nat fuel) eqn:F; [lia|]. cbn [loopN]. rewrite E. reflexivity.
Qed.
