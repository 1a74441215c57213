(** Reasoning about programs with effects. *)
From Verif Require Import Go GoLemmas M_Crc M_Bitio M_Maketree M_Maketbl M_Huf M_Slide M_Lzhuf M_Header M_Os P_Header.

Lemma list_eqb_eq a : forall b, list_eqb a b = true <-> a = b.
Proof.
  induction a as [|x a IH]; intros [|y b]; cbn [list_eqb]; try (split; congruence).
  rewrite andb_true_iff, Z.eqb_eq, IH. split; [intros [-> ->]; reflexivity|intros H; injection H; auto].
Qed.

Lemma list_eqb_refl a : list_eqb a a = true.
Proof. now apply list_eqb_eq. Qed.

Lemma list_eqb_neq a b : list_eqb a b = false <-> a <> b.
Proof. rewrite <- not_true_iff_false, list_eqb_eq. tauto. Qed.

Lemma fs_set_same p n f : fs_set p n f p = n.
Proof. unfold fs_set. now rewrite list_eqb_refl. Qed.

Lemma fs_set_other p n f q : q <> p -> fs_set p n f q = f q.
Proof. intros H. unfold fs_set. apply list_eqb_neq in H. now rewrite H. Qed.

Definition run_ops (ops : list op) (f : fs) : fs := fold_left (fun f o => run_op o f) ops f.

Lemma run_ops_app a b f : run_ops (a ++ b) f = run_ops b (run_ops a f).
Proof. unfold run_ops. apply fold_left_app. Qed.

(** Every operation a program does satisfies [P], and the relation [R] holds
    between the Lha object before and after.  The operations account for all
    changes of the file system. *)
Definition eff {A} (P : op -> Prop) (R : lha -> lha -> Prop) (w : world) (o : outcome A) : Prop :=
  match o with
  | Done _ w' | Crash w' => exists ops, w_ops w' = rev ops ++ w_ops w /\ Forall P ops /\ w_fs w' = run_ops ops (w_fs w) /\ R (w_lha w) (w_lha w')
  | Unknown => True
  end.

Section Eff.
  Variable P : op -> Prop.
  Variable R : lha -> lha -> Prop.
  Hypothesis Rrefl : forall l, R l l.
  Hypothesis Rtrans : forall a b c, R a b -> R b c -> R a c.

  Definition does {A} (m : IO A) : Prop := forall w, eff P R w (m w).

  Lemma does_same {A} (m : IO A) : (forall w, match m w with Done _ w' | Crash w' => w_ops w' = w_ops w /\ w_fs w' = w_fs w /\ R (w_lha w) (w_lha w') | Unknown => True end) -> does m.
  Proof.
    intros H w. specialize (H w). unfold eff. destruct (m w) as [a w'|w'|]; auto; destruct H as [H1 [H2 H3]]; exists [];
      (split; [exact H1|]); (split; [constructor|]); split; auto.
  Qed.

  Lemma does_ret {A} (a : A) : does (ret a).
  Proof. apply does_same. intros w. cbn. auto. Qed.
  Lemma does_panic {A} : does (@panic A).
  Proof. apply does_same. intros w. cbn. auto. Qed.
  Lemma does_unknown {A} : does (fun _ => @Unknown A).
  Proof. intros w. exact I. Qed.
  Lemma does_lift {A} (r : res A) : does (lift r).
  Proof. apply does_same. intros w. unfold lift. destruct r; auto. Qed.
  Lemma does_get {A} (f : world -> A) : does (get f).
  Proof. apply does_same. intros w. cbn. auto. Qed.
  Lemma does_getl {A} (f : lha -> A) : does (getl f).
  Proof. apply does_get. Qed.
  Lemma does_glob g : does (modify (set_wglob g)).
  Proof. apply does_same. intros w. cbn. auto. Qed.
  Lemma does_print l : does (print l).
  Proof. apply does_same. intros w. unfold print, printed. destruct l; cbn; auto. Qed.
  Lemma does_stdin g : does (modify (set_wstdin g)).
  Proof. apply does_same. intros w. cbn. auto. Qed.
  Lemma does_modl f : (forall l, R l (f l)) -> does (modl f).
  Proof. intros H. apply does_same. intros w. cbn. auto. Qed.
  Lemma does_emit o : P o -> does (emit o).
  Proof.
    intros H w. unfold emit, eff. cbn [w_ops w_fs w_lha]. exists [o]. split; [reflexivity|]. split; [constructor; auto|]. split; [reflexivity|auto].
  Qed.

  Lemma does_bind_at {A B} (m : IO A) (k : A -> IO B) : does m ->
    (forall w a w', m w = Done a w' -> eff P R w' (k a w')) -> does (bindIO m k).
  Proof.
    intros Hm Hk w. specialize (Hm w). unfold bindIO. specialize (Hk w). destruct (m w) as [a w'|w'|]; auto.
    specialize (Hk a w' eq_refl). unfold eff in *. destruct Hm as [ops [H1 [H2 [H3 H4]]]].
    assert (X : forall w'', (exists ops0, w_ops w'' = rev ops0 ++ w_ops w' /\ Forall P ops0 /\ w_fs w'' = run_ops ops0 (w_fs w') /\ R (w_lha w') (w_lha w'')) ->
      exists ops0, w_ops w'' = rev ops0 ++ w_ops w /\ Forall P ops0 /\ w_fs w'' = run_ops ops0 (w_fs w) /\ R (w_lha w) (w_lha w'')).
    { intros w'' [ops' [G1 [G2 [G3 G4]]]]. exists (ops ++ ops'). split; [rewrite G1, H1, rev_app_distr, app_assoc; reflexivity|].
      split; [apply Forall_app; auto|]. split; [rewrite run_ops_app, G3, H3; reflexivity|eauto]. }
    destruct (k a w') as [b w''|w''|]; auto.
  Qed.

  Lemma does_bind {A B} (m : IO A) (k : A -> IO B) : does m -> (forall a, does (k a)) -> does (bindIO m k).
  Proof. intros Hm Hk. apply does_bind_at; auto. intros w a w' _. apply Hk. Qed.
End Eff.

Lemma eff_weaken {A} (P Q : op -> Prop) (R S : lha -> lha -> Prop) w (o : outcome A) :
  (forall x, P x -> Q x) -> (forall a b, R a b -> S a b) -> eff P R w o -> eff Q S w o.
Proof.
  intros HP HR H. unfold eff in *. destruct o as [a w'|w'|]; auto; destruct H as [ops [H1 [H2 [H3 H4]]]]; exists ops;
    (split; [exact H1|]); (split; [eapply Forall_impl; eauto|]); auto.
Qed.
