(** Adding files does not depend on the names still to come. *)
From Verif Require Import Go GoLemmas M_Crc M_Bitio M_Maketree M_Maketbl M_Huf M_Slide M_Lzhuf M_Header M_Os M_Archive P_Os P_Backup P_Single.

(** The same process with other file names. *)
Definition named_files (v : list path) (c : Z) (w : world) : world := set_wlha (set_files v c (w_lha w)) w.
Definition omap {A} (f : world -> world) (o : outcome A) : outcome A :=
  match o with Done a w => Done a (f w) | Crash w => Crash (f w) | Unknown => Unknown end.

Definition files_kept (w w' : world) : Prop := l_filev (w_lha w') = l_filev (w_lha w) /\ l_filec (w_lha w') = l_filec (w_lha w) /\ l_archive (w_lha w') = l_archive (w_lha w).
(** [m] neither reads nor changes the file names. *)
Definition blind {A} (m : IO A) : Prop :=
  forall w, (forall v c, m (named_files v c w) = omap (named_files v c) (m w)) /\ match m w with Done _ w' | Crash w' => files_kept w w' | Unknown => True end.

Lemma kept_same w : files_kept w w.
Proof. repeat split. Qed.
Lemma blind_bind {A B} (m : IO A) (k : A -> IO B) : blind m -> (forall a, blind (k a)) -> blind (bindIO m k).
Proof.
  intros M K w. destruct (M w) as [M1 M2]. split.
  - intros v c. unfold bindIO. rewrite M1. destruct (m w) as [a w'|w'|]; cbn [omap]; [|reflexivity|reflexivity]. apply K.
  - unfold bindIO. destruct (m w) as [a w'|w'|]; auto. destruct (K a w') as [_ K2]. destruct (k a w') as [b w2|w2|]; auto;
      destruct M2 as (M3 & M4 & M5), K2 as (K3 & K4 & K5); repeat split; congruence.
Qed.
Lemma blind_ret {A} (a : A) : blind (ret a).
Proof. intros w. split; [reflexivity|apply kept_same]. Qed.
Lemma blind_panic {A} : blind (@panic A).
Proof. intros w. split; [reflexivity|apply kept_same]. Qed.
Lemma blind_unknown {A} : blind (fun _ => @Unknown A).
Proof. intros w. split; [reflexivity|exact Logic.I]. Qed.
Lemma blind_lift {A} (r : res A) : blind (lift r).
Proof. intros w. destruct r; (split; [reflexivity|]); cbn [lift]; try apply kept_same; exact Logic.I. Qed.
Lemma blind_emit o : blind (emit o).
Proof. intros w. split; [reflexivity|repeat split]. Qed.
Lemma blind_glob g : blind (modify (set_wglob g)).
Proof. intros w. split; [reflexivity|repeat split]. Qed.
Lemma blind_get {A} (f : world -> A) : (forall v c w, f (named_files v c w) = f w) -> blind (get f).
Proof. intros F w. split; [intros v c; unfold get; rewrite F; reflexivity|apply kept_same]. Qed.
Lemma blind_opts {A} (k : lha -> IO A) : (forall v c l, k (set_files v c l) = k l) -> (forall l, blind (k l)) -> blind (bindIO (get w_lha) k).
Proof.
  intros F K w. rewrite bind_get. destruct (K (w_lha w) w) as [K1 K2]. split; [|exact K2].
  intros v c. rewrite bind_get. change (w_lha (named_files v c w)) with (set_files v c (w_lha w)). rewrite F. apply K1.
Qed.
Lemma blind_newbuf b : blind (modl (set_newbuf b)).
Proof. intros w. split; [reflexivity|repeat split]. Qed.

Ltac bl := repeat first
  [ match goal with
    | |- forall _, _ => intros
    | p : (_ * _)%type |- _ => destruct p
    | |- blind (bindIO (get w_lha) _) => apply blind_opts; [intros; reflexivity|]
    | |- blind (bindIO _ _) => apply blind_bind
    | |- blind (ret _) => apply blind_ret
    | |- blind panic => apply blind_panic
    | |- blind (lift _) => apply blind_lift
    | |- blind (emit _) => apply blind_emit
    | |- blind (modify (set_wglob _)) => apply blind_glob
    | |- blind (get _) => apply blind_get; intros; reflexivity
    | |- blind (getl _) => apply blind_get; intros; reflexivity
    | |- blind (if ?b then _ else _) => destruct b
    | |- blind (match ?x with _ => _ end) => destruct x
    | |- blind (os_append _ _) => unfold os_append
    | |- blind (put_header _ _ _) => unfold put_header
    | |- blind (os_rename _ _) => unfold os_rename
    | |- blind (os_remove _) => unfold os_remove
    | |- blind (os_createtemp _) => unfold os_createtemp
    end ].

Section Blind.
  Variable E : env.
  Lemma blind_addOne h inp : blind (addOne E h inp).
  Proof. unfold addOne, run_encode. cbv zeta. bl. Qed.
  Lemma blind_copyOld h inp : blind (copyOldOne E h inp).
  Proof. unfold copyOldOne. bl. Qed.
  Lemma blind_scan sort : forall fuel h inp c, blind (scan_old E fuel sort h inp c).
  Proof. induction fuel as [|fuel IH]; intros h inp c; cbn [scan_old]; [apply blind_unknown|]. cbv zeta. bl; [apply blind_copyOld|apply IH]. Qed.
  Lemma blind_new o h inp : blind (append_new E o h inp).
  Proof. unfold append_new. bl; try apply blind_scan; try apply blind_addOne; apply blind_copyOld. Qed.
  Lemma blind_appendIt name o : blind (appendIt E name o).
  Proof. unfold appendIt. bl; apply blind_new. Qed.
  Lemma blind_rest : forall fuel h inp, blind (copy_rest E fuel h inp).
  Proof. induction fuel as [|fuel IH]; intros h inp; cbn [copy_rest]; [apply blind_unknown|]. bl; [apply blind_copyOld|apply IH]. Qed.
  Lemma blind_backup b a : blind (buildBackupFile b a).
  Proof. unfold buildBackupFile. bl. Qed.
  Lemma blind_remove : forall k i v, blind (removeFiles k i v).
  Proof. induction k as [|k IH]; intros i v; cbn [removeFiles]; bl. apply IH. Qed.
  Lemma blind_excluded append : (forall name o, blind (append name o)) -> forall ex name o, blind (add_excluded append name ex o).
  Proof. intros H. induction ex as [|x ex IH]; intros name o; cbn [add_excluded]; bl; [apply H|apply IH]. Qed.
End Blind.

(** Only the names counted are removed. *)
Lemma remove_prefix : forall k (i : nat) v1 v2 w, firstn (i + k) v1 = firstn (i + k) v2 -> removeFiles k (Z.of_nat i) v1 w = removeFiles k (Z.of_nat i) v2 w.
Proof.
  induction k as [|k IH]; intros i v1 v2 w H; cbn [removeFiles]; [reflexivity|]. rewrite Nat2Z.id.
  assert (N : forall v : list path, nth_error v i = nth_error (firstn (i + S k) v) i).
  { clear. intros v. revert i. induction v as [|x v IH]; intros i; [rewrite firstn_nil; reflexivity|]. destruct i as [|i]; [reflexivity|]. cbn [nth_error plus firstn]. apply IH. }
  rewrite (N v1), (N v2), H. destruct (nth_error _ _); [|reflexivity]. unfold bindIO. destruct (os_remove p w) as [x w'|w'|]; [|reflexivity..].
  replace (Z.of_nat i + 1) with (Z.of_nat (S i)) by lia. apply IH. rewrite !Nat.add_succ_comm. exact H.
Qed.

Definition without (a : path) (l : list path) : list path := remove (list_eq_dec Z.eq_dec) a l.

Lemma without_same a l : without a (a :: l) = without a l.
Proof. unfold without. cbn [remove]. destruct (list_eq_dec Z.eq_dec a a); [reflexivity|contradiction]. Qed.
Lemma without_other a x l : a <> x -> without a (x :: l) = x :: without a l.
Proof. intros N. unfold without. cbn [remove]. destruct (list_eq_dec Z.eq_dec a x); [contradiction|reflexivity]. Qed.

Lemma firstn_more (l : list path) x r i : length l = i -> firstn (S i) (l ++ x :: r) = l ++ [x].
Proof. intros <-. rewrite firstn_app. replace (S (length l) - length l)%nat with 1%nat by lia. rewrite firstn_all2 by lia. reflexivity. Qed.

Section Twin.
  Variable append : path -> option (list Z) -> IO (option (list Z)).
  Hypothesis Happ : forall name o, blind (append name o).
  Variables (a : path) (V : list path).
  Let other := named_files V (zlen V).

  Lemma files_twin : forall R (i : nat) o w, l_archive (w_lha w) = a ->
    (i <= length (l_filev (w_lha w)))%nat -> firstn (length R) (skipn i (l_filev (w_lha w))) = R -> l_filec (w_lha w) = Z.of_nat (i + length R) ->
    skipn i V = without a R -> (i <= length V)%nat -> firstn i (l_filev (w_lha w)) = firstn i V ->
    add_files append (length (without a R)) (Z.of_nat i) o (other w) = omap other (add_files append (length R) (Z.of_nat i) o w) /\
    match add_files append (length R) (Z.of_nat i) o w with
    | Done _ w1 => l_filec (w_lha w1) = zlen V /\ firstn (length V) (l_filev (w_lha w1)) = V
    | _ => True end.
  Proof.
    induction R as [|name R IH]; intros i o w HA HI HR HC HS HV HF.
    - cbn [length without remove add_files]. unfold ret. cbn [omap]. split; [reflexivity|].
      assert (LV : length V = i). { apply (f_equal (@length path)) in HS. rewrite skipn_length in HS. cbn in HS. lia. }
      split; [rewrite HC; unfold zlen; cbn [length]; lia|]. rewrite LV, HF, <- LV. apply firstn_all.
    - cbn [length] in HC, HR |- *. cbn [add_files]. rewrite bind_get.
      destruct (skipn i (l_filev (w_lha w))) as [|x T] eqn:ES; [discriminate|]. cbn [firstn] in HR. injection HR as -> HR.
      assert (SP : l_filev (w_lha w) = firstn i (l_filev (w_lha w)) ++ name :: T) by (rewrite <- ES; symmetry; apply firstn_skipn).
      assert (FL : length (firstn i (l_filev (w_lha w))) = i) by (rewrite firstn_length; lia).
      assert (NE : nth_error (l_filev (w_lha w)) i = Some name) by (rewrite SP, nth_error_app2 by lia; rewrite FL, Nat.sub_diag; reflexivity).
      destruct (Z.ltb_spec (Z.of_nat i) (l_filec (w_lha w))) as [_|?]; [|lia]. rewrite Nat2Z.id, NE, HA.
      destruct (list_eq_dec Z.eq_dec a name) as [<-|NA].
      + rewrite without_same in HS |- *. rewrite list_eqb_refl. rewrite bind_modl. set (v1 := drop_file _ _ _). set (c1 := l_filec (w_lha w) - 1).
        set (w1 := set_wlha (set_files v1 c1 (w_lha w)) w).
        change (other w) with (other w1).
        assert (DV : v1 = firstn i (l_filev (w_lha w)) ++ R ++ skipn (i + length R) (l_filev (w_lha w))).
        { unfold v1, drop_file. rewrite Nat2Z.id, HC. replace (Z.to_nat (Z.of_nat (i + S (length R)) - 1 - Z.of_nat i)) with (length R) by lia.
          replace (Z.to_nat (Z.of_nat (i + S (length R)) - 1)) with (i + length R)%nat by lia. f_equal. f_equal.
          rewrite SP at 1. rewrite skipn_app, FL. rewrite skipn_all2 by lia. replace (S i - i)%nat with 1%nat by lia. cbn [app skipn]. exact HR. }
        apply (IH i o w1); cbn [w1 w_lha set_wlha l_archive l_filev l_filec set_files].
        * exact HA.
        * rewrite DV, app_length. lia.
        * rewrite DV, skipn_app, FL, Nat.sub_diag. rewrite skipn_all2 by lia. cbn [app skipn]. rewrite firstn_app, Nat.sub_diag, firstn_all. cbn [firstn]. apply app_nil_r.
        * unfold c1. rewrite HC. lia.
        * exact HS.
        * exact HV.
        * rewrite DV, firstn_app, FL, Nat.sub_diag. cbn [firstn]. rewrite app_nil_r, firstn_firstn, Nat.min_id. exact HF.
      + rewrite without_other in HS |- * by exact NA. cbn [length add_files]. rewrite bind_get.
        assert (LV : length V = (i + S (length (without a R)))%nat). { apply (f_equal (@length path)) in HS. rewrite skipn_length in HS. cbn [length] in HS. lia. }
        assert (SV : V = firstn i V ++ name :: without a R) by (rewrite <- HS; symmetry; apply firstn_skipn).
        assert (FV : length (firstn i V) = i) by (rewrite firstn_length; lia).
        assert (NV : nth_error V i = Some name) by (rewrite SV, nth_error_app2 by lia; rewrite FV, Nat.sub_diag; reflexivity).
        unfold other at 1 2 3 4 5. cbn [named_files w_lha set_wlha l_filev l_filec l_archive l_exclude set_files]. destruct (Z.ltb_spec (Z.of_nat i) (zlen V)) as [_|X]; [|unfold zlen in X; lia].
        rewrite Nat2Z.id, NV, HA. destruct (list_eqb name a) eqn:EA; [apply list_eqb_eq in EA; congruence|].
        assert (BM : blind (match l_exclude (w_lha w) with [] => append name o | p :: l => add_excluded append name (p :: l) o end)).
        { destruct (l_exclude (w_lha w)); [apply Happ|apply blind_excluded; apply Happ]. }
        set (m := match l_exclude (w_lha w) with [] => append name o | p :: l => add_excluded append name (p :: l) o end) in *.
        destruct (BM w) as [B1 B2]. unfold bindIO. change (other w) with (named_files V (zlen V) w). rewrite B1. destruct (m w) as [o1 w1|w1|]; cbn [omap]; [|split; [reflexivity|exact Logic.I]..].
        destruct B2 as (K1 & K2 & K3). replace (Z.of_nat i + 1) with (Z.of_nat (S i)) by lia. apply IH.
        * congruence.
        * rewrite K1, SP, app_length, FL. cbn [length]. lia.
        * rewrite K1, SP, skipn_app, FL. rewrite skipn_all2 by lia. replace (S i - i)%nat with 1%nat by lia. cbn [app skipn]. exact HR.
        * rewrite K2, HC. lia.
        * rewrite SV, skipn_app, FV. rewrite skipn_all2 by lia. replace (S i - i)%nat with 1%nat by lia. reflexivity.
        * lia.
        * rewrite K1, SP, SV, (firstn_more _ name T i FL), (firstn_more _ name _ i FV), HF. reflexivity.
  Qed.
End Twin.
