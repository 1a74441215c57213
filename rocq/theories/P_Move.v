(** The order of the operations when files are added and then removed. *)
From Verif Require Import Go GoLemmas M_Crc M_Bitio M_Maketree M_Maketbl M_Huf M_Slide M_Lzhuf M_Header M_Os M_Archive P_Header P_Os P_Backup P_Single P_Add.

Section Move.
  Variable E : env.
  Let D {A} (m : IO A) := does (tmpop E) eq m.
  Variable append : path -> option (list Z) -> IO (option (list Z)).
  Hypothesis Happ : forall name o, D (append name o).

  (** First the temporary file only; then it becomes the archive; then files of the
      list [v] are removed, if [del]. *)
  Definition strict (a : path) (v : list path) (del : bool) (w : world) {A} (o : outcome A) : Prop :=
    match o with
    | Done _ w' | Crash w' => exists pre post, w_ops w' = rev (pre ++ post) ++ w_ops w /\ w_fs w' = run_ops (pre ++ post) (w_fs w) /\ Forall (tmpop E) pre /\
        (post = [] \/ exists rms, post = ORename (e_tmp E) a :: map ORemove rms /\ incl rms v /\ (rms <> [] -> del = true) /\ ~ In a rms)
    | Unknown => True
    end.

  Lemma strict_of {A} a v del w (o : outcome A) R : eff (tmpop E) R w o -> strict a v del w o.
  Proof.
    unfold eff, strict. destruct o as [x w'|w'|]; auto; intros [ops [H1 [H2 [H3 H4]]]]; exists ops, []; rewrite app_nil_r;
      (split; [exact H1|]); (split; [exact H3|]); (split; [exact H2|]); now left.
  Qed.

  Lemma strict_step {A B} a v del R (m : IO A) (k : A -> IO B) w : eff (tmpop E) R w (m w) ->
    (forall x w', m w = Done x w' -> strict a v del w' (k x w')) -> strict a v del w (bindIO m k w).
  Proof.
    intros Hm Hk. unfold bindIO. destruct (m w) as [x w'|w'|] eqn:Em; [|exact (strict_of a v del w (Crash w') R Hm)|exact Logic.I].
    specialize (Hk x w' eq_refl). unfold eff, strict in *. destruct Hm as [ops [H1 [H2 [H3 H4]]]].
    destruct (k x w') as [b w''|w''|]; auto; destruct Hk as [pre [post [G1 [G2 [G3 G4]]]]]; exists (ops ++ pre), post;
      rewrite <- !app_assoc; (split; [rewrite G1, H1, !rev_app_distr, !app_assoc; reflexivity|]); (split; [rewrite run_ops_app, <- H3; exact G2|]);
      (split; [apply Forall_app; auto|exact G4]).
  Qed.

  Lemma drop_file_incl i c v : incl (drop_file i c v) v.
  Proof.
    intros x X. unfold drop_file in X.
    assert (F : forall n (l : list path), incl (firstn n l) l) by (intros n l y Y; rewrite <- (firstn_skipn n l); apply in_or_app; now left).
    assert (K : forall n (l : list path), incl (skipn n l) l) by (intros n l y Y; rewrite <- (firstn_skipn n l); apply in_or_app; now right).
    apply in_app_or in X. destruct X as [X|X]; [now apply F in X|]. apply in_app_or in X. destruct X as [X|X]; [apply F in X|]; now apply K in X.
  Qed.

  (** The loop over the names only removes names from the list. *)
  Lemma add_files_incl : forall k i o w x w', add_files append k i o w = Done x w' ->
    incl (l_filev (w_lha w')) (l_filev (w_lha w)) /\ l_delete (w_lha w') = l_delete (w_lha w).
  Proof.
    induction k as [|k IH]; intros i o w x w'; cbn [add_files].
    - intros X. injection X as <- <-. split; [apply incl_refl|reflexivity].
    - rewrite bind_get. destruct (i <? l_filec (w_lha w)).
      2:{ intros X. injection X as <- <-. split; [apply incl_refl|reflexivity]. }
      destruct (nth_error (l_filev (w_lha w)) (Z.to_nat i)) as [name|] eqn:En; [|discriminate].
      destruct (list_eqb name (l_archive (w_lha w))).
      + rewrite bind_modl. intros X. apply IH in X. destruct X as [X1 X2]. split; [|exact X2]. eapply incl_tran; [exact X1|]. apply drop_file_incl.
      + assert (DD : D (match l_exclude (w_lha w) with [] => append name o | ex => add_excluded append name ex o end)).
        { destruct (l_exclude (w_lha w)); [apply Happ|apply (d_excluded E append Happ)]. }
        specialize (DD w). unfold bindIO. destruct (match l_exclude (w_lha w) with [] => append name o | ex => add_excluded append name ex o end w) as [o' w1|w1|]; try discriminate.
        destruct DD as (ops & _ & _ & _ & DD). intros X. apply IH in X. rewrite DD. exact X.
  Qed.

  (** What removeFiles does. *)
  Lemma removes_eff : forall k i v w, 0 <= i -> match removeFiles k i v w with
    | Done _ w' | Crash w' => exists rms, w_ops w' = rev (map ORemove rms) ++ w_ops w /\ w_fs w' = run_ops (map ORemove rms) (w_fs w) /\
        forall p, In p rms -> exists j, i <= j < i + Z.of_nat k /\ nth_error v (Z.to_nat j) = Some p
    | Unknown => True end.
  Proof.
    induction k as [|k IH]; intros i v w Hi; cbn [removeFiles].
    - exists []. split; [reflexivity|]. split; [reflexivity|]. intros p [].
    - destruct (nth_error v (Z.to_nat i)) as [p|] eqn:En; [|exists []; split; [reflexivity|]; split; [reflexivity|]; intros q []].
      unfold os_remove. rewrite bind_assoc, bind_get. destruct (lstat (w_fs w) p).
      + unfold bindIO, emit. match goal with |- match removeFiles k (i + 1) v ?u with _ => _ end => specialize (IH (i + 1) v u ltac:(lia)); destruct (removeFiles k (i + 1) v u) as [x w'|w'|]; auto end;
          destruct IH as (rms & H1 & H2 & H3); exists (p :: rms); (split; [cbn [map rev]; rewrite <- app_assoc; exact H1|]); (split; [exact H2|]); intros q [<-|Q];
          [exists i; split; [lia|exact En]|destruct (H3 q Q) as (j & J1 & J2); exists j; split; [lia|exact J2]|exists i; split; [lia|exact En]|destruct (H3 q Q) as (j & J1 & J2); exists j; split; [lia|exact J2]].
      + rewrite bind_ret. specialize (IH (i + 1) v w ltac:(lia)). destruct (removeFiles k (i + 1) v w) as [x w'|w'|]; auto; destruct IH as (rms & H1 & H2 & H3); exists rms; (split; [exact H1|]); (split; [exact H2|]);
          intros q Q; destruct (H3 q Q) as (j & J1 & J2); exists j; (split; [lia|exact J2]).
      + rewrite bind_ret. specialize (IH (i + 1) v w ltac:(lia)). destruct (removeFiles k (i + 1) v w) as [x w'|w'|]; auto; destruct IH as (rms & H1 & H2 & H3); exists rms; (split; [exact H1|]); (split; [exact H2|]);
          intros q Q; destruct (H3 q Q) as (j & J1 & J2); exists j; (split; [lia|exact J2]).
  Qed.

  Theorem add_command_strict a w : archiveIsMsdosSfx1 a = false -> l_noexec (w_lha w) = false ->
    strict a (l_filev (w_lha w)) (l_delete (w_lha w)) w (add_command E append a w).
  Proof.
    intros SX NX. set (V := l_filev (w_lha w)). set (del := l_delete (w_lha w)).
    unfold add_command.
    apply (strict_step a V del anyR). { apply does_modl; intros; exact Logic.I. } intros [] w1 E1. injection E1 as <-.
    set (w1 := set_wlha _ w). assert (A1 : l_archive (w_lha w1) = a) by reflexivity.
    apply (strict_step a V del anyR); [apply any_get|]. intros l w2 E2. apply get_inv in E2. destruct E2 as [-> ->]. set (l := w_lha w1) in *.
    change (l_noexec l) with (l_noexec (w_lha w)). rewrite NX.
    destruct (negb (l_update l) && (l_filec l =? 0)). { apply (strict_of a V del _ _ anyR). apply does_ret; intros; exact Logic.I. }
    apply (strict_step a V del anyR); [apply any_get|]. intros f w2 E2. apply get_inv in E2. destruct E2 as [-> ->]. cbv zeta.
    set (exist := match os_open E (w_fs w1) a with Some _ => true | None => false end).
    destruct (l_update l && (l_filec l =? 0) && negb exist). { apply (strict_of a V del _ _ anyR). apply does_ret; intros; exact Logic.I. }
    set (oafp := match os_open E (w_fs w1) a with Some c => if l_new l then Some [] else Some c | None => None end).
    rewrite SX, andb_false_r. rewrite bind_ret.
    assert (MK : D (os_createtemp E)).
    { unfold os_createtemp. apply does_bind; [congruence|dstep|intros f].
      destruct (f (e_tmp E)); [dstep|]. apply does_bind; [congruence| |intros _; dstep]. apply does_emit; [congruence|]. split; reflexivity. }
    apply (strict_step a V del eq); [apply MK|]. intros made w3 E3. specialize (MK w1). rewrite E3 in MK. destruct MK as [_ [_ [_ [_ B3]]]]. clear E3. fold l in B3.
    destruct (negb made). { apply (strict_of a V del _ _ eq). apply does_ret; congruence. }
    set (fu := if l_update l && (l_filec l =? 0) then _ else _).
    assert (FU : D fu). { unfold fu. destruct (l_update l && (l_filec l =? 0)); [apply d_findUpdate|dstep]. }
    apply (strict_step a V del eq); [apply FU|]. intros [] w4 E4. specialize (FU w3). rewrite E4 in FU. destruct FU as [_ [_ [_ [_ B4]]]]. clear E4.
    rewrite <- B3 in B4. clear B3.
    destruct (l_filec l =? 0). { apply (strict_of a V del _ _ eq). apply does_ret; congruence. }
    pose proof (add_files_eff E append Happ (Z.to_nat (l_filec l)) 0 oafp w4) as AF.
    assert (AF' : effc E w4 (add_files append (Z.to_nat (l_filec l)) 0 oafp w4)).
    { apply AF; [lia|rewrite <- B4; f_equal; lia|]. intros j Hj. lia. }
    clear AF. destruct AF' as [AF1 AF2].
    apply (strict_step a V del fchg); [exact AF1|]. intros o5 w5 E5. rewrite E5 in AF1, AF2. destruct AF1 as [_ [_ [_ [_ [v [c B5]]]]]].
    pose proof (add_files_incl _ _ _ _ _ _ E5) as [I5 D5]. clear E5. rewrite <- B4 in B5, I5, D5.
    assert (A5 : l_archive (w_lha w5) = a) by (rewrite B5; exact A1).
    assert (I5' : incl (l_filev (w_lha w5)) V) by exact I5. assert (D5' : l_delete (w_lha w5) = del) by exact D5. clear B5 I5 D5.
    set (cr := match exist, o5 with true, Some rest => _ | _, _ => _ end).
    assert (CR : D cr). { unfold cr. destruct exist, o5; try apply d_copy_rest; apply does_ret; congruence. }
    apply (strict_step a V del eq); [apply CR|]. intros [] w6 E6. specialize (CR w5). rewrite E6 in CR. destruct CR as [_ [_ [_ [_ B6]]]]. clear E6.
    rewrite B6 in A5, AF2, I5', D5'. clear B6.
    pose proof (d_append E [0] w6) as DA.
    apply (strict_step a V del eq); [apply DA|]. intros [] w7 E7. rewrite E7 in DA. destruct DA as [_ [_ [_ [_ B7]]]]. clear E7.
    rewrite B7 in A5, AF2, I5', D5'. clear B7. rewrite bind_backup.
    unfold os_rename. unfold bindIO at 1 2. cbn [get].
    destruct (has_nul (e_tmp E) || has_nul a). { cbn [ret negb]. apply (strict_of a V del _ _ eq). apply does_ret; congruence. }
    assert (RN : strict a V del w7 ((_ <~ emit (ORename (e_tmp E) a) ;;; l0 <~ get w_lha ;;;
      _ <~ (if l_delete l0 then removeFiles (Z.to_nat (l_filec l0)) 0 (l_filev l0) else ret tt) ;;; ret false) w7)).
    { unfold bindIO at 1. cbn [emit].
      set (w8 := W _ _ _ _ _ _ _). rewrite bind_get. change (w_lha w8) with (w_lha w7). rewrite D5'. destruct del.
      - pose proof (removes_eff (Z.to_nat (l_filec (w_lha w7))) 0 (l_filev (w_lha w7)) w8 ltac:(lia)) as X. unfold strict, bindIO.
        destruct (removeFiles _ 0 _ w8) as [x w9|w9|]; cbn [ret]; auto; destruct X as (rms & H1 & H2 & H3); exists [], (ORename (e_tmp E) a :: map ORemove rms); cbn [app];
          (split; [rewrite H1; unfold w8; cbn [w_ops rev]; rewrite <- app_assoc; reflexivity|]); (split; [rewrite H2; reflexivity|]); (split; [constructor|]); right; exists rms;
          (split; [reflexivity|]); (split; [intros p P; apply I5'; destruct (H3 p P) as (j & _ & J); eapply nth_error_In; exact J|]); (split; [reflexivity|]);
          intros P; destruct (H3 a P) as (j & J1 & J2); apply (AF2 j); [lia|rewrite A5; exact J2| |]; try (rewrite A5; exact J2); lia.
      - rewrite bind_ret. cbn [ret]. unfold strict. exists [], [ORename (e_tmp E) a]. split; [reflexivity|]. split; [reflexivity|]. split; [constructor|]. right. exists []. split; [reflexivity|].
        split; [intros p []|]. split; [intros P; now destruct P|intros []]. }
    destruct (w_fs w7 (e_tmp E)) as [x|]; [|cbn [ret negb]; apply (strict_of a V del _ _ eq); apply does_ret; congruence].
    destruct (w_fs w7 a) as [[c0| |t]|]; try exact RN. cbn [ret negb]; apply (strict_of a V del _ _ eq); apply does_ret; congruence.
  Qed.
End Move.
