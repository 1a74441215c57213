(** What adding to an archive does to the file system. *)
From Verif Require Import Go GoLemmas M_Crc M_Bitio M_Maketree M_Maketbl M_Huf M_Slide M_Lzhuf M_Header M_Os M_Archive P_Header P_Os P_Backup.

(** Operations on the temporary file only. *)
Definition tmpop (E : env) (o : op) : Prop :=
  match o with
  | OCreate n p => n = e_tmp E /\ p = e_tmp E
  | OWrite p _ _ => p = e_tmp E
  | _ => False
  end.

Ltac dstep := first
  [ apply does_ret; congruence | apply does_panic; congruence | apply does_unknown | apply does_lift; congruence
  | apply does_get; congruence | apply does_getl; congruence | apply does_glob; congruence | apply does_stdin; congruence
  | apply does_bind; [congruence| |intros] ].

Section Add.
  Variable E : env.
  Let D {A} (m : IO A) := does (tmpop E) eq m.

  Lemma d_append l : D (os_append (e_tmp E) l).
  Proof. unfold os_append. apply does_bind; [congruence|dstep|intros f]. apply does_emit; [congruence|reflexivity]. Qed.

  Lemma d_put off r : D (put_header (e_tmp E) off r).
  Proof.
    unfold put_header. destruct r as [l|]; [|dstep]. destruct off; [|apply d_append]. apply does_emit; [congruence|reflexivity].
  Qed.

  Lemma d_encode size inp : D (run_encode size inp).
  Proof. unfold run_encode. repeat dstep. Qed.

  Lemma d_addOne h inp : D (addOne E h inp).
  Proof.
    unfold addOne. apply does_bind; [congruence|dstep|intros r]. apply does_bind; [congruence|apply d_put|intros _].
    destruct (OriginalSize h =? 0); [dstep|]. apply does_bind; [congruence|apply d_encode|intros eo].
    apply does_bind; [congruence|apply d_append|intros _]. cbv zeta. apply does_bind; [congruence| |intros h'].
    - destruct (eo_packed eo <? eo_original eo); [dstep|]. apply does_bind; [congruence|dstep|]. intros [[out crc] r'].
      apply does_bind; [congruence|apply d_append|intros _]. dstep.
    - apply does_bind; [congruence|dstep|intros r']. apply d_put.
  Qed.

  Lemma d_copyOld h inp : D (copyOldOne E h inp).
  Proof.
    unfold copyOldOne. apply does_bind; [congruence|dstep|intros n]. destruct n; [dstep|].
    apply does_bind; [congruence|dstep|]. intros [[out x] rest]. apply does_bind; [congruence|apply d_append|intros _]. dstep.
  Qed.

  Lemma d_scan : forall fuel sort ahdr inp cmp, D (scan_old E fuel sort ahdr inp cmp).
  Proof.
    induction fuel as [|fuel IH]; intros sort ahdr inp cmp; cbn [scan_old]; [dstep|].
    apply does_bind; [congruence|dstep|]. intros [[[e ok] a'] rest]. cbv zeta. destruct ok; cbn [negb]; [|dstep].
    destruct sort; cbn [negb]; [dstep|]. apply does_bind; [congruence|apply d_copyOld|intros rest']. apply IH.
  Qed.

  Lemma d_new oafp h inp : D (append_new E oafp h inp).
  Proof.
    unfold append_new. do 3 (apply does_bind; [congruence|dstep|intros ?]).
    apply does_bind; [congruence| |].
    - destruct oafp as [old|]; [|dstep]. apply does_bind; [congruence|apply d_scan|]. intros [[[rest ah] ne] cm]. dstep.
    - intros [[[o ah] ne] cm].
      destruct (ne || (0 <? cm) || negb a1 || (UnixLastModifiedStamp ah <? UnixLastModifiedStamp h)).
      + apply does_bind; [congruence| |intros _; dstep]. destruct a0; [dstep|apply d_addOne].
      + destruct o as [rest|]; [|dstep]. apply does_bind; [congruence|apply d_copyOld|intros ?; dstep].
  Qed.

  Lemma d_appendIt name o : D (appendIt E name o).
  Proof.
    unfold appendIt. apply does_bind; [congruence|dstep|intros f]. apply does_bind; [congruence|dstep|intros l].
    destruct (lstat f name) as [n| |]; try dstep. destruct n as [c| |t].
    - destruct (l_noexec l).
      + apply does_bind; [congruence|apply d_new|intros _; dstep].
      + destruct (os_open E f name); [apply d_new|dstep].
    - apply does_bind; [congruence|apply d_new|intros _; dstep].
    - apply does_bind; [congruence|apply d_new|intros _; dstep].
  Qed.

  Lemma d_findFiles name : D (findFiles_bytes E name).
  Proof.
    unfold findFiles_bytes. do 2 (apply does_bind; [congruence|dstep|intros ?]).
    destruct (lstat a name) as [[c| |t]| |]; try dstep. destruct (existsb _ _); dstep.
  Qed.

  Lemma d_appendBytes body name o : D (appendBytes E body name o).
  Proof.
    unfold appendBytes. do 2 (apply does_bind; [congruence|dstep|intros ?]). apply does_bind; [congruence|apply d_new|intros o'].
    apply does_bind; [congruence| |intros _; dstep]. destruct (l_recursive a0); [apply d_findFiles|dstep].
  Qed.

  Lemma d_copy_rest : forall fuel h inp, D (copy_rest E fuel h inp).
  Proof.
    induction fuel as [|fuel IH]; intros h inp; cbn [copy_rest]; [dstep|]. apply does_bind; [congruence|dstep|]. intros [[[e ok] h'] rest].
    destruct ok; cbn [negb]; [|dstep]. apply does_bind; [congruence|apply d_copyOld|intros r]. apply IH.
  Qed.

  Lemma d_findUpdate : forall fuel h inp, D (findUpdateFiles E fuel h inp).
  Proof.
    induction fuel as [|fuel IH]; intros h inp; cbn [findUpdateFiles]; [dstep|]. apply does_bind; [congruence|dstep|]. intros [[[e ok] h'] rest].
    destruct e, ok; try dstep. apply IH.
  Qed.

  Section Files.
    Variable append : path -> option (list Z) -> IO (option (list Z)).
    Hypothesis Happ : forall name o, D (append name o).

    Lemma d_excluded : forall ex name o, D (add_excluded append name ex o).
    Proof.
      induction ex as [|x ex IH]; intros name o; cbn [add_excluded]; [dstep|].
      apply does_bind; [congruence| |intros o'; apply IH]. destruct (list_eqb _ _); [dstep|apply Happ].
    Qed.

    (** The files may have changed, and none of those counted is the archive. *)
    Definition fchg (l l' : lha) : Prop := exists v c, l' = set_files v c l.

    Lemma fchg_refl l : fchg l l.
    Proof. exists (l_filev l), (l_filec l). now destruct l. Qed.
    Lemma fchg_trans a b c : fchg a b -> fchg b c -> fchg a c.
    Proof. intros [v [n ->]] [v' [n' ->]]. exists v', n'. reflexivity. Qed.

    Definition clean (l : lha) (i : Z) : Prop := forall j, 0 <= j < i -> nth_error (l_filev l) (Z.to_nat j) <> Some (l_archive l).

    Lemma drop_file_nth i c v j : 0 <= j < i -> (Z.to_nat i < length v)%nat -> nth_error (drop_file i c v) (Z.to_nat j) = nth_error v (Z.to_nat j).
    Proof.
      intros Hj Hi. unfold drop_file. rewrite nth_error_app1 by (rewrite firstn_length; lia).
      rewrite <- (firstn_skipn (Z.to_nat i) v) at 2. rewrite nth_error_app1 by (rewrite firstn_length; lia). reflexivity.
    Qed.

    Definition effc {A} (w : world) (o : outcome A) : Prop :=
      eff (tmpop E) fchg w o /\ match o with Done _ w' => clean (w_lha w') (l_filec (w_lha w')) | _ => True end.

    Lemma effc_step {A B} (m : IO A) (k : A -> IO B) w : does (tmpop E) fchg m ->
      (forall a w', m w = Done a w' -> effc w' (k a w')) -> effc w (bindIO m k w).
    Proof.
      intros Hm Hk. specialize (Hm w). unfold bindIO. destruct (m w) as [a w'|w'|] eqn:Em.
      - specialize (Hk a w' eq_refl). destruct Hk as [K1 K2]. split; [|exact K2].
        pose proof (does_bind_at (tmpop E) fchg fchg_trans (fun _ : world => Done a w') (fun _ => (fun _ => k a w'))) as X.
        unfold eff in *. destruct Hm as [ops [H1 [H2 [H3 H4]]]]. clear X.
        destruct (k a w') as [b w''|w''|]; auto; destruct K1 as [ops' [G1 [G2 [G3 G4]]]]; exists (ops ++ ops');
          (split; [rewrite G1, H1, rev_app_distr, app_assoc; reflexivity|]); (split; [apply Forall_app; auto|]);
          (split; [rewrite run_ops_app, G3, H3; reflexivity|eapply fchg_trans; eauto]).
      - split; [exact Hm|exact I].
      - split; exact I.
    Qed.

    Lemma does_fchg {A} (m : IO A) : D m -> does (tmpop E) fchg m.
    Proof. intros H w. eapply eff_weaken; [| |apply H]; auto. intros a b ->. apply fchg_refl. Qed.

    Lemma add_files_eff : forall k i o w, 0 <= i -> k = Z.to_nat (l_filec (w_lha w) - i) -> clean (w_lha w) i ->
      effc w (add_files append k i o w).
    Proof.
      induction k as [|k IH]; intros i o w Hi Hk Hc; cbn [add_files].
      - split; [apply (does_ret (tmpop E) fchg fchg_refl)|]. cbn [ret]. intros j Hj. apply Hc. lia.
      - apply effc_step; [apply does_get, fchg_refl|]. intros l w' E0. injection E0 as <- <-.
        destruct (Z.ltb_spec i (l_filec (w_lha w))) as [L|L]; [|lia].
        destruct (nth_error (l_filev (w_lha w)) (Z.to_nat i)) as [name|] eqn:En; [|split; [apply (does_panic (tmpop E) fchg fchg_refl)|exact I]].
        assert (Li : (Z.to_nat i < length (l_filev (w_lha w)))%nat) by (apply nth_error_Some; congruence).
        destruct (list_eqb name (l_archive (w_lha w))) eqn:Ea.
        + apply effc_step. { apply does_modl. intros l. exists (drop_file i (l_filec (w_lha w)) (l_filev (w_lha w))), (l_filec (w_lha w) - 1). reflexivity. }
          intros [] w' E0. injection E0 as <-. apply IH; [exact Hi|cbn; lia|].
          intros j Hj. cbn [w_lha set_wlha l_filev set_files l_archive]. rewrite drop_file_nth by (auto; lia). now apply Hc.
        + assert (DD : D (match l_exclude (w_lha w) with [] => append name o | ex => add_excluded append name ex o end)).
          { destruct (l_exclude (w_lha w)); [apply Happ|apply d_excluded]. }
          apply effc_step; [now apply does_fchg|]. intros o' w' E0. specialize (DD w). rewrite E0 in DD. destruct DD as [ops [_ [_ [_ DD]]]].
          rewrite DD in *. apply IH; [lia|lia|]. intros j Hj. destruct (Z.eq_dec j i) as [->|]; [|apply Hc; lia].
          rewrite En. intros X. injection X as ->. rewrite list_eqb_refl in Ea. discriminate.
    Qed.

    (** The order of the operations of an add command: only the temporary file is
        written; then it is renamed; then given files, not the archive, are removed. *)
    Definition ordered (a : path) (w : world) {A} (o : outcome A) : Prop :=
      match o with
      | Done _ w' | Crash w' => exists pre post rm, w_ops w' = rev (pre ++ rm ++ post) ++ w_ops w /\ Forall (tmpop E) pre /\
           (rm = [] \/ exists n, rm = [ORename (e_tmp E) n]) /\
           Forall (fun x => exists p, x = ORemove p /\ p <> a) post /\ w_fs w' = run_ops (pre ++ rm ++ post) (w_fs w)
      | Unknown => True
      end.

    Lemma remove_eff a : forall k i v w, (forall j, i <= j < i + Z.of_nat k -> nth_error v (Z.to_nat j) <> Some a) ->
      eff (fun x => exists p, x = ORemove p /\ p <> a) eq w (removeFiles k i v w).
    Proof.
      induction k as [|k IH]; intros i v w H; cbn [removeFiles]; [apply does_ret; congruence|].
      destruct (nth_error v (Z.to_nat i)) as [p|] eqn:En; [|apply does_panic; congruence].
      assert (Hp : p <> a) by (intros ->; apply (H i); [lia|exact En]).
      apply (does_bind (fun x => exists p, x = ORemove p /\ p <> a) eq ltac:(congruence) (os_remove p) (fun _ => removeFiles k (i + 1) v)).
      - unfold os_remove. apply does_bind; [congruence|dstep|intros f]. destruct (lstat f p); [|dstep|dstep]. apply does_emit; [congruence|eauto].
      - intros [] w'. apply IH. intros j Hj. apply H. lia.
    Qed.

    Lemma ordered_of {A} a w (o : outcome A) R : eff (tmpop E) R w o -> ordered a w o.
    Proof.
      unfold eff, ordered. destruct o as [x w'|w'|]; auto; intros [ops [H1 [H2 [H3 H4]]]]; exists ops, [], []; rewrite app_nil_r;
        (split; [exact H1|]); (split; [exact H2|]); (split; [now left|]); (split; [constructor|exact H3]).
    Qed.

    Lemma ordered_step {A B} a R (m : IO A) (k : A -> IO B) w : eff (tmpop E) R w (m w) ->
      (forall x w', m w = Done x w' -> ordered a w' (k x w')) -> ordered a w (bindIO m k w).
    Proof.
      intros Hm Hk. unfold bindIO. destruct (m w) as [x w'|w'|] eqn:Em; [|exact (ordered_of a w (Crash w') R Hm)|exact I].
      specialize (Hk x w' eq_refl). unfold eff, ordered in *. destruct Hm as [ops [H1 [H2 [H3 H4]]]].
      destruct (k x w') as [b w''|w''|]; auto; destruct Hk as [pre [post [rm [G1 [G2 [G3 [G4 G5]]]]]]]; exists (ops ++ pre), post, rm;
        rewrite <- !app_assoc; (split; [rewrite G1, H1, !rev_app_distr, !app_assoc; reflexivity|]); (split; [apply Forall_app; auto|]);
        (split; [exact G3|]); (split; [exact G4|]); rewrite run_ops_app, <- H3; exact G5.
    Qed.

    Lemma ordered_rm {A} a w (o : outcome A) : eff (fun x => exists p, x = ORemove p /\ p <> a) eq w o -> ordered a w o.
    Proof.
      unfold eff, ordered. destruct o as [x w'|w'|]; auto; intros [ops [H1 [H2 [H3 H4]]]]; exists [], ops, []; cbn [app];
        (split; [exact H1|]); (split; [constructor|]); (split; [now left|]); (split; [exact H2|exact H3]).
    Qed.

    Definition anyR (_ _ : lha) : Prop := True.

    Lemma any_get {A} (f : world -> A) w : eff (tmpop E) anyR w (get f w).
    Proof. apply does_get. intros; exact I. Qed.

    Lemma any_eq {A} (o : outcome A) w : eff (tmpop E) eq w o -> eff (tmpop E) anyR w o.
    Proof. apply eff_weaken; auto. intros; exact I. Qed.

    Lemma delete_ordered a w : l_archive (w_lha w) = a -> clean (w_lha w) (l_filec (w_lha w)) ->
      eff (fun x => exists p, x = ORemove p /\ p <> a) eq w
        ((l <~ get w_lha ;;; _ <~ (if l_delete l then removeFiles (Z.to_nat (l_filec l)) 0 (l_filev l) else ret tt) ;;; ret false) w).
    Proof.
      intros Ha Hc. unfold bindIO at 1. cbn [get].
      destruct (l_delete (w_lha w)).
      - assert (X : eff (fun x => exists p, x = ORemove p /\ p <> a) eq w (removeFiles (Z.to_nat (l_filec (w_lha w))) 0 (l_filev (w_lha w)) w)).
        { apply remove_eff. intros j Hj. rewrite <- Ha. apply Hc. lia. }
        unfold bindIO. destruct (removeFiles _ 0 _ w) as [x w'|w'|]; auto.
      - apply (does_bind _ eq ltac:(congruence) (ret tt) (fun _ => ret false)); [apply does_ret; congruence|intros _; apply does_ret; congruence].
    Qed.

    Lemma get_inv {A} (f : world -> A) w x w' : get f w = Done x w' -> x = f w /\ w' = w.
    Proof. unfold get. intros H. injection H as <- <-. auto. Qed.

    Theorem add_command_ordered a w : ordered a w (add_command E append a w).
    Proof.
      unfold add_command.
      apply (ordered_step a anyR). { apply does_modl; intros; exact I. } intros [] w1 E1. injection E1 as <-.
      set (w1 := set_wlha _ w). assert (A1 : l_archive (w_lha w1) = a) by reflexivity.
      apply (ordered_step a anyR); [apply any_get|]. intros l w2 E2. apply get_inv in E2. destruct E2 as [-> ->]. set (l := w_lha w1) in *.
      destruct (negb (l_update l) && (l_filec l =? 0)). { apply (ordered_of a _ _ anyR). apply does_ret; intros; exact I. }
      apply (ordered_step a anyR); [apply any_get|]. intros f w2 E2. apply get_inv in E2. destruct E2 as [-> ->]. cbv zeta.
      set (exist := match os_open E (w_fs w1) a with Some _ => true | None => false end).
      destruct (l_update l && (l_filec l =? 0) && negb exist). { apply (ordered_of a _ _ anyR). apply does_ret; intros; exact I. }
      set (oafp := match os_open E (w_fs w1) a with Some c => if l_new l then Some [] else Some c | None => None end).
      set (nb := if exist && archiveIsMsdosSfx1 a then _ else _).
      assert (NB : forall w, eff (tmpop E) (fun l l' => exists b, l' = set_newbuf b l) w (nb w)).
      { intros w0. unfold nb. destruct (exist && archiveIsMsdosSfx1 a).
        - apply (does_bind (tmpop E) (fun l l' => exists b, l' = set_newbuf b l)).
          + intros x y z [b ->] [b' ->]. exists b'. reflexivity.
          + apply does_modl. intros l0. eexists. reflexivity.
          + intros _. apply does_getl. intros l0. exists (l_newbuf l0). now destruct l0.
        - apply does_ret. intros l0. exists (l_newbuf l0). now destruct l0. }
      apply (ordered_step a (fun l l' => exists b, l' = set_newbuf b l) nb); [apply NB|]. intros newname w2 E2. specialize (NB w1). rewrite E2 in NB. destruct NB as [_ [_ [_ [_ [b B2]]]]]. clear E2.
      assert (F2 : l_archive (w_lha w2) = a /\ l_filec (w_lha w2) = l_filec l) by (rewrite B2; split; reflexivity). clear B2. destruct F2 as [A2 C2].
      set (mk := if l_noexec l then ret true else os_createtemp E).
      assert (MK : D mk).
      { unfold mk. destruct (l_noexec l); [dstep|]. unfold os_createtemp. apply does_bind; [congruence|dstep|intros f].
        destruct (f (e_tmp E)); [dstep|]. apply does_bind; [congruence| |intros _; dstep]. apply does_emit; [congruence|]. split; reflexivity. }
      apply (ordered_step a eq); [apply MK|]. intros made w3 E3. specialize (MK w2). rewrite E3 in MK. destruct MK as [_ [_ [_ [_ B3]]]]. clear E3.
      rewrite B3 in A2, C2. clear B3.
      destruct (negb made). { apply (ordered_of a _ _ eq). apply does_ret; congruence. }
      set (fu := if l_update l && (l_filec l =? 0) then _ else _).
      assert (FU : D fu). { unfold fu. destruct (l_update l && (l_filec l =? 0)); [apply d_findUpdate|dstep]. }
      apply (ordered_step a eq); [apply FU|]. intros [] w4 E4. specialize (FU w3). rewrite E4 in FU. destruct FU as [_ [_ [_ [_ B4]]]]. clear E4.
      rewrite B4 in A2, C2. clear B4.
      destruct (l_filec l =? 0). { apply (ordered_of a _ _ eq). apply does_ret; congruence. }
      pose proof (add_files_eff (Z.to_nat (l_filec l)) 0 oafp w4) as AF.
      assert (AF' : effc w4 (add_files append (Z.to_nat (l_filec l)) 0 oafp w4)).
      { apply AF; [lia|rewrite C2; f_equal; lia|]. intros j Hj. lia. }
      clear AF. destruct AF' as [AF1 AF2].
      apply (ordered_step a fchg); [exact AF1|]. intros o5 w5 E5. rewrite E5 in AF1, AF2. destruct AF1 as [_ [_ [_ [_ [v [c B5]]]]]]. clear E5.
      assert (A5 : l_archive (w_lha w5) = a) by (rewrite B5; exact A2). clear B5 A2 C2.
      set (cr := match exist, o5 with true, Some rest => _ | _, _ => _ end).
      assert (CR : D cr). { unfold cr. destruct exist, o5; try apply d_copy_rest; apply does_ret; congruence. }
      apply (ordered_step a eq); [apply CR|]. intros [] w6 E6. specialize (CR w5). rewrite E6 in CR. destruct CR as [_ [_ [_ [_ B6]]]]. clear E6.
      rewrite B6 in A5, AF2. clear B6.
      destruct (l_noexec l). { rewrite bind_backup. apply ordered_rm. now apply delete_ordered. }
      pose proof (d_append [0] w6) as DA.
      apply (ordered_step a eq); [apply DA|]. intros [] w7 E7. rewrite E7 in DA. destruct DA as [_ [_ [_ [_ B7]]]]. clear E7.
      rewrite B7 in A5, AF2. clear B7. rewrite bind_backup.
      unfold os_rename. unfold bindIO at 1 2. cbn [get].
      destruct (has_nul (e_tmp E) || has_nul newname). { cbn [ret negb]. apply (ordered_of a _ _ eq). apply does_ret; congruence. }
      assert (RN : ordered a w7 ((_ <~ emit (ORename (e_tmp E) newname) ;;; l0 <~ get w_lha ;;;
        _ <~ (if l_delete l0 then removeFiles (Z.to_nat (l_filec l0)) 0 (l_filev l0) else ret tt) ;;; ret false) w7)).
      { unfold bindIO at 1. cbn [emit].
        set (w8 := W _ _ _ _ _ _ _). assert (A8 : l_archive (w_lha w8) = a) by exact A5. assert (C8 : clean (w_lha w8) (l_filec (w_lha w8))) by exact AF2.
        pose proof (delete_ordered a w8 A8 C8) as X.
        unfold eff in X. unfold ordered. destruct (bindIO _ _ w8) as [x w9|w9|]; auto; destruct X as [ops [H1 [H2 [H3 H4]]]];
          exists [], ops, [ORename (e_tmp E) newname]; cbn [app]; (split; [rewrite H1; unfold w8; cbn [w_ops rev]; rewrite <- app_assoc; reflexivity|]);
          (split; [constructor|]); (split; [right; eauto|]); (split; [exact H2|]); rewrite H3; reflexivity. }
      destruct (w_fs w7 (e_tmp E)) as [x|]; [|cbn [ret negb]; apply (ordered_of a _ _ eq); apply does_ret; congruence].
      destruct (w_fs w7 newname) as [[c0| |t]|]; try exact RN. cbn [ret negb]; apply (ordered_of a _ _ eq); apply does_ret; congruence.
    Qed.
  End Files.
End Add.
