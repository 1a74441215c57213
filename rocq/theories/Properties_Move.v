(** Properties of DeleteAfterAppend: files that are removed after they were added. *)
From Verif Require Import Go GoLemmas M_Crc M_Bitio M_Maketree M_Maketbl M_Huf M_Slide M_Lzhuf S_Header M_Header M_Os M_Archive S_History S_Archive S_Listing S_Add S_Move
  P_Bitio P_Crc P_Header P_Os P_Backup P_Single P_RoundTrip P_Read1 P_Accept P_Extract P_List P_Add P_AddFiles P_Move Properties_Slide Properties_Archive Properties_Extract Properties_Listing Properties_Add.

(** ** C116: files that are removed are in the archive *)

Lemma removed_in rms p : In p rms -> forall f, run_ops (map ORemove rms) f p = None.
Proof.
  induction rms as [|r rms IH]; intros I f; [destruct I|]. change (run_ops (map ORemove (r :: rms)) f) with (run_ops (map ORemove rms) (run_op (ORemove r) f)).
  destruct (in_dec (list_eq_dec Z.eq_dec) p rms) as [J|J]; [now apply IH|]. destruct I as [<-|I]; [|contradiction].
  rewrite run_removes.
  - cbn [run_op]. apply fs_set_same.
  - apply Forall_forall. intros o O. apply in_map_iff in O. destruct O as (q & <- & Q). exists q. split; [reflexivity|]. intros ->. contradiction.
Qed.

Lemma removed_out rms p f : ~ In p rms -> run_ops (map ORemove rms) f p = f p.
Proof.
  intros N. apply run_removes. apply Forall_forall. intros o O. apply in_map_iff in O. destruct O as (q & <- & Q). exists q. split; [reflexivity|]. intros ->. contradiction.
Qed.

(** What holds of every call, whatever the options (but Noexec), the files and the
    archive, and at every crash point: if a file other than the archive and the temporary
    file is not what it was, then it is gone, it was named, DeleteAfterAppend is on, and
    the new archive is already in its place.  [_partial]: that the archive holds the
    contents of the file is not part of it, because it is false (below). *)
Theorem C116_archive_first_partial :
  forall E a w w' ops k p,
    archiveIsMsdosSfx1 a = false -> l_noexec (w_lha w) = false -> e_tmp E <> a -> p <> a -> p <> e_tmp E ->
    final (CommandAdd E a w) = Some w' -> did ops w w' ->
    files_after k ops (w_fs w) p <> w_fs w p ->
    files_after k ops (w_fs w) p = None /\ In p (l_filev (w_lha w)) /\ l_delete (w_lha w) = true /\ files_after k ops (w_fs w) a = w_fs w' a.
Proof.
  intros E a w w' ops k p SX NX TA PA PT F D NE.
  pose proof (add_command_strict E (appendIt E) (fun name o => d_appendIt E name o) a w SX NX) as S. change (add_command E (appendIt E) a w) with (CommandAdd E a w) in S.
  assert (X : exists pre post, w_ops w' = rev (pre ++ post) ++ w_ops w /\ w_fs w' = run_ops (pre ++ post) (w_fs w) /\ Forall (tmpop E) pre /\
    (post = [] \/ exists rms, post = ORename (e_tmp E) a :: map ORemove rms /\ incl rms (l_filev (w_lha w)) /\ (rms <> [] -> l_delete (w_lha w) = true) /\ ~ In a rms)).
  { unfold strict in S. destruct (CommandAdd E a w) as [x w0|w0|]; cbn [final] in F; try discriminate; injection F as <-; exact S. }
  destruct X as (pre & post & X1 & X2 & X3 & X4). unfold did in D. rewrite D in X1. apply app_inv_tail in X1.
  apply (f_equal (@rev op)) in X1. rewrite !rev_involutive in X1. subst ops. unfold files_after in *. fold (run_ops (firstn k (pre ++ post)) (w_fs w)) in *.
  destruct (firstn_app_cases k pre post) as [[a1 [a2 [P K]]]|[j K]]; rewrite K in *.
  { exfalso. apply NE. rewrite P in X3. apply Forall_app in X3. eapply run_tmp; [apply X3|exact PT]. }
  rewrite run_ops_app in *. set (f1 := run_ops pre (w_fs w)) in *. assert (Y : f1 p = w_fs w p) by (eapply run_tmp; eauto).
  destruct X4 as [->|(rms & -> & I1 & I2 & I3)]; [exfalso; apply NE; rewrite firstn_nil; exact Y|].
  destruct j as [|j]; [exfalso; apply NE; exact Y|]. cbn [firstn] in *. rewrite firstn_map in *.
  change (run_ops (ORename (e_tmp E) a :: map ORemove (firstn j rms)) f1) with (run_ops (map ORemove (firstn j rms)) (run_op (ORename (e_tmp E) a) f1)) in *.
  rewrite X2. change (run_ops (ORename (e_tmp E) a :: map ORemove rms) f1) with (run_ops (map ORemove rms) (run_op (ORename (e_tmp E) a) f1)).
  assert (J : incl (firstn j rms) rms) by (intros y Yy; rewrite <- (firstn_skipn j rms); apply in_or_app; now left).
  destruct (in_dec (list_eq_dec Z.eq_dec) p (firstn j rms)) as [IN|OUT].
  - split; [now apply removed_in|]. split; [apply I1, J, IN|]. split; [apply I2; intros ->; rewrite firstn_nil in IN; destruct IN|].
    rewrite !removed_out; [reflexivity|exact I3|intros Z; apply I3, J, Z].
  - exfalso. apply NE. rewrite removed_out by exact OUT. cbn [run_op]. rewrite !fs_set_other by assumption. exact Y.
Qed.

(** Removing files one after the other. *)
Lemma remove_all : forall rest pre w, Forall file_path rest ->
  exists w', removeFiles (length rest) (Z.of_nat (length pre)) (pre ++ rest) w = Done tt w' /\
    (forall q, In q rest -> w_fs w' q = None) /\ (forall q, ~ In q rest -> w_fs w' q = w_fs w q).
Proof.
  induction rest as [|x rest IH]; intros pre w F; cbn [length removeFiles].
  - exists w. split; [reflexivity|]. split; [intros q []|reflexivity].
  - inversion F as [|y l [FP1 FP2] FR]; subst. rewrite Nat2Z.id, nth_error_app2, Nat.sub_diag by lia. cbn [nth_error].
    assert (R : exists w1, os_remove x w = Done tt w1 /\ w_fs w1 x = None /\ forall q, q <> x -> w_fs w1 q = w_fs w q).
    { unfold os_remove. rewrite bind_get. unfold lstat. apply has_nul_in in FP2. rewrite FP2. destruct x as [|c x]; [contradiction|]. destruct (w_fs w (c :: x)) as [n|] eqn:N.
      - eexists. split; [reflexivity|]. split; [cbn; apply fs_set_same|]. intros q Q. cbn. now apply fs_set_other.
      - exists w. split; [reflexivity|]. split; [exact N|reflexivity]. }
    destruct R as (w1 & R1 & R2 & R3). rewrite (bindIO_done _ _ _ _ _ R1).
    destruct (IH (pre ++ [x]) w1 FR) as (w' & Q1 & Q2 & Q3). rewrite <- app_assoc in Q1. cbn [app] in Q1. rewrite app_length in Q1. cbn [length] in Q1.
    replace (Z.of_nat (length pre) + 1) with (Z.of_nat (length pre + 1)) by lia. exists w'. split; [exact Q1|].
    destruct (in_dec (list_eq_dec Z.eq_dec) x rest) as [I|I].
    + split; [intros q [<-|Q]; auto|]. intros q Q. rewrite Q3 by (intros Z; apply Q; now right). apply R3. intros ->. apply Q. now left.
    + split; [intros q [<-|Q]; auto; rewrite Q3 by exact I; exact R2|]. intros q Q. rewrite Q3 by (intros Z; apply Q; now right). apply R3. intros ->. apply Q. now left.
Qed.

Lemma add_command_moving E append a w o w1 c names : moving E a names w -> names <> [] -> Forall file_path names -> ~ In a names ->
  add_files append (length names) 0 None (made E w a) = Done o w1 -> same_but (e_tmp E) (made E w a) w1 -> w_fs w1 (e_tmp E) = Some (NFile c) ->
  exists w', add_command E append a w = Done false w' /\ w_fs w' a = Some (NFile (c ++ [0])) /\ w_fs w' (e_tmp E) = None /\
    (forall q, In q names -> w_fs w' q = None) /\ (forall q, q <> a -> q <> e_tmp E -> ~ In q names -> w_fs w' q = w_fs w q).
Proof.
  intros [DL [[U1 U2 U3 U4] [F0 F13] F10 F11 F12 [F7 F8] F6 F1 F2 _]] NE FP NA HA HS HC. apply has_nul_in in F13. apply has_nul_in in U4.
  cbn [keeping w_lha set_wlha l_filev l_filec l_level l_update l_noexec] in F7, F8, F6, F1, F2. change (w_fs (keeping w)) with (w_fs w) in F10, F11. set (tmp := e_tmp E) in *.
  assert (LN : 0 < Z.of_nat (length names)) by (destruct names; [contradiction|cbn [length]; lia]).
  unfold add_command. istep. istep.
  set (w0 := set_wlha (set_archive a (w_lha w)) w). set (l := w_lha w0).
  change (l_update l) with (l_update (w_lha w)). change (l_filec l) with (l_filec (w_lha w)). change (l_noexec l) with (l_noexec (w_lha w)).
  rewrite F1, F2, F8. assert (LE : (Z.of_nat (length names) =? 0) = false) by (apply Z.eqb_neq; lia). rewrite LE. cbn [negb andb]. istep. cbv zeta.
  change (w_fs w0) with (w_fs w). rewrite open_none by assumption. cbn [andb]. istep.
  unfold os_createtemp. istep. change (w_fs w0 (e_tmp E)) with (w_fs w (e_tmp E)). fold tmp. rewrite F11.
  rewrite bind_assoc. rewrite (bindIO_done (emit (OCreate tmp tmp)) _ w0 tt (made E w a) eq_refl). istep. cbn [negb]. istep.
  rewrite Nat2Z.id. rewrite (bindIO_done _ _ _ _ _ HA). istep.
  destruct (append_run tmp [0] c w1 HC) as [w2 [R2 [S2 [G2 C2]]]]. rewrite (bindIO_done _ _ _ _ _ R2), bind_backup.
  pose proof (sb_trans _ _ _ _ HS S2) as S3.
  assert (A2 : w_fs w2 a = None).
  { rewrite (sb_fs _ _ _ S3) by congruence. cbn [made w_fs set_wlha]. rewrite fs_set_other by (fold tmp; congruence). exact F10. }
  unfold os_rename. istep. rewrite U4, F13. cbn [orb]. rewrite C2, A2. rewrite bind_assoc.
  set (w3 := W (run_op (ORename tmp a) (w_fs w2)) (ORename tmp a :: w_ops w2) (w_glob w2) (w_verify w2) (w_stdin w2) (w_lha w2) (w_out w2)).
  rewrite (bindIO_done (emit (ORename tmp a)) _ w2 tt w3 eq_refl). istep. cbn [negb]. istep.
  assert (L3 : w_lha w3 = set_archive a (w_lha w)) by (cbn [w3 w_lha]; rewrite (sb_lha _ _ _ S3); reflexivity).
  rewrite L3. change (l_delete (set_archive a (w_lha w))) with (l_delete (w_lha w)). rewrite DL.
  change (l_filec (set_archive a (w_lha w))) with (l_filec (w_lha w)). change (l_filev (set_archive a (w_lha w))) with (l_filev (w_lha w)). rewrite F7, F8, Nat2Z.id.
  destruct (remove_all names [] w3 FP) as (w4 & Q1 & Q2 & Q3). cbn [length app] in Q1. change (Z.of_nat 0) with 0 in Q1. rewrite (bindIO_done _ _ _ _ _ Q1).
  exists w4. split; [reflexivity|]. split; [rewrite Q3 by exact NA; cbn [w3 w_fs run_op]; rewrite fs_set_other by congruence; rewrite fs_set_same; exact C2|].
  split; [|split; [exact Q2|]].
  - destruct (in_dec (list_eq_dec Z.eq_dec) tmp names) as [I|I]; [now apply Q2|]. rewrite Q3 by exact I. cbn [w3 w_fs run_op]. apply fs_set_same.
  - intros q Qa Qt Qn. rewrite Q3 by exact Qn. cbn [w3 w_fs run_op]. rewrite !fs_set_other by assumption. rewrite (sb_fs _ _ _ S3) by assumption. cbn [made w_fs set_wlha]. now rewrite fs_set_other.
Qed.

Lemma moving_made E a names w : moving E a names w -> names <> [] ->
  let w0 := made E w a in
  l_filev (w_lha w0) = names /\ l_filec (w_lha w0) = Z.of_nat (length names) /\ l_archive (w_lha w0) = a /\ l_noexec (w_lha w0) = false /\ l_level (w_lha w0) = 0 /\
  l_exclude (w_lha w0) = l_exclude (w_lha w) /\ l_method (w_lha w0) = l_method (w_lha w) /\ w_glob w0 = w_glob w /\ w_fs w0 (e_tmp E) = Some (NFile []).
Proof. intros [_ M] NE. exact (making_made E a names (keeping w) M NE). Qed.

Lemma moving_source E w a names name body : moving E a names w -> source E w name body -> name <> e_tmp E /\ source E (made E w a) name body.
Proof.
  intros [_ M] S. assert (S' : source E (keeping w) name body) by (destruct S; constructor; assumption).
  pose proof (mk_files _ _ _ _ M) as [MF _]. assert (M' : making E a (l_filev (w_lha (keeping w))) (keeping w)) by (rewrite MF; exact M).
  destruct (made_source E (keeping w) a name body M' S') as [X [Y1 Y2 Y3 Y4 Y5 Y6]]. split; [exact X|]. constructor; assumption.
Qed.

(** If only the first file has contents (and shrinks), the files are moved: the archive
    has one intact entry for each of them, and they are gone.  [_partial]: false in
    general. *)
Theorem C116_moved_partial :
  forall E w a first body others,
    moving E a (first :: others) w -> l_exclude (w_lha w) = [] -> ~ In a (first :: others) ->
    source E w first body -> shrinks w body -> Forall (fun name => source E w name []) others ->
    exists w' es, CommandAdd E a w = Done false w' /\ w_fs w' a = Some (NFile (archive_bytes es)) /\
      Forall2 (fun f x => entry_for E (fst f) (snd f) (fst x) (snd x)) ((first, body) :: map (fun name => (name, [])) others) es /\
      (forall name, In name (first :: others) -> w_fs w' name = None) /\
      forall q, q <> a -> q <> e_tmp E -> ~ In q (first :: others) -> w_fs w' q = w_fs w q.
Proof.
  intros E w a first body others M EX NI S SH F. pose proof (mk_usual _ _ _ _ (mv_making _ _ _ _ M)) as U.
  destruct (moving_made E a _ w M) as (L1 & L2 & L3 & L4 & L5 & L6 & L7 & L8 & L9); [discriminate|]. set (w0 := made E w a) in *.
  destruct (moving_source E w a _ first body M S) as [NT S0].
  assert (SH0 : shrinks w0 body) by (unfold shrinks; rewrite L7, L8; exact SH).
  destruct (append_first E w0 first body U S0 L4 L5 SH0 L9) as (e & data & w1 & R1 & R2 & R3 & R4 & _). pose proof (sb_lha _ _ _ R2) as LL.
  assert (F1 : Forall (fun name => source E w1 name [] /\ name <> a /\ name <> e_tmp E) others).
  { rewrite Forall_forall in F |- *. intros x Hx. destruct (moving_source E w a _ x [] M (F x Hx)) as [X1 X2]. split; [now apply (source_same E w0)|]. split; [intros ->; apply NI; now right|exact X1]. }
  destruct (add_empties E U a others [first] w1 (layout0 e ++ data)) as (es & w2 & Q1 & Q2 & Q3 & Q4 & Q5); rewrite ?LL; auto.
  destruct (add_command_moving E (appendIt E) a w None w2 (flat_map (fun x => layout0 (fst x) ++ snd x) ((e, data) :: es)) (first :: others) M) as (w' & P1 & P2 & P3 & P4 & P5).
  - discriminate.
  - constructor; [apply S|]. eapply Forall_impl; [|exact F]. intros x X. apply X.
  - exact NI.
  - fold w0. cbn [length]. change 0 with (Z.of_nat (length (@nil path))). rewrite (add_files_step (appendIt E) w0 first [] others a w1); auto.
    intros ->. apply NI. now left.
  - eapply sb_trans; eassumption.
  - exact Q4.
  - exists w', ((e, data) :: es). split; [exact P1|]. split; [exact P2|]. split; [|split; [exact P4|exact P5]]. constructor; [exact R4|].
    clear -Q5. induction Q5; cbn [map]; constructor; auto.
Qed.

(** The claim is false.  A file that is excluded is not in the archive, which has no
    entries, and is removed all the same. *)
Theorem C116_excluded_refuted :
  forall E w a name body x,
    moving E a [name] w -> l_exclude (w_lha w) = [x] -> excludes x name -> name <> a -> source E w name body ->
    exists w', CommandAdd E a w = Done false w' /\ w_fs w' a = Some (NFile (archive_bytes [])) /\ w_fs w' name = None.
Proof.
  intros E w a name body x M EX Y NI S.
  destruct (moving_made E a _ w M) as (L1 & L2 & L3 & L4 & L5 & L6 & L7 & L8 & L9); [discriminate|]. set (w0 := made E w a) in *. rewrite EX in L6.
  destruct (add_command_moving E (appendIt E) a w None w0 [] [name] M) as (w' & P1 & P2 & P3 & P4 & P5).
  - discriminate.
  - constructor; [apply S|constructor].
  - intros [X|[]]. now apply NI.
  - fold w0. cbn [length]. apply (add_one_excluded E w0 a name [x]); auto; [discriminate|]. rewrite add_excluded_step. destruct (excluded_dec x name); [reflexivity|contradiction].
  - apply sb_refl.
  - exact L9.
  - exists w'. split; [exact P1|]. split; [exact P2|]. apply P4. now left.
Qed.

(** So is a file that cannot be read: its contents are nowhere. *)
Theorem C116_unreadable_refuted :
  forall E w a name body,
    moving E a [name] w -> l_exclude (w_lha w) = [] -> name <> a -> file_path name -> w_fs w name = Some (NFile body) -> e_readable E name = false ->
    exists w', CommandAdd E a w = Done false w' /\ w_fs w' a = Some (NFile (archive_bytes [])) /\ w_fs w' name = None.
Proof.
  intros E w a name body M EX NI FP FB NR.
  destruct (moving_made E a _ w M) as (L1 & L2 & L3 & L4 & L5 & L6 & L7 & L8 & L9); [discriminate|]. set (w0 := made E w a) in *. rewrite EX in L6.
  assert (NT : name <> e_tmp E) by (intros ->; pose proof (mk_tmp _ _ _ _ (mv_making _ _ _ _ M)) as X; change (w_fs (keeping w)) with (w_fs w) in X; rewrite X in FB; discriminate).
  assert (F0 : w_fs w0 name = Some (NFile body)) by (unfold w0, made; cbn [w_fs set_wlha]; rewrite fs_set_other; assumption).
  assert (R : appendIt E name None w0 = Done None w0).
  { unfold appendIt. rewrite bind_get, bind_get. unfold lstat. destruct FP as [P1 P2]. apply has_nul_in in P2. rewrite P2. destruct name as [|c name]; [contradiction|].
    rewrite F0, L4. unfold os_open, stat. rewrite P2. change (resolve 40 (w_fs w0) (c :: name)) with (match w_fs w0 (c :: name) with Some (NLink t) => resolve 39 (w_fs w0) t | _ => c :: name end).
    unfold follow. change (resolve 40 (w_fs w0) (c :: name)) with (match w_fs w0 (c :: name) with Some (NLink t) => resolve 39 (w_fs w0) t | _ => c :: name end). rewrite !F0. rewrite ?F0. rewrite NR. reflexivity. }
  destruct (add_command_moving E (appendIt E) a w None w0 [] [name] M) as (w' & P1 & P2 & P3 & P4 & P5).
  - discriminate.
  - constructor; [exact FP|constructor].
  - intros [X|[]]. now apply NI.
  - fold w0. change (length [name]) with (Datatypes.S (length (@nil path))). change 0 with (Z.of_nat (length (@nil path))). rewrite (add_files_step (appendIt E) w0 name [] [] a w0); auto.
  - apply sb_refl.
  - exact L9.
  - exists w'. split; [exact P1|]. split; [exact P2|]. apply P4. now left.
Qed.

(** Of two files with contents both are removed, although the archive starts with the
    header of the second one: the entry of the first is overwritten (C35). *)
Theorem C116_two_files_refuted :
  forall E w cs a first body1 second body2 eo1 eo2,
    moving E a [first; second] w -> l_exclude (w_lha w) = [] -> first <> a -> second <> a ->
    source E w first body1 -> source E w second body2 -> body1 <> [] -> body2 <> [] ->
    l_method (w_lha w) = 5 \/ l_method (w_lha w) = 6 \/ l_method (w_lha w) = 7 /\ zlen body1 < 65536 /\ zlen body2 < 65536 -> after cs (w_glob w) ->
    EncodeLzhuf (l_method (w_lha w)) (zlen body1) body1 (w_glob w) = Ok eo1 -> eo_packed eo1 < eo_original eo1 ->
    EncodeLzhuf (l_method (w_lha w)) (zlen body2) body2 (eo_glob eo1) = Ok eo2 -> eo_packed eo2 < eo_original eo2 ->
    exists w' e rest, CommandAdd E a w = Done false w' /\ w_fs w' a = Some (NFile (layout0 e ++ rest)) /\ entry_for E second body2 e (eo_out eo2) /\
      w_fs w' first = None /\ w_fs w' second = None.
Proof.
  intros E w cs a first body1 second body2 eo1 eo2 M EX N1 N2 S1 S2 B1 B2 Hm A E1 T1 E2 T2. pose proof (mk_usual _ _ _ _ (mv_making _ _ _ _ M)) as U.
  destruct (moving_made E a _ w M) as (L1 & L2 & L3 & L4 & L5 & L6 & L7 & L8 & L9); [discriminate|]. set (w0 := made E w a) in *. rewrite EX in L6.
  destruct (moving_source E w a _ first body1 M S1) as [NT1 S10]. destruct (moving_source E w a _ second body2 M S2) as [NT2 S20].
  assert (A0 : after cs (w_glob w0)) by (rewrite L8; exact A).
  destruct (append_packed E U first body1 w0 S10 L4 L5 [] cs eo1 _ L7 ltac:(tauto) B1 A0 L9) as (e1 & e1' & w1 & R1 & R2 & R3 & R4 & R5 & R6 & _); [rewrite L8; exact E1|exact T1|].
  cbn [app] in R4. rewrite write_at_0 in R4 by exact R6. pose proof (sb_lha _ _ _ R2) as LL.
  assert (A1 : exists cs1, after cs1 (w_glob w1)).
  { exists (cs ++ [CallEnc (l_method (w_lha w)) (zlen body1) body1]). eapply after_snoc; [exact A|..].
    - cbn [call_ok]. split; [apply zlen_nonneg|exact (proj1 (so_body _ _ _ _ S1))].
    - cbn [run_call]. rewrite E1. now rewrite R3. }
  destruct A1 as [cs1 A1]. pose proof (source_same E w0 w1 second body2 NT2 R2 S20) as S21.
  assert (NX : l_noexec (w_lha w1) = false) by (rewrite LL; exact L4). assert (LV : l_level (w_lha w1) = 0) by (rewrite LL; exact L5). assert (LM : l_method (w_lha w1) = l_method (w_lha w)) by (rewrite LL; exact L7).
  destruct (append_packed E U second body2 w1 S21 NX LV _ cs1 eo2 _ LM ltac:(tauto) B2 A1 R4) as (e2 & e2' & w2 & Q1 & Q2 & Q3 & Q4 & Q5 & Q6 & _); [rewrite R3; exact E2|exact T2|].
  match type of Q4 with _ = Some (NFile ?c) => destruct (add_command_moving E (appendIt E) a w None w2 c [first; second] M) as (w' & P1 & P2 & P3 & P4 & P5) end.
  - discriminate.
  - constructor; [apply S1|]. constructor; [apply S2|constructor].
  - intros [X|[X|[]]]; contradiction.
  - fold w0. change (length [first; second]) with (S (length [second])). change 0 with (Z.of_nat (length (@nil path))). rewrite (add_files_step (appendIt E) w0 first [] [second] a w1); auto.
    change (length [second]) with (S (length (@nil path))). change (Z.of_nat (S (length (@nil path)))) with (Z.of_nat (length [first])).
    rewrite (add_files_step (appendIt E) w1 second [first] [] a w2); auto; rewrite ?LL; auto.
  - eapply sb_trans; eassumption.
  - exact Q4.
  - unfold write_at in P2. change (take 0 _) with (@nil Z) in P2. cbn [app] in P2. rewrite <- app_assoc in P2.
    eexists w', e2, _. split; [exact P1|]. split; [exact P2|]. split; [exact Q5|]. split; apply P4; [now left|right; now left].
Qed.

(** ** The hypotheses can be met *)

Definition ex_mover (names ex : list path) : world :=
  W ex_files [] glob0 false [] (LHA [98] false false false false false false false false true false false false false 0 5 [] ex names (Z.of_nat (length names)) []) [].

Example C116_example names ex : moving ex_env [98] names (ex_mover names ex) /\ source ex_env (ex_mover names ex) [122] (repeat 0 100) /\
  shrinks (ex_mover names ex) (repeat 0 100) /\ source ex_env (ex_mover names ex) [101] [] /\ source ex_env (ex_mover names ex) [121] (repeat 0 100) /\ archiveIsMsdosSfx1 [98] = false.
Proof.
  split; [split; [reflexivity|exact (ex_making names ex)]|]. split; [destruct (ex_source names ex 122 (or_introl eq_refl)); constructor; assumption|].
  split; [exact (ex_shrinks names ex)|]. split; [destruct (ex_empty names ex); constructor; assumption|]. split; [destruct (ex_source names ex 121 (or_intror eq_refl)); constructor; assumption|reflexivity].
Qed.

(** The pattern "Z" excludes the file "z"; and surroundings in which nothing can be
    read. *)
Example C116_excluded_example : excludes [90] [122] /\ exists E, moving E [98] [[122]] (ex_mover [[122]] []) /\ e_readable E [122] = false.
Proof.
  split; [vm_compute; reflexivity|]. exists (ENV (OPTS false false) (fun t => t) (fun _ => 420) (fun _ => 1000000) (fun _ => false) (fun _ => []) 2000000 0 0 [116]).
  split; [|reflexivity]. split; [reflexivity|]. destruct (ex_making [[122]] []) as [[] ? ? ? ? ? ? ? ? ?]. constructor; try assumption. constructor; assumption.
Qed.

Print Assumptions C116_archive_first_partial.
Print Assumptions C116_moved_partial.
Print Assumptions C116_excluded_refuted.
Print Assumptions C116_unreadable_refuted.
Print Assumptions C116_two_files_refuted.
