(** Properties of Noexec: trying a command without doing it. *)
From Verif Require Import Go GoLemmas M_Crc M_Bitio M_Maketree M_Maketbl M_Huf M_Slide M_Lzhuf S_Header M_Header M_Os M_Archive S_History S_Archive S_Listing S_Add
  P_Bitio P_Crc P_Header P_Os P_Backup P_Single P_Still P_Dry Properties_Slide Properties_Archive Properties_Extract Properties_Listing Properties_Add.

(** ** C118: with Noexec nothing is changed *)

Lemma dry_final {A} full v (m : IO A) w w' : dry full v m -> four (w_lha w) = v -> final (m w) = Some w' -> w_fs w' = w_fs w /\ (full = true -> w_ops w' = w_ops w).
Proof. intros D F H. specialize (D w F). destruct (m w) as [x w1|w1|]; cbn [final] in H; try discriminate; injection H as <-; apply D. Qed.

(** Listing and extracting, whatever the archive, the other options and the files: the
    contents of no file are changed, no file is made or removed, and unless
    IgnoreDirectory or Force is on the operating system is not asked to change anything.
    [_partial]: with one of these options on, times, permissions and owners can be
    changed (below). *)
Theorem C118_extracting_partial :
  forall E a h w w',
    l_noexec (w_lha w) = true ->
    final (CommandExtract E a w) = Some w' \/ final (Decompress E h w) = Some w' \/ final (DecompresBytes E h w) = Some w' \/ final (Headers E w) = Some w' ->
    w_fs w' = w_fs w /\ (l_ignoredir (w_lha w) = false -> l_force (w_lha w) = false -> w_ops w' = w_ops w).
Proof.
  intros E a h w w' N H.
  assert (V : forall i f, l_ignoredir (w_lha w) = i -> l_force (w_lha w) = f -> four (w_lha w) = (true, l_delete (w_lha w), i, f)) by (intros i f <- <-; unfold four; now rewrite N).
  destruct H as [H|[H|[H|H]]].
  - split; [eapply (dry_final false); [apply dry_CommandExtract; now left|apply V; reflexivity|exact H]|]. intros I F.
    eapply (dry_final true); [apply dry_CommandExtract; right; split; reflexivity|apply V; assumption|exact H|reflexivity].
  - split; [eapply (dry_final false); [apply dry_Decompress; now left|apply V; reflexivity|exact H]|]. intros I F.
    eapply (dry_final true); [apply dry_Decompress; right; split; reflexivity|apply V; assumption|exact H|reflexivity].
  - pose proof (s_DecompresBytes E (w_verify w) h w eq_refl) as S. destruct (DecompresBytes E h w) as [x w1|w1|]; cbn [final] in H; try discriminate; injection H as <-; destruct S as (_ & S1 & S2); auto.
  - pose proof (s_Headers E w) as S. destruct (Headers E w) as [x w1|w1|]; cbn [final] in H; try discriminate; injection H as <-; destruct S as (_ & S1 & S2); auto.
Qed.

(** Adding files, or bytes, whatever the files, the archive and the other options, if
    DeleteAfterAppend is off: the operating system is not asked to change anything.
    [_partial]: false with DeleteAfterAppend (below). *)
Theorem C118_adding_partial :
  forall E a filename body method level w w',
    l_noexec (w_lha w) = true -> l_delete (w_lha w) = false ->
    final (CommandAdd E a w) = Some w' \/ final (Compress E filename method level w) = Some w' \/ final (CompressBytes E filename body method level w) = Some w' ->
    w_fs w' = w_fs w /\ w_ops w' = w_ops w.
Proof.
  intros E a filename body method level w w' N D H.
  assert (V : four (w_lha w) = (true, false, l_ignoredir (w_lha w), l_force (w_lha w))) by (unfold four; now rewrite N, D).
  assert (X : w_fs w' = w_fs w /\ (true = true -> w_ops w' = w_ops w)).
  { destruct H as [H|[H|H]]; (eapply (dry_final true); [|exact V|exact H]); [apply dry_CommandAdd|apply dry_Compress|apply dry_CompressBytes]. }
  split; [apply X|now apply X].
Qed.

(** The claim is false.  With DeleteAfterAppend on, CompressBytes makes no archive and
    removes the file of that name. *)
Theorem C118_removed_refuted :
  forall E w a filename n body method level,
    l_noexec (w_lha w) = true -> l_delete (w_lha w) = true -> l_recursive (w_lha w) = false -> l_exclude (w_lha w) = [] -> l_filev (w_lha w) = [] -> l_filec (w_lha w) = 0 ->
    l_archive (w_lha w) = a -> file_path a -> w_fs w a = None -> file_path filename -> filename <> a -> w_fs w filename = Some n ->
    exists w', CompressBytes E filename body method level w = Done false w' /\ w_fs w' filename = None /\ forall q, q <> filename -> w_fs w' q = w_fs w q.
Proof.
  intros E w a filename n body method level N D R X FV FC A [A1 A2] Fa [P1 P2] NA Ff. apply has_nul_in in A2. apply has_nul_in in P2.
  unfold CompressBytes. rewrite bind_modl. set (w1 := set_wlha _ w).
  assert (T : archive_test w1 = Done None (set_wlha (set_new true (w_lha w1)) w1)).
  { unfold archive_test. rewrite bind_get, bind_getl. change (l_archive (w_lha w1)) with (l_archive (w_lha w)). change (w_fs w1) with (w_fs w). rewrite A, stat_none by assumption. reflexivity. }
  rewrite (bindIO_done _ _ _ _ _ T). rewrite bind_getl. set (w2 := set_wlha _ w1). change (l_archive (w_lha w2)) with (l_archive (w_lha w)). rewrite A.
  unfold compressBytes, add_command. rewrite bind_modl, bind_get. set (w3 := set_wlha _ w2). set (l := w_lha w3).
  assert (L1 : l_filec l = 1) by (change (l_filec l) with (l_filec (w_lha w) + 1); now rewrite FC).
  assert (L2 : l_filev l = [filename]) by (change (l_filev l) with (l_filev (w_lha w) ++ [filename]); now rewrite FV).
  assert (L3 : l_noexec l = true) by exact N. assert (L4 : l_delete l = true) by exact D. assert (L5 : l_recursive l = false) by exact R.
  assert (L6 : l_exclude l = []) by exact X. assert (L7 : l_archive l = a) by reflexivity.
  rewrite L1, L3. change (1 =? 0) with false. rewrite !andb_false_r. rewrite bind_get. cbv zeta. change (w_fs w3) with (w_fs w). rewrite open_none by assumption.
  cbn [andb]. rewrite bind_ret, bind_ret. cbn [negb]. rewrite bind_ret. change (Z.to_nat 1) with 1%nat. cbn [add_files].
  apply list_eqb_neq in NA.
  assert (AF : (l0 <~ get w_lha ;;; (if 0 <? l_filec l0 then match nth_error (l_filev l0) (Z.to_nat 0) with None => panic | Some name =>
      if list_eqb name (l_archive l0) then _ <~ modl (set_files (drop_file 0 (l_filec l0) (l_filev l0)) (l_filec l0 - 1)) ;;; ret None
      else oafp <~ match l_exclude l0 with [] => appendBytes E body name None | ex => add_excluded (appendBytes E body) name ex None end ;;; ret oafp end else ret None)) w3 = Done None w3).
  { rewrite bind_get. fold l. rewrite L1, L2, L6, L7. change (0 <? 1) with true. change (nth_error [filename] (Z.to_nat 0)) with (Some filename). cbv iota. rewrite NA.
    unfold appendBytes. rewrite bind_assoc, bind_get, bind_assoc, bind_get. fold l. rewrite L5. unfold append_new. rewrite !bind_assoc, bind_getl, !bind_assoc, bind_getl. fold l. rewrite L3. reflexivity. }
  rewrite (bindIO_done _ _ _ _ _ AF). rewrite bind_ret, bind_backup, bind_get. fold l. rewrite L4, L1, L2. change (Z.to_nat 1) with 1%nat. cbn [removeFiles]. change (nth_error [filename] (Z.to_nat 0)) with (Some filename). cbv iota.
  assert (OR : os_remove filename w3 = Done tt (W (run_op (ORemove filename) (w_fs w3)) (ORemove filename :: w_ops w3) (w_glob w3) (w_verify w3) (w_stdin w3) (w_lha w3) (w_out w3))).
  { unfold os_remove. rewrite bind_get. unfold lstat. rewrite P2. change (w_fs w3) with (w_fs w). destruct filename; [contradiction|]. rewrite Ff. reflexivity. }
  rewrite bind_assoc, (bindIO_done _ _ _ _ _ OR), bind_ret. eexists. split; [reflexivity|]. cbn [w_fs run_op]. split; [apply fs_set_same|]. intros q Q. now rewrite fs_set_other.
Qed.

Lemma never_bind {A B} (m : IO A) (k : A -> IO B) w : (forall x w', m w <> Done x w') -> forall y w', bindIO m k w <> Done y w'.
Proof. intros N y w'. unfold bindIO. destruct (m w) as [x w1|w1|]; [now destruct (N x w1)|discriminate|discriminate]. Qed.

Lemma never_panic {A B} (m : IO A) w : forall (y : B) w', bindIO m (fun _ => panic) w <> Done y w'.
Proof. intros y w'. unfold bindIO. destruct (m w); discriminate. Qed.

(** And adding a file that exists never comes to an end: the program crashes (or
    runs on), whatever the archive. *)
Theorem C118_crash_refuted :
  forall E a name n w,
    l_noexec (w_lha w) = true -> l_filev (w_lha w) = [name] -> l_filec (w_lha w) = 1 -> l_exclude (w_lha w) = [] ->
    file_path name -> name <> a -> w_fs w name = Some n ->
    forall err w', CommandAdd E a w <> Done err w'.
Proof.
  intros E a name n w N FV FC X [P1 P2] NA F. apply has_nul_in in P2. apply list_eqb_neq in NA. unfold CommandAdd, add_command. rewrite bind_modl, bind_get. set (w1 := set_wlha _ w). set (l := w_lha w1).
  change (l_filec l) with (l_filec (w_lha w)). change (l_noexec l) with (l_noexec (w_lha w)). rewrite FC, N. change (1 =? 0) with false. rewrite !andb_false_r, bind_get. cbv zeta. cbn [andb].
  set (fr := os_open E (w_fs w1) a). set (o := match fr with Some c => if l_new l then Some [] else Some c | None => None end).
  assert (AF : forall w2, w_fs w2 = w_fs w -> l_noexec (w_lha w2) = true -> l_filev (w_lha w2) = [name] -> l_filec (w_lha w2) = 1 -> l_exclude (w_lha w2) = [] -> l_archive (w_lha w2) = a ->
    forall x w', add_files (appendIt E) (Z.to_nat 1) 0 o w2 <> Done x w').
  { intros w2 F2 N2 V2 C2 X2 A2. change (Z.to_nat 1) with 1%nat. cbn [add_files]. rewrite bind_get, V2, C2, X2, A2. change (0 <? 1) with true. change (nth_error [name] (Z.to_nat 0)) with (Some name). cbv iota. rewrite NA.
    apply never_bind. unfold appendIt. rewrite bind_get, bind_get, F2, N2. unfold lstat. rewrite P2. destruct name as [|c name]; [contradiction|]. rewrite F. destruct n; apply never_panic. }
  assert (NB : forall newname w2, w_fs w2 = w_fs w -> l_noexec (w_lha w2) = true -> l_filev (w_lha w2) = [name] -> l_filec (w_lha w2) = 1 -> l_exclude (w_lha w2) = [] -> l_archive (w_lha w2) = a ->
    forall err w', (made <~ ret true ;;; if negb made then ret true else _ <~ ret tt ;;; oafp <~ add_files (appendIt E) (Z.to_nat 1) 0 o ;;;
      _ <~ match (match fr with Some _ => true | None => false end), oafp with true, Some rest => copy_rest E (S (length rest)) NewLzHeader rest | _, _ => ret tt end ;;;
      _ <~ buildBackupFile (match fr with Some _ => true | None => false end && l_backup l) a ;;;
      (l' <~ get w_lha ;;; _ <~ (if l_delete l' then removeFiles (Z.to_nat (l_filec l')) 0 (l_filev l') else ret tt) ;;; @ret bool (newname : bool))) w2 <> Done err w').
  { intros newname w2 F2 N2 V2 C2 X2 A2. rewrite bind_ret. cbn [negb]. rewrite bind_ret. apply never_bind. now apply AF. }
  destruct (match fr with Some _ => true | None => false end && archiveIsMsdosSfx1 a).
  - rewrite bind_assoc, bind_modl, bind_getl. apply (NB false); try assumption; reflexivity.
  - rewrite bind_ret. apply (NB false); try assumption; reflexivity.
Qed.

(** ** The theorems apply *)

(** Noexec on; [d]: DeleteAfterAppend; [fo]: Force. *)
Definition ex_try (d fo : bool) (fl : list path) (old : list Z) : world :=
  W (fun p => if list_eqb p [98] then match old with [] => None | _ => Some (NFile old) end else ex_files p) [] glob0 false []
    (LHA [98] true fo false false false false false false d false false false false 0 5 [] [] fl (Z.of_nat (length fl)) []) [].

(** A level 0 header for a device "z". *)
Definition ex_device : entry0 := E0 [45; 108; 104; 48; 45] 0 0 0 32 [122] 0 0 1000000 24996 0 0.

(** With Force on, extracting this archive changes the time, the permissions and the
    owner of the file "z", Noexec or not. *)
Theorem C118_force_refuted :
  exists w', CommandExtract ex_env [98] (ex_try false true [] (layout0 ex_device ++ [0])) = Done false w' /\
    w_fs w' [122] = Some (NFile (repeat 0 100)) /\ w_ops w' = [OChown [122] 0 0; OChmod [122] 24996; OChtimes [122] 1000000].
Proof.
  assert (X : match CommandExtract ex_env [98] (ex_try false true [] (layout0 ex_device ++ [0])) with
              | Done false w' => w_fs w' [122] = Some (NFile (repeat 0 100)) /\ w_ops w' = [OChown [122] 0 0; OChmod [122] 24996; OChtimes [122] 1000000]
              | _ => False end) by (vm_compute; split; reflexivity).
  destruct (CommandExtract ex_env [98] (ex_try false true [] (layout0 ex_device ++ [0]))) as [[] w'|w'|]; try contradiction. exists w'. split; [reflexivity|exact X].
Qed.

(** An archive with a file "q", which is not there: it is read to its end. *)
Definition ex_stored : entry0 := E0 [45; 108; 104; 48; 45] 3 3 0 32 [113] 0 0 1000000 33188 0 0.

Example C118_extracting_example :
  l_noexec (w_lha (ex_try false false [] (layout0 ex_stored ++ [65; 66; 67; 0]))) = true /\
  l_ignoredir (w_lha (ex_try false false [] (layout0 ex_stored ++ [65; 66; 67; 0]))) = false /\ l_force (w_lha (ex_try false false [] (layout0 ex_stored ++ [65; 66; 67; 0]))) = false /\
  exists w', CommandExtract ex_env [98] (ex_try false false [] (layout0 ex_stored ++ [65; 66; 67; 0])) = Done false w' /\ w_fs w' [113] = None.
Proof.
  split; [reflexivity|]. split; [reflexivity|]. split; [reflexivity|].
  assert (X : match CommandExtract ex_env [98] (ex_try false false [] (layout0 ex_stored ++ [65; 66; 67; 0])) with Done false w' => w_fs w' [113] = None | _ => False end) by (vm_compute; reflexivity).
  destruct (CommandExtract ex_env [98] _) as [[] w'|w'|]; try contradiction. exists w'. split; [reflexivity|exact X].
Qed.

(** Without Noexec the same call makes the file. *)
Example C118_without_example :
  exists w', final (CommandExtract ex_env [98] (ex_listing (layout0 ex_stored ++ [65; 66; 67; 0]))) = Some w' /\ w_fs w' [113] <> None.
Proof.
  assert (X : match final (CommandExtract ex_env [98] (ex_listing (layout0 ex_stored ++ [65; 66; 67; 0]))) with Some w' => match w_fs w' [113] with Some _ => true | None => false end | None => false end = true) by (vm_compute; reflexivity).
  destruct (final (CommandExtract ex_env [98] _)) as [w'|]; try discriminate. exists w'. split; [reflexivity|]. intros Y. rewrite Y in X. discriminate.
Qed.

Example C118_adding_example :
  l_noexec (w_lha (ex_try false false [] [])) = true /\ l_delete (w_lha (ex_try false false [] [])) = false /\
  exists w', CompressBytes ex_env [122] [65; 66; 67] 5 0 (ex_try false false [] []) = Done false w'.
Proof. split; [reflexivity|]. split; [reflexivity|]. eexists. vm_compute. reflexivity. Qed.

Example C118_removed_example :
  l_noexec (w_lha (ex_try true false [] [])) = true /\ l_delete (w_lha (ex_try true false [] [])) = true /\ l_recursive (w_lha (ex_try true false [] [])) = false /\
  l_exclude (w_lha (ex_try true false [] [])) = [] /\ l_filev (w_lha (ex_try true false [] [])) = [] /\ l_filec (w_lha (ex_try true false [] [])) = 0 /\
  l_archive (w_lha (ex_try true false [] [])) = [98] /\ file_path [98] /\ w_fs (ex_try true false [] []) [98] = None /\ file_path [122] /\ [122] <> [98] /\
  w_fs (ex_try true false [] []) [122] = Some (NFile (repeat 0 100)).
Proof.
  do 7 (split; [reflexivity|]). split; [split; [discriminate|intros [X|[]]; discriminate X]|]. split; [reflexivity|].
  split; [split; [discriminate|intros [X|[]]; discriminate X]|]. split; [discriminate|reflexivity].
Qed.

Example C118_crash_example :
  l_noexec (w_lha (ex_try false false [[122]] [])) = true /\ l_filev (w_lha (ex_try false false [[122]] [])) = [[122]] /\ l_filec (w_lha (ex_try false false [[122]] [])) = 1 /\
  l_exclude (w_lha (ex_try false false [[122]] [])) = [] /\ file_path [122] /\ [122] <> [98] /\ w_fs (ex_try false false [[122]] []) [122] = Some (NFile (repeat 0 100)) /\
  exists w', CommandAdd ex_env [98] (ex_try false false [[122]] []) = Crash w'.
Proof.
  do 4 (split; [reflexivity|]). split; [split; [discriminate|intros [X|[]]; discriminate X]|]. split; [discriminate|]. split; [reflexivity|]. eexists. vm_compute. reflexivity.
Qed.

Print Assumptions C118_extracting_partial.
Print Assumptions C118_adding_partial.
Print Assumptions C118_removed_refuted.
Print Assumptions C118_crash_refuted.
Print Assumptions C118_force_refuted.
