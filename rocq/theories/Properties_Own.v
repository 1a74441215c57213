(** Property C127: bytes stored under the name of the archive. *)
From Verif Require Import Go GoLemmas M_Crc M_Bitio M_Maketree M_Maketbl M_Huf M_Slide M_Lzhuf S_Header S_Listing M_Header M_Os M_Archive S_History S_Archive P_Os P_Backup P_Single P_RoundTrip P_Accept P_List Properties_Slide Properties_Archive.

(** Bytes that are to be stored under the name of the archive are lost: no error is
    returned, and the new archive has no entry. *)
Theorem C127_own_name_refuted :
  forall E w a body method level,
    usual E -> file_path a -> e_tmp E <> a -> w_lha w = NewLha a -> w_fs w a = None -> w_fs w (e_tmp E) = None ->
    exists w', CompressBytes E a body method level w = Done false w' /\ w_fs w' a = Some (NFile (archive_bytes [])) /\ w_fs w' (e_tmp E) = None /\
      (forall q, q <> a -> q <> e_tmp E -> w_fs w' q = w_fs w q).
Proof.
  intros E w a body method level [_ _ _ U4] [P1 P2] T L FA FT. apply has_nul_in in P2. apply has_nul_in in U4.
  assert (L1 : l_archive (w_lha w) = a) by (rewrite L; reflexivity). assert (L2 : l_update (w_lha w) = false) by (rewrite L; reflexivity).
  assert (L3 : l_noexec (w_lha w) = false) by (rewrite L; reflexivity). assert (L4 : l_delete (w_lha w) = false) by (rewrite L; reflexivity).
  assert (L5 : l_filev (w_lha w) = []) by (rewrite L; reflexivity). assert (L6 : l_filec (w_lha w) = 0) by (rewrite L; reflexivity). clear L.
  unfold CompressBytes. rewrite bind_modl. set (l1 := set_files _ _ _). set (w1 := set_wlha l1 w).
  assert (A1 : l_archive l1 = a) by exact L1. assert (A2 : l_update l1 = false) by exact L2. assert (A3 : l_noexec l1 = false) by exact L3. assert (A4 : l_delete l1 = false) by exact L4.
  assert (A5 : l_filev l1 = [a]) by (unfold l1; cbn [l_filev set_files set_method set_level]; rewrite L5; reflexivity).
  assert (A6 : l_filec l1 = 1) by (unfold l1; cbn [l_filec set_files set_method set_level]; rewrite L6; reflexivity). clearbody l1.
  unfold archive_test. rewrite !bind_assoc, bind_get, !bind_assoc, bind_getl. change (w_fs w1) with (w_fs w). change (l_archive (w_lha w1)) with (l_archive l1). rewrite A1, stat_none by assumption.
  rewrite bind_assoc, bind_modl, bind_ret, bind_getl. cbn [w_lha set_wlha set_new l_archive]. change (l_archive (w_lha w1)) with (l_archive l1). rewrite A1.
  unfold compressBytes, add_command. rewrite bind_modl, bind_get. set (l2 := set_archive a _). set (w2 := set_wlha l2 _).
  assert (B1 : l_archive l2 = a) by reflexivity. assert (B2 : l_update l2 = false) by exact A2. assert (B3 : l_noexec l2 = false) by exact A3. assert (B4 : l_delete l2 = false) by exact A4.
  assert (B5 : l_filev l2 = [a]) by exact A5. assert (B6 : l_filec l2 = 1) by exact A6. change (w_lha w2) with l2. 
  assert (F2 : w_fs w2 = w_fs w) by reflexivity. clearbody l2.
  rewrite B2, B6. change (1 =? 0) with false. cbn [negb andb]. rewrite bind_get. cbv zeta. rewrite F2, open_none by assumption. cbn [andb]. rewrite bind_ret, B3.
  unfold os_createtemp. rewrite !bind_assoc, bind_get, F2, FT, bind_assoc.
  set (w3 := W (run_op (OCreate (e_tmp E) (e_tmp E)) (w_fs w2)) (OCreate (e_tmp E) (e_tmp E) :: w_ops w2) (w_glob w2) (w_verify w2) (w_stdin w2) (w_lha w2) (w_out w2)).
  rewrite (bindIO_done (emit (OCreate (e_tmp E) (e_tmp E))) _ w2 tt w3 eq_refl). rewrite bind_ret. cbn [negb]. rewrite bind_ret.
  change (Z.to_nat 1) with 1%nat. cbn [add_files].
  rewrite bind_assoc, bind_get. change (w_lha w3) with l2. rewrite B6, B5, B1. change (0 <? 1) with true. cbv iota. change (nth_error [a] (Z.to_nat 0)) with (Some a). cbv iota. rewrite list_eqb_refl.
  rewrite bind_assoc, bind_modl, bind_ret. rewrite bind_ret. set (w4 := set_wlha _ w3).
  assert (C4 : w_fs w4 (e_tmp E) = Some (NFile [])) by (cbn [w4 w3 w_fs set_wlha run_op]; apply fs_set_same).
  destruct (append_run (e_tmp E) [0] [] w4 C4) as [w5 [R5 [S5 [G5 C5]]]]. rewrite (bindIO_done _ _ _ _ _ R5), bind_backup. cbn [app] in C5.
  assert (FA5 : w_fs w5 a = None).
  { rewrite (sb_fs _ _ _ S5) by congruence. cbn [w4 w3 w_fs set_wlha run_op]. rewrite fs_set_other by congruence. rewrite F2. exact FA. }
  unfold os_rename. rewrite bind_assoc, bind_get, U4, P2. cbn [orb]. rewrite C5, FA5. rewrite bind_assoc.
  set (w6 := W (run_op (ORename (e_tmp E) a) (w_fs w5)) (ORename (e_tmp E) a :: w_ops w5) (w_glob w5) (w_verify w5) (w_stdin w5) (w_lha w5) (w_out w5)).
  rewrite (bindIO_done (emit (ORename (e_tmp E) a)) _ w5 tt w6 eq_refl). rewrite bind_ret. cbn [negb]. rewrite bind_get.
  assert (D6 : l_delete (w_lha w6) = false) by (cbn [w6 w_lha]; rewrite (sb_lha _ _ _ S5); exact B4). rewrite D6, bind_ret.
  exists w6. split; [reflexivity|]. cbn [w6 w_fs run_op]. split; [rewrite fs_set_other by congruence; rewrite fs_set_same; exact C5|]. split; [apply fs_set_same|].
  intros q Q1 Q2. rewrite !fs_set_other by assumption. rewrite (sb_fs _ _ _ S5) by assumption. cbn [w4 w3 w_fs set_wlha run_op]. rewrite fs_set_other by assumption. rewrite F2. reflexivity.
Qed.

(** The hypotheses are met by an empty file system: *)
Example C127_example :
  file_path [97; 46; 108; 122; 104] /\ archive_bytes [] = [0] /\
  forall E, e_tmp E = [47; 116] -> exists w, e_tmp E <> [97; 46; 108; 122; 104] /\ w_lha w = NewLha [97; 46; 108; 122; 104] /\ w_fs w [97; 46; 108; 122; 104] = None /\ w_fs w (e_tmp E) = None.
Proof.
  split; [split; [discriminate|cbn; intuition discriminate]|]. split; [reflexivity|]. intros E T.
  exists (W (fun _ => None) [] glob0 false [] (NewLha [97; 46; 108; 122; 104]) []). rewrite T. split; [discriminate|]. repeat split.
Qed.

Print Assumptions C127_own_name_refuted.
Print Assumptions C127_example.
