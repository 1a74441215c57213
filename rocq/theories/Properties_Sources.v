(** Properties of the command line program: what can be given to -c, -a and -u. *)
From Verif Require Import Go GoLemmas P_Bits S_Lh5 P_Lz M_Crc M_Bitio P_Bitio M_Maketree M_Maketbl M_Huf M_Slide M_Larc M_Decode M_Lzhuf S_Bits S_Huff S_Lz S_Lh1 S_Larc P_Larc S_Header S_Listing S_Level0 M_Header M_Os M_Archive S_History S_Archive S_AnyEntry S_Add M_Cli S_Cli
  P_Crc P_Header P_Accept P_List P_Os P_Backup P_RoundTrip P_Single P_Extract P_Read1 P_ExtractAll P_Verify P_Still P_Add P_AddFiles P_Cli P_CliAdd P_Level0 P_AnyEntry P_Generic
  Properties_Slide Properties_Archive Properties_Extract Properties_Listing Properties_Larc Properties_Lh5 Properties_Lh1 Properties_Damage Properties_Stored Properties_Add Properties_Header Properties_Cli Properties_CliAdd Properties_Level0 Properties_Generic.

(** ** C106: directories and symbolic links can be added *)

Lemma no_file_stops E name o w n : w_fs w name = Some n -> (forall c, n <> NFile c) -> name <> [] -> ~ In 0 name -> forall x w', appendIt E name o w <> Done x w'.
Proof.
  intros S NF NE N0 x w'. unfold appendIt. rewrite bind_get, bind_get. unfold lstat. apply has_nul_notin in N0. rewrite N0. destruct name as [|y name]; [contradiction|]. rewrite S.
  destruct n as [c| |t]; [now destruct (NF c)| |]; unfold bindIO; destruct (append_new _ _ _ _ _); discriminate.
Qed.

Definition may_only {A} (p : path) (w : world) (r : outcome A) : Prop := match r with Done _ w' | Crash w' => forall q, q <> p -> w_fs w' q = w_fs w q | Unknown => True end.

Lemma appendIt_only E name o w : may_only (e_tmp E) w (appendIt E name o w).
Proof.
  pose proof (d_appendIt E name o w) as H. unfold eff in H. unfold may_only. destruct (appendIt E name o w) as [x w'|w'|]; auto; destruct H as (ops & _ & P & F & L); rewrite F; intros q Q; now apply (tmp_ops E).
Qed.

Lemma bind_stops {A B} (m : IO A) (k : A -> IO B) p w w0 : (forall x w', m w <> Done x w') -> may_only p w0 (m w) ->
  (forall y w', bindIO m k w <> Done y w') /\ may_only p w0 (bindIO m k w).
Proof. intros N O. unfold bindIO. destruct (m w) as [x w'|w'|]; [now destruct (N x w')| |]; (split; [discriminate|exact O]). Qed.

(** The claim is false: the program never ends with the status 0, and the archive stays
    as it is. *)
Theorem C106_directories_and_links_refuted :
  forall E fl w a name n, asks_add a name fl -> a <> [] -> archiveIsMsdosSfx1 a = false -> a <> e_tmp E -> name <> a -> name <> e_tmp E -> file_path name ->
    w_fs w name = Some n -> (forall c, n <> NFile c) ->
    (forall hs w', main E fl w <> Done (0, hs) w') /\ (forall w' q, final (main E fl w) = Some w' -> q <> e_tmp E -> w_fs w' q = w_fs w q).
Proof.
  intros E fl w a name n AD NA SX AT D1 D2 [F0 F1] S NF. destruct (main_add E a name fl w AD NA F0) as (l & AG & R). rewrite R. clear R.
  set (E' := with_generic _ E). set (v := started false l w). assert (X : (forall w', CommandAdd E' a v <> Done false w') /\ may_only (e_tmp E) w (CommandAdd E' a v)).
  { unfold CommandAdd, add_command. istep. istep. set (v0 := set_wlha (set_archive a (w_lha v)) v). set (l0 := w_lha v0).
    change (l_update l0) with (l_update l). change (l_filec l0) with (l_filec l). change (l_noexec l0) with (l_noexec l). change (l_new l0) with (l_new l).
    rewrite (ag_update _ _ _ AG), (ag_filec _ _ _ AG), (ag_noexec _ _ _ AG), (ag_new _ _ _ AG). change (1 =? 0) with false. cbn [negb andb]. istep. cbv zeta. rewrite SX, andb_false_r. istep.
    change (w_fs v0) with (w_fs w). unfold os_createtemp. istep. change (w_fs v0 (e_tmp E')) with (w_fs w (e_tmp E)). destruct (w_fs w (e_tmp E)) as [m|] eqn:T.
    - istep. cbn [negb]. split; [discriminate|]. intros q _. reflexivity.
    - rewrite bind_assoc. rewrite (bindIO_done (emit (OCreate (e_tmp E') (e_tmp E'))) _ v0 tt (made E' v a) eq_refl). istep. cbn [negb]. istep.
      change (Z.to_nat 1) with 1%nat. cbn [add_files]. rewrite bind_assoc, bind_get. change (l_filec (w_lha (made E' v a))) with (l_filec l). rewrite (ag_filec _ _ _ AG). change (0 <? 1) with true. cbv iota.
      change (l_filev (w_lha (made E' v a))) with (l_filev l). rewrite (ag_filev _ _ _ AG). change (l_archive (w_lha (made E' v a))) with a. change (Z.to_nat 0) with 0%nat. cbn [nth_error].
      rewrite (proj2 (list_eqb_neq name a) D1). change (l_exclude (w_lha (made E' v a))) with (l_exclude l). rewrite (ag_exclude _ _ _ AG). rewrite bind_assoc.
      assert (SN : w_fs (made E' v a) name = Some n) by (rewrite <- S; cbn; now apply fs_set_other).
      pose proof (no_file_stops E' name (match os_open E' (w_fs w) a with Some c => Some c | None => None end) (made E' v a) n SN NF F0 F1) as ND.
      pose proof (appendIt_only E' name (match os_open E' (w_fs w) a with Some c => Some c | None => None end) (made E' v a)) as ON.
      assert (OW : may_only (e_tmp E) w (appendIt E' name (match os_open E' (w_fs w) a with Some c => Some c | None => None end) (made E' v a))).
      { unfold may_only in *. destruct (appendIt _ _ _ _) as [x w1|w1|]; auto; intros q Q; (rewrite ON by exact Q); cbn; now apply fs_set_other. }
      match goal with |- _ /\ may_only _ _ (bindIO ?m ?k ?u) => destruct (bind_stops m k _ _ _ ND OW) as [Y1 Y2] end.
      split; [intros w1; apply Y1|exact Y2]. }
  destruct X as [X1 X2]. split.
  - intros hs w' Y. unfold bindIO in Y. destruct (CommandAdd E' a v) as [b w1|w1|]; try discriminate Y. destruct b; [discriminate Y|]. now destruct (X1 w1).
  - intros w' q Y Q. unfold bindIO in Y. destruct (CommandAdd E' a v) as [b w1|w1|]; cbn in Y; try discriminate Y; injection Y as <-; now apply X2.
Qed.

(** ** C107: -u *)

(** The same options without -u *)
Definition without_u (fl : flags) : flags :=
  FLAGS (f_archive fl) (f_l fl) (f_lv fl) (f_e fl) false (f_d fl) (f_a fl) (f_m fl) (f_c fl) (f_t fl) (f_n fl) (f_f fl) (f_p fl) (f_g fl) (f_o fl) (f_h fl) (f_x fl).

(** The claim is false: whether the file is newer than the entry or not, -u makes no
    difference. *)
Theorem C107_update_ignored_refuted :
  forall E fl w, f_u fl = true -> f_d fl = false -> f_c fl <> [] \/ f_a fl <> [] -> main E fl w = main E (without_u fl) w.
Proof.
  intros E fl w U D N. unfold main. change (f_archive (without_u fl)) with (f_archive fl). destruct (is_empty (f_archive fl)); [reflexivity|].
  assert (X : forall c, parseOption fl c = parseOption (without_u fl) c); [|rewrite X; reflexivity].
  intros c. unfold parseOption, without_u. cbn [f_archive f_l f_lv f_e f_u f_d f_a f_m f_c f_t f_n f_f f_p f_g f_o f_h f_x]. rewrite U, D. cbv zeta.
  change (parseSubOption (FLAGS (f_archive fl) (f_l fl) (f_lv fl) (f_e fl) false false (f_a fl) (f_m fl) (f_c fl) (f_t fl) (f_n fl) (f_f fl) (f_p fl) (f_g fl) (f_o fl) (f_h fl) (f_x fl))) with (parseSubOption fl).
  destruct (f_l fl); [reflexivity|]. destruct (f_e fl); [reflexivity|]. destruct (f_p fl); [reflexivity|].
  destruct (f_c fl) as [|x cf], (f_a fl) as [|y af]; cbn [is_empty]; [destruct N; contradiction| | |]; reflexivity.
Qed.

(** And without -c or -a it does not update anything: the program returns the status 1
    and leaves everything as it is. *)
Theorem C107_update_alone_refuted :
  forall E fl w, f_u fl = true -> f_archive fl <> [] -> f_l fl = false -> f_e fl = false -> f_p fl = false -> f_lv fl = false -> f_t fl = false -> f_c fl = [] -> f_a fl = [] ->
    exists w', main E fl w = Done (1, []) w' /\ w_fs w' = w_fs w.
Proof.
  intros E fl w U NA L X P LV T CF AF. unfold main. destruct (f_archive fl) as [|x a]; [contradiction|]. cbn [is_empty]. cbv zeta. unfold parseOption. rewrite L, X, P, LV, T, U, CF, AF. cbn [is_empty].
  set (c0 := initVariable (NewLha (x :: a))).
  assert (C : (if f_m fl then set_cmd CmdAdd (set_cmd CmdAdd (if f_d fl then set_cmd CmdDelete c0 else c0)) else set_cmd CmdAdd (if f_d fl then set_cmd CmdDelete c0 else c0)) = set_cmd CmdAdd c0) by (destruct (f_m fl), (f_d fl); reflexivity).
  rewrite C. clear C. set (c1 := set_cmd CmdAdd c0). pose proof (sort_same fl c1 (sub_same fl c1) eq_refl) as S. set (c := sortFiles (parseSubOption fl c1)) in *.
  rewrite bind_modify. replace (c_cmd c) with CmdAdd by (symmetry; exact (sw_cmd _ _ S)). set (v := set_wverify _ _).
  assert (R : forall E', CommandAdd E' (x :: a) v = Done true (set_wlha (set_archive (x :: a) (w_lha v)) v)).
  { intros E'. unfold CommandAdd, add_command. istep. istep. change (l_update (w_lha (set_wlha (set_archive (x :: a) (w_lha v)) v))) with (l_update (c_lha c)).
    change (l_filec (w_lha (set_wlha (set_archive (x :: a) (w_lha v)) v))) with (l_filec (c_lha c)). rewrite (sw_update _ _ S), (sw_filec _ _ S). reflexivity. }
  rewrite (bindIO_done _ _ _ _ _ (R _)). eexists. split; reflexivity.
Qed.

(** ** C108: a file that cannot be read is reported *)

(** The file is not there, or it may not be read. *)
Definition unreadable (E : env) (w : world) (file : path) : Prop :=
  w_fs w file = None \/ (exists c, w_fs w file = Some (NFile c)) /\ e_readable E file = false.

(** The claim is false: the program makes an archive without entries and returns the
    status 0. *)
Theorem C108_missing_files_refuted :
  forall E fl w a file, asks_add a file fl -> creatable E a w -> file_path file -> file <> a -> file <> e_tmp E -> unreadable E w file ->
    exists w', main E fl w = Done (0, []) w' /\ w_fs w' a = Some (NFile [0]) /\ (forall q, q <> a -> q <> e_tmp E -> w_fs w' q = w_fs w q).
Proof.
  intros E fl w a file AD CR [F0 F1] D1 D2 UR. assert (NA : a <> []) by apply CR. destruct (main_add E a file fl w AD NA F0) as (l & AG & R). rewrite R. clear R.
  set (E' := with_generic _ E). set (v := started false l w). assert (CR' : creatable E' a v) by (destruct CR; constructor; auto).
  destruct (add_command_new E' (appendIt E') a v None (made E' v a) [] file CR') as (w' & X1 & _ & X2 & _ & X3); try apply AG.
  - cbn [add_files]. rewrite bind_get. change (l_filec (w_lha (made E' v a))) with (l_filec l). rewrite (ag_filec _ _ _ AG). change (0 <? 1) with true. cbv iota.
    change (l_filev (w_lha (made E' v a))) with (l_filev l). rewrite (ag_filev _ _ _ AG). change (l_archive (w_lha (made E' v a))) with a. change (Z.to_nat 0) with 0%nat. cbn [nth_error].
    rewrite (proj2 (list_eqb_neq file a) D1). change (l_exclude (w_lha (made E' v a))) with (l_exclude l). rewrite (ag_exclude _ _ _ AG).
    assert (A : appendIt E' file None (made E' v a) = Done None (made E' v a)).
    { unfold appendIt. rewrite bind_get, bind_get. unfold os_open, stat, lstat. apply has_nul_notin in F1. rewrite F1. destruct file as [|y file]; [contradiction|].
      assert (Y : w_fs (made E' v a) (y :: file) = w_fs w (y :: file)) by (cbn; now apply fs_set_other). rewrite Y. destruct UR as [U|[[c U] U2]]; rewrite U; [reflexivity|].
      change (l_noexec (w_lha (made E' v a))) with (l_noexec l). rewrite (ag_noexec _ _ _ AG). assert (FO : follow (w_fs (made E' v a)) (y :: file) = y :: file) by (unfold follow; cbn [resolve]; now rewrite Y, U). rewrite FO, Y, U. change (e_readable E' (y :: file)) with (e_readable E (y :: file)). rewrite U2. reflexivity. }
    rewrite (bindIO_done _ _ _ _ _ A). reflexivity.
  - apply sb_refl.
  - cbn. apply fs_set_same.
  - exists w'. unfold CommandAdd. rewrite (bindIO_done _ _ _ _ _ X1). split; [reflexivity|]. split; [exact X2|exact X3].
Qed.

(** The same when there is an archive.  That it is rebuilt from the old one: *)
Lemma add_command_copies E append a w old rest w0 w1 c : extendable E a old w -> l_filec (w_lha w) = 1 -> l_update (w_lha w) = false -> l_noexec (w_lha w) = false -> l_delete (w_lha w) = false ->
  l_new (w_lha w) = false -> add_files append 1 0 (Some old) (made E w a) = Done (Some rest) w0 -> copy_rest E (S (length rest)) NewLzHeader rest w0 = Done tt w1 ->
  same_but (e_tmp E) (made E w a) w1 -> w_fs w1 (e_tmp E) = Some (NFile c) ->
  exists w', add_command E append a w = Done false w' /\
    w_fs w' a = Some (NFile (c ++ [0])) /\ w_fs w' (e_tmp E) = None /\ (forall q, q <> a -> q <> e_tmp E -> w_fs w' q = w_fs w q).
Proof.
  intros [[[F0 F13] F10 RD SX] F11 U4 _ _] F8 F1 F2 F4 FN HA NH HS HC. apply has_nul_notin in F13. apply has_nul_notin in U4. set (tmp := e_tmp E) in *.
  assert (F12 : tmp <> a) by (intros X; rewrite X, F10 in F11; discriminate).
  unfold add_command. istep. istep.
  set (v0 := set_wlha (set_archive a (w_lha w)) w). set (l := w_lha v0).
  change (l_update l) with (l_update (w_lha w)). change (l_filec l) with (l_filec (w_lha w)). change (l_noexec l) with (l_noexec (w_lha w)). change (l_new l) with (l_new (w_lha w)).
  rewrite F1, F2, F8, FN. change (1 =? 0) with false. cbn [negb andb]. istep. cbv zeta.
  change (w_fs v0) with (w_fs w). rewrite (open_file E (w_fs w) a old) by assumption. rewrite SX. cbn [andb]. istep.
  unfold os_createtemp. istep. change (w_fs v0 (e_tmp E)) with (w_fs w (e_tmp E)). fold tmp. rewrite F11.
  rewrite bind_assoc. rewrite (bindIO_done (emit (OCreate tmp tmp)) _ v0 tt (made E w a) eq_refl). istep. cbn [negb]. istep.
  change (Z.to_nat 1) with 1%nat. rewrite (bindIO_done _ _ _ _ _ HA).
  rewrite (bindIO_done _ _ _ _ _ NH).
  destruct (append_run tmp [0] c w1 HC) as [w2 [R2 [S2 [G2 C2]]]]. rewrite (bindIO_done _ _ _ _ _ R2), bind_backup.
  pose proof (sb_trans _ _ _ _ HS S2) as S3.
  assert (A2 : w_fs w2 a = Some (NFile old)).
  { rewrite (sb_fs _ _ _ S3) by congruence. cbn [made w_fs set_wlha]. rewrite fs_set_other by (fold tmp; congruence). exact F10. }
  unfold os_rename. istep. rewrite U4, F13. cbn [orb]. rewrite C2, A2. rewrite bind_assoc.
  set (w3 := W (run_op (ORename tmp a) (w_fs w2)) (ORename tmp a :: w_ops w2) (w_glob w2) (w_verify w2) (w_stdin w2) (w_lha w2) (w_out w2)).
  rewrite (bindIO_done (emit (ORename tmp a)) _ w2 tt w3 eq_refl). istep. cbn [negb]. istep.
  assert (L3 : w_lha w3 = set_archive a (w_lha w)) by (cbn [w3 w_lha]; rewrite (sb_lha _ _ _ S3); reflexivity).
  rewrite L3. change (l_delete (set_archive a (w_lha w))) with (l_delete (w_lha w)). rewrite F4. istep.
  exists w3. split; [reflexivity|]. cbn [w3 w_fs run_op].
  split; [rewrite fs_set_other by congruence; rewrite fs_set_same; exact C2|]. split; [apply fs_set_same|].
  intros q Q1 Q2. rewrite !fs_set_other by assumption. rewrite (sb_fs _ _ _ S3) by assumption. cbn [made w_fs set_wlha]. fold tmp. now rewrite fs_set_other.
Qed.

(** Worse, the archive is damaged: its first header is gone, what followed it is now the
    beginning of the file, and bytes are added at the end.  The status is 0. *)
Theorem C108_existing_refuted :
  forall E fl w a file e data more, asks_add a file fl -> extendable E a (archive_bytes ((e, data) :: more)) w -> file_entry e ->
    file_path file -> file <> a -> file <> e_tmp E -> unreadable E w file ->
    exists w' junk, main E fl w = Done (0, []) w' /\ w_fs w' a = Some (NFile (data ++ archive_bytes more ++ junk)) /\
      (forall q, q <> a -> q <> e_tmp E -> w_fs w' q = w_fs w q).
Proof.
  intros E fl w a file e data more AD EX FE [F0 F1] D1 D2 UR. pose proof EX as [[[NA ?] ? ? ?] ? ? ? ?]. destruct (main_add E a file fl w AD NA F0) as (l & AG & R). rewrite R. clear R.
  set (E' := with_generic _ E). set (v := started false l w). set (old := archive_bytes ((e, data) :: more)) in *.
  assert (EX' : extendable E' a old v) by (destruct EX as [[] ]; constructor; auto; constructor; auto).
  set (w0 := made E' v a). set (r := data ++ archive_bytes more).
  assert (OLD : old = layout0 e ++ r) by (unfold old, r, archive_bytes; cbn [flat_map fst snd]; rewrite <- !app_assoc; reflexivity).
  assert (FI : add_files (appendIt E') 1 0 (Some old) w0 = Done (Some old) w0).
  { cbn [add_files]. rewrite bind_get. change (l_filec (w_lha w0)) with (l_filec l). rewrite (ag_filec _ _ _ AG). change (0 <? 1) with true. cbv iota.
    change (l_filev (w_lha w0)) with (l_filev l). rewrite (ag_filev _ _ _ AG). change (l_archive (w_lha w0)) with a. change (Z.to_nat 0) with 0%nat. cbn [nth_error].
    rewrite (proj2 (list_eqb_neq file a) D1). change (l_exclude (w_lha w0)) with (l_exclude l). rewrite (ag_exclude _ _ _ AG).
    assert (A : appendIt E' file (Some old) w0 = Done (Some old) w0).
    { unfold appendIt. rewrite bind_get, bind_get. unfold os_open, stat, lstat. apply has_nul_notin in F1. rewrite F1. destruct file as [|y file]; [contradiction|].
      assert (Y : w_fs w0 (y :: file) = w_fs w (y :: file)) by (cbn; now apply fs_set_other). rewrite Y. destruct UR as [U|[[c U] U2]]; rewrite U; [reflexivity|].
      change (l_noexec (w_lha w0)) with (l_noexec l). rewrite (ag_noexec _ _ _ AG). assert (FO : follow (w_fs w0) (y :: file) = y :: file) by (unfold follow; cbn [resolve]; now rewrite Y, U). rewrite FO, Y, U. change (e_readable E' (y :: file)) with (e_readable E (y :: file)). rewrite U2. reflexivity. }
    rewrite (bindIO_done _ _ _ _ _ A). reflexivity. }
  assert (CP : exists w1 junk, copy_rest E' (S (length old)) NewLzHeader old w0 = Done tt w1 /\ same_but (e_tmp E') w0 w1 /\ w_fs w1 (e_tmp E') = Some (NFile (r ++ junk))).
  { rewrite OLD. destruct (layout_fuel e r) as [n ->]. change (copy_rest E' (S (S n)) NewLzHeader (layout0 e ++ r)) with
      ('(err, ok, ahdr, rest) <~ lift (GetHeader (e_opts E') NewLzHeader (layout0 e ++ r)) ;;;
       if negb ok then ret tt else rest <~ copyOldOne E' ahdr rest ;;; copy_rest E' (S n) ahdr rest).
    rewrite (fe_get_new E' e FE r), bind_lift. cbn [negb]. unfold copyOldOne. rewrite bind_assoc, bind_getl. change (l_noexec (w_lha w0)) with (l_noexec l). rewrite (ag_noexec _ _ _ AG).
    set (h0 := read0 NewLzHeader e).
    destruct (copyfile_out (HeaderSize h0 + PackedSize h0) r) as (out & junk & C1 & _ & C2).
    { change (HeaderSize h0 + PackedSize h0) with (zlen (layout0 e) + e_packed e). destruct (l0_packed _ (fe_legal _ FE)) as [PK _]. destruct (layout_fuel e []) as [m M]. rewrite app_nil_r in M. unfold zlen. rewrite M. lia. }
    rewrite C1, bind_assoc, bind_lift. assert (T0 : w_fs w0 (e_tmp E') = Some (NFile [])) by apply fs_set_same.
    destruct (append_run (e_tmp E') out [] w0 T0) as [w1 [R1 [S1 [G1 W1]]]]. rewrite bind_assoc, (bindIO_done _ _ _ _ _ R1), bind_ret.
    exists w1, junk. split; [|split; [exact S1|now rewrite W1, C2]].
    cbn [copy_rest]. reflexivity. }
  destruct CP as (w1 & junk & P1 & P2 & P3).
  destruct (add_command_copies E' (appendIt E') a v old old w0 w1 (r ++ junk) EX') as (w' & X1 & X2 & _ & X3); try apply AG; try assumption.
  exists w', (junk ++ [0]). unfold CommandAdd. rewrite (bindIO_done _ _ _ _ _ X1). split; [reflexivity|]. split; [|exact X3].
  rewrite X2. unfold r. rewrite <- !app_assoc. reflexivity.
Qed.

(** The directory z, and a world in which there is nothing at all. *)
Definition ex_dir : world := W (fun p => if list_eqb p [122] then Some NDir else None) [] glob0 false [] (NewLha [98]) [].
Definition ex_nothing : world := W (fun p => None) [] glob0 false [] (NewLha [98]) [].

Example C106_example :
  asks_add [98] [122] (ex_adds 2 0 2 false false false) /\ archiveIsMsdosSfx1 [98] = false /\ [98] <> e_tmp ex_env /\ [122] <> e_tmp ex_env /\ file_path [122] /\
  w_fs ex_dir [122] = Some NDir /\ (match main ex_env (ex_adds 2 0 2 false false false) ex_dir with Crash _ => true | _ => false end) = true.
Proof.
  split; [apply ex_asks|]. split; [reflexivity|]. split; [discriminate|]. split; [discriminate|]. split; [split; [discriminate|intros [X|[]]; discriminate X]|]. split; [reflexivity|]. vm_compute. reflexivity.
Qed.

Example C107_example :
  let fl := FLAGS [98] false false false true false [] false [122] false false false false 5 0 0 [] in
  f_u fl = true /\ f_d fl = false /\ (f_c fl <> [] \/ f_a fl <> []) /\ (match main ex_env fl (ex_adder [] []) with Done (0, []) _ => true | _ => false end) = true.
Proof. intros fl. split; [reflexivity|]. split; [reflexivity|]. split; [left; discriminate|]. vm_compute. reflexivity. Qed.

Example C108_example :
  asks_add [98] [122] (ex_adds 2 0 2 false false false) /\ creatable ex_env [98] ex_nothing /\ file_path [122] /\ [122] <> [98] /\ [122] <> e_tmp ex_env /\ unreadable ex_env ex_nothing [122].
Proof.
  split; [apply ex_asks|]. split. { constructor; try reflexivity; try discriminate; try (cbn; lia); try (intros; cbn; lia). split; [discriminate|]. intros [X|[]]; discriminate X. }
  split; [split; [discriminate|intros [X|[]]; discriminate X]|]. split; [discriminate|]. split; [discriminate|]. now left.
Qed.

(** An archive b with one entry; the file n is not there. *)
Example C108_existing_example :
  let fl := FLAGS [98] false false false false false [] false [110] false false false false 5 0 0 [] in
  asks_add [98] [110] fl /\ file_entry ex_short /\ extendable ex_env [98] (archive_bytes [(ex_short, [0; 2])]) ex_both /\ unreadable ex_env ex_both [110].
Proof.
  intros fl. split; [constructor; try reflexivity; left; split; reflexivity|]. split; [exact (proj1 C56_example)|].
  split; [exact (proj1 (proj2 (proj2 (proj2 (proj2 C86_example)))))|]. now left.
Qed.

Print Assumptions C106_directories_and_links_refuted.
Print Assumptions C107_update_ignored_refuted.
Print Assumptions C107_update_alone_refuted.
Print Assumptions C108_missing_files_refuted.
Print Assumptions C108_existing_refuted.
