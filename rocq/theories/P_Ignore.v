(** Extracting with IgnoreDirectory. *)
From Verif Require Import Go GoLemmas M_Crc M_Bitio M_Maketree M_Maketbl M_Huf M_Slide M_Lzhuf S_Header M_Header M_Os M_Archive S_Archive P_Header P_Os P_Single P_Extract P_Read1.

Lemma drop_one (x : Z) l : drop 1 (x :: l) = l.
Proof. reflexivity. Qed.

Section Ignore.
  Variable E : env.
  Variable e : entry0.
  Hypothesis FE : file_entry e.
  Variable dir base : list Z.
  Hypothesis ND : named e dir base.
  Let r0 := read0 NewLzHeader e.

  (** With a directory, what follows the last slash. *)
  Lemma ignore_dir l : l_ignoredir l = true -> dir <> [] -> exists p, name_start l r0 = Ok (Some (r0, p)) /\ drop p (Name r0) = base ++ [0].
  Proof.
    intros H Hd. destruct (nd_dir _ _ _ ND) as [X|[d X]]; [contradiction|]. exists (zlen dir).
    pose proof (fe_slash e dir base ND) as FS. assert (F' : Forall (fun c => c <> 47) (base ++ [0])) by (apply Forall_app1; [exact FS|discriminate]).
    assert (N0 : Name r0 = (dir ++ base) ++ [0]) by (apply (r0_name e FE dir base ND)).
    assert (N : Name r0 = d ++ 47 :: base ++ [0]) by (rewrite N0, X, <- !app_assoc; reflexivity).
    assert (ZD : zlen dir = zlen d + 1) by (rewrite X, zlen_app; reflexivity). pose proof (zlen_nonneg d). pose proof (zlen_nonneg base).
    split.
    - unfold name_start. rewrite H. assert (LI : LastIndex 47 (Name r0) = zlen d) by (rewrite N; unfold LastIndex; rewrite last_index_app by exact F'; lia).
      rewrite LI. destruct (Z.eqb_spec (zlen d) (-1)); [lia|].
      assert (ZN : zlen (Name r0) = zlen dir + zlen base + 1) by (rewrite N0, !zlen_app; reflexivity). rewrite ZN.
      destruct (Z.leb_spec (zlen d + 1) (zlen dir + zlen base + 1)); [|lia]. now rewrite ZD.
    - rewrite N0, <- app_assoc. now apply drop_app.
  Qed.

  (** Without one, everything but the first character. *)
  Lemma ignore_none l c rest : l_ignoredir l = true -> dir = [] -> base = c :: rest -> exists p, name_start l r0 = Ok (Some (r0, p)) /\ drop p (Name r0) = rest ++ [0].
  Proof.
    intros H Hd Hb. exists 1. pose proof (fe_slash e dir base ND) as FS. assert (F' : Forall (fun c => c <> 47) (base ++ [0])) by (apply Forall_app1; [exact FS|discriminate]).
    assert (N0 : Name r0 = base ++ [0]) by (pose proof (r0_name e FE dir base ND) as N1; rewrite Hd in N1; exact N1).
    split.
    - unfold name_start. rewrite H. assert (LI : LastIndex 47 (Name r0) = -1) by (rewrite N0; unfold LastIndex; now rewrite last_index_none by exact F').
      rewrite LI. change (-1 =? -1) with true. cbv iota.
      assert (ZN : zlen (Name r0) = zlen base + 1) by (rewrite N0, zlen_app; reflexivity). rewrite ZN. pose proof (zlen_nonneg base).
      destruct (Z.leb_spec (0 + 1) (zlen base + 1)); [reflexivity|lia].
    - rewrite N0, Hb. apply drop_one.
  Qed.

  Variable method : Z.
  Hypothesis Hmeth : method_num (e_method e) = Some method.
  Hypothesis Hdir : method <> LzhdirsMethodNum.

  (** As [extract_file], under whatever name [name_start] has chosen. *)
  Lemma extract_as short w data g2 crc out n rest :
    (exists p, name_start (w_lha w) r0 = Ok (Some (r0, p)) /\ drop p (Name r0) = short ++ [0]) -> short <> [] -> ~ In 0 short -> ~ In 47 short ->
    l_extractdir (w_lha w) = [] -> l_stdout (w_lha w) = false -> l_noexec (w_lha w) = false ->
    l_skip (w_lha w) = false -> w_verify w = false -> w_fs w short = None ->
    DecodeLzhuf method (l_broken (w_lha w)) (e_original e) (e_packed e) data (w_glob w) = Ok (g2, crc, out, n, rest) ->
    exists w', extractOne E r0 data w = Done (false, n, r0, rest) w' /\ w_fs w' short = Some (NFile out) /\ (forall q, q <> short -> w_fs w' q = w_fs w q) /\
      w_lha w' = w_lha w /\ w_glob w' = g2 /\ w_verify w' = false /\ w_stdin w' = w_stdin w.
  Proof.
    intros [p0 [NS DP]] Hne Hnul Hsl H2 H3 H4 H5 H6 H7 D. unfold extractOne. istep. istep. istep. rewrite NS. istep. rewrite DP.
    assert (FS : Forall (fun c => c <> 47) short) by (apply Forall_forall; intros x I ->; contradiction).
    rewrite (pathcheck_plain (w_lha w) _ short H2 FS). istep. change (Method r0) with (e_method e). rewrite Hmeth. unfold r0 at 1. rewrite (r0_reg e FE). fold r0.
    apply Z.eqb_neq in Hdir. rewrite Hdir. cbn [negb andb]. rewrite H3, H6. cbn [orb].
    pose proof (has_nul_notin _ Hnul) as N. assert (L : lstat (w_fs w) short = SNotExist).
    { unfold lstat. rewrite N. destruct short; [contradiction|]. now rewrite H7. }
    unfold ask. rewrite bind_assoc, bind_getl, H5. unfold inquireExtract. rewrite !bind_assoc, bind_modl, bind_assoc, bind_get, bind_assoc, bind_get.
    set (w1 := set_wlha (set_skip false (w_lha w)) w). change (w_fs w1) with (w_fs w). rewrite L, bind_ret, bind_assoc, bind_getl, bind_ret. cbn [orb negb]. istep.
    assert (L1 : w_lha w1 = w_lha w) by (unfold w1; cbn [w_lha set_wlha]; destruct (w_lha w); cbn in H5 |- *; rewrite H5; reflexivity).
    rewrite L1, H5, H4. cbn [andb]. unfold os_create. rewrite bind_assoc, bind_get. change (w_fs w1) with (w_fs w). rewrite N.
    remember short as nm0 eqn:Enm in Hne, L, H7, N |- *. destruct nm0 as [|x nm0]; [contradiction|]. cbv zeta. rewrite (resolve_none (w_fs w) _ H7), H7.
    set (p := x :: nm0) in *. rewrite bind_assoc.
    set (w2 := W (run_op (OCreate p p) (w_fs w1)) (OCreate p p :: w_ops w1) (w_glob w1) (w_verify w1) (w_stdin w1) (w_lha w1) (w_out w1)).
    rewrite (bindIO_done (emit (OCreate p p)) _ w1 tt w2 eq_refl), bind_ret.
    unfold run_decode. istep. istep. istep. change (w_glob w2) with (w_glob w). change (w_lha w2) with (w_lha w1). change (w_verify w2) with (w_verify w). rewrite L1, H6.
    change (OriginalSize r0) with (e_original e). change (PackedSize r0) with (e_packed e). rewrite D. istep. istep. istep. cbn [andb].
    assert (C0 : w_fs (set_wglob g2 w2) p = Some (NFile [])) by (cbn [w2 w_fs set_wglob run_op]; apply fs_set_same).
    destruct (append_run p out [] _ C0) as [w3 [R3 [S3 [G3 C3]]]]. rewrite (bindIO_done _ _ _ _ _ R3). exists w3. split; [reflexivity|].
    split; [exact C3|]. split.
    - intros q Q. rewrite (sb_fs _ _ _ S3) by exact Q. cbn [w2 w_fs set_wglob run_op]. rewrite fs_set_other by exact Q. reflexivity.
    - rewrite (sb_lha _ _ _ S3), (sb_verify _ _ _ S3), (sb_stdin _ _ _ S3), G3. repeat split; auto.
  Qed.

  Lemma CommandExtract_as short w a data g2 crc out : w_fs w a = Some (NFile (layout0 e ++ data ++ [0])) ->
    file_path a -> e_readable E a = true -> archiveIsMsdosSfx1 a = false ->
    l_filec (w_lha w) = 0 -> l_broken (w_lha w) = false ->
    (forall l, l_ignoredir l = l_ignoredir (w_lha w) -> exists p, name_start l r0 = Ok (Some (r0, p)) /\ drop p (Name r0) = short ++ [0]) ->
    short <> [] -> ~ In 0 short -> ~ In 47 short ->
    l_extractdir (w_lha w) = [] -> l_stdout (w_lha w) = false -> l_noexec (w_lha w) = false ->
    l_skip (w_lha w) = false -> w_verify w = false -> w_fs w short = None ->
    DecodeLzhuf method false (e_original e) (e_packed e) (data ++ [0]) (w_glob w) = Ok (g2, crc, out, e_packed e, [0]) ->
    exists w', CommandExtract E a w = Done false w' /\ w_fs w' short = Some (NFile out) /\ (forall q', q' <> short -> w_fs w' q' = w_fs w q').
  Proof.
    intros Hf Ha Hr Hs Hc Hbr HN H1 H2 H3 H4 H5 H6 H7 H8 H9 D. rewrite (CommandExtract_open E w a _ Hf Ha Hr Hs). set (w1 := set_wlha (set_archive a (w_lha w)) w).
    destruct (extract_as short w1 (data ++ [0]) g2 crc out (e_packed e) [0]) as [w' [X1 [X2 [X3 _]]]]; try assumption;
      [apply HN; reflexivity|cbn [w1 w_lha set_wlha set_archive l_broken w_glob]; rewrite Hbr; exact D|].
    destruct (layout_fuel e (data ++ [0])) as [n ->]. exists w'. split; [|split; [exact X2|exact X3]].
    rewrite (bindIO_done _ _ w1 (tt, false) w'); [reflexivity|]. rewrite (loop_entry E e FE). istep. istep. unfold needFile. cbn [w1 w_lha set_wlha set_archive l_filec]. rewrite Hc. change (0 =? 0) with true. cbv iota.
    unfold one_file at 1. fold r0. rewrite bind_assoc, (bindIO_done _ _ _ _ _ X1), bind_ret.
    change (PackedSize r0) with (e_packed e). rewrite Z.eqb_refl. apply (loop_end E).
  Qed.
End Ignore.
