(** Extracting an entry whose header holds a plain name, however it was read. *)
From Verif Require Import Go GoLemmas M_Crc M_Bitio M_Maketree M_Maketbl M_Huf M_Slide M_Lzhuf S_Header S_Listing M_Header M_Os M_Archive S_History S_Archive
  P_Bitio P_Header P_Os P_Single P_Extract P_Read1 P_Accept P_List P_RoundTrip P_ExtractAll P_Verify Properties_Slide.

Record plainh (h : hdr) (dir base : list Z) : Prop := {
  ph_name : Name h = (dir ++ base) ++ [0];
  ph_dir : dir = [] \/ exists d, dir = d ++ [47];
  ph_base : base <> [] /\ Forall (fun c => c <> 47) base;
  ph_nul : has_nul base = false;
  ph_reg : isRegular h = true;
  ph_type : ExtendType h <> ExtendOs68k /\ ExtendType h <> ExtendXosk /\ ExtendType h <> ExtendMacos
}.

Section Plain.
  Variable E : env.
  Variable h : hdr.
  Variable dir base : list Z.
  Hypothesis PH : plainh h dir base.

  Lemma ph_start l : l_ignoredir l = false -> exists p, name_start l h = Ok (Some (h, p)) /\ drop p (Name h) = base ++ [0].
  Proof.
    intros H. destruct PH as [PN PD [_ FS] _ _ (T1 & T2 & _)]. destruct PD as [X|[d X]].
    - exists 0. assert (N : Name h = base ++ [0]) by (rewrite PN, X; reflexivity). split; [|exact N]. now apply (name_start_plain l h base).
    - exists (zlen dir). assert (N : Name h = d ++ 47 :: base ++ [0]) by (rewrite PN, X, <- !app_assoc; reflexivity).
      assert (ZD : zlen dir = zlen d + 1) by (rewrite X, zlen_app; reflexivity). pose proof (zlen_nonneg d).
      assert (F' : Forall (fun c => c <> 47) (base ++ [0])) by (apply Forall_app1; [exact FS|discriminate]).
      assert (D1 : drop (zlen dir) (Name h) = base ++ [0]) by (rewrite PN, <- app_assoc; now apply drop_app).
      split; [|exact D1]. unfold name_start. rewrite N, H. unfold LastIndex. rewrite last_index_app by exact F'. rewrite Z.add_0_l.
      destruct (Z.eqb_spec (zlen d) (-1)); [lia|]. rewrite (drop_app (zlen d) d _ eq_refl).
      unfold isDirectoryTraversal. cbn [traversal]. change (0 =? 0) with true. change (47 =? 46) with false. cbv iota. rewrite traversal_plain by exact FS.
      rewrite nth_error_app2 by (unfold zlen; lia). replace (Z.to_nat (zlen d) - length d)%nat with 0%nat by (unfold zlen; lia). cbn [nth_error].
      change (47 =? 47) with true. cbv iota. rewrite app_length. cbn [length].
      replace (S (length d + S (length (base ++ [0%Z]))))%nat with (S (S (length d + length (base ++ [0%Z]))))%nat by lia. cbn [skip_slashes].
      rewrite nth_error_app2 by (unfold zlen; lia). replace (Z.to_nat (zlen d) - length d)%nat with 0%nat by (unfold zlen; lia). cbn [nth_error].
      change (47 =? 47) with true. cbv iota. rewrite nth_error_app2 by (unfold zlen; lia). replace (Z.to_nat (zlen d + 1) - length d)%nat with 1%nat by (unfold zlen; lia).
      destruct (base ++ [0]) as [|c b] eqn:EB; [destruct base; discriminate|]. cbn [nth_error]. inversion F' as [|? ? Hc]; subst. apply Z.eqb_neq in Hc. rewrite Hc. cbn [bind].
      apply Z.eqb_neq in T1, T2. rewrite T1, T2, ZD. reflexivity.
  Qed.

  Variable method : Z.
  Hypothesis Hmeth : method_num (Method h) = Some method.
  Hypothesis Hdir : method <> LzhdirsMethodNum.

  Lemma ph_file w data g2 crc out n rest :
    l_ignoredir (w_lha w) = false -> l_extractdir (w_lha w) = [] -> l_stdout (w_lha w) = false -> l_noexec (w_lha w) = false ->
    l_skip (w_lha w) = false -> w_verify w = false -> w_fs w base = None ->
    DecodeLzhuf method (l_broken (w_lha w)) (OriginalSize h) (PackedSize h) data (w_glob w) = Ok (g2, crc, out, n, rest) ->
    exists w', extractOne E h data w = Done (false, n, h, rest) w' /\ w_fs w' base = Some (NFile out) /\ (forall q, q <> base -> w_fs w' q = w_fs w q) /\
      w_lha w' = w_lha w /\ w_glob w' = g2 /\ w_verify w' = false /\ w_stdin w' = w_stdin w.
  Proof.
    intros H1 H2 H3 H4 H5 H6 H7 D. unfold extractOne. istep. istep. istep. destruct (ph_base _ _ _ PH) as [Hne FS].
    destruct (ph_start (w_lha w) H1) as [p0 [NS DP]]. rewrite NS. istep. rewrite DP.
    rewrite (pathcheck_plain (w_lha w) _ base H2 FS). istep. rewrite Hmeth, (ph_reg _ _ _ PH).
    apply Z.eqb_neq in Hdir. rewrite Hdir. cbn [negb andb]. rewrite H3, H6. cbn [orb].
    pose proof (ph_nul _ _ _ PH) as N. assert (L : lstat (w_fs w) base = SNotExist).
    { unfold lstat. rewrite N. destruct base; [contradiction|]. now rewrite H7. }
    unfold ask. rewrite bind_assoc, bind_getl, H5. unfold inquireExtract. rewrite !bind_assoc, bind_modl, bind_assoc, bind_get, bind_assoc, bind_get.
    set (w1 := set_wlha (set_skip false (w_lha w)) w). change (w_fs w1) with (w_fs w). rewrite L, bind_ret, bind_assoc, bind_getl, bind_ret. cbn [orb negb]. istep.
    assert (L1 : w_lha w1 = w_lha w) by (unfold w1; cbn [w_lha set_wlha]; destruct (w_lha w); cbn in H5 |- *; rewrite H5; reflexivity).
    rewrite L1, H5, H4. cbn [andb]. unfold os_create. rewrite bind_assoc, bind_get. change (w_fs w1) with (w_fs w). rewrite N.
    remember base as nm0 eqn:Enm in Hne, L, H7, N |- *. destruct nm0 as [|x nm0]; [contradiction|]. cbv zeta. rewrite (resolve_none (w_fs w) _ H7), H7.
    set (p := x :: nm0) in *. rewrite bind_assoc.
    set (w2 := W (run_op (OCreate p p) (w_fs w1)) (OCreate p p :: w_ops w1) (w_glob w1) (w_verify w1) (w_stdin w1) (w_lha w1) (w_out w1)).
    rewrite (bindIO_done (emit (OCreate p p)) _ w1 tt w2 eq_refl), bind_ret.
    unfold run_decode. istep. istep. istep. change (w_glob w2) with (w_glob w). change (w_lha w2) with (w_lha w1). change (w_verify w2) with (w_verify w). rewrite L1, H6.
    rewrite D. istep. istep. istep. cbn [andb].
    assert (C0 : w_fs (set_wglob g2 w2) p = Some (NFile [])) by (cbn [w2 w_fs set_wglob run_op]; apply fs_set_same).
    destruct (append_run p out [] _ C0) as [w3 [R3 [S3 [G3 C3]]]]. rewrite (bindIO_done _ _ _ _ _ R3). exists w3. split; [reflexivity|].
    split; [exact C3|]. split.
    - intros q Q. rewrite (sb_fs _ _ _ S3) by exact Q. cbn [w2 w_fs set_wglob run_op]. rewrite fs_set_other by exact Q. reflexivity.
    - rewrite (sb_lha _ _ _ S3), (sb_verify _ _ _ S3), (sb_stdin _ _ _ S3), G3. repeat split; auto.
  Qed.

  Lemma ph_test w data g2 crc out n rest :
    l_ignoredir (w_lha w) = false -> l_extractdir (w_lha w) = [] -> l_noexec (w_lha w) = false -> l_stdout (w_lha w) || w_verify w = true ->
    DecodeLzhuf method (l_broken (w_lha w)) (OriginalSize h) (PackedSize h) data (w_glob w) = Ok (g2, crc, out, n, rest) ->
    extractOne E h data w = Done (if HasCrc h && negb (crc =? Crc h) then (true, 0, h, rest) else (false, n, h, rest))
      (printed (if w_verify w && negb (copied method) then [] else out) (set_wglob g2 (printed (if l_stdout (w_lha w) then banner base else []) w))).
  Proof.
    intros H1 H2 H4 H6 D. unfold extractOne. istep. istep. istep. destruct (ph_base _ _ _ PH) as [Hne FS]. destruct (ph_type _ _ _ PH) as (_ & _ & T3).
    destruct (ph_start (w_lha w) H1) as [p0 [NS DP]]. rewrite NS. istep. rewrite DP.
    rewrite (pathcheck_plain (w_lha w) _ base H2 FS). istep. rewrite Hmeth, (ph_reg _ _ _ PH).
    apply Z.eqb_neq in Hdir, T3. rewrite Hdir. cbn [negb andb]. rewrite H6, T3. cbn [andb]. rewrite H4.
    istep. set (w1 := printed (if l_stdout (w_lha w) then banner base else []) w).
    destruct (printed_same (if l_stdout (w_lha w) then banner base else []) w) as (_ & _ & G1 & V1 & L1 & _). fold w1 in G1, V1, L1.
    unfold run_decode. istep. istep. istep. rewrite L1, G1, V1, D. istep. istep. istep. istep. destruct (HasCrc h && negb (crc =? Crc h)); reflexivity.
  Qed.
End Plain.
