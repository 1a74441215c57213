(** Reading archives whose entries have level 0 headers with any area after the CRC:
    the lemmas of P_Read1, P_ExtractAll, P_List and P_Verify for them. *)
From Verif Require Import Go GoLemmas M_Crc M_Bitio P_Bitio M_Maketree M_Maketbl M_Huf M_Slide M_Lzhuf S_Header S_Listing S_Level0 M_Header M_Os M_Archive S_History S_Archive
  P_Header P_Level0 P_Os P_Single P_Extract P_Read1 P_Accept P_List P_RoundTrip P_ExtractAll P_Verify.

Lemma slash_back_l e : legall e -> slash_back (y_name e) = slashes (y_name e).
Proof.
  intros FE. unfold slash_back, slashes. apply map_ext_in. intros c Hc.
  destruct (ll_name _ FE) as [_ F]. rewrite Forall_forall in F. specialize (F c Hc). cbv beta in F.
  unfold conv_byte, delim_index. destruct (Z.ltb_spec c 128); cbn [index_of].
  - destruct (Z.eqb_spec 255 c); [lia|]. destruct (Z.eqb_spec 92 c), (Z.eqb_spec c 92); try lia; reflexivity.
  - destruct (Z.eqb_spec c 92); [lia|reflexivity].
Qed.

Lemma mode_nolink m : Z.land m 61440 = 32768 -> isSymlinkMode m = false.
Proof.
  intros M. unfold isSymlinkMode, UnixFileSymlink. destruct (Z.eqb_spec (Z.land m 40960) 40960) as [X|]; [|reflexivity].
  exfalso. assert (Y : Z.testbit (Z.land m 40960) 13 = true) by (rewrite X; reflexivity).
  assert (Y2 : Z.testbit (Z.land m 61440) 13 = false) by (rewrite M; reflexivity).
  rewrite Z.land_spec in Y, Y2. change (Z.testbit 40960 13) with true in Y. change (Z.testbit 61440 13) with true in Y2. rewrite andb_true_r in *. congruence.
Qed.

Lemma fl_get E h0 e rest : file_entryl e -> ConvertCase (e_opts E) = false -> plain_type (ExtendType h0) -> zlen (Method h0) >= 5 -> zlen (Name h0) > zlen (y_name e) ->
  GetHeader (e_opts E) h0 (layoutl e ++ rest) = Ok (ENil, true, readl h0 e, rest).
Proof.
  intros FE CC PT HM HN. apply GetHeader_layoutl_gen; auto; [apply FE| |apply mode_nolink, FE].
  intros t <-. destruct (readl_type h0 e FE PT) as (T1 & T2 & _). auto.
Qed.

Section Any.
  Variable E : env.
  Variable h0 : hdr.
  Variable e : entryl.
  Hypothesis FE : file_entryl e.
  Hypothesis PT : plain_type (ExtendType h0).
  Variable dir base : list Z.
  Hypothesis ND : named (as_unix e) dir base.
  Let nm := dir ++ base.
  Let r0 := readl h0 e.

  Lemma fl_slash : Forall (fun c => c <> 47) base.
  Proof. exact (fe_slash (as_unix e) dir base ND). Qed.

  Lemma nml_nul : ~ In 0 nm.
  Proof.
    unfold nm. rewrite <- (nd_name _ _ _ ND). unfold slashes. intros I. apply in_map_iff in I. destruct I as [c [X I]]. destruct (c =? 92); [discriminate|]. subst c.
    now apply (fl_name _ FE).
  Qed.

  Lemma basel_nul : has_nul base = false.
  Proof. apply has_nul_notin. intros I. apply nml_nul. unfold nm. apply in_or_app. now right. Qed.

  Lemma r0_name_l : Name r0 = nm ++ [0].
  Proof. unfold r0. cbn [readl Name]. rewrite (slash_back_l e (fl_legal _ FE)). f_equal. exact (nd_name _ _ _ ND). Qed.

  (** The name under which the entry is extracted. *)
  Lemma name_base_l l : l_ignoredir l = false -> exists p, name_start l r0 = Ok (Some (r0, p)) /\ drop p (Name r0) = base ++ [0].
  Proof.
    intros H. pose proof (fl_slash) as FS. destruct (nd_dir _ _ _ ND) as [X|[d X]].
    - exists 0. assert (N : Name r0 = base ++ [0]) by (rewrite r0_name_l; unfold nm; now rewrite X). split; [|exact N]. now apply (name_start_plain l r0 base).
    - exists (zlen dir). assert (N : Name r0 = d ++ 47 :: base ++ [0]) by (rewrite r0_name_l; unfold nm; rewrite X, <- !app_assoc; reflexivity).
      assert (ZD : zlen dir = zlen d + 1) by (rewrite X, zlen_app; reflexivity). pose proof (zlen_nonneg d).
      assert (F' : Forall (fun c => c <> 47) (base ++ [0])) by (apply Forall_app1; [exact FS|discriminate]).
      assert (D1 : drop (zlen dir) (Name r0) = base ++ [0]).
      { rewrite r0_name_l. unfold nm. rewrite <- app_assoc. now apply drop_app. }
      split; [|exact D1]. unfold name_start. rewrite N, H. unfold LastIndex. rewrite last_index_app by exact F'. rewrite Z.add_0_l.
      destruct (Z.eqb_spec (zlen d) (-1)); [lia|]. rewrite (drop_app (zlen d) d _ eq_refl).
      unfold isDirectoryTraversal. cbn [traversal]. change (0 =? 0) with true. change (47 =? 46) with false. cbv iota. rewrite traversal_plain by exact FS.
      rewrite nth_error_app2 by (unfold zlen; lia). replace (Z.to_nat (zlen d) - length d)%nat with 0%nat by (unfold zlen; lia). cbn [nth_error].
      change (47 =? 47) with true. cbv iota. rewrite app_length. cbn [length].
      replace (S (length d + S (length (base ++ [0%Z]))))%nat with (S (S (length d + length (base ++ [0%Z]))))%nat by lia. cbn [skip_slashes].
      rewrite nth_error_app2 by (unfold zlen; lia). replace (Z.to_nat (zlen d) - length d)%nat with 0%nat by (unfold zlen; lia). cbn [nth_error].
      change (47 =? 47) with true. cbv iota. rewrite nth_error_app2 by (unfold zlen; lia). replace (Z.to_nat (zlen d + 1) - length d)%nat with 1%nat by (unfold zlen; lia).
      destruct (base ++ [0]) as [|c b] eqn:EB; [destruct base; discriminate|]. cbn [nth_error]. inversion F' as [|? ? Hc]; subst. apply Z.eqb_neq in Hc. rewrite Hc. cbn [bind].
      destruct (readl_type h0 e FE PT) as (_ & _ & T3 & T4). change ExtendOs68k with 75. change ExtendXosk with 88. fold r0 in T3, T4. apply Z.eqb_neq in T3, T4. rewrite T3, T4. cbn [orb].
      rewrite ZD. reflexivity.
  Qed.

  Lemma r0_reg_l : isRegular r0 = true.
  Proof. unfold isRegular, r0. cbn [readl UnixMode]. change UnixFileTypemask with 61440. rewrite (fl_regular _ FE). reflexivity. Qed.

  Variable method : Z.
  Hypothesis Hmeth : method_num (y_method e) = Some method.
  Hypothesis Hdir : method <> LzhdirsMethodNum.

  (** Extracting to a file that does not exist. *)
  Lemma extract_file_l w data g2 crc out n rest :
    l_ignoredir (w_lha w) = false -> l_extractdir (w_lha w) = [] -> l_stdout (w_lha w) = false -> l_noexec (w_lha w) = false ->
    l_skip (w_lha w) = false -> w_verify w = false -> w_fs w base = None ->
    DecodeLzhuf method (l_broken (w_lha w)) (y_original e) (y_packed e) data (w_glob w) = Ok (g2, crc, out, n, rest) ->
    exists w', extractOne E r0 data w = Done (false, n, r0, rest) w' /\ w_fs w' base = Some (NFile out) /\ (forall q, q <> base -> w_fs w' q = w_fs w q) /\
      w_lha w' = w_lha w /\ w_glob w' = g2 /\ w_verify w' = false /\ w_stdin w' = w_stdin w.
  Proof.
    intros H1 H2 H3 H4 H5 H6 H7 D. unfold extractOne. istep. istep. istep. destruct (nd_base _ _ _ ND) as [Hne _].
    destruct (name_base_l (w_lha w) H1) as [p0 [NS DP]]. rewrite NS. istep. rewrite DP.
    rewrite (pathcheck_plain (w_lha w) _ base H2 (fl_slash)). istep. change (Method r0) with (y_method e). rewrite Hmeth, r0_reg_l.
    apply Z.eqb_neq in Hdir. rewrite Hdir. cbn [negb andb]. rewrite H3, H6. cbn [orb].
    pose proof basel_nul as N. assert (L : lstat (w_fs w) base = SNotExist).
    { unfold lstat. rewrite N. destruct base; [contradiction|]. now rewrite H7. }
    unfold ask. rewrite bind_assoc, bind_getl, H5. unfold inquireExtract. rewrite !bind_assoc, bind_modl, bind_assoc, bind_get, bind_assoc, bind_get.
    set (w1 := set_wlha (set_skip false (w_lha w)) w). change (w_fs w1) with (w_fs w). rewrite L, bind_ret, bind_assoc, bind_getl, bind_ret. cbn [orb negb]. istep.
    assert (L1 : w_lha w1 = w_lha w) by (unfold w1; cbn [w_lha set_wlha]; destruct (w_lha w); cbn in H5 |- *; rewrite H5; reflexivity).
    rewrite L1, H5, H4. cbn [andb]. unfold os_create. rewrite bind_assoc, bind_get. change (w_fs w1) with (w_fs w). rewrite N.
    remember base as nm0 eqn:Enm in Hne, L, H7, N |- *. destruct nm0 as [|x nm0]; [contradiction|]. cbv zeta. rewrite (resolve_none (w_fs w) _ H7), H7.
    set (p := x :: nm0) in *. rewrite bind_assoc.
    set (w2 := W (run_op (OCreate p p) (w_fs w1)) (OCreate p p :: w_ops w1) (w_glob w1) (w_verify w1) (w_stdin w1) (w_lha w1) (w_out w1)).
    rewrite (bindIO_done (emit (OCreate p p)) _ w1 tt w2 eq_refl), bind_ret.
    unfold run_decode. istep. istep. istep. change (w_glob w2) with (w_glob w). change (w_lha w2) with (w_lha w1). change (w_verify w2) with (w_verify w). rewrite L1, H6.
    change (OriginalSize r0) with (y_original e). change (PackedSize r0) with (y_packed e). rewrite D. istep. istep. istep. cbn [andb].
    assert (C0 : w_fs (set_wglob g2 w2) p = Some (NFile [])) by (cbn [w2 w_fs set_wglob run_op]; apply fs_set_same).
    destruct (append_run p out [] _ C0) as [w3 [R3 [S3 [G3 C3]]]]. rewrite (bindIO_done _ _ _ _ _ R3). exists w3. split; [reflexivity|].
    split; [exact C3|]. split.
    - intros q Q. rewrite (sb_fs _ _ _ S3) by exact Q. cbn [w2 w_fs set_wglob run_op]. rewrite fs_set_other by exact Q. reflexivity.
    - rewrite (sb_lha _ _ _ S3), (sb_verify _ _ _ S3), (sb_stdin _ _ _ S3), G3. repeat split; auto.
  Qed.

End Any.

Definition entriesl (es : list (entryl * list Z)) : list Z := flat_map (fun x => layoutl (fst x) ++ snd x) es.

Lemma archivel_app es e data more : archivel (es ++ (e, data) :: more) = entriesl es ++ layoutl e ++ data ++ archivel more.
Proof. unfold archivel, entriesl. rewrite flat_map_app. cbn [flat_map fst snd]. now rewrite <- !app_assoc. Qed.

Lemma extract_test_l E h0 e dir base method w data g2 crc out n rest : file_entryl e -> plain_type (ExtendType h0) -> named (as_unix e) dir base -> method_num (y_method e) = Some method -> method <> LzhdirsMethodNum ->
  l_ignoredir (w_lha w) = false -> l_extractdir (w_lha w) = [] -> l_noexec (w_lha w) = false -> l_stdout (w_lha w) || w_verify w = true ->
  DecodeLzhuf method (l_broken (w_lha w)) (y_original e) (y_packed e) data (w_glob w) = Ok (g2, crc, out, n, rest) ->
  extractOne E (readl h0 e) data w = Done (if crc =? y_crc e then (false, n, readl h0 e, rest) else (true, 0, readl h0 e, rest))
    (printed (if w_verify w && negb (copied method) then [] else out) (set_wglob g2 (printed (if l_stdout (w_lha w) then banner base else []) w))).
Proof.
  intros FE PT ND Hmeth Hdir H1 H2 H4 H6 D. unfold extractOne. istep. istep. istep.
  destruct (name_base_l h0 e FE PT dir base ND (w_lha w) H1) as [p0 [NS DP]]. rewrite NS. istep. rewrite DP.
  rewrite (pathcheck_plain (w_lha w) _ base H2 (fl_slash e dir base ND)). istep. change (Method (readl h0 e)) with (y_method e). rewrite Hmeth, (r0_reg_l h0 e FE).
  apply Z.eqb_neq in Hdir. rewrite Hdir. cbn [negb andb]. rewrite H6. destruct (readl_type h0 e FE PT) as (T1 & _). change ExtendMacos with 109. apply Z.eqb_neq in T1. rewrite T1. cbn [andb]. rewrite H4.
  istep. set (w1 := printed (if l_stdout (w_lha w) then banner base else []) w).
  destruct (printed_same (if l_stdout (w_lha w) then banner base else []) w) as (_ & _ & G1 & V1 & L1 & _). fold w1 in G1, V1, L1.
  unfold run_decode. istep. istep. istep. change (OriginalSize (readl h0 e)) with (y_original e). change (PackedSize (readl h0 e)) with (y_packed e).
  rewrite L1, G1, V1, D. istep. istep. istep. istep. change (HasCrc (readl h0 e)) with true. change (Crc (readl h0 e)) with (y_crc e). cbn [andb]. destruct (crc =? y_crc e); reflexivity.
Qed.

(** The entries before a given one, in CommandExtract when testing or printing. *)
Lemma test_prefix_l E tail : forall es files h n w cs fuel,
  Forall2 (fun x f => file_entryl (fst x) /\ (exists dir, named (as_unix (fst x)) dir (fst f)) /\ decodable (as_unix (fst x)) (snd x) (snd f)) es files ->
  names_shrinkl n es -> Z.of_nat n < zlen (Name h) -> zlen (Method h) = 5 -> plain_type (ExtendType h) -> ConvertCase (e_opts E) = false ->
  l_filec (w_lha w) = 0 -> l_broken (w_lha w) = false -> l_ignoredir (w_lha w) = false -> l_extractdir (w_lha w) = [] -> l_noexec (w_lha w) = false -> l_stdout (w_lha w) || w_verify w = true ->
  after cs (w_glob w) -> bytes (entriesl es ++ tail) ->
  exists h' w' cs', extract_loop E (length es + fuel) everything (one_file E) h (entriesl es ++ tail) tt w = extract_loop E fuel everything (one_file E) h' tail tt w' /\ after cs' (w_glob w') /\
    zlen (Method h') = 5 /\ plain_type (ExtendType h') /\ Z.of_nat (last (map (fun x => length (y_name (fst x))) es) n) < zlen (Name h') /\
    w_fs w' = w_fs w /\ w_ops w' = w_ops w /\ w_lha w' = w_lha w /\ w_verify w' = w_verify w /\
    w_out w' = w_out w ++ flat_map (fun f => (if l_stdout (w_lha w) then banner (fst f) else []) ++ (if w_verify w then [] else snd f)) files.
Proof.
  induction es as [|[e data] es IH]; intros files h n w cs fuel F NS HN HM PT CC H1 H2 H3 H4 H5 H6 A B.
  - inversion F; subst. exists h, w, cs. cbn [map length Nat.add entriesl flat_map app last]. rewrite app_nil_r. repeat (split; [auto; reflexivity|]). reflexivity.
  - inversion F as [|? [base body] ? files' F1 F2]; subst. cbn [fst snd] in F1. destruct F1 as [FE [[dir ND] P]]. cbn [names_shrinkl fst] in NS. destruct NS as [N1 N2].
    destruct P as (method & MN & MD & MC & _ & P). cbn [length Nat.add].
    unfold entriesl in *. cbn [flat_map fst snd] in *. rewrite <- !app_assoc in *. fold (entriesl es) in *.
    apply Forall_app in B. destruct B as [B1 B2]. pose proof B2 as B12. apply Forall_app in B2. destruct B2 as [B2 B3].
    destruct (P cs (w_glob w) (entriesl es ++ tail) A B12) as [g2 D]. destruct (ll_method _ (fl_legal _ FE)) as [LM _].
    cbn [extract_loop]. rewrite (fl_get E h e _ FE CC PT); [|lia|unfold zlen in *; lia]. istep. cbn [negb]. unfold everything at 1. rewrite bind_assoc, bind_get, bind_ret. unfold needFile. rewrite H1. change (0 =? 0) with true. cbv iota.
    rewrite <- H2 in D. unfold one_file at 1.
    rewrite bind_assoc, (bindIO_done _ _ _ _ _ (extract_test_l E h e dir base method w (data ++ entriesl es ++ tail) g2 (y_crc e) body (y_packed e) (entriesl es ++ tail) FE PT ND MN MD H3 H4 H5 H6 D)).
    rewrite Z.eqb_refl, bind_ret. cbv beta iota zeta. change (PackedSize (readl h e)) with (y_packed e). rewrite Z.eqb_refl.
    destruct (ll_original _ (fl_legal _ FE)) as [O1 _]. destruct (ll_packed _ (fl_legal _ FE)) as [O2 _].
    destruct (after_decode cs (w_glob w) _ _ _ _ _ _ _ _ _ _ A O1 O2 B12 D) as [cs' A'].
    set (l1 := if l_stdout (w_lha w) then banner base else []). set (l2 := if w_verify w && negb (copied method) then [] else body).
    set (w1 := printed l2 (set_wglob g2 (printed l1 w))).
    destruct (printed_same l2 (set_wglob g2 (printed l1 w))) as (X1 & X2 & X3 & X4 & X5 & X6). fold w1 in X1, X2, X3, X4, X5, X6.
    destruct (printed_same l1 w) as (Y1 & Y2 & Y3 & Y4 & Y5 & Y6). cbn [set_wglob w_fs w_ops w_glob w_verify w_lha w_out] in X1, X2, X3, X4, X5, X6.
    rewrite Y1 in X1. rewrite Y2 in X2. rewrite Y4 in X4. rewrite Y5 in X5. rewrite Y6, <- app_assoc in X6.
    destruct (IH files' (readl h e) (length (y_name e)) w1 cs' fuel) as (h' & w' & cs2 & W & A2 & M2 & PT2 & L2 & Z1 & Z2 & Z3 & Z4 & Z5); rewrite ?X5, ?X4; auto.
    { cbn [readl Name]. rewrite zlen_app. unfold slash_back. rewrite zlen_map. unfold zlen. cbn [length]. lia. }
    { change (Method (readl h e)) with (y_method e). unfold zlen. rewrite LM. reflexivity. }
    { now apply readl_type. }
    { rewrite X3. exact A'. }
    exists h', w', cs2. split; [exact W|]. split; [exact A2|]. split; [exact M2|]. split; [exact PT2|]. split; [|repeat (split; [congruence|])].
    + cbn [map fst]. destruct (map (fun x => length (y_name (fst x))) es) eqn:Em; cbn [last] in *; [exact L2|].
      clear -L2. revert L2. generalize (length (y_name e)). revert n0. induction l as [|y l IHl]; intros x m L2; cbn [last] in *; [exact L2|]. now apply (IHl y m).
    + rewrite Z5, X6, X5, X4, <- app_assoc. unfold l2. rewrite MC, andb_true_r. cbn [flat_map fst snd]. fold l1. now rewrite <- !app_assoc.
Qed.

(** The entries before a given one, extracted to files. *)
Lemma extract_prefix_l E tail : forall es files h n w cs fuel,
  Forall2 (fun x f => file_entryl (fst x) /\ (exists dir, named (as_unix (fst x)) dir (fst f)) /\ decodable (as_unix (fst x)) (snd x) (snd f)) es files ->
  NoDup (map fst files) -> (forall f, In f files -> w_fs w (fst f) = None) -> names_shrinkl n es -> Z.of_nat n < zlen (Name h) -> zlen (Method h) = 5 -> plain_type (ExtendType h) -> ConvertCase (e_opts E) = false ->
  l_filec (w_lha w) = 0 -> l_broken (w_lha w) = false -> l_ignoredir (w_lha w) = false -> l_extractdir (w_lha w) = [] -> l_stdout (w_lha w) = false -> l_noexec (w_lha w) = false ->
  l_skip (w_lha w) = false -> w_verify w = false -> after cs (w_glob w) -> bytes (entriesl es ++ tail) ->
  exists h' w' cs', extract_loop E (length es + fuel) everything (one_file E) h (entriesl es ++ tail) tt w = extract_loop E fuel everything (one_file E) h' tail tt w' /\
    (forall f, In f files -> w_fs w' (fst f) = Some (NFile (snd f))) /\ (forall q, ~ In q (map fst files) -> w_fs w' q = w_fs w q) /\
    after cs' (w_glob w') /\ w_lha w' = w_lha w /\ w_verify w' = false /\
    zlen (Method h') = 5 /\ plain_type (ExtendType h') /\ Z.of_nat (last (map (fun x => length (y_name (fst x))) es) n) < zlen (Name h') /\
    exists ops, did ops w w' /\ Forall creates ops.
Proof.
  induction es as [|[e data] es IH]; intros files h n w cs fuel F ND0 NF NS HN HM PT CC H1 H2 H3 H4 H5 H6 H7 H8 A B.
  - inversion F; subst. exists h, w, cs. cbn [length Nat.add entriesl flat_map app map last]. split; [reflexivity|]. split; [intros f []|]. repeat (split; [now auto|]). exists []. split; [reflexivity|constructor].
  - inversion F as [|? f ? files' F1 F2]; subst. destruct f as [base body]. cbn [fst snd map names_shrinkl] in *. destruct F1 as [FE [[dir ND] P]].
    destruct P as (method & MN & NM & _ & PD & P). destruct NS as [N1 N2]. cbn [length Nat.add].
    unfold entriesl in *. cbn [flat_map fst snd] in *. rewrite <- !app_assoc in *. fold (entriesl es) in *.
    apply Forall_app in B. destruct B as [B1 B2]. pose proof B2 as B12. apply Forall_app in B2. destruct B2 as [B2 B3].
    destruct (P cs (w_glob w) (entriesl es ++ tail) A B12) as [g2 D]. destruct (ll_method _ (fl_legal _ FE)) as [LM _].
    cbn [extract_loop]. rewrite (fl_get E h e _ FE CC PT); [|lia|unfold zlen in *; lia]. istep. cbn [negb]. unfold everything at 1. rewrite bind_assoc, bind_get, bind_ret. unfold needFile. rewrite H1. change (0 =? 0) with true. cbv iota.
    rewrite <- H2 in D.
    destruct (extract_file_l E h e FE PT dir base ND method MN NM w (data ++ entriesl es ++ tail) g2 (y_crc e) body (y_packed e) (entriesl es ++ tail) H3 H4 H5 H6 H7 H8 (NF _ (or_introl eq_refl)) D) as (w1 & X1 & X2 & X3 & X4 & X5 & X6 & X7).
    unfold one_file at 1. rewrite bind_assoc, (bindIO_done _ _ _ _ _ X1), bind_ret. cbv iota. change (PackedSize (readl h e)) with (y_packed e). rewrite Z.eqb_refl.
    destruct (ll_original _ (fl_legal _ FE)) as [O1 _]. destruct (ll_packed _ (fl_legal _ FE)) as [O2 _].
    destruct (after_decode cs (w_glob w) _ _ _ _ _ _ _ _ _ _ A O1 O2 B12 D) as [cs' A']. rewrite <- X5 in A'.
    inversion ND0 as [|? ? NI ND']; subst.
    assert (EF := reg_one E (readl h e) (data ++ entriesl es ++ tail) w (r0_reg_l h e FE)). change (Method (readl h e)) with (e_method (as_unix e)) in EF. rewrite MN, X1 in EF.
    destruct (EF ltac:(congruence)) as (ops1 & OP1 & OP2 & _). clear EF.
    destruct (IH files' (readl h e) (length (y_name e)) w1 cs' fuel) as (h' & w' & cs2 & W1 & W2 & W3 & W4 & W5 & W6 & W7 & PT2 & W8 & ops2 & W9 & W10); rewrite ?X4; auto.
    + intros f If. rewrite X3; [apply NF; now right|]. intros EQ. apply NI. rewrite <- EQ. now apply in_map.
    + cbn [readl Name]. rewrite zlen_app. unfold slash_back. rewrite zlen_map. unfold zlen. cbn [length]. lia.
    + change (Method (readl h e)) with (y_method e). unfold zlen. rewrite LM. reflexivity.
    + now apply readl_type.
    + exists h', w', cs2. split; [exact W1|]. split; [|split; [|split; [exact W4|split; [congruence|split; [exact W6|split; [exact W7|split; [exact PT2|split]]]]]]].
      * intros f [<-|If]; [cbn [fst snd]; rewrite W3 by exact NI; exact X2|now apply W2].
      * intros q Q. rewrite W3 by (intros I; apply Q; now right). apply X3. intros ->. apply Q. now left.
      * destruct (map (fun x => length (y_name (fst x))) es) eqn:Em; cbn [last] in *; [exact W8|].
        clear -W8. revert W8. generalize (length (y_name e)). revert n0. induction l as [|y l IHl]; intros x m L2; cbn [last] in *; [exact L2|]. now apply (IHl y m).
      * exists (ops1 ++ ops2). unfold did in *. split; [now rewrite W9, OP1, rev_app_distr, app_assoc|apply Forall_app; auto].
Qed.

Lemma names_shrinkl_app es x (more : list (entryl * list Z)) : forall n, names_shrinkl n (es ++ x :: more) -> names_shrinkl n es /\ (length (y_name (fst x)) <= last (map (fun x => length (y_name (fst x))) es) n)%nat.
Proof.
  induction es as [|y es IH]; intros n H; cbn [app names_shrinkl map] in *; [tauto|]. destruct H as [H1 H2]. destruct (IH _ H2) as [I1 I2]. split; [auto|].
  destruct (map (fun x => length (y_name (fst x))) es) eqn:Em; cbn [last] in *; [exact I2|].
  clear -I2. revert I2. generalize (length (y_name (fst y))). revert n0. induction l as [|z l IHl]; intros u m L2; cbn [last] in *; [exact L2|]. now apply (IHl z m).
Qed.

(** The headers listed one after the other, the object being reused. *)
Fixpoint readsl (h : hdr) (l : list (entryl * list Z)) : list hdr :=
  match l with
  | [] => []
  | x :: l' => readl h (fst x) :: readsl (readl h (fst x)) l'
  end.

Lemma list_loop_l E l : l_filec l = 0 -> forall es h n acc fuel, Forall (fun x => file_entryl (fst x)) es -> sizedl es -> names_shrinkl n es ->
  zlen (Method h) = 5 -> plain_type (ExtendType h) -> ConvertCase (e_opts E) = false -> Z.of_nat n < zlen (Name h) -> (length es < fuel)%nat ->
  list_loop E l fuel h (archivel es) acc = Ok (acc ++ readsl h es, false).
Proof.
  intros HC. induction es as [|[e data] es IH]; intros h n acc fuel FF SZ NS HM PT CC HN Hf.
  - destruct fuel; [cbn in Hf; lia|]. cbn [readsl]. rewrite app_nil_r. reflexivity.
  - destruct fuel; [cbn in Hf; lia|]. inversion FF as [|? ? F1 F2]; subst. inversion SZ as [|? ? S1 S2]; subst. cbn [names_shrinkl fst snd] in *. destruct NS as [N1 N2].
    unfold archivel. cbn [flat_map fst snd]. rewrite <- !app_assoc. change (flat_map _ es ++ [0]) with (archivel es).
    destruct (ll_method _ (fl_legal _ F1)) as [LM _].
    cbn [list_loop]. rewrite (fl_get E h e _ F1 CC PT) by (unfold zlen in *; lia). cbn [bind negb].
    change (PackedSize (readl h e)) with (y_packed e). rewrite (drop_app (y_packed e) data (archivel es)) by (unfold zlen; lia).
    unfold needFile. rewrite HC. change (0 =? 0) with true. cbv iota.
    rewrite (IH (readl h e) (length (y_name e))); [cbn [readsl fst]; rewrite <- app_assoc; reflexivity|exact F2|exact S2|exact N2| |now apply readl_type|exact CC| |cbn [length] in Hf; lia].
    + change (Method (readl h e)) with (y_method e). unfold zlen. rewrite LM. reflexivity.
    + cbn [readl Name]. rewrite zlen_app. unfold slash_back. rewrite zlen_map. unfold zlen. cbn [length]. lia.
Qed.
