(** Reading an archive that starts with a given level 0 header. *)
From Verif Require Import Go GoLemmas M_Crc M_Bitio M_Maketree M_Maketbl M_Huf M_Slide M_Lzhuf S_Header M_Header M_Os M_Archive S_Archive P_Header P_Os P_Single P_Extract.

Lemma has_nul_notin p : ~ In 0 p -> has_nul p = false.
Proof.
  intros H. unfold has_nul. destruct (existsb (Z.eqb 0) p) eqn:X; [|reflexivity]. apply existsb_exists in X. destruct X as [x [I Y]].
  apply Z.eqb_eq in Y. subst x. contradiction.
Qed.

Lemma last_index_app c l1 l2 i r : Forall (fun x => x <> c) l2 -> last_index c (l1 ++ c :: l2) i r = i + zlen l1.
Proof.
  intros F. revert i r. induction l1 as [|x l1 IH]; intros i r; cbn [app last_index].
  - rewrite Z.eqb_refl, last_index_none by exact F. change (zlen []) with 0. lia.
  - rewrite IH, zlen_cons. lia.
Qed.

Lemma slash_back_slashes e : file_entry e -> slash_back (e_name e) = slashes (e_name e).
Proof.
  intros FE. unfold slash_back, slashes. apply map_ext_in. intros c Hc.
  destruct (l0_name _ (fe_legal _ FE)) as [_ F]. rewrite Forall_forall in F. specialize (F c Hc). cbv beta in F.
  unfold conv_byte, delim_index. destruct (Z.ltb_spec c 128); cbn [index_of].
  - destruct (Z.eqb_spec 255 c); [lia|]. destruct (Z.eqb_spec 92 c), (Z.eqb_spec c 92); try lia; reflexivity.
  - destruct (Z.eqb_spec c 92); [lia|reflexivity].
Qed.

Section One.
  Variable E : env.
  Variable e : entry0.
  Hypothesis FE : file_entry e.
  Variable dir base : list Z.
  Hypothesis ND : named e dir base.
  Let nm := dir ++ base.

  Lemma fe_back : slash_back (e_name e) = nm.
  Proof. unfold nm. now rewrite <- (nd_name _ _ _ ND), slash_back_slashes. Qed.

  Lemma fe_slash : Forall (fun c => c <> 47) base.
  Proof. apply Forall_forall. intros x I ->. now apply (nd_base _ _ _ ND). Qed.

  Lemma nm_nul : ~ In 0 nm.
  Proof.
    unfold nm. rewrite <- (nd_name _ _ _ ND). unfold slashes. intros I. apply in_map_iff in I. destruct I as [c [X I]]. destruct (c =? 92); [discriminate|]. subst c.
    now apply (fe_name _ FE).
  Qed.

  Lemma base_nul : has_nul base = false.
  Proof. apply has_nul_notin. intros I. apply nm_nul. unfold nm. apply in_or_app. now right. Qed.

  Lemma fe_nolink : isSymlinkMode (e_mode e) = false.
  Proof.
    pose proof (fe_regular _ FE) as M. unfold isSymlinkMode, UnixFileSymlink. destruct (Z.eqb_spec (Z.land (e_mode e) 40960) 40960) as [X|]; [|reflexivity].
    exfalso. assert (Y : Z.testbit (Z.land (e_mode e) 40960) 13 = true) by (rewrite X; reflexivity).
    assert (Y2 : Z.testbit (Z.land (e_mode e) 61440) 13 = false) by (rewrite M; reflexivity).
    rewrite Z.land_spec in Y, Y2. change (Z.testbit 40960 13) with true in Y. change (Z.testbit 61440 13) with true in Y2. rewrite andb_true_r in *. congruence.
  Qed.

  Lemma fe_get h0 rest : zlen (Method h0) >= 5 -> zlen (Name h0) > zlen (e_name e) -> GetHeader (e_opts E) h0 (layout0 e ++ rest) = Ok (ENil, true, read0 h0 e, rest).
  Proof. intros H1 H2. apply GetHeader_layout0; [apply FE|exact H1|exact H2|apply fe_nolink]. Qed.

  Lemma fe_get_new rest : GetHeader (e_opts E) NewLzHeader (layout0 e ++ rest) = Ok (ENil, true, read0 NewLzHeader e, rest).
  Proof.
    apply fe_get; [change (zlen (Method NewLzHeader)) with 5; lia|]. change (zlen (Name NewLzHeader)) with 1024. destruct (l0_name _ (fe_legal _ FE)) as [L _]. unfold zlen. lia.
  Qed.

  Let r0 := read0 NewLzHeader e.

  Lemma r0_name : Name r0 = nm ++ [0].
  Proof. unfold r0. cbn [read0 Name]. now rewrite fe_back. Qed.

  Lemma nm_zlen : zlen nm = zlen (e_name e).
  Proof. rewrite <- fe_back. apply zlen_map. Qed.

  (** The name under which the entry is extracted. *)
  Lemma name_base l : l_ignoredir l = false -> exists p, name_start l r0 = Ok (Some (r0, p)) /\ drop p (Name r0) = base ++ [0].
  Proof.
    intros H. pose proof fe_slash as FS. destruct (nd_dir _ _ _ ND) as [X|[d X]].
    - exists 0. assert (N : Name r0 = base ++ [0]) by (rewrite r0_name; unfold nm; now rewrite X). split; [|exact N]. now apply (name_start_plain l r0 base).
    - exists (zlen dir). assert (N : Name r0 = d ++ 47 :: base ++ [0]) by (rewrite r0_name; unfold nm; rewrite X, <- !app_assoc; reflexivity).
      assert (ZD : zlen dir = zlen d + 1) by (rewrite X, zlen_app; reflexivity). pose proof (zlen_nonneg d).
      assert (F' : Forall (fun c => c <> 47) (base ++ [0])) by (apply Forall_app1; [exact FS|discriminate]).
      assert (D1 : drop (zlen dir) (Name r0) = base ++ [0]).
      { rewrite r0_name. unfold nm. rewrite <- app_assoc. now apply drop_app. }
      split; [|exact D1]. unfold name_start. rewrite N, H. unfold LastIndex. rewrite last_index_app by exact F'. rewrite Z.add_0_l.
      destruct (Z.eqb_spec (zlen d) (-1)); [lia|]. rewrite (drop_app (zlen d) d _ eq_refl).
      unfold isDirectoryTraversal. cbn [traversal]. change (0 =? 0) with true. change (47 =? 46) with false. cbv iota. rewrite traversal_plain by exact FS.
      rewrite nth_error_app2 by (unfold zlen; lia). replace (Z.to_nat (zlen d) - length d)%nat with 0%nat by (unfold zlen; lia). cbn [nth_error].
      change (47 =? 47) with true. cbv iota. rewrite app_length. cbn [length].
      replace (S (length d + S (length (base ++ [0%Z]))))%nat with (S (S (length d + length (base ++ [0%Z]))))%nat by lia. cbn [skip_slashes].
      rewrite nth_error_app2 by (unfold zlen; lia). replace (Z.to_nat (zlen d) - length d)%nat with 0%nat by (unfold zlen; lia). cbn [nth_error].
      change (47 =? 47) with true. cbv iota. rewrite nth_error_app2 by (unfold zlen; lia). replace (Z.to_nat (zlen d + 1) - length d)%nat with 1%nat by (unfold zlen; lia).
      destruct (base ++ [0]) as [|c b] eqn:EB; [destruct base; discriminate|]. cbn [nth_error]. inversion F' as [|? ? Hc]; subst. apply Z.eqb_neq in Hc. rewrite Hc. cbn [bind].
      rewrite ZD. reflexivity.
  Qed.

  Lemma r0_reg : isRegular r0 = true.
  Proof. unfold isRegular, r0. cbn [read0 UnixMode]. change UnixFileTypemask with 61440. rewrite (fe_regular _ FE). reflexivity. Qed.

  (** The beginning of Decompress and of the loop. *)
  Lemma Decompress_open header w a c : w_fs w a = Some (NFile c) -> reader E a w ->
    Decompress E header w = ('(_, err) <~ extract_loop E (S (length c)) (by_name header) (one_file E) NewLzHeader c tt ;;; ret err) (set_wlha (set_level 2 (NewLha a)) w).
  Proof.
    intros Hf [Hl Hv [Ha Hn] Hr Hs]. apply has_nul_notin in Hn. unfold Decompress. rewrite bind_modl, Hl. unfold open_archive. istep. istep.
    cbn [w_fs w_lha set_wlha set_level l_archive NewLha]. rewrite (open_file E _ a _ Ha Hn Hf Hr), Hs. istep. reflexivity.
  Qed.

  Lemma CommandExtract_open w a c : w_fs w a = Some (NFile c) -> file_path a -> e_readable E a = true -> archiveIsMsdosSfx1 a = false ->
    CommandExtract E a w = ('(_, err) <~ extract_loop E (S (length c)) (fun h => l <~ get w_lha ;;; ret (needFile l (Name h))) (one_file E) NewLzHeader c tt ;;; ret err) (set_wlha (set_archive a (w_lha w)) w).
  Proof.
    intros Hf [Ha Hn] Hr Hs. apply has_nul_notin in Hn. unfold CommandExtract. rewrite bind_modl. unfold open_archive. istep. istep.
    cbn [w_fs w_lha set_wlha set_archive l_archive]. rewrite (open_file E _ a _ Ha Hn Hf Hr), Hs. istep. reflexivity.
  Qed.

  Lemma DecompresBytes_open header w a c : w_fs w a = Some (NFile c) -> reader E a w ->
    DecompresBytes E header w = extract_loop E (S (length c)) (by_name header) one_stream NewLzHeader c [] (set_wlha (set_level 2 (NewLha a)) w).
  Proof.
    intros Hf [Hl Hv [Ha Hn] Hr Hs]. apply has_nul_notin in Hn. unfold DecompresBytes. rewrite bind_modl, Hl. unfold open_archive. istep. istep.
    cbn [w_fs w_lha set_wlha set_level l_archive NewLha]. rewrite (open_file E _ a _ Ha Hn Hf Hr), Hs. istep. reflexivity.
  Qed.

  Lemma loop_entry {A} n sel (one : hdr -> list Z -> A -> IO (bool * Z * A * hdr * list Z)) rest acc w :
    extract_loop E (S n) sel one NewLzHeader (layout0 e ++ rest) acc w =
    (s <~ sel r0 ;;;
     if (s : bool) then
       '(err, k, acc, h, rest) <~ one r0 rest acc ;;;
       if (err : bool) then ret (acc, true)
       else if k =? PackedSize h then extract_loop E n sel one h rest acc
       else
         let '(ok, rest) := skipToNextpos (PackedSize h) rest in
         if (ok : bool) then extract_loop E n sel one h rest acc else ret (acc, true)
     else
       let '(_, rest) := skipToNextpos (PackedSize r0) rest in
       extract_loop E n sel one r0 rest acc) w.
  Proof. cbn [extract_loop]. rewrite fe_get_new. istep. reflexivity. Qed.

  Lemma loop_end {A} n sel (one : hdr -> list Z -> A -> IO (bool * Z * A * hdr * list Z)) h acc w :
    extract_loop E (S n) sel one h [0] acc w = Done (acc, false) w.
  Proof. cbn [extract_loop]. change (GetHeader (e_opts E) h [0]) with (@Ok lev_res (ENil, false, h, [])). istep. reflexivity. Qed.

  Lemma layout_fuel rest : exists n, length (layout0 e ++ rest) = S n.
  Proof. unfold layout0. cbn [app length]. eauto. Qed.

  Variable method : Z.
  Hypothesis Hmeth : method_num (e_method e) = Some method.
  Hypothesis Hdir : method <> LzhdirsMethodNum.

  (** Extracting to a file that does not exist. *)
  Lemma extract_file w data g2 crc out n rest :
    l_ignoredir (w_lha w) = false -> l_extractdir (w_lha w) = [] -> l_stdout (w_lha w) = false -> l_noexec (w_lha w) = false ->
    l_skip (w_lha w) = false -> w_verify w = false -> w_fs w base = None ->
    DecodeLzhuf method (l_broken (w_lha w)) (e_original e) (e_packed e) data (w_glob w) = Ok (g2, crc, out, n, rest) ->
    exists w', extractOne E r0 data w = Done (false, n, r0, rest) w' /\ w_fs w' base = Some (NFile out) /\ (forall q, q <> base -> w_fs w' q = w_fs w q) /\
      w_lha w' = w_lha w /\ w_glob w' = g2 /\ w_verify w' = false /\ w_stdin w' = w_stdin w.
  Proof.
    intros H1 H2 H3 H4 H5 H6 H7 D. unfold extractOne. istep. istep. istep. destruct (nd_base _ _ _ ND) as [Hne _].
    destruct (name_base (w_lha w) H1) as [p0 [NS DP]]. rewrite NS. istep. rewrite DP.
    rewrite (pathcheck_plain (w_lha w) _ base H2 fe_slash). istep. change (Method r0) with (e_method e). rewrite Hmeth, r0_reg.
    apply Z.eqb_neq in Hdir. rewrite Hdir. cbn [negb andb]. rewrite H3, H6. cbn [orb].
    pose proof base_nul as N. assert (L : lstat (w_fs w) base = SNotExist).
    { unfold lstat. rewrite N. destruct base; [contradiction|]. now rewrite H7. }
    unfold ask. rewrite bind_assoc, bind_getl, H5. unfold inquireExtract. rewrite !bind_assoc, bind_modl, bind_assoc, bind_get, bind_assoc, bind_get.
    set (w1 := set_wlha (set_skip false (w_lha w)) w). change (w_fs w1) with (w_fs w). rewrite L, bind_ret, bind_assoc, bind_getl, bind_ret. cbn [orb negb]. istep.
    assert (L1 : w_lha w1 = w_lha w) by (unfold w1; cbn [w_lha set_wlha]; destruct (w_lha w); cbn in H5 |- *; rewrite H5; reflexivity).
    rewrite L1, H5, H4. cbn [andb]. unfold os_create. rewrite bind_assoc, bind_get. change (w_fs w1) with (w_fs w). rewrite N.
    remember base as nm0 eqn:Enm in Hne, L, H7, N |- *. destruct nm0 as [|x nm0]; [contradiction|]. cbv zeta. rewrite (resolve_none (w_fs w) _ H7), H7.
    set (p := x :: nm0) in *. rewrite bind_assoc.
    set (w2 := W (run_op (OCreate p p) (w_fs w1)) (OCreate p p :: w_ops w1) (w_glob w1) (w_verify w1) (w_stdin w1) (w_lha w1) (w_out w1)).
    rewrite (bindIO_done (emit (OCreate p p)) _ w1 tt w2 eq_refl), bind_ret.
    unfold run_decode. istep. istep. istep. change (w_glob w2) with (w_glob w). change (w_lha w2) with (w_lha w1). change (w_verify w2) with (w_verify w). rewrite L1, H6.
    change (OriginalSize r0) with (e_original e). change (PackedSize r0) with (e_packed e). rewrite D. istep. istep. istep. cbn [andb].
    assert (C0 : w_fs (set_wglob g2 w2) p = Some (NFile [])) by (cbn [w2 w_fs set_wglob run_op]; apply fs_set_same).
    destruct (append_run p out [] _ C0) as [w3 [R3 [S3 [G3 C3]]]]. rewrite (bindIO_done _ _ _ _ _ R3). exists w3. split; [reflexivity|].
    split; [exact C3|]. split.
    - intros q Q. rewrite (sb_fs _ _ _ S3) by exact Q. cbn [w2 w_fs set_wglob run_op]. rewrite fs_set_other by exact Q. reflexivity.
    - rewrite (sb_lha _ _ _ S3), (sb_verify _ _ _ S3), (sb_stdin _ _ _ S3), G3. repeat split; auto.
  Qed.

  (** One entry, extracted to a file. *)
  Lemma Decompress_one header w a data g2 crc out : w_fs w a = Some (NFile (layout0 e ++ data ++ [0])) -> reader E a w -> asks_for header nm ->
    w_fs w base = None -> DecodeLzhuf method false (e_original e) (e_packed e) (data ++ [0]) (w_glob w) = Ok (g2, crc, out, e_packed e, [0]) ->
    exists w', Decompress E header w = Done false w' /\ w_fs w' base = Some (NFile out) /\ (forall q, q <> base -> w_fs w' q = w_fs w q).
  Proof.
    intros Hf R Hh Hn D. rewrite (Decompress_open header w a _ Hf R). set (w1 := set_wlha (set_level 2 (NewLha a)) w).
    destruct (extract_file w1 (data ++ [0]) g2 crc out (e_packed e) [0]) as [w' [X1 [X2 [X3 _]]]]; try assumption; try reflexivity; [apply (rd_verify _ _ _ R)|].
    destruct (layout_fuel (data ++ [0])) as [n ->]. exists w'. split; [|split; [exact X2|exact X3]].
    rewrite (bindIO_done _ _ w1 (tt, false) w'); [reflexivity|]. rewrite loop_entry. unfold by_name at 1. rewrite bind_ret.
    unfold asks_for in Hh. rewrite r0_name, Hh, list_eqb_refl. unfold one_file at 1. rewrite bind_assoc, (bindIO_done _ _ _ _ _ X1), bind_ret.
    change (PackedSize r0) with (e_packed e). rewrite Z.eqb_refl. apply loop_end.
  Qed.

  (** The same with Force, when something is there: the path is followed to [q]. *)
  Lemma extract_over w data g2 crc out n rest q :
    l_ignoredir (w_lha w) = false -> l_extractdir (w_lha w) = [] -> l_stdout (w_lha w) = false -> l_noexec (w_lha w) = false ->
    l_skip (w_lha w) = false -> l_force (w_lha w) = true -> w_verify w = false -> w_fs w base <> None -> follow (w_fs w) base = q ->
    match w_fs w q with Some NDir | Some (NLink _) => False | _ => True end ->
    DecodeLzhuf method (l_broken (w_lha w)) (e_original e) (e_packed e) data (w_glob w) = Ok (g2, crc, out, n, rest) ->
    exists w', extractOne E r0 data w = Done (false, n, r0, rest) w' /\ w_fs w' q = Some (NFile out) /\ (forall q', q' <> q -> w_fs w' q' = w_fs w q') /\
      w_lha w' = w_lha w /\ w_glob w' = g2 /\ w_verify w' = false /\ w_stdin w' = w_stdin w.
  Proof.
    intros H1 H2 H3 H4 H5 HF H6 H7 HQ HN D. unfold extractOne. istep. istep. istep. destruct (nd_base _ _ _ ND) as [Hne _].
    destruct (name_base (w_lha w) H1) as [p0 [NS DP]]. rewrite NS. istep. rewrite DP.
    rewrite (pathcheck_plain (w_lha w) _ base H2 fe_slash). istep. change (Method r0) with (e_method e). rewrite Hmeth, r0_reg.
    apply Z.eqb_neq in Hdir. rewrite Hdir. cbn [negb andb]. rewrite H3, H6. cbn [orb].
    pose proof base_nul as N. set (w1 := set_wlha (set_skip false (w_lha w)) w).
    assert (L1 : w_lha w1 = w_lha w) by (unfold w1; cbn [w_lha set_wlha]; destruct (w_lha w); cbn in H5 |- *; rewrite H5; reflexivity).
    unfold ask. rewrite bind_assoc, bind_getl, H5. unfold inquireExtract. rewrite !bind_assoc, bind_modl, bind_assoc, bind_get, bind_assoc, bind_get.
    fold w1. change (w_fs w1) with (w_fs w). rewrite L1, H4, HF.
    unfold bindIO at 1.
    assert (A : exists b, match lstat (w_fs w) base with
      | SNotExist => ret true | SErr => ret false | SNode (NFile _) => ret true | SNode _ => ret false end w1 = Done (b : bool) w1).
    { destruct (lstat (w_fs w) base) as [[]| |]; eexists; reflexivity. }
    destruct A as [b A]. rewrite A. rewrite bind_assoc, bind_getl, bind_ret, L1, HF, orb_true_r. cbn [negb]. istep. rewrite L1, H4, H5. cbn [andb].
    unfold os_create. rewrite bind_assoc, bind_get. change (w_fs w1) with (w_fs w). rewrite N.
    remember base as nm0 eqn:Enm in Hne, N, HQ |- *. destruct nm0 as [|x nm0]; [contradiction|]. cbv zeta. rewrite HQ.
    set (p := x :: nm0) in *.
    assert (EM : match w_fs w q with Some NDir | Some (NLink _) => ret None | _ => _ <~ emit (OCreate p q) ;;; ret (Some q) end = (_ <~ emit (OCreate p q) ;;; ret (Some q))).
    { destruct (w_fs w q) as [[]|]; try contradiction; reflexivity. }
    rewrite EM, bind_assoc.
    set (w2 := W (run_op (OCreate p q) (w_fs w1)) (OCreate p q :: w_ops w1) (w_glob w1) (w_verify w1) (w_stdin w1) (w_lha w1) (w_out w1)).
    rewrite (bindIO_done (emit (OCreate p q)) _ w1 tt w2 eq_refl), bind_ret.
    unfold run_decode. istep. istep. istep. change (w_glob w2) with (w_glob w). change (w_lha w2) with (w_lha w1). change (w_verify w2) with (w_verify w). rewrite L1, H6.
    change (OriginalSize r0) with (e_original e). change (PackedSize r0) with (e_packed e). rewrite D. istep. istep. istep. cbn [andb].
    assert (C0 : w_fs (set_wglob g2 w2) q = Some (NFile [])) by (cbn [w2 w_fs set_wglob run_op]; apply fs_set_same).
    destruct (append_run q out [] _ C0) as [w3 [R3 [S3 [G3 C3]]]]. rewrite (bindIO_done _ _ _ _ _ R3). exists w3. split; [reflexivity|].
    split; [exact C3|]. split.
    - intros q' Q. rewrite (sb_fs _ _ _ S3) by exact Q. cbn [w2 w_fs set_wglob run_op]. rewrite fs_set_other by exact Q. reflexivity.
    - rewrite (sb_lha _ _ _ S3), (sb_verify _ _ _ S3), (sb_stdin _ _ _ S3), G3. repeat split; auto.
  Qed.

  Lemma CommandExtract_over w a data g2 crc out q : w_fs w a = Some (NFile (layout0 e ++ data ++ [0])) ->
    file_path a -> e_readable E a = true -> archiveIsMsdosSfx1 a = false ->
    l_filec (w_lha w) = 0 -> l_broken (w_lha w) = false ->
    l_ignoredir (w_lha w) = false -> l_extractdir (w_lha w) = [] -> l_stdout (w_lha w) = false -> l_noexec (w_lha w) = false ->
    l_skip (w_lha w) = false -> l_force (w_lha w) = true -> w_verify w = false -> w_fs w base <> None -> follow (w_fs w) base = q ->
    match w_fs w q with Some NDir | Some (NLink _) => False | _ => True end ->
    DecodeLzhuf method false (e_original e) (e_packed e) (data ++ [0]) (w_glob w) = Ok (g2, crc, out, e_packed e, [0]) ->
    exists w', CommandExtract E a w = Done false w' /\ w_fs w' q = Some (NFile out) /\ (forall q', q' <> q -> w_fs w' q' = w_fs w q').
  Proof.
    intros Hf Ha Hr Hs Hc Hbr H1 H2 H3 H4 H5 H6 H7 H8 H9 H10 D. rewrite (CommandExtract_open w a _ Hf Ha Hr Hs). set (w1 := set_wlha (set_archive a (w_lha w)) w).
    destruct (extract_over w1 (data ++ [0]) g2 crc out (e_packed e) [0] q) as [w' [X1 [X2 [X3 _]]]]; try assumption; [cbn [w1 w_lha set_wlha set_archive l_broken w_glob]; rewrite Hbr; exact D|].
    destruct (layout_fuel (data ++ [0])) as [n ->]. exists w'. split; [|split; [exact X2|exact X3]].
    rewrite (bindIO_done _ _ w1 (tt, false) w'); [reflexivity|]. rewrite loop_entry. istep. istep. unfold needFile. cbn [w1 w_lha set_wlha set_archive l_filec]. rewrite Hc. change (0 =? 0) with true. cbv iota.
    unfold one_file at 1. rewrite bind_assoc, (bindIO_done _ _ _ _ _ X1), bind_ret.
    change (PackedSize r0) with (e_packed e). rewrite Z.eqb_refl. apply loop_end.
  Qed.

  (** With a directory to extract to: a panic. *)
  Lemma extract_dir_panics w data : l_ignoredir (w_lha w) = false -> l_extractdir (w_lha w) <> [] ->
    extractOne E r0 data w = Crash w.
  Proof.
    intros H1 H2. unfold extractOne. istep. istep. istep.
    destruct (name_base (w_lha w) H1) as [p0 [NS DP]]. rewrite NS. istep. rewrite DP.
    assert (X : makeNameWithPathcheck (w_lha w) (w_fs w) (base ++ [0]) = Panic).
    { assert (F' : Forall (fun c => c <> 47) (base ++ [0])) by (apply Forall_app1; [exact fe_slash|discriminate]).
      unfold makeNameWithPathcheck. destruct (l_extractdir (w_lha w)) as [|x d]; [contradiction|]. unfold Index47. rewrite find_byte_none by exact F'.
      cbn [pathcheck_loop]. change (-1 =? -1) with true. cbv iota. cbn [bind]. pose proof (zlen_nonneg d). rewrite zlen_cons.
      destruct (Z.eqb_spec (1 + zlen d + 1) 0); [lia|]. unfold subslice. rewrite zlen_app. change (zlen [0]) with 1.
      assert (L : zlen base <= 221).
      { pose proof nm_zlen as Z1. unfold nm in Z1. rewrite zlen_app in Z1. destruct (l0_name _ (fe_legal _ FE)) as [L _]. pose proof (zlen_nonneg dir). unfold zlen in Z1 at 3. lia. }
      unfold FilenameLength. destruct (Z.leb_spec 0 (1 + zlen d + 1)); [|lia].
      destruct (Z.leb_spec (1 + zlen d + 1) (1024 - (1 + zlen d + 1))); [|reflexivity].
      destruct (Z.leb_spec (1024 - (1 + zlen d + 1)) (zlen base + 1)); [lia|reflexivity]. }
    rewrite X. reflexivity.
  Qed.
End One.
