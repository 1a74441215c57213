(** Extracting all entries of an archive with Force, over files that exist. *)
From Verif Require Import Go GoLemmas M_Crc M_Bitio M_Maketree M_Maketbl M_Huf M_Slide M_Lzhuf S_Header S_Listing M_Header M_Os M_Archive S_History S_Archive
  P_Bitio P_Header P_Os P_Single P_Extract P_Read1 P_Accept P_List P_RoundTrip P_ExtractAll Properties_Slide.

(** A file, or nothing. *)
Definition replaceable (n : option node) : Prop := match n with Some NDir | Some (NLink _) => False | _ => True end.

Lemma follow_file f p : replaceable (f p) -> follow f p = p.
Proof. intros H. unfold follow. cbn [resolve]. destruct (f p) as [[]|]; try contradiction; reflexivity. Qed.

Section Over.
  Variable E : env.
  Variable h0 : hdr.
  Variable e : entry0.
  Hypothesis FE : file_entry e.
  Variable dir base : list Z.
  Hypothesis ND : named e dir base.
  Let r0 := read0 h0 e.
  Variable method : Z.
  Hypothesis Hmeth : method_num (e_method e) = Some method.
  Hypothesis Hdir : method <> LzhdirsMethodNum.

  Lemma extract_over_any w data g2 crc out n rest :
    l_ignoredir (w_lha w) = false -> l_extractdir (w_lha w) = [] -> l_stdout (w_lha w) = false -> l_noexec (w_lha w) = false ->
    l_skip (w_lha w) = false -> l_force (w_lha w) = true -> w_verify w = false -> replaceable (w_fs w base) ->
    DecodeLzhuf method (l_broken (w_lha w)) (e_original e) (e_packed e) data (w_glob w) = Ok (g2, crc, out, n, rest) ->
    exists w', extractOne E r0 data w = Done (false, n, r0, rest) w' /\ w_fs w' base = Some (NFile out) /\ (forall q', q' <> base -> w_fs w' q' = w_fs w q') /\
      w_lha w' = w_lha w /\ w_glob w' = g2 /\ w_verify w' = false /\ w_stdin w' = w_stdin w.
  Proof.
    intros H1 H2 H3 H4 H5 HF H6 HN D. unfold extractOne. istep. istep. istep. destruct (nd_base _ _ _ ND) as [Hne _].
    pose proof (follow_file _ _ HN) as HQ.
    destruct (name_base_any h0 e FE dir base ND (w_lha w) H1) as [p0 [NS DP]]. fold r0 in NS, DP. rewrite NS. istep. rewrite DP.
    rewrite (pathcheck_plain (w_lha w) _ base H2 (fe_slash e dir base ND)). istep. change (Method r0) with (e_method e). rewrite Hmeth. unfold r0 at 1. rewrite (r0_reg_any h0 e FE). fold r0.
    apply Z.eqb_neq in Hdir. rewrite Hdir. cbn [negb andb]. rewrite H3, H6. cbn [orb].
    pose proof (base_nul e FE dir base ND) as N. set (w1 := set_wlha (set_skip false (w_lha w)) w).
    assert (L1 : w_lha w1 = w_lha w) by (unfold w1; cbn [w_lha set_wlha]; destruct (w_lha w); cbn in H5 |- *; rewrite H5; reflexivity).
    unfold ask. rewrite bind_assoc, bind_getl, H5. unfold inquireExtract. rewrite !bind_assoc, bind_modl, bind_assoc, bind_get, bind_assoc, bind_get.
    fold w1. change (w_fs w1) with (w_fs w). rewrite L1, H4, HF.
    unfold bindIO at 1.
    assert (A : exists b, match lstat (w_fs w) base with
      | SNotExist => ret true | SErr => ret false | SNode (NFile _) => ret true | SNode _ => ret false end w1 = Done (b : bool) w1).
    { destruct (lstat (w_fs w) base) as [[]| |]; eexists; reflexivity. }
    destruct A as [b A]. rewrite A. rewrite bind_assoc, bind_getl, bind_ret, L1, HF, orb_true_r. cbn [negb]. istep. rewrite L1, H4, H5. cbn [andb].
    unfold os_create. rewrite bind_assoc, bind_get. change (w_fs w1) with (w_fs w). rewrite N.
    remember base as nm0 eqn:Enm in Hne, N, HQ, HN |- *. destruct nm0 as [|x nm0]; [contradiction|]. cbv zeta. rewrite HQ.
    set (p := x :: nm0) in *.
    assert (EM : forall (T : Type) (u v : T), match w_fs w p with Some NDir | Some (NLink _) => u | _ => v end = v).
    { intros T u v. unfold replaceable in HN. destruct (w_fs w p) as [[]|]; try contradiction; reflexivity. }
    rewrite EM, bind_assoc.
    set (w2 := W (run_op (OCreate p p) (w_fs w1)) (OCreate p p :: w_ops w1) (w_glob w1) (w_verify w1) (w_stdin w1) (w_lha w1) (w_out w1)).
    rewrite (bindIO_done (emit (OCreate p p)) _ w1 tt w2 eq_refl), bind_ret.
    unfold run_decode. istep. istep. istep. change (w_glob w2) with (w_glob w). change (w_lha w2) with (w_lha w1). change (w_verify w2) with (w_verify w). rewrite L1, H6.
    change (OriginalSize r0) with (e_original e). change (PackedSize r0) with (e_packed e). rewrite D. istep. istep. istep. cbn [andb].
    assert (C0 : w_fs (set_wglob g2 w2) p = Some (NFile [])) by (cbn [w2 w_fs set_wglob run_op]; apply fs_set_same).
    destruct (append_run p out [] _ C0) as [w3 [R3 [S3 [G3 C3]]]]. rewrite (bindIO_done _ _ _ _ _ R3). exists w3. split; [reflexivity|].
    split; [exact C3|]. split.
    - intros q' Q. rewrite (sb_fs _ _ _ S3) by exact Q. cbn [w2 w_fs set_wglob run_op]. rewrite fs_set_other by exact Q. reflexivity.
    - rewrite (sb_lha _ _ _ S3), (sb_verify _ _ _ S3), (sb_stdin _ _ _ S3), G3. repeat split; auto.
  Qed.
End Over.

(** What a path holds after the files have been written one after the other. *)
Definition written (p : path) (n : option node) (f : path * list Z) : option node := if list_eqb (fst f) p then Some (NFile (snd f)) else n.

Lemma force_decodable E : forall es files h n w cs fuel,
  Forall2 (fun x f => file_entry (fst x) /\ (exists dir, named (fst x) dir (fst f)) /\ decodable (fst x) (snd x) (snd f)) es files ->
  (forall f, In f files -> replaceable (w_fs w (fst f))) -> names_shrink n es -> Z.of_nat n < zlen (Name h) -> zlen (Method h) = 5 ->
  l_filec (w_lha w) = 0 -> l_broken (w_lha w) = false -> l_ignoredir (w_lha w) = false -> l_extractdir (w_lha w) = [] -> l_stdout (w_lha w) = false -> l_noexec (w_lha w) = false ->
  l_skip (w_lha w) = false -> l_force (w_lha w) = true -> w_verify w = false -> after cs (w_glob w) -> bytes (archive_bytes es) -> (length es < fuel)%nat ->
  exists w', extract_loop E fuel everything (one_file E) h (archive_bytes es) tt w = Done (tt, false) w' /\
    forall p, w_fs w' p = fold_left (written p) files (w_fs w p).
Proof.
  induction es as [|[e data] es IH]; intros files h n w cs fuel F NF NS HN HM H1 H2 H3 H4 H5 H6 H7 HF H8 A B Hf.
  - inversion F; subst. destruct fuel; [cbn in Hf; lia|]. exists w. split; reflexivity.
  - destruct fuel; [cbn in Hf; lia|]. inversion F as [|? f ? files' F1 F2]; subst. destruct f as [base body]. cbn [fst snd map names_shrink] in *. destruct F1 as [FE [[dir ND] P]].
    destruct P as (method & MN & NM & _ & PD & P). destruct NS as [N1 N2].
    unfold archive_bytes in B. cbn [flat_map fst snd] in B. rewrite <- !app_assoc in B. change (flat_map _ es ++ [0]) with (archive_bytes es) in B.
    apply Forall_app in B. destruct B as [B1 B2]. pose proof B2 as B12. apply Forall_app in B2. destruct B2 as [B2 B3].
    destruct (P cs (w_glob w) (archive_bytes es) A B12) as [g2 D].
    unfold archive_bytes. cbn [flat_map fst snd]. rewrite <- !app_assoc. change (flat_map _ es ++ [0]) with (archive_bytes es).
    destruct (l0_method _ (fe_legal _ FE)) as [LM _].
    cbn [extract_loop]. rewrite (fe_get E e FE h); [|lia|unfold zlen in *; lia]. istep. cbn [negb]. unfold everything at 1. rewrite bind_assoc, bind_get, bind_ret. unfold needFile. rewrite H1. change (0 =? 0) with true. cbv iota.
    assert (D' : DecodeLzhuf method (l_broken (w_lha w)) (e_original e) (e_packed e) (data ++ archive_bytes es) (w_glob w) = Ok (g2, e_crc e, body, e_packed e, archive_bytes es)) by (rewrite H2; exact D).
    destruct (extract_over_any E h e FE dir base ND method MN NM w (data ++ archive_bytes es) g2 (e_crc e) body (e_packed e) (archive_bytes es) H3 H4 H5 H6 H7 HF H8 (NF _ (or_introl eq_refl)) D') as (w1 & X1 & X2 & X3 & X4 & X5 & X6 & X7).
    unfold one_file at 1. rewrite bind_assoc, (bindIO_done _ _ _ _ _ X1), bind_ret. cbv iota. change (PackedSize (read0 h e)) with (e_packed e). rewrite Z.eqb_refl.
    destruct (l0_original _ (fe_legal _ FE)) as [O1 _]. destruct (l0_packed _ (fe_legal _ FE)) as [O2 _].
    destruct (after_decode cs (w_glob w) _ _ _ _ _ _ _ _ _ _ A O1 O2 B12 D') as [cs' A']. rewrite <- X5 in A'.
    destruct (IH files' (read0 h e) (length (e_name e)) w1 cs' fuel) as (w' & W1 & W2); rewrite ?X4; auto.
    + intros f If. destruct (list_eq_dec Z.eq_dec (fst f) base) as [->|Q]; [rewrite X2; exact Logic.I|rewrite X3 by exact Q; apply NF; now right].
    + cbn [read0 Name]. rewrite zlen_app. unfold slash_back. rewrite zlen_map. unfold zlen. cbn [length]. lia.
    + change (Method (read0 h e)) with (e_method e). unfold zlen. rewrite LM. reflexivity.
    + cbn [length] in Hf. lia.
    + exists w'. split; [exact W1|]. intros p. rewrite W2. cbn [fold_left]. f_equal. unfold written. cbn [fst snd].
      destruct (list_eqb base p) eqn:Q; [apply list_eqb_eq in Q; now subst|]. apply X3. intros ->. rewrite list_eqb_refl in Q. discriminate.
Qed.
