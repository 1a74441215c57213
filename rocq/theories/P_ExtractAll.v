(** Extracting all entries of an archive, the header object being reused. *)
From Verif Require Import Go GoLemmas M_Crc M_Bitio M_Maketree M_Maketbl M_Huf M_Slide M_Lzhuf S_Header S_Listing M_Header M_Os M_Archive S_History S_Archive
  P_Bitio P_Header P_Os P_Single P_Extract P_Read1 P_Accept P_List P_RoundTrip Properties_Slide.

(** The lemmas of P_Read1 about a new header object, for an old one. *)
Section Any.
  Variable E : env.
  Variable h0 : hdr.
  Variable e : entry0.
  Hypothesis FE : file_entry e.
  Variable dir base : list Z.
  Hypothesis ND : named e dir base.
  Let nm := dir ++ base.
  Let r0 := read0 h0 e.

  Lemma r0_name_any : Name r0 = nm ++ [0].
  Proof. unfold r0. cbn [read0 Name]. now rewrite (fe_back e FE dir base ND). Qed.

  (** The name under which the entry is extracted. *)
  Lemma name_base_any l : l_ignoredir l = false -> exists p, name_start l r0 = Ok (Some (r0, p)) /\ drop p (Name r0) = base ++ [0].
  Proof.
    intros H. pose proof (fe_slash e dir base ND) as FS. destruct (nd_dir _ _ _ ND) as [X|[d X]].
    - exists 0. assert (N : Name r0 = base ++ [0]) by (rewrite r0_name_any; unfold nm; now rewrite X). split; [|exact N]. now apply (name_start_plain l r0 base).
    - exists (zlen dir). assert (N : Name r0 = d ++ 47 :: base ++ [0]) by (rewrite r0_name_any; unfold nm; rewrite X, <- !app_assoc; reflexivity).
      assert (ZD : zlen dir = zlen d + 1) by (rewrite X, zlen_app; reflexivity). pose proof (zlen_nonneg d).
      assert (F' : Forall (fun c => c <> 47) (base ++ [0])) by (apply Forall_app1; [exact FS|discriminate]).
      assert (D1 : drop (zlen dir) (Name r0) = base ++ [0]).
      { rewrite r0_name_any. unfold nm. rewrite <- app_assoc. now apply drop_app. }
      split; [|exact D1]. unfold name_start. rewrite N, H. unfold LastIndex. rewrite last_index_app by exact F'. rewrite Z.add_0_l.
      destruct (Z.eqb_spec (zlen d) (-1)); [lia|]. rewrite (drop_app (zlen d) d _ eq_refl).
      unfold isDirectoryTraversal. cbn [traversal]. change (0 =? 0) with true. change (47 =? 46) with false. cbv iota. rewrite traversal_plain by exact FS.
      rewrite nth_error_app2 by (unfold zlen; lia). replace (Z.to_nat (zlen d) - length d)%nat with 0%nat by (unfold zlen; lia). cbn [nth_error].
      change (47 =? 47) with true. cbv iota. rewrite app_length. cbn [length].
      replace (S (length d + S (length (base ++ [0%Z]))))%nat with (S (S (length d + length (base ++ [0%Z]))))%nat by lia. cbn [skip_slashes].
      rewrite nth_error_app2 by (unfold zlen; lia). replace (Z.to_nat (zlen d) - length d)%nat with 0%nat by (unfold zlen; lia). cbn [nth_error].
      change (47 =? 47) with true. cbv iota. rewrite nth_error_app2 by (unfold zlen; lia). replace (Z.to_nat (zlen d + 1) - length d)%nat with 1%nat by (unfold zlen; lia).
      destruct (base ++ [0]) as [|c b] eqn:EB; [destruct base; discriminate|]. cbn [nth_error]. inversion F' as [|? ? Hc]; subst. apply Z.eqb_neq in Hc. rewrite Hc. cbn [bind].
      rewrite ZD. reflexivity.
  Qed.

  Lemma r0_reg_any : isRegular r0 = true.
  Proof. unfold isRegular, r0. cbn [read0 UnixMode]. change UnixFileTypemask with 61440. rewrite (fe_regular _ FE). reflexivity. Qed.

  Variable method : Z.
  Hypothesis Hmeth : method_num (e_method e) = Some method.
  Hypothesis Hdir : method <> LzhdirsMethodNum.

  (** Extracting to a file that does not exist. *)
  Lemma extract_file_any w data g2 crc out n rest :
    l_ignoredir (w_lha w) = false -> l_extractdir (w_lha w) = [] -> l_stdout (w_lha w) = false -> l_noexec (w_lha w) = false ->
    l_skip (w_lha w) = false -> w_verify w = false -> w_fs w base = None ->
    DecodeLzhuf method (l_broken (w_lha w)) (e_original e) (e_packed e) data (w_glob w) = Ok (g2, crc, out, n, rest) ->
    exists w', extractOne E r0 data w = Done (false, n, r0, rest) w' /\ w_fs w' base = Some (NFile out) /\ (forall q, q <> base -> w_fs w' q = w_fs w q) /\
      w_lha w' = w_lha w /\ w_glob w' = g2 /\ w_verify w' = false /\ w_stdin w' = w_stdin w.
  Proof.
    intros H1 H2 H3 H4 H5 H6 H7 D. unfold extractOne. istep. istep. istep. destruct (nd_base _ _ _ ND) as [Hne _].
    destruct (name_base_any (w_lha w) H1) as [p0 [NS DP]]. rewrite NS. istep. rewrite DP.
    rewrite (pathcheck_plain (w_lha w) _ base H2 (fe_slash e dir base ND)). istep. change (Method r0) with (e_method e). rewrite Hmeth, r0_reg_any.
    apply Z.eqb_neq in Hdir. rewrite Hdir. cbn [negb andb]. rewrite H3, H6. cbn [orb].
    pose proof (base_nul e FE dir base ND) as N. assert (L : lstat (w_fs w) base = SNotExist).
    { unfold lstat. rewrite N. destruct base; [contradiction|]. now rewrite H7. }
    unfold ask. rewrite bind_assoc, bind_getl, H5. unfold inquireExtract. rewrite !bind_assoc, bind_modl, bind_assoc, bind_get, bind_assoc, bind_get.
    set (w1 := set_wlha (set_skip false (w_lha w)) w). change (w_fs w1) with (w_fs w). rewrite L, bind_ret, bind_assoc, bind_getl, bind_ret. cbn [orb negb]. istep.
    assert (L1 : w_lha w1 = w_lha w) by (unfold w1; cbn [w_lha set_wlha]; destruct (w_lha w); cbn in H5 |- *; rewrite H5; reflexivity).
    rewrite L1, H5, H4. cbn [andb]. unfold os_create. rewrite bind_assoc, bind_get. change (w_fs w1) with (w_fs w). rewrite N.
    remember base as nm0 eqn:Enm in Hne, L, H7, N |- *. destruct nm0 as [|x nm0]; [contradiction|]. cbv zeta. rewrite (resolve_none (w_fs w) _ H7), H7.
    set (p := x :: nm0) in *. rewrite bind_assoc.
    set (w2 := W (run_op (OCreate p p) (w_fs w1)) (OCreate p p :: w_ops w1) (w_glob w1) (w_verify w1) (w_stdin w1) (w_lha w1) (w_out w1)).
    rewrite (bindIO_done (emit (OCreate p p)) _ w1 tt w2 eq_refl), bind_ret.
    unfold run_decode. istep. istep. istep. change (w_glob w2) with (w_glob w). change (w_lha w2) with (w_lha w1). change (w_verify w2) with (w_verify w). rewrite L1, H6.
    change (OriginalSize r0) with (e_original e). change (PackedSize r0) with (e_packed e). rewrite D. istep. istep. istep. cbn [andb].
    assert (C0 : w_fs (set_wglob g2 w2) p = Some (NFile [])) by (cbn [w2 w_fs set_wglob run_op]; apply fs_set_same).
    destruct (append_run p out [] _ C0) as [w3 [R3 [S3 [G3 C3]]]]. rewrite (bindIO_done _ _ _ _ _ R3). exists w3. split; [reflexivity|].
    split; [exact C3|]. split.
    - intros q Q. rewrite (sb_fs _ _ _ S3) by exact Q. cbn [w2 w_fs set_wglob run_op]. rewrite fs_set_other by exact Q. reflexivity.
    - rewrite (sb_lha _ _ _ S3), (sb_verify _ _ _ S3), (sb_stdin _ _ _ S3), G3. repeat split; auto.
  Qed.

End Any.

Definition everything : hdr -> IO bool := fun h => l <~ get w_lha ;;; ret (needFile l (Name h)).

(** An entry that can be decompressed wherever it is in the archive, leaving the
    reader at the next one. *)
Definition decodable (e : entry0) (data body : list Z) : Prop :=
  exists method, method_num (e_method e) = Some method /\ method <> LzhdirsMethodNum /\ copied method = false /\ e_packed e = zlen data /\
    forall cs g rest, after cs g -> bytes (data ++ rest) ->
      exists g2, DecodeLzhuf method false (e_original e) (e_packed e) (data ++ rest) g = Ok (g2, e_crc e, body, e_packed e, rest).

Lemma packs_decodable e data body : packs e data body -> decodable e data body.
Proof.
  intros (method & cs1 & g1 & eo & Hm & HB & Hne & A1 & HE & Hlt & HD & M1 & M2 & M3 & M4). exists method.
  split; [rewrite M1; destruct Hm as [-> | [-> | [-> _]]]; reflexivity|]. split; [unfold LzhdirsMethodNum; lia|].
  split; [destruct Hm as [-> | [-> | [-> _]]]; reflexivity|]. split; [exact M2|].
  intros cs g rest A B. apply Forall_app in B. destruct B as [B1 B2].
  destruct (round_trip_567 cs1 g1 cs g method body eo rest) as [Y1 [Y2 [Y3 [Y4 [g2 D]]]]]; auto.
  exists g2. rewrite M2, M3, HD, M4, <- Y3. rewrite Y4, <- Y2. exact D.
Qed.

Lemma extract_decodable E : forall es files h n w cs fuel,
  Forall2 (fun x f => file_entry (fst x) /\ (exists dir, named (fst x) dir (fst f)) /\ decodable (fst x) (snd x) (snd f)) es files ->
  NoDup (map fst files) -> (forall f, In f files -> w_fs w (fst f) = None) -> names_shrink n es -> Z.of_nat n < zlen (Name h) -> zlen (Method h) = 5 ->
  l_filec (w_lha w) = 0 -> l_broken (w_lha w) = false -> l_ignoredir (w_lha w) = false -> l_extractdir (w_lha w) = [] -> l_stdout (w_lha w) = false -> l_noexec (w_lha w) = false ->
  l_skip (w_lha w) = false -> w_verify w = false -> after cs (w_glob w) -> bytes (archive_bytes es) -> (length es < fuel)%nat ->
  exists w', extract_loop E fuel everything (one_file E) h (archive_bytes es) tt w = Done (tt, false) w' /\
    (forall f, In f files -> w_fs w' (fst f) = Some (NFile (snd f))) /\ (forall q, ~ In q (map fst files) -> w_fs w' q = w_fs w q).
Proof.
  induction es as [|[e data] es IH]; intros files h n w cs fuel F ND0 NF NS HN HM H1 H2 H3 H4 H5 H6 H7 H8 A B Hf.
  - inversion F; subst. destruct fuel; [cbn in Hf; lia|]. exists w. split; [reflexivity|]. split; [intros f []|auto].
  - destruct fuel; [cbn in Hf; lia|]. inversion F as [|? f ? files' F1 F2]; subst. destruct f as [base body]. cbn [fst snd map names_shrink] in *. destruct F1 as [FE [[dir ND] P]].
    destruct P as (method & MN & NM & _ & PD & P). destruct NS as [N1 N2].
    unfold archive_bytes in B. cbn [flat_map fst snd] in B. rewrite <- !app_assoc in B. change (flat_map _ es ++ [0]) with (archive_bytes es) in B.
    apply Forall_app in B. destruct B as [B1 B2]. pose proof B2 as B12. apply Forall_app in B2. destruct B2 as [B2 B3].
    destruct (P cs (w_glob w) (archive_bytes es) A B12) as [g2 D].
    unfold archive_bytes. cbn [flat_map fst snd]. rewrite <- !app_assoc. change (flat_map _ es ++ [0]) with (archive_bytes es).
    destruct (l0_method _ (fe_legal _ FE)) as [LM _].
    cbn [extract_loop]. rewrite (fe_get E e FE h); [|lia|unfold zlen in *; lia]. istep. cbn [negb]. unfold everything at 1. rewrite bind_assoc, bind_get, bind_ret. unfold needFile. rewrite H1. change (0 =? 0) with true. cbv iota.
    assert (D' : DecodeLzhuf method (l_broken (w_lha w)) (e_original e) (e_packed e) (data ++ archive_bytes es) (w_glob w) = Ok (g2, e_crc e, body, e_packed e, archive_bytes es)) by (rewrite H2; exact D).
    destruct (extract_file_any E h e FE dir base ND method MN NM w (data ++ archive_bytes es) g2 (e_crc e) body (e_packed e) (archive_bytes es) H3 H4 H5 H6 H7 H8 (NF _ (or_introl eq_refl)) D') as (w1 & X1 & X2 & X3 & X4 & X5 & X6 & X7).
    unfold one_file at 1. rewrite bind_assoc, (bindIO_done _ _ _ _ _ X1), bind_ret. cbv iota. change (PackedSize (read0 h e)) with (e_packed e). rewrite Z.eqb_refl.
    destruct (l0_original _ (fe_legal _ FE)) as [O1 _]. destruct (l0_packed _ (fe_legal _ FE)) as [O2 _].
    destruct (after_decode cs (w_glob w) _ _ _ _ _ _ _ _ _ _ A O1 O2 B12 D') as [cs' A']. rewrite <- X5 in A'.
    inversion ND0 as [|? ? NI ND']; subst.
    destruct (IH files' (read0 h e) (length (e_name e)) w1 cs' fuel) as (w' & W1 & W2 & W3); rewrite ?X4; auto.
    + intros f If. rewrite X3; [apply NF; now right|]. intros EQ. apply NI. rewrite <- EQ. now apply in_map.
    + cbn [read0 Name]. rewrite zlen_app. unfold slash_back. rewrite zlen_map. unfold zlen. cbn [length]. lia.
    + change (Method (read0 h e)) with (e_method e). unfold zlen. rewrite LM. reflexivity.
    + cbn [length] in Hf. lia.
    + exists w'. split; [exact W1|]. split.
      * intros f [<-|If]; [cbn [fst snd]; rewrite W3 by exact NI; exact X2|now apply W2].
      * intros q Q. rewrite W3 by (intros I; apply Q; now right). apply X3. intros ->. apply Q. now left.
Qed.

Lemma extract_all E es files h n w cs fuel :
  Forall2 (fun x f => file_entry (fst x) /\ (exists dir, named (fst x) dir (fst f)) /\ packs (fst x) (snd x) (snd f)) es files ->
  NoDup (map fst files) -> (forall f, In f files -> w_fs w (fst f) = None) -> names_shrink n es -> Z.of_nat n < zlen (Name h) -> zlen (Method h) = 5 ->
  l_filec (w_lha w) = 0 -> l_broken (w_lha w) = false -> l_ignoredir (w_lha w) = false -> l_extractdir (w_lha w) = [] -> l_stdout (w_lha w) = false -> l_noexec (w_lha w) = false ->
  l_skip (w_lha w) = false -> w_verify w = false -> after cs (w_glob w) -> bytes (archive_bytes es) -> (length es < fuel)%nat ->
  exists w', extract_loop E fuel everything (one_file E) h (archive_bytes es) tt w = Done (tt, false) w' /\
    (forall f, In f files -> w_fs w' (fst f) = Some (NFile (snd f))) /\ (forall q, ~ In q (map fst files) -> w_fs w' q = w_fs w q).
Proof.
  intros F. apply extract_decodable. induction F as [|x f es files (X1 & X2 & X3) F IH]; constructor; auto using packs_decodable.
Qed.

(** ** In memory, an entry chosen by its name *)

Definition choose (nm : list Z) (acc : list Z) (f : list Z * list Z) : list Z := if list_eqb (fst f) nm then snd f else acc.

Lemma stream_decodable E header nm : Name header = nm ++ [0] -> forall es files h n w acc cs fuel,
  Forall2 (fun x f => file_entry (fst x) /\ (exists dir base, named (fst x) dir base /\ fst f = dir ++ base) /\ decodable (fst x) (snd x) (snd f)) es files ->
  names_shrink n es -> Z.of_nat n < zlen (Name h) -> zlen (Method h) = 5 ->
  l_broken (w_lha w) = false -> l_noexec (w_lha w) = false -> w_verify w = false -> after cs (w_glob w) -> bytes (archive_bytes es) -> (length es < fuel)%nat ->
  exists w', extract_loop E fuel (by_name header) one_stream h (archive_bytes es) acc w = Done (fold_left (choose nm) files acc, false) w' /\ w_fs w' = w_fs w.
Proof.
  intros HN0. induction es as [|[e data] es IH]; intros files h n w acc cs fuel F NS HN HM H2 H6 H8 A B Hf.
  - inversion F; subst. destruct fuel; [cbn in Hf; lia|]. exists w. split; reflexivity.
  - destruct fuel; [cbn in Hf; lia|]. inversion F as [|? f ? files' F1 F2]; subst. destruct f as [name body]. cbn [fst snd map names_shrink] in *. destruct F1 as [FE [(dir & base & ND & EN) P]].
    destruct P as (method & MN & NM & _ & PD & P). destruct NS as [N1 N2].
    unfold archive_bytes in B. cbn [flat_map fst snd] in B. rewrite <- !app_assoc in B. change (flat_map _ es ++ [0]) with (archive_bytes es) in B.
    apply Forall_app in B. destruct B as [B1 B2]. pose proof B2 as B12. apply Forall_app in B2. destruct B2 as [B2 B3].
    destruct (P cs (w_glob w) (archive_bytes es) A B12) as [g2 D].
    unfold archive_bytes. cbn [flat_map fst snd]. rewrite <- !app_assoc. change (flat_map _ es ++ [0]) with (archive_bytes es).
    destruct (l0_method _ (fe_legal _ FE)) as [LM _].
    cbn [extract_loop]. rewrite (fe_get E e FE h); [|lia|unfold zlen in *; lia]. istep. cbn [negb]. unfold by_name at 1. rewrite bind_ret, (r0_name_any h e FE dir base ND), HN0.
    assert (C : list_eqb ((dir ++ base) ++ [0]) (nm ++ [0]) = list_eqb name nm).
    { rewrite EN. apply Bool.eq_iff_eq_true. rewrite !list_eqb_eq. split; [intros X; now apply app_inv_tail in X|now intros ->]. }
    assert (HN' : Z.of_nat (length (e_name e)) < zlen (Name (read0 h e))). { cbn [read0 Name]. rewrite zlen_app. unfold slash_back. rewrite zlen_map. unfold zlen. cbn [length]. lia. }
    assert (HM' : zlen (Method (read0 h e)) = 5). { change (Method (read0 h e)) with (e_method e). unfold zlen. rewrite LM. reflexivity. }
    destruct (l0_original _ (fe_legal _ FE)) as [O1 _]. destruct (l0_packed _ (fe_legal _ FE)) as [O2 _].
    rewrite C. cbn [fold_left]. unfold choose at 2. cbn [fst snd]. destruct (list_eqb name nm).
    + destruct (after_decode cs (w_glob w) _ _ _ _ _ _ _ _ _ _ A O1 O2 B12 D) as [cs' A'].
      assert (EX : extractOneStream (read0 h e) (data ++ archive_bytes es) w = Done (false, e_packed e, body, archive_bytes es) (set_wglob g2 w)).
      { unfold extractOneStream. change (Method (read0 h e)) with (e_method e). rewrite MN, (r0_reg_any h e FE). apply Z.eqb_neq in NM. rewrite NM. cbn [negb andb].
        istep. rewrite H6. unfold run_decode. istep. istep. istep. rewrite H2, H8. change (OriginalSize (read0 h e)) with (e_original e). change (PackedSize (read0 h e)) with (e_packed e). rewrite D.
        istep. istep. istep. change (HasCrc (read0 h e)) with true. change (Crc (read0 h e)) with (e_crc e). rewrite Z.eqb_refl. reflexivity. }
      unfold one_stream at 1. rewrite bind_assoc, (bindIO_done _ _ _ _ _ EX), bind_ret. cbv iota. change (PackedSize (read0 h e)) with (e_packed e). rewrite Z.eqb_refl.
      destruct (IH files' (read0 h e) (length (e_name e)) (set_wglob g2 w) body cs' fuel) as (w' & W1 & W2); auto; [cbn [length] in Hf; lia|]. exists w'. auto.
    + assert (SK : exists b, skipToNextpos (e_packed e) (data ++ archive_bytes es) = (b, archive_bytes es)).
      { unfold skipToNextpos. rewrite PD. destruct (Z.eqb_spec (zlen data) 0) as [Z0|Z0].
        - destruct data; [eauto|rewrite zlen_cons in Z0; pose proof (zlen_nonneg data); lia].
        - destruct (data ++ archive_bytes es) eqn:X; [apply app_eq_nil in X; destruct X as [-> _]; now contradiction Z0|]. rewrite <- X, drop_app by reflexivity. eauto. }
      destruct SK as [b SK]. change (PackedSize (read0 h e)) with (e_packed e). rewrite SK.
      destruct (IH files' (read0 h e) (length (e_name e)) w acc cs fuel) as (w' & W1 & W2); auto; [cbn [length] in Hf; lia|]. exists w'. auto.
Qed.
