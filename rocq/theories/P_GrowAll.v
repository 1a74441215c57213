(** Extracting the entries of an archive whose names are of any length. *)
From Verif Require Import Go GoLemmas M_Crc M_Bitio M_Maketree M_Maketbl M_Huf M_Slide M_Lzhuf S_Header S_Listing S_Grow M_Header M_Os M_Archive S_History S_Archive
  P_Bitio P_Header P_Os P_Single P_Extract P_Read1 P_Accept P_List P_RoundTrip P_ExtractAll P_Verify P_Grow Properties_Slide.

(** The last slash of a list. *)
Lemma last_slash (N : list Z) : Forall (fun c => c <> 47) N \/ exists d b, N = d ++ 47 :: b /\ Forall (fun c => c <> 47) b.
Proof.
  induction N as [|x N [F|(d & b & -> & F)]]; [now left| |right; exists (x :: d), b; auto].
  destruct (Z.eq_dec x 47) as [->|H]; [right; exists [], N; auto|left; now constructor].
Qed.

(** Where the name that ends in NUL starts, whatever it is. *)
Lemma name_start_nul l h M : l_ignoredir l = false -> Name h = M ++ [0] -> ExtendType h <> ExtendOs68k -> ExtendType h <> ExtendXosk ->
  exists p b, name_start l h = Ok (Some (h, p)) /\ drop p (Name h) = b ++ [0] /\ Forall (fun c => c <> 47) b /\ exists d, M = d ++ b.
Proof.
  intros H HN T1 T2. destruct (last_slash M) as [F|(d & b & -> & F)].
  - exists 0, M. split; [now apply (name_start_plain l h M)|]. split; [exact HN|]. split; [exact F|]. now exists [].
  - pose proof (zlen_nonneg d). exists (zlen d + 1), b. assert (N : Name h = d ++ 47 :: b ++ [0]) by (rewrite HN, <- app_assoc; reflexivity).
    assert (F' : Forall (fun c => c <> 47) (b ++ [0])) by (apply Forall_app1; [exact F|discriminate]).
    assert (D1 : drop (zlen d + 1) (Name h) = b ++ [0]).
    { rewrite N. replace (d ++ 47 :: b ++ [0]) with ((d ++ [47]) ++ b ++ [0]) by (rewrite <- app_assoc; reflexivity). apply drop_app. rewrite zlen_app. reflexivity. }
    split; [|split; [exact D1|split; [exact F|exists (d ++ [47]); rewrite <- app_assoc; reflexivity]]].
    unfold name_start. rewrite N, H. unfold LastIndex. rewrite last_index_app by exact F'. rewrite Z.add_0_l.
    destruct (Z.eqb_spec (zlen d) (-1)); [lia|]. rewrite (drop_app (zlen d) d _ eq_refl).
    unfold isDirectoryTraversal. cbn [traversal]. change (0 =? 0) with true. change (47 =? 46) with false. cbv iota. rewrite traversal_plain by exact F.
    rewrite nth_error_app2 by (unfold zlen; lia). replace (Z.to_nat (zlen d) - length d)%nat with 0%nat by (unfold zlen; lia). cbn [nth_error].
    change (47 =? 47) with true. cbv iota. rewrite app_length. cbn [length].
    replace (S (length d + S (length (b ++ [0%Z]))))%nat with (S (S (length d + length (b ++ [0%Z]))))%nat by lia. cbn [skip_slashes].
    rewrite nth_error_app2 by (unfold zlen; lia). replace (Z.to_nat (zlen d) - length d)%nat with 0%nat by (unfold zlen; lia). cbn [nth_error].
    change (47 =? 47) with true. cbv iota. rewrite nth_error_app2 by (unfold zlen; lia). replace (Z.to_nat (zlen d + 1) - length d)%nat with 1%nat by (unfold zlen; lia).
    destruct (b ++ [0]) as [|c b'] eqn:EB; [destruct b; discriminate|]. cbn [nth_error]. inversion F' as [|? ? Hc]; subst. apply Z.eqb_neq in Hc. rewrite Hc. cbn [bind].
    apply Z.eqb_neq in T1, T2. rewrite T1, T2. reflexivity.
Qed.

Section Cut.
  Variable E : env.
  Variable h0 : hdr.
  Variable e : entry0.
  Hypothesis FE : file_entry e.
  Let n := zlen (Name h0) - 1.
  Hypothesis HN : 0 < zlen (Name h0) <= zlen (e_name e).
  Hypothesis HU : ~ In (byte_at (from_name e) (n + 2)) [85; 75; 88].
  Let hc := readcut (e_opts E) h0 n e.

  Lemma hc_name : exists f, f 0 = 0 /\ Name hc = map f (take n (e_name e)) ++ zeros (zlen (e_name e) + 1 - n).
  Proof.
    unfold hc, readcut. cbn [Name].
    assert (X : forall from to cs, (forall c, In c from -> c <> 0) -> conv_byte from to cs 0 = 0).
    { intros from to cs F. unfold conv_byte, delim_index. change (0 <? 128) with true. cbv iota.
      assert (I0 : index_of 0 from = None). { induction from as [|c from IH]; cbn [index_of]; [reflexivity|]. destruct (Z.eqb_spec c 0) as [->|_]; [now destruct (F 0 (or_introl eq_refl))|]. rewrite IH; [reflexivity|]. intros d Hd. apply F. now right. }
      rewrite I0. destruct (cs =? toUpper), (cs =? toLower); reflexivity. }
    assert (Y : forall from to cs k l, (forall c, In c from -> c <> 0) -> exists f, f 0 = 0 /\ convertFilename (l ++ zeros k) codeSJIS from to cs = map f l ++ zeros k).
    { intros from to cs k l F. unfold convertFilename. cbv zeta. match goal with |- exists f, _ /\ map ?g _ = _ => exists g; assert (G0 : g 0 = 0) by (now apply X); generalize dependent g end. intros g G0. split; [exact G0|]. rewrite map_app. f_equal. unfold zeros. induction (Z.to_nat k) as [|j IH]; cbn [repeat map]; [reflexivity|]. now rewrite IH, G0. }
    destruct (_ =? ExtendMacos); apply Y; intros c Hc; cbn in Hc; intuition lia.
  Qed.

  Lemma hc_name_len : zlen (Name hc) = zlen (e_name e) + 1.
  Proof.
    destruct hc_name as [f [_ ->]]. rewrite zlen_app, zlen_map, zlen_zeros, zlen_take_min by (unfold n; lia). unfold n. lia.
  Qed.

  Lemma hc_get rest : zlen (Method h0) >= 5 -> GetHeader (e_opts E) h0 (layout0 e ++ rest) = Ok (ENil, true, hc, rest).
  Proof.
    intros HM. apply GetHeader_cut; [apply FE|exact HM|exact HN|]. intros X. apply HU. replace (n + 2) with (zlen (Name h0) + 1) by (unfold n; lia). rewrite X. now left.
  Qed.

  Lemma hc_base l : l_ignoredir l = false -> exists p b, name_start l hc = Ok (Some (hc, p)) /\ drop p (Name hc) = b ++ [0] /\ Forall (fun c => c <> 47) b /\ (b = [] \/ exists b', b = b' ++ [0]).
  Proof.
    intros H1. destruct hc_name as [f [_ NM]].
    assert (NZ : Name hc = (map f (take n (e_name e)) ++ zeros (zlen (e_name e) - n)) ++ [0]).
    { rewrite NM, <- app_assoc. f_equal. unfold zeros. rewrite <- repeat_cons. replace (Z.to_nat (zlen (e_name e) + 1 - n)) with (S (Z.to_nat (zlen (e_name e) - n))) by (unfold n; lia). reflexivity. }
    destruct (name_start_nul l hc _ H1 NZ) as (p & b & NS & DP & F & d & DB).
    { change (ExtendType hc) with (byte_at (from_name e) (n + 2)). intros X. apply HU. rewrite X. right. now left. }
    { change (ExtendType hc) with (byte_at (from_name e) (n + 2)). intros X. apply HU. rewrite X. do 2 right. now left. }
    exists p, b. split; [exact NS|]. split; [exact DP|]. split; [exact F|].
    destruct b as [|x b] using rev_ind; [now left|right]. clear IHb. rewrite app_assoc in DB.
    replace (zeros (zlen (e_name e) - n)) with (zeros (zlen (e_name e) - n - 1) ++ [0]) in DB.
    - rewrite app_assoc in DB. apply app_inj_tail in DB. destruct DB as [_ <-]. now exists b.
    - unfold zeros. rewrite <- repeat_cons. replace (Z.to_nat (zlen (e_name e) - n)) with (S (Z.to_nat (zlen (e_name e) - n - 1))) by (unfold n; lia). reflexivity.
  Qed.

  (** Such an entry is left out. *)
  Lemma extract_cut w method data : method_num (e_method e) = Some method -> method <> LzhdirsMethodNum ->
    l_ignoredir (w_lha w) = false -> l_extractdir (w_lha w) = [] -> l_stdout (w_lha w) = false -> l_noexec (w_lha w) = false ->
    l_skip (w_lha w) = false -> w_verify w = false ->
    extractOne E hc data w = Done (false, 0, hc, data) w.
  Proof.
    intros MN ND H1 H2 H3 H4 H5 H6. unfold extractOne. istep. istep. istep.
    destruct (hc_base (w_lha w) H1) as (p & b & NS & DP & F & EB).
    rewrite NS. istep. rewrite DP, (pathcheck_plain (w_lha w) _ b H2 F). istep. change (Method hc) with (e_method e). rewrite MN.
    change (isRegular hc) with true. apply Z.eqb_neq in ND. rewrite ND. cbn [negb andb]. rewrite H3, H6. cbn [orb].
    assert (NU : has_nul b = true \/ b = []).
    { destruct EB as [->|[b' ->]]; [now right|left]. unfold has_nul. apply existsb_exists. exists 0. split; [apply in_or_app; right; now left|reflexivity]. }
    unfold ask. rewrite bind_assoc, bind_getl, H5. unfold inquireExtract. rewrite !bind_assoc, bind_modl, bind_assoc, bind_get, bind_assoc, bind_get.
    assert (L1 : set_wlha (set_skip false (w_lha w)) w = w) by (destruct w as [? ? ? ? ? [] ?]; cbn in H5; subst; reflexivity).
    rewrite L1.
    assert (CR : os_create b w = Done None w) by (unfold os_create; rewrite bind_get; destruct NU as [-> | ->]; [reflexivity|]; destruct (has_nul []); reflexivity).
    destruct NU as [NU| ->].
    - unfold lstat. rewrite NU. rewrite bind_ret, bind_assoc, bind_getl, bind_ret. cbn [orb]. istep. destruct (l_force (w_lha w)); cbn [negb]; [|reflexivity].
      rewrite H5, H4. cbn [andb]. rewrite (bindIO_done _ _ _ _ _ CR). reflexivity.
    - change (lstat (w_fs w) []) with SNotExist. cbv iota. rewrite bind_ret, bind_assoc, bind_getl, bind_ret. cbn [orb negb]. istep.
      rewrite H5, H4. cbn [andb]. rewrite (bindIO_done _ _ _ _ _ CR). reflexivity.
  Qed.

  (** Tested or printed, it has the wrong name and the wrong CRC. *)
  Lemma extract_cut_test w method data g2 crc out m rest : method_num (e_method e) = Some method -> method <> LzhdirsMethodNum ->
    l_ignoredir (w_lha w) = false -> l_extractdir (w_lha w) = [] -> l_noexec (w_lha w) = false -> l_stdout (w_lha w) || w_verify w = true ->
    DecodeLzhuf method (l_broken (w_lha w)) (e_original e) (e_packed e) data (w_glob w) = Ok (g2, crc, out, m, rest) -> crc <> Crc hc ->
    exists b, (b = [] \/ exists b', b = b' ++ [0]) /\ extractOne E hc data w = Done (true, 0, hc, rest)
      (printed (if w_verify w && negb (copied method) then [] else out) (set_wglob g2 (printed (if l_stdout (w_lha w) then banner b else []) w))).
  Proof.
    intros MN ND H1 H2 H4 H6 D NC. unfold extractOne.
    destruct (hc_base (w_lha w) H1) as (p & b & NS & DP & F & EB). exists b. split; [exact EB|]. istep. istep. istep.
    rewrite NS. istep. rewrite DP, (pathcheck_plain (w_lha w) _ b H2 F). istep. change (Method hc) with (e_method e). rewrite MN.
    change (isRegular hc) with true. apply Z.eqb_neq in ND. rewrite ND. cbn [negb andb]. rewrite H6.
    assert (BB : list_eqb (Base b) [73; 99; 111; 110; 13] = false).
    { destruct EB as [->|[b' ->]]; [reflexivity|]. destruct (list_eqb (Base (b' ++ [0])) _) eqn:Q; [|reflexivity]. apply list_eqb_eq in Q. exfalso.
      assert (R : rev (strip_slashes (rev (b' ++ [0]))) = b' ++ [0]) by (rewrite rev_app_distr; cbn [rev app strip_slashes]; change (0 =? 47) with false; cbv iota; change (0 :: rev b') with (rev [0] ++ rev b'); rewrite <- rev_app_distr; apply rev_involutive).
      assert (Q' : drop (LastIndex 47 (b' ++ [0]) + 1) (b' ++ [0]) = [73; 99; 111; 110; 13]).
      { rewrite <- Q. unfold Base. rewrite R. destruct (b' ++ [0]) eqn:EQ; [destruct b'; discriminate|reflexivity]. }
      unfold LastIndex in Q'. rewrite last_index_none in Q' by exact F. change (-1 + 1) with 0 in Q'. change (drop 0 ?x) with x in Q'.
      apply (f_equal (fun l => last l 1)) in Q'. rewrite last_last in Q'. discriminate Q'. }
    rewrite BB, andb_false_r, H4. istep. set (w1 := printed (if l_stdout (w_lha w) then banner b else []) w).
    destruct (printed_same (if l_stdout (w_lha w) then banner b else []) w) as (_ & _ & G1 & V1 & L1 & _). fold w1 in G1, V1, L1.
    unfold run_decode. istep. istep. istep. change (OriginalSize hc) with (e_original e). change (PackedSize hc) with (e_packed e).
    rewrite L1, G1, V1, D. istep. istep. istep. istep. change (HasCrc hc) with true. apply Z.eqb_neq in NC. rewrite NC. reflexivity.
  Qed.
End Cut.

Lemma tail_from n e : Z.of_nat n < zlen (e_name e) -> nth 2 (tail n e) 0 = byte_at (from_name e) (Z.of_nat n + 2).
Proof.
  intros H. unfold tail, byte_at, from_name. rewrite nth_skipn. rewrite app_assoc. symmetry. rewrite app_nth1; [f_equal; lia|]. rewrite app_length. unfold zlen in H. cbn [length le16]. lia.
Qed.

Lemma grow_extract E : forall es files h n w cs fuel,
  Forall2 (fun x f => file_entry (fst x) /\ (exists dir, named (fst x) dir (fst f)) /\ decodable (fst x) (snd x) (snd f)) es files ->
  NoDup (map fst (fitting n es files)) -> (forall f, In f (fitting n es files) -> w_fs w (fst f) = None) -> unmarked n es ->
  Z.of_nat n < zlen (Name h) -> (Z.of_nat n + 1 = zlen (Name h) \/ n = 221%nat) -> zlen (Method h) = 5 ->
  l_filec (w_lha w) = 0 -> l_broken (w_lha w) = false -> l_ignoredir (w_lha w) = false -> l_extractdir (w_lha w) = [] -> l_stdout (w_lha w) = false -> l_noexec (w_lha w) = false ->
  l_skip (w_lha w) = false -> w_verify w = false -> after cs (w_glob w) -> bytes (archive_bytes es) -> (length es < fuel)%nat ->
  exists w', extract_loop E fuel everything (one_file E) h (archive_bytes es) tt w = Done (tt, false) w' /\
    (forall f, In f (fitting n es files) -> w_fs w' (fst f) = Some (NFile (snd f))) /\ (forall q, ~ In q (map fst (fitting n es files)) -> w_fs w' q = w_fs w q).
Proof.
  induction es as [|[e data] es IH]; intros files h n w cs fuel F ND0 NF UM HN HN2 HM H1 H2 H3 H4 H5 H6 H7 H8 A B Hf.
  - inversion F; subst. destruct fuel; [cbn in Hf; lia|]. exists w. split; [reflexivity|]. split; [intros f []|auto].
  - destruct fuel; [cbn in Hf; lia|]. inversion F as [|? f ? files' F1 F2]; subst. destruct f as [base body]. cbn [fst snd map fitting unmarked] in *. destruct F1 as [FE [[dir ND] P]].
    destruct P as (method & MN & NM & _ & PD & P). destruct UM as [U1 U2].
    unfold archive_bytes in B. cbn [flat_map fst snd] in B. rewrite <- !app_assoc in B. change (flat_map _ es ++ [0]) with (archive_bytes es) in B.
    apply Forall_app in B. destruct B as [B1 B2]. pose proof B2 as B12. apply Forall_app in B2. destruct B2 as [B2 B3].
    unfold archive_bytes. cbn [flat_map fst snd]. rewrite <- !app_assoc. change (flat_map _ es ++ [0]) with (archive_bytes es).
    destruct (l0_method _ (fe_legal _ FE)) as [LM _]. destruct (l0_name _ (fe_legal _ FE)) as [LN _].
    cbn [extract_loop].
    destruct (Nat.leb_spec (length (e_name e)) n) as [LE|GT].
    + rewrite (fe_get E e FE h); [|lia|unfold zlen in *; lia]. istep. cbn [negb]. unfold everything at 1. rewrite bind_assoc, bind_get, bind_ret. unfold needFile. rewrite H1. change (0 =? 0) with true. cbv iota.
      destruct (P cs (w_glob w) (archive_bytes es) A B12) as [g2 D].
      assert (D' : DecodeLzhuf method (l_broken (w_lha w)) (e_original e) (e_packed e) (data ++ archive_bytes es) (w_glob w) = Ok (g2, e_crc e, body, e_packed e, archive_bytes es)) by (rewrite H2; exact D).
      destruct (extract_file_any E h e FE dir base ND method MN NM w (data ++ archive_bytes es) g2 (e_crc e) body (e_packed e) (archive_bytes es) H3 H4 H5 H6 H7 H8 (NF _ (or_introl eq_refl)) D') as (w1 & X1 & X2 & X3 & X4 & X5 & X6 & X7).
      unfold one_file at 1. rewrite bind_assoc, (bindIO_done _ _ _ _ _ X1), bind_ret. cbv iota. change (PackedSize (read0 h e)) with (e_packed e). rewrite Z.eqb_refl.
      destruct (l0_original _ (fe_legal _ FE)) as [O1 _]. destruct (l0_packed _ (fe_legal _ FE)) as [O2 _].
      destruct (after_decode cs (w_glob w) _ _ _ _ _ _ _ _ _ _ A O1 O2 B12 D') as [cs' A']. rewrite <- X5 in A'.
      cbn [app map fst] in *. inversion ND0 as [|? ? NI ND']; subst.
      destruct (IH files' (read0 h e) (length (e_name e)) w1 cs' fuel) as (w' & W1 & W2 & W3); rewrite ?X4; auto.
      * intros f If. rewrite X3; [apply NF; now right|]. intros EQ. apply NI. rewrite <- EQ. now apply in_map.
      * cbn [read0 Name]. rewrite zlen_app. unfold slash_back. rewrite zlen_map. unfold zlen. cbn [length]. lia.
      * left. cbn [read0 Name]. rewrite zlen_app. unfold slash_back. rewrite zlen_map. reflexivity.
      * change (Method (read0 h e)) with (e_method e). unfold zlen. rewrite LM. reflexivity.
      * cbn [length] in Hf. lia.
      * exists w'. split; [exact W1|]. split.
        -- intros f [<-|If]; [cbn [fst snd]; rewrite W3 by exact NI; exact X2|now apply W2].
        -- intros q Q. rewrite W3 by (intros I; apply Q; now right). apply X3. intros ->. apply Q. now left.
    + destruct HN2 as [HN2| ->]; [|lia].
      assert (HN' : 0 < zlen (Name h) <= zlen (e_name e)) by (unfold zlen in *; lia).
      assert (HU : ~ In (byte_at (from_name e) (zlen (Name h) - 1 + 2)) [85; 75; 88]).
      { replace (zlen (Name h) - 1 + 2) with (Z.of_nat n + 2) by lia. rewrite <- tail_from by (unfold zlen; lia). now apply U1. }
      rewrite (hc_get E h e FE HN' HU) by lia. istep. cbn [negb]. unfold everything at 1. rewrite bind_assoc, bind_get, bind_ret. unfold needFile. rewrite H1. change (0 =? 0) with true. cbv iota.
      unfold one_file at 1. rewrite bind_assoc, (bindIO_done _ _ _ _ _ (extract_cut E h e HN' HU w method (data ++ archive_bytes es) MN NM H3 H4 H5 H6 H7 H8)), bind_ret. cbv iota.
      set (hc := readcut _ _ _ _). change (PackedSize hc) with (e_packed e).
      assert (GO : (if 0 =? e_packed e then extract_loop E fuel everything (one_file E) hc (data ++ archive_bytes es) tt
                    else let '(ok, rest) := skipToNextpos (e_packed e) (data ++ archive_bytes es) in if (ok : bool) then extract_loop E fuel everything (one_file E) hc rest tt else ret (tt, true)) w
                  = extract_loop E fuel everything (one_file E) hc (archive_bytes es) tt w).
      { destruct (Z.eqb_spec 0 (e_packed e)) as [Q|Q].
        - destruct data as [|x data]; [reflexivity|]. rewrite PD, zlen_cons in Q. pose proof (zlen_nonneg data). lia.
        - unfold skipToNextpos. destruct (Z.eqb_spec (e_packed e) 0); [lia|]. destruct data as [|x data]; [rewrite PD in Q; now destruct Q|].
          rewrite PD. rewrite (drop_app (zlen (x :: data)) (x :: data) (archive_bytes es) eq_refl). reflexivity. }
      rewrite GO. cbn [app] in *.
      apply (IH files' hc (length (e_name e)) w cs fuel); auto.
      * unfold hc. rewrite (hc_name_len E h e HN'). unfold zlen. lia.
      * left. unfold hc. rewrite (hc_name_len E h e HN'). reflexivity.
      * change (Method hc) with (e_method e). unfold zlen. rewrite LM. reflexivity.
      * cbn [length] in Hf. lia.
Qed.

Lemma tail_crc n e : legal0 e -> (n < length (e_name e))%nat -> firstn 2 (tail n e) <> le16 (e_crc e) ->
  e_crc e <> byte_at (from_name e) (Z.of_nat n) + 256 * byte_at (from_name e) (Z.of_nat n + 1).
Proof.
  intros L H X Y. apply X. destruct (l0_name _ L) as [_ BN]. pose proof (l0_crc _ L) as CC.
  assert (FB : Forall (fun b => 0 <= b < 256) (e_name e ++ le16 (e_crc e))).
  { apply Forall_app. split; [exact BN|]. repeat constructor; apply Z.mod_pos_bound; lia. }
  assert (T : forall k, (k < 2)%nat -> byte_at (from_name e) (Z.of_nat n + Z.of_nat k) = nth k (tail n e) 0 /\ 0 <= nth k (tail n e) 0 < 256).
  { intros k Hk. unfold tail, byte_at, from_name. rewrite nth_skipn, app_assoc. rewrite app_nth1 by (rewrite app_length; cbn [le16 length]; lia).
    replace (Z.to_nat (Z.of_nat n + Z.of_nat k)) with (n + k)%nat by lia. split; [reflexivity|].
    rewrite Forall_forall in FB. apply FB, nth_In. rewrite app_length. cbn [le16 length]. lia. }
  destruct (T 0%nat) as [T0 R0]; [lia|]. destruct (T 1%nat) as [T1 R1]; [lia|]. rewrite Z.add_0_r in T0. change (Z.of_nat 1) with 1 in T1. rewrite T0, T1 in Y. clear T T0 T1.
  assert (L2 : (2 <= length (tail n e))%nat) by (unfold tail; rewrite skipn_length, app_length; cbn [le16 length]; lia).
  destruct (tail n e) as [|a [|b t]]; cbn [length] in L2; [lia..|]. cbn [nth firstn] in *. unfold le16. rewrite Y.
  replace (a + 256 * b) with (a + b * 256) by lia. rewrite Z.mod_add, Z.div_add, (Z.mod_small a), (Z.div_small a), Z.add_0_l, (Z.mod_small b) by lia. reflexivity.
Qed.

(** Testing and printing end at the first entry whose name is longer than the one
    before it. *)
Lemma grow_test E : forall es files h n w cs fuel,
  Forall2 (fun x f => file_entry (fst x) /\ (exists dir, named (fst x) dir (fst f)) /\ decodable (fst x) (snd x) (snd f)) es files ->
  unmarked n es -> shifted n es -> ~ names_shrink n es -> Z.of_nat n < zlen (Name h) -> (Z.of_nat n + 1 = zlen (Name h) \/ n = 221%nat) -> zlen (Method h) = 5 ->
  l_filec (w_lha w) = 0 -> l_broken (w_lha w) = false -> l_ignoredir (w_lha w) = false -> l_extractdir (w_lha w) = [] -> l_noexec (w_lha w) = false -> l_stdout (w_lha w) || w_verify w = true ->
  after cs (w_glob w) -> bytes (archive_bytes es) -> (length es < fuel)%nat ->
  exists w' f b, extract_loop E fuel everything (one_file E) h (archive_bytes es) tt w = Done (tt, true) w' /\
    w_fs w' = w_fs w /\ w_ops w' = w_ops w /\ nth_error files (length (leading n es files)) = Some f /\ b <> fst f /\
    w_out w' = w_out w ++ flat_map (fun f => (if l_stdout (w_lha w) then banner (fst f) else []) ++ (if w_verify w then [] else snd f)) (leading n es files ++ [(b, snd f)]).
Proof.
  induction es as [|[e data] es IH]; intros files h n w cs fuel F UM SH NS HN HN2 HM H1 H2 H3 H4 H5 H6 A B Hf; [now destruct NS|].
  destruct fuel; [cbn in Hf; lia|]. inversion F as [|? f ? files' F1 F2]; subst. destruct f as [base body]. cbn [fst snd map leading unmarked shifted names_shrink] in *. destruct F1 as [FE [[dir ND] P]].
  destruct P as (method & MN & NM & MC & PD & P). destruct UM as [U1 U2]. destruct SH as [S1 S2].
  unfold archive_bytes in B. cbn [flat_map fst snd] in B. rewrite <- !app_assoc in B. change (flat_map _ es ++ [0]) with (archive_bytes es) in B.
  apply Forall_app in B. destruct B as [B1 B2]. pose proof B2 as B12. apply Forall_app in B2. destruct B2 as [B2 B3].
  unfold archive_bytes. cbn [flat_map fst snd]. rewrite <- !app_assoc. change (flat_map _ es ++ [0]) with (archive_bytes es).
  destruct (l0_method _ (fe_legal _ FE)) as [LM _]. destruct (l0_name _ (fe_legal _ FE)) as [LN _].
  destruct (P cs (w_glob w) (archive_bytes es) A B12) as [g2 D]. rewrite <- H2 in D.
  cbn [extract_loop].
  destruct (Nat.leb_spec (length (e_name e)) n) as [LE|GT].
  + rewrite (fe_get E e FE h); [|lia|unfold zlen in *; lia]. istep. cbn [negb]. unfold everything at 1. rewrite bind_assoc, bind_get, bind_ret. unfold needFile. rewrite H1. change (0 =? 0) with true. cbv iota.
    unfold one_file at 1.
    rewrite bind_assoc, (bindIO_done _ _ _ _ _ (extract_test E h e dir base method w (data ++ archive_bytes es) g2 (e_crc e) body (e_packed e) (archive_bytes es) FE ND MN NM H3 H4 H5 H6 D)).
    rewrite Z.eqb_refl, bind_ret. cbv beta iota zeta. change (PackedSize (read0 h e)) with (e_packed e). rewrite Z.eqb_refl.
    destruct (l0_original _ (fe_legal _ FE)) as [O1 _]. destruct (l0_packed _ (fe_legal _ FE)) as [O2 _].
    destruct (after_decode cs (w_glob w) _ _ _ _ _ _ _ _ _ _ A O1 O2 B12 D) as [cs' A'].
    set (l1 := if l_stdout (w_lha w) then banner base else []). set (l2 := if w_verify w && negb (copied method) then [] else body).
    set (w1 := printed l2 (set_wglob g2 (printed l1 w))).
    destruct (printed_same l2 (set_wglob g2 (printed l1 w))) as (X1 & X2 & X3 & X4 & X5 & X6). fold w1 in X1, X2, X3, X4, X5, X6.
    destruct (printed_same l1 w) as (Y1 & Y2 & Y3 & Y4 & Y5 & Y6). cbn [set_wglob w_fs w_ops w_glob w_verify w_lha w_out] in X1, X2, X3, X4, X5, X6.
    rewrite Y1 in X1. rewrite Y2 in X2. rewrite Y4 in X4. rewrite Y5 in X5. rewrite Y6, <- app_assoc in X6.
    destruct (IH files' (read0 h e) (length (e_name e)) w1 cs' fuel) as (w' & f & b & W & Z1 & Z2 & Z3 & Z4 & Z5); rewrite ?X5, ?X4; auto.
    { cbn [read0 Name]. rewrite zlen_app. unfold slash_back. rewrite zlen_map. unfold zlen. cbn [length]. lia. }
    { left. cbn [read0 Name]. rewrite zlen_app. unfold slash_back. rewrite zlen_map. reflexivity. }
    { change (Method (read0 h e)) with (e_method e). unfold zlen. rewrite LM. reflexivity. }
    { rewrite X3. exact A'. }
    { cbn [length] in Hf. lia. }
    exists w', f, b. split; [exact W|]. split; [congruence|]. split; [congruence|]. split; [exact Z3|]. split; [exact Z4|].
    rewrite Z5, X6, X5, X4, <- app_assoc. unfold l2. rewrite MC, andb_true_r. cbn [app flat_map fst snd]. fold l1. now rewrite <- !app_assoc.
  + destruct HN2 as [HN2| ->]; [|lia].
    assert (HN' : 0 < zlen (Name h) <= zlen (e_name e)) by (unfold zlen in *; lia).
    assert (HU : ~ In (byte_at (from_name e) (zlen (Name h) - 1 + 2)) [85; 75; 88]).
    { replace (zlen (Name h) - 1 + 2) with (Z.of_nat n + 2) by lia. rewrite <- tail_from by (unfold zlen; lia). now apply U1. }
    rewrite (hc_get E h e FE HN' HU) by lia. istep. cbn [negb]. unfold everything at 1. rewrite bind_assoc, bind_get, bind_ret. unfold needFile. rewrite H1. change (0 =? 0) with true. cbv iota.
    unfold one_file at 1.
    destruct (extract_cut_test E h e HN' HU w method (data ++ archive_bytes es) g2 (e_crc e) body (e_packed e) (archive_bytes es) MN NM H3 H4 H5 H6 D) as (b & EB & X).
    { unfold readcut. cbn [Crc]. replace (zlen (Name h) - 1 + 1) with (Z.of_nat n + 1) by lia. replace (zlen (Name h) - 1) with (Z.of_nat n) by lia. apply tail_crc; [apply FE|exact GT|now apply S1]. }
    rewrite bind_assoc, (bindIO_done _ _ _ _ _ X), bind_ret. cbv beta iota zeta.
    set (l1 := if l_stdout (w_lha w) then banner b else []). set (l2 := if w_verify w && negb (copied method) then [] else body).
    destruct (printed_same l2 (set_wglob g2 (printed l1 w))) as (X1 & X2 & X3 & X4 & X5 & X6).
    destruct (printed_same l1 w) as (Y1 & Y2 & Y3 & Y4 & Y5 & Y6). cbn [set_wglob w_fs w_ops w_glob w_verify w_lha w_out] in X1, X2, X3, X4, X5, X6.
    eexists _, (base, body), b. split; [reflexivity|]. split; [congruence|]. split; [congruence|]. split; [reflexivity|]. split.
    - cbn [fst]. intros ->. destruct EB as [->|[b' ->]]; [now destruct (proj1 (nd_base _ _ _ ND))|]. pose proof (base_nul e FE dir _ ND) as NU. unfold has_nul in NU. rewrite existsb_app in NU. cbn in NU. rewrite orb_true_r in NU. discriminate.
    - rewrite X6, Y6. unfold l2. rewrite MC, andb_true_r. cbn [app flat_map fst snd]. fold l1. now rewrite app_nil_r, <- app_assoc.
Qed.

(** ** The entries whose names fit *)

Lemma fitting_in {A} : forall (l : list (entry0 * list Z)) n (fs : list A) g, In g (fitting n l fs) -> In g fs.
Proof.
  induction l as [|x l IH]; intros n fs g; [destruct fs; intros []|]. destruct fs as [|h fs]; [intros []|]. cbn [fitting]. intros H.
  apply in_app_or in H. destruct H as [H|H]; [destruct (Nat.leb _ n); [destruct H as [<-|[]]; now left|destruct H]|right; eauto].
Qed.

Lemma fitting_nodup {A B} : forall (l : list (entry0 * list Z)) n (fs : list (A * B)), NoDup (map fst fs) -> NoDup (map fst (fitting n l fs)).
Proof.
  induction l as [|x l IH]; intros n fs H; [destruct fs; constructor|]. destruct fs as [|h fs]; [constructor|]. cbn [fitting map] in *. inversion H as [|? ? NI H']; subst.
  destruct (Nat.leb _ n); cbn [app map]; [|now apply IH]. constructor; [|now apply IH]. intros X. apply NI. apply in_map_iff in X. destruct X as (g & <- & G). apply in_map. eapply fitting_in, G.
Qed.

Lemma last_default {A} (x : A) l d : last (x :: l) d = last l x.
Proof. revert x d. induction l as [|y l IH]; intros x d; [reflexivity|]. change (last (y :: l) d = last (y :: l) x). now rewrite !IH. Qed.

Lemma fitting_out {A B} e data more (f : A * B) : forall l n fs, nth_error fs (length l) = Some f -> (last (map (fun x : entry0 * list Z => length (e_name (fst x))) l) n < length (e_name e))%nat -> NoDup (map fst fs) ->
  ~ In (fst f) (map fst (fitting n (l ++ (e, data) :: more) fs)).
Proof.
  induction l as [|x l IH]; intros n fs NE GR ND; cbn [app length] in *.
  - destruct fs as [|h fs]; [discriminate|]. injection NE as ->. cbn [fitting fst map last] in *. destruct (Nat.leb_spec (length (e_name e)) n); [lia|]. cbn [app]. inversion ND as [|? ? NI _]; subst. intros X. apply NI. apply in_map_iff in X. destruct X as (g & <- & G2). apply in_map. eapply fitting_in, G2.
  - destruct fs as [|h fs]; [discriminate|]. cbn [nth_error] in NE. cbn [fitting]. cbn [map] in ND, GR. rewrite map_app. inversion ND as [|? ? NI ND']; subst. intros X. apply in_app_or in X. destruct X as [X|X].
    + destruct (Nat.leb _ n); [|destruct X]. destruct X as [X|[]]. apply NI. rewrite X. apply in_map. eapply nth_error_In, NE.
    + revert X. rewrite last_default in GR. now apply IH.
Qed.
