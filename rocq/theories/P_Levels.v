(** Reading headers of the levels 1, 2 and 3. *)
From Verif Require Import Go GoLemmas M_Crc M_Bitio M_Maketree M_Maketbl M_Huf M_Slide M_Lzhuf S_Header S_Listing S_Levels M_Header M_Os M_Archive S_History S_Archive
  P_Bitio P_Header P_Os P_Single P_Extract P_Read1 P_Accept P_List P_RoundTrip P_ExtractAll P_Verify P_Plain P_Level0 Properties_Slide.

Lemma GetHeader_layout2 o h e rest : legal2 e -> GetHeader o h (layout2 e ++ rest) = Panic.
Proof.
  intros [LM [S1 S2]]. assert (S0 : 26 <= size2 e) by (unfold size2; lia).
  unfold layout2. destruct (t_method e) as [|m1 [|m2 [|m3 [|m4 [|m5 [|]]]]]]; try discriminate LM. cbn [app le16 le32].
  apply level2_panics; cbn [nth]; auto.
  - rewrite !zlen_cons. pose proof (zlen_nonneg (ext_bytes (t_exts e) ++ rest)). unfold zlen in *. lia.
  - pose proof (Z.div_mod (size2 e) 256 ltac:(lia)). rewrite (Z.mod_small (size2 e / 256)) by (split; [apply Z.div_pos; lia|apply Z.div_lt_upper_bound; lia]). lia.
Qed.

Lemma GetHeader_layout3 o h e rest : legal3 e -> GetHeader o h (layout3 e ++ rest) = Panic.
Proof.
  intros [LM S1]. assert (S0 : 32 <= size3 e) by (unfold size3; lia).
  unfold layout3. destruct (t_method e) as [|m1 [|m2 [|m3 [|m4 [|m5 [|]]]]]]; try discriminate LM. cbn [app le16 le32].
  apply level3_panics; cbn [nth]; auto; try discriminate.
  - rewrite !zlen_cons. match goal with |- context [zlen ?l] => pose proof (zlen_nonneg l) end. lia.
  - generalize dependent (size3 e). intros v S1 S0. Z.to_euclidean_division_equations. lia.
Qed.

(** ** Level 1 *)

Definition read1 (h0 : hdr) (e : entry1) : hdr :=
  set_HeaderSize (zlen (body1 e) + 2) (set_Name (slash_back (removelast (f_name e)) ++ [0]) (fixed1 h0 e [])).

Lemma removelast_snoc {A} (l : list A) x : removelast (l ++ [x]) = l.
Proof. apply removelast_last. Qed.

Lemma GetHeader_plain1 o h0 e rest : plain1 e -> ConvertCase o = false -> f_name e <> [] -> zlen (Method h0) >= 5 -> zlen (Name h0) >= zlen (f_name e) ->
  GetHeader o h0 (layout1 e ++ rest) = Ok (ENil, true, read1 h0 e, rest).
Proof.
  intros [Lg NN HX HO] CC NE HM HN. rewrite GetHeader_layout1 by assumption. rewrite HX. cbn [next_size ext_bytes app].
  destruct (exists_last NE) as (nm & c & HF). unfold read1. rewrite HF. rewrite removelast_snoc.
  replace (zlen (nm ++ [c]) - 1) with (zlen nm) by (rewrite zlen_app; change (zlen [c]) with 1; lia).
  rewrite set0_last. cbn [bind]. change (0 <? 0) with false. cbv iota. cbn [bind].
  unfold finishHeader. cbn [ExtendType set_HeaderSize fixed1]. rewrite CC.
  match goal with |- context [if ?b then none else none] => replace (if b then none else none) with none by (now destruct b) end.
  cbn [In] in HO. change ExtendMacos with 109. change ExtendAmiga with 65.
  destruct (Z.eqb_spec (f_os e) 109); [exfalso; apply HO; auto|]. destruct (Z.eqb_spec (f_os e) 65); [exfalso; apply HO; auto|]. cbn [andb].
  change (Name (set_HeaderSize (zlen (body1 e) + 2) (fixed1 h0 e (nm ++ [0])))) with (nm ++ [0]).
  match goal with |- context [isSymlinkMode (UnixMode ?x)] => change (isSymlinkMode (UnixMode x)) with false end. cbv iota.
  unfold convertFilename. change (none =? toLower) with false. rewrite andb_false_r. cbn [andb]. rewrite map_app. reflexivity.
Qed.

Lemma slash_back_bytes l : Forall (fun b => 0 <= b < 256) l -> slash_back l = slashes l.
Proof.
  intros F. unfold slash_back, slashes. apply map_ext_in. intros c Hc. rewrite Forall_forall in F. specialize (F c Hc). cbv beta in F.
  unfold conv_byte, delim_index. destruct (Z.ltb_spec c 128); cbn [index_of].
  - destruct (Z.eqb_spec 255 c); [lia|]. destruct (Z.eqb_spec 92 c), (Z.eqb_spec c 92); try lia; reflexivity.
  - destruct (Z.eqb_spec c 92); [lia|reflexivity].
Qed.

Lemma read1_plainh h0 e base : shorter e base -> exists dir, plainh (read1 h0 e) dir base.
Proof.
  intros [P (dir & c & ND) NB]. exists dir. destruct (l1_name _ (p1_legal _ P)) as [_ BN]. destruct (nd_base _ _ _ ND) as [_ N47].
  assert (NE : f_name e <> []). { intros X. pose proof (nd_name _ _ _ ND) as Y. cbn [as0 e_name] in Y. rewrite X in Y. apply (f_equal (@length Z)) in Y. rewrite !app_length in Y. cbn [slashes map length] in Y. lia. }
  destruct (exists_last NE) as (nm & d & HF).
  assert (SN : slashes nm = dir ++ base).
  { pose proof (nd_name _ _ _ ND) as Y. cbn [as0 e_name] in Y. rewrite HF in Y. unfold slashes in Y. rewrite map_app, app_assoc in Y. cbn [map] in Y. apply app_inj_tail in Y. apply Y. }
  assert (NZ : ~ In 0 (dir ++ base)).
  { rewrite <- SN. unfold slashes. intros X. apply in_map_iff in X. destruct X as (x & X1 & X2). destruct (x =? 92); [discriminate|]. subst. apply (p1_name _ P). rewrite HF. apply in_or_app. now left. }
  constructor.
  - cbn [read1 set_HeaderSize set_Name Name]. rewrite HF, removelast_snoc, slash_back_bytes; [now rewrite SN|]. rewrite HF in BN. apply Forall_app in BN. apply BN.
  - exact (nd_dir _ _ _ ND).
  - split; [exact NB|]. apply Forall_forall. intros x Hx ->. apply N47. apply in_or_app. now left.
  - apply has_nul_notin. intros X. apply NZ. apply in_or_app. now right.
  - reflexivity.
  - cbn [read1 set_HeaderSize set_Name fixed1 ExtendType]. pose proof (p1_system _ P) as T. cbn [In] in T. change ExtendOs68k with 75. change ExtendXosk with 88. change ExtendMacos with 109. repeat split; intros X; apply T; rewrite X; auto.
Qed.

Definition good1 (x : entry1 * list Z) (f : path * list Z) : Prop := shorter (fst x) (fst f) /\ decodable (as0 (fst x)) (snd x) (snd f).

Lemma read1_name_len h0 e : f_name e <> [] -> zlen (Name (read1 h0 e)) = zlen (f_name e).
Proof.
  intros NE. destruct (exists_last NE) as (nm & c & HF). change (Name (read1 h0 e)) with (slash_back (removelast (f_name e)) ++ [0]). rewrite HF, removelast_snoc. unfold slash_back. rewrite !zlen_app, zlen_map. reflexivity.
Qed.

Lemma shorter_ne e base : shorter e base -> f_name e <> [].
Proof. intros [P (dir & c & ND) NB] X. pose proof (nd_name _ _ _ ND) as Y. cbn [as0 e_name] in Y. rewrite X in Y. apply (f_equal (@length Z)) in Y. rewrite !app_length in Y. cbn [slashes map length] in Y. lia. Qed.

(** Extracting an archive of such entries. *)
Lemma extract1_all E : ConvertCase (e_opts E) = false -> forall es files h n w cs fuel,
  Forall2 good1 es files -> NoDup (map fst files) -> (forall f, In f files -> w_fs w (fst f) = None) -> names_shrink1 n es ->
  Z.of_nat n <= zlen (Name h) -> zlen (Method h) = 5 ->
  l_filec (w_lha w) = 0 -> l_broken (w_lha w) = false -> l_ignoredir (w_lha w) = false -> l_extractdir (w_lha w) = [] -> l_stdout (w_lha w) = false -> l_noexec (w_lha w) = false ->
  l_skip (w_lha w) = false -> w_verify w = false -> after cs (w_glob w) -> bytes (archive1 es) -> (length es < fuel)%nat ->
  exists w', extract_loop E fuel everything (one_file E) h (archive1 es) tt w = Done (tt, false) w' /\
    (forall f, In f files -> w_fs w' (fst f) = Some (NFile (snd f))) /\ (forall q, ~ In q (map fst files) -> w_fs w' q = w_fs w q).
Proof.
  intros CC. induction es as [|[e data] es IH]; intros files h n w cs fuel F ND0 NF NS HN HM H1 H2 H3 H4 H5 H6 H7 H8 A B Hf.
  - inversion F; subst. destruct fuel; [cbn in Hf; lia|]. exists w. split; [reflexivity|]. split; [intros f []|auto].
  - destruct fuel; [cbn in Hf; lia|]. inversion F as [|? f ? files' F1 F2]; subst. destruct f as [base body]. destruct F1 as [SH P]. cbn [fst snd map names_shrink1] in *.
    destruct P as (method & MN & NM & _ & PD & P). destruct NS as [N1 N2]. cbn [as0 e_method e_original e_packed e_crc] in *.
    unfold archive1 in *. cbn [flat_map fst snd] in *. rewrite <- !app_assoc in *. change (flat_map _ es ++ [0]) with (archive1 es) in *.
    apply Forall_app in B. destruct B as [B1 B2]. pose proof B2 as B12. apply Forall_app in B2. destruct B2 as [B2 B3].
    destruct (P cs (w_glob w) (archive1 es) A B12) as [g2 D]. rewrite <- H2 in D.
    pose proof (sh_plain _ _ SH) as PL. pose proof (p1_legal _ PL) as LG. destruct (l1_method _ LG) as [LM _]. pose proof (shorter_ne _ _ SH) as NE.
    destruct (read1_plainh h e base SH) as [dir PH].
    cbn [extract_loop]. rewrite (GetHeader_plain1 (e_opts E) h e _ PL CC NE); [|lia|unfold zlen in *; lia]. istep. cbn [negb]. unfold everything at 1. rewrite bind_assoc, bind_get, bind_ret. unfold needFile. rewrite H1. change (0 =? 0) with true. cbv iota.
    destruct (ph_file E (read1 h e) dir base PH method MN NM w (data ++ archive1 es) g2 (f_crc e) body (f_skip e) (archive1 es) H3 H4 H5 H6 H7 H8 (NF _ (or_introl eq_refl)) D) as (w1 & X1 & X2 & X3 & X4 & X5 & X6 & X7).
    unfold one_file at 1. rewrite bind_assoc, (bindIO_done _ _ _ _ _ X1), bind_ret. cbv iota. change (PackedSize (read1 h e)) with (f_skip e). rewrite Z.eqb_refl.
    destruct (l1_original _ LG) as [O1 _]. destruct (l1_skip _ LG) as [O2 _].
    destruct (after_decode cs (w_glob w) _ _ _ _ _ _ _ _ _ _ A O1 O2 B12 D) as [cs' A']. rewrite <- X5 in A'.
    inversion ND0 as [|? ? NI ND']; subst.
    destruct (IH files' (read1 h e) (length (f_name e)) w1 cs' fuel) as (w' & W1 & W2 & W3); rewrite ?X4; auto.
    + intros f If. rewrite X3; [apply NF; now right|]. intros EQ. apply NI. rewrite <- EQ. now apply in_map.
    + rewrite read1_name_len by exact NE. unfold zlen. lia.
    + change (Method (read1 h e)) with (f_method e). unfold zlen. rewrite LM. reflexivity.
    + cbn [length] in Hf. lia.
    + exists w'. split; [exact W1|]. split.
      * intros f [<-|If]; [cbn [fst snd]; rewrite W3 by exact NI; exact X2|now apply W2].
      * intros q Q. rewrite W3 by (intros I; apply Q; now right). apply X3. intros ->. apply Q. now left.
Qed.

Lemma test1_all E : ConvertCase (e_opts E) = false -> forall es files h n w cs fuel,
  Forall2 good1 es files -> names_shrink1 n es -> Z.of_nat n <= zlen (Name h) -> zlen (Method h) = 5 ->
  l_filec (w_lha w) = 0 -> l_broken (w_lha w) = false -> l_ignoredir (w_lha w) = false -> l_extractdir (w_lha w) = [] -> l_noexec (w_lha w) = false -> l_stdout (w_lha w) || w_verify w = true ->
  after cs (w_glob w) -> bytes (archive1 es) -> (length es < fuel)%nat ->
  exists w', extract_loop E fuel everything (one_file E) h (archive1 es) tt w = Done (tt, false) w' /\ w_fs w' = w_fs w /\
    w_out w' = w_out w ++ flat_map (fun f => (if l_stdout (w_lha w) then banner (fst f) else []) ++ (if w_verify w then [] else snd f)) files.
Proof.
  intros CC. induction es as [|[e data] es IH]; intros files h n w cs fuel F NS HN HM H1 H2 H3 H4 H5 H6 A B Hf.
  - inversion F; subst. destruct fuel; [cbn in Hf; lia|]. exists w. split; [reflexivity|]. split; [reflexivity|]. cbn. now rewrite app_nil_r.
  - destruct fuel; [cbn in Hf; lia|]. inversion F as [|? f ? files' F1 F2]; subst. destruct f as [base body]. destruct F1 as [SH P]. cbn [fst snd map names_shrink1] in *.
    destruct P as (method & MN & NM & MC & PD & P). destruct NS as [N1 N2]. cbn [as0 e_method e_original e_packed e_crc] in *.
    unfold archive1 in *. cbn [flat_map fst snd] in *. rewrite <- !app_assoc in *. change (flat_map _ es ++ [0]) with (archive1 es) in *.
    apply Forall_app in B. destruct B as [B1 B2]. pose proof B2 as B12. apply Forall_app in B2. destruct B2 as [B2 B3].
    destruct (P cs (w_glob w) (archive1 es) A B12) as [g2 D]. rewrite <- H2 in D.
    pose proof (sh_plain _ _ SH) as PL. pose proof (p1_legal _ PL) as LG. destruct (l1_method _ LG) as [LM _]. pose proof (shorter_ne _ _ SH) as NE.
    destruct (read1_plainh h e base SH) as [dir PH].
    cbn [extract_loop]. rewrite (GetHeader_plain1 (e_opts E) h e _ PL CC NE); [|lia|unfold zlen in *; lia]. istep. cbn [negb]. unfold everything at 1. rewrite bind_assoc, bind_get, bind_ret. unfold needFile. rewrite H1. change (0 =? 0) with true. cbv iota.
    unfold one_file at 1.
    rewrite bind_assoc, (bindIO_done _ _ _ _ _ (ph_test E (read1 h e) dir base PH method MN NM w (data ++ archive1 es) g2 (f_crc e) body (f_skip e) (archive1 es) H3 H4 H5 H6 D)).
    change (Crc (read1 h e)) with (f_crc e). rewrite Z.eqb_refl, andb_false_r, bind_ret. cbv beta iota zeta. change (PackedSize (read1 h e)) with (f_skip e). rewrite Z.eqb_refl.
    destruct (l1_original _ LG) as [O1 _]. destruct (l1_skip _ LG) as [O2 _].
    destruct (after_decode cs (w_glob w) _ _ _ _ _ _ _ _ _ _ A O1 O2 B12 D) as [cs' A'].
    set (l1 := if l_stdout (w_lha w) then banner base else []). set (l2 := if w_verify w && negb (copied method) then [] else body).
    set (w1 := printed l2 (set_wglob g2 (printed l1 w))).
    destruct (printed_same l2 (set_wglob g2 (printed l1 w))) as (X1 & X2 & X3 & X4 & X5 & X6). fold w1 in X1, X2, X3, X4, X5, X6.
    destruct (printed_same l1 w) as (Y1 & Y2 & Y3 & Y4 & Y5 & Y6). cbn [set_wglob w_fs w_ops w_glob w_verify w_lha w_out] in X1, X2, X3, X4, X5, X6.
    rewrite Y1 in X1. rewrite Y4 in X4. rewrite Y5 in X5. rewrite Y6, <- app_assoc in X6.
    destruct (IH files' (read1 h e) (length (f_name e)) w1 cs' fuel) as (w' & W & Z1 & Z2); rewrite ?X5, ?X4; auto.
    + rewrite read1_name_len by exact NE. unfold zlen. lia.
    + change (Method (read1 h e)) with (f_method e). unfold zlen. rewrite LM. reflexivity.
    + rewrite X3. exact A'.
    + cbn [length] in Hf. lia.
    + exists w'. split; [exact W|]. split; [congruence|]. rewrite Z2, X6, X5, X4, <- app_assoc. unfold l2. rewrite MC, andb_true_r. cbn [flat_map fst snd]. fold l1. now rewrite <- !app_assoc.
Qed.

Lemma list1_all E l : l_filec l = 0 -> ConvertCase (e_opts E) = false -> forall es h n acc fuel,
  Forall (fun x => plain1 (fst x) /\ f_name (fst x) <> [] /\ zlen (snd x) = f_skip (fst x)) es -> names_shrink1 n es -> zlen (Method h) = 5 -> Z.of_nat n <= zlen (Name h) -> (length es < fuel)%nat ->
  exists hs, list_loop E l fuel h (archive1 es) acc = Ok (acc ++ hs, false) /\ Forall2 (fun x h => exists h0, h = read1 h0 (fst x)) es hs.
Proof.
  intros HC CC. induction es as [|[e data] es IH]; intros h n acc fuel F NS HM HN Hf.
  - destruct fuel; [cbn in Hf; lia|]. exists []. rewrite app_nil_r. split; [reflexivity|constructor].
  - destruct fuel; [cbn in Hf; lia|]. inversion F as [|? ? (P & NE & S1) F2]; subst. cbn [names_shrink1 fst snd] in *. destruct NS as [N1 N2].
    unfold archive1. cbn [flat_map fst snd]. rewrite <- !app_assoc. change (flat_map _ es ++ [0]) with (archive1 es).
    destruct (l1_method _ (p1_legal _ P)) as [LM _].
    cbn [list_loop]. rewrite (GetHeader_plain1 (e_opts E) h e _ P CC NE); [|lia|unfold zlen in *; lia]. cbn [bind negb]. change (PackedSize (read1 h e)) with (f_skip e).
    rewrite (drop_app (f_skip e) data _) by (first [exact S1|exact (eq_sym S1)]). unfold needFile. rewrite HC. change (0 =? 0) with true. cbv iota.
    destruct (IH (read1 h e) (length (f_name e)) (acc ++ [read1 h e]) fuel) as (hs & X1 & X2); auto.
    + change (Method (read1 h e)) with (f_method e). unfold zlen. rewrite LM. reflexivity.
    + rewrite read1_name_len by exact NE. unfold zlen. lia.
    + cbn [length] in Hf. lia.
    + exists (read1 h e :: hs). rewrite X1, <- app_assoc. split; [reflexivity|]. constructor; [now exists h|exact X2].
Qed.

(** The entries before a given one, in CommandList. *)
Lemma list_prefix E l tail : l_filec l = 0 -> forall es h n acc fuel, Forall (fun x => file_entry (fst x)) es -> sized es -> names_shrink n es ->
  zlen (Method h) = 5 -> Z.of_nat n < zlen (Name h) ->
  exists h', list_loop E l (length es + fuel) h (entries_bytes es ++ tail) acc = list_loop E l fuel h' tail (acc ++ reads h es) /\ zlen (Method h') = 5 /\
    Z.of_nat (last (map (fun x => length (e_name (fst x))) es) n) < zlen (Name h').
Proof.
  intros HC. induction es as [|[e data] es IH]; intros h n acc fuel FF SZ NS HM HN.
  - exists h. cbn [reads]. rewrite app_nil_r. auto.
  - inversion FF as [|? ? F1 F2]; subst. inversion SZ as [|? ? S1 S2]; subst. cbn [names_shrink fst snd] in *. destruct NS as [N1 N2].
    unfold entries_bytes. cbn [flat_map fst snd length Nat.add]. rewrite <- !app_assoc. fold (entries_bytes es).
    destruct (l0_method _ (fe_legal _ F1)) as [LM _].
    rewrite list_loop_entry; [|exact F1|exact HM|unfold zlen at 1; lia|exact S1].
    unfold needFile. rewrite HC. change (0 =? 0) with true. cbv iota.
    destruct (IH (read0 h e) (length (e_name e)) (acc ++ [read0 h e]) fuel) as (h' & X1 & X2 & X3); auto.
    + change (Method (read0 h e)) with (e_method e). unfold zlen. rewrite LM. reflexivity.
    + cbn [read0 Name]. rewrite zlen_app. unfold slash_back. rewrite zlen_map. unfold zlen. cbn [length]. lia.
    + exists h'. rewrite X1. cbn [reads fst]. rewrite <- app_assoc. split; [reflexivity|]. split; [exact X2|]. cbn [map fst].
      destruct (map (fun x => length (e_name (fst x))) es) as [|y m]; [exact X3|]. change (Z.of_nat (last (y :: m) n) < zlen (Name h')). 
      revert X3. generalize (length (e_name e)). clear. revert y. induction m as [|z m IHm]; intros y u; cbn [last]; auto. apply (IHm z).
Qed.
