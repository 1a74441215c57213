(** Properties of names that are too long for a header. *)
From Verif Require Import Go GoLemmas P_Bits S_Lh5 P_Lz M_Crc M_Bitio P_Bitio M_Maketree M_Maketbl M_Huf M_Slide M_Larc M_Decode M_Lzhuf S_Bits S_Huff S_Lz S_Lh1 S_Larc P_Larc S_Header S_Listing S_Level0 M_Header M_Os M_Archive S_History S_Archive S_AnyEntry S_Add S_Names M_Cli S_Cli
  P_Crc P_Header P_Accept P_List P_Os P_RoundTrip P_Single P_Extract P_Read1 P_ExtractAll P_Verify P_Still P_Add P_AddFiles P_Cli P_CliAdd P_Level0 P_AnyEntry P_Generic
  Properties_Slide Properties_Archive Properties_Extract Properties_Listing Properties_Larc Properties_Lh5 Properties_Lh1 Properties_Damage Properties_Stored Properties_Add Properties_Header Properties_Cli Properties_CliAdd.

(** ** C115: files with long names keep their names *)

Lemma conv_nz d c f : 0 < c -> d <> 0 -> conv_byte [47] [d] f c <> 0.
Proof.
  intros H D. unfold conv_byte, delim_index. destruct (c <? 128); cbn [index_of].
  - destruct (Z.eqb_spec 47 c) as [<-|X]; [cbn; assumption|]. cbn [option_map].
    destruct ((f =? toUpper) && isLower c) eqn:L1; [|destruct ((f =? toLower) && isUpper c); lia]. apply andb_true_iff in L1. destruct L1 as [_ L1]. unfold isLower in L1. rewrite andb_true_iff, !Z.leb_le in L1. lia.
  - destruct ((f =? toUpper) && isLower c) eqn:L1; [|destruct ((f =? toLower) && isUpper c); lia]. apply andb_true_iff in L1. destruct L1 as [_ L1]. unfold isLower in L1. rewrite andb_true_iff, !Z.leb_le in L1. lia.
Qed.

Lemma cstr_at_least l z n : Forall (fun c => c <> 0) l -> n <= zlen l -> n <= cstrlen (l ++ z).
Proof.
  intros F. revert n. induction F as [|x l Hx F IH]; intros n H; cbn [app cstrlen].
  - change (zlen (@nil Z)) with 0 in H. assert (0 <= cstrlen z); [|lia]. clear. induction z as [|x z IH]; cbn [cstrlen]; [lia|destruct (x =? 0); lia].
  - apply Z.eqb_neq in Hx. rewrite Hx. rewrite zlen_cons in H. specialize (IH (n - 1)). lia.
Qed.

(** What is written depends on the first bytes of the name alone. *)
Lemma writeLevel0_cut o stamp h l z n : (if GenericFormat o then 233 else 221) = n -> zlen l = n -> Forall (fun c => c <> 0) l ->
  writeHeaderLevel0 o stamp h (l ++ z) = writeHeaderLevel0 o stamp h l.
Proof.
  intros N L F. unfold writeHeaderLevel0. rewrite N. pose proof (cstr_at_least l z n F ltac:(lia)) as X. pose proof (cstr_at_least l [] n F ltac:(lia)) as Y. rewrite app_nil_r in Y.
  assert (Y2 : cstrlen l <= n). { rewrite <- L. clear. induction l as [|x l IH]; cbn [cstrlen]; [unfold zlen; cbn; lia|]. rewrite zlen_cons. destruct (x =? 0); pose proof (zlen_nonneg l); lia. }
  assert (E1 : (if n <? cstrlen (l ++ z) then n else cstrlen (l ++ z)) = n) by (destruct (Z.ltb_spec n (cstrlen (l ++ z))); lia).
  assert (E2 : (if n <? cstrlen l then n else cstrlen l) = n) by (destruct (Z.ltb_spec n (cstrlen l)); lia).
  cbv zeta. rewrite E1, E2. assert (PB : putBytes (l ++ z) n = putBytes l n); [|now rewrite PB].
  unfold putBytes. rewrite zlen_app. pose proof (zlen_nonneg z). destruct (Z.leb_spec n (zlen l + zlen z)); [|lia]. destruct (Z.leb_spec n (zlen l)); [|lia].
  rewrite take_app by exact L. rewrite <- L at 1. now rewrite take_zlen.
Qed.

Lemma WriteHeader_cut o stamp h nm : HeaderLevel h = 0 -> isSymlinkMode (UnixMode h) = false ->
  Name h = nm -> zlen (take (if GenericFormat o then 233 else 221) nm) = (if GenericFormat o then 233 else 221) -> Forall (fun c => 0 < c) (take (if GenericFormat o then 233 else 221) nm) ->
  WriteHeader o stamp h = WriteHeader o stamp (set_Name (take (if GenericFormat o then 233 else 221) nm) h).
Proof.
  intros HL SY HN LN F. set (n := if GenericFormat o then 233 else 221) in *. unfold WriteHeader.
  change (UnixMode (set_Name (take n nm) h)) with (UnixMode h). change (HeaderLevel (set_Name (take n nm) h)) with (HeaderLevel h). change (Name (set_Name (take n nm) h)) with (take n nm).
  rewrite SY, HL, HN. change (0 =? 0) with true. cbv iota. cbv zeta. set (f := if GenericFormat o && ConvertCase o then toUpper else none). unfold convertFilename. change ((none =? codeSJIS) && (f =? toLower)) with false. cbn [andb]. cbv iota.
  assert (SP : nm = take n nm ++ drop n nm) by (unfold take, drop; now rewrite firstn_skipn).
  assert (F' : Forall (fun c => c <> 0) (map (conv_byte [47] [92] f) (take n nm))).
  { apply Forall_map. eapply Forall_impl; [|exact F]. cbv beta. intros c C. apply conv_nz; lia. }
  assert (L' : zlen (map (conv_byte [47] [92] f) (take n nm)) = n) by (rewrite zlen_map; exact LN).
  rewrite SP at 1. rewrite <- app_assoc, !map_app.
  change (writeHeaderLevel0 o stamp (set_Name (take n nm) h)) with (writeHeaderLevel0 o stamp h).
  rewrite !(writeLevel0_cut o stamp h _ _ n eq_refl L' F'). reflexivity.
Qed.

(** The claim is false: two names that begin alike give the same header. *)
Theorem C115_same_header_refuted :
  forall o stamp h nm1 nm2,
    HeaderLevel h = 0 -> Z.land (UnixMode h) 40960 <> 40960 ->
    Forall (fun c => 0 < c < 256) nm1 -> Forall (fun c => 0 < c < 256) nm2 ->
    (name_room (GenericFormat o) <= length nm1)%nat -> firstn (name_room (GenericFormat o)) nm1 = firstn (name_room (GenericFormat o)) nm2 ->
    WriteHeader o stamp (set_Name nm1 h) = WriteHeader o stamp (set_Name nm2 h).
Proof.
  intros o stamp h nm1 nm2 HL SY F1 F2 LN EQ.
  assert (S' : isSymlinkMode (UnixMode h) = false) by (unfold isSymlinkMode; apply Z.eqb_neq; exact SY).
  assert (T : forall nm, take (if GenericFormat o then 233 else 221) nm = firstn (name_room (GenericFormat o)) nm) by (intros nm; unfold take, name_room; destruct (GenericFormat o); reflexivity).
  assert (L1 : zlen (firstn (name_room (GenericFormat o)) nm1) = (if GenericFormat o then 233 else 221)).
  { unfold zlen. rewrite firstn_length_le by exact LN. unfold name_room. destruct (GenericFormat o); reflexivity. }
  assert (F3 : Forall (fun c => 0 < c) (firstn (name_room (GenericFormat o)) nm1)).
  { rewrite <- (firstn_skipn (name_room (GenericFormat o)) nm1) in F1. apply Forall_app in F1. eapply Forall_impl; [|exact (proj1 F1)]. cbv beta. lia. }
  rewrite (WriteHeader_cut o stamp (set_Name nm1 h) nm1 HL S' eq_refl) by (rewrite T; assumption).
  rewrite (WriteHeader_cut o stamp (set_Name nm2 h) nm2 HL S' eq_refl) by (rewrite T, <- EQ; assumption).
  rewrite !T, EQ. reflexivity.
Qed.

(** Names that fit are told apart. *)
Theorem C115_names_told_apart_partial :
  forall o stamp h nm1 nm2 l,
    GenericFormat o = false -> HeaderLevel h = 0 -> Z.land (UnixMode h) 40960 <> 40960 ->
    Forall (fun c => 0 < c < 256 /\ c <> 92) nm1 -> Forall (fun c => 0 < c < 256 /\ c <> 92) nm2 ->
    zlen nm1 <= 221 -> zlen nm2 <= 221 ->
    zlen (Method h) = 5 -> Forall (fun c => 0 <= c < 256) (Method h) ->
    0 <= PackedSize h < 2 ^ 32 -> 0 <= OriginalSize h < 2 ^ 32 -> 0 <= Attribute h < 256 ->
    0 <= Crc h < 2 ^ 16 -> 0 <= UnixLastModifiedStamp h < 2 ^ 32 ->
    0 <= UnixMode h < 2 ^ 16 -> 0 <= UnixUID h < 2 ^ 16 -> 0 <= UnixGid h < 2 ^ 16 ->
    WriteHeader o stamp (set_Name nm1 h) = Ok (Some l) -> WriteHeader o stamp (set_Name nm2 h) = Ok (Some l) -> nm1 = nm2.
Proof.
  intros o stamp h nm1 nm2 l G HL SY F1 F2 L1 L2 M1 M2 B1 B2 B3 B4 B5 B6 B7 B8 W1 W2.
  destruct (C20_level0_round_trip o stamp (set_Name nm1 h) nm1 0 []) as (l1 & h1 & X1 & X2 & X3); auto; [symmetry; apply app_nil_r|].
  destruct (C20_level0_round_trip o stamp (set_Name nm2 h) nm2 0 []) as (l2 & h2 & Y1 & Y2 & Y3); auto; [symmetry; apply app_nil_r|].
  rewrite W1 in X1. rewrite W2 in Y1. injection X1 as <-. injection Y1 as <-. rewrite X2 in Y2. injection Y2 as <-.
  destruct X3 as (_ & _ & _ & _ & _ & _ & X3 & _). destruct Y3 as (_ & _ & _ & _ & _ & _ & Y3 & _). rewrite X3 in Y3. now apply app_inj_tail in Y3.
Qed.

(** *** The command line program *)

Lemma bind_ext2 {A B} (m : IO A) (f g : A -> IO B) : (forall x w, f x w = g x w) -> forall w, bindIO m f w = bindIO m g w.
Proof. intros H w. unfold bindIO. destruct (m w); auto. Qed.

Lemma addOne_cut E h nm body : GenericFormat (e_opts E) = false -> HeaderLevel h = 0 -> isSymlinkMode (UnixMode h) = false ->
  Name h = nm ++ zeros (1024 - zlen nm) -> 221 <= zlen nm -> Forall (fun c => 0 < c) nm ->
  forall w, addOne E h body w = addOne E (set_Name (take 221 nm) h) body w.
Proof.
  intros Hgen HL SY HN LN F w.
  assert (T : take 221 (nm ++ zeros (1024 - zlen nm)) = take 221 nm).
  { unfold take. rewrite firstn_app. replace (Z.to_nat 221 - length nm)%nat with 0%nat by (unfold zlen in LN; lia). cbn [firstn]. apply app_nil_r. }
  assert (X : forall h', HeaderLevel h' = HeaderLevel h -> UnixMode h' = UnixMode h -> Name h' = Name h ->
    WriteHeader (e_opts E) (e_stamp E) h' = WriteHeader (e_opts E) (e_stamp E) (set_Name (take 221 nm) h')).
  { intros h' E1 E2 E3. pose proof (WriteHeader_cut (e_opts E) (e_stamp E) h' (Name h')) as Y. rewrite Hgen in Y. rewrite E3, HN, T in Y. apply Y; try congruence.
    - unfold zlen, take. rewrite firstn_length. unfold zlen in LN. lia.
    - unfold take. rewrite <- (firstn_skipn (Z.to_nat 221) nm) in F. now apply Forall_app in F. }
  unfold addOne. change (OriginalSize (set_Name (take 221 nm) h)) with (OriginalSize h).
  rewrite (X h eq_refl eq_refl eq_refl). revert w. apply bind_ext2. intros r. apply bind_ext2. intros _ w1. destruct (OriginalSize h =? 0); [reflexivity|].
  revert w1. apply bind_ext2. intros eo. apply bind_ext2. intros _ w2. cbv zeta.
  destruct (eo_packed eo <? eo_original eo).
  - rewrite !bind_ret. set (h' := set_PackedSize _ _). rewrite (X h' eq_refl eq_refl eq_refl). reflexivity.
  - change (OriginalSize (set_Method (meth 104 (eo_method eo)) (set_Crc (eo_crc eo) (set_Name (take 221 nm) h)))) with (OriginalSize h).
    change (OriginalSize (set_Method (meth 104 (eo_method eo)) (set_Crc (eo_crc eo) h))) with (OriginalSize h).
    rewrite !bind_assoc. revert w2. apply bind_ext2. intros [[out crc] r2] w2. rewrite !bind_assoc. revert w2. apply bind_ext2. intros _ w3. rewrite !bind_ret.
    set (h' := set_PackedSize _ _). rewrite (X h' eq_refl eq_refl eq_refl). reflexivity.
Qed.

(** As add_source and made_of, for a file with a long name. *)
Lemma add_long E w name body l : long_source E w name body -> w_lha w = l -> l_filev l = [name] -> l_filec l = 1 -> l_exclude l = [] -> l_noexec l = false ->
  name <> l_archive l -> add_files (appendIt E) 1 0 None w = (_ <~ addOne E (initHeader E l (w_fs w) name (NFile body)) body ;;; ret None) w.
Proof.
  intros [[P1 P2] F R _ _ _] WL L1 L2 L3 L4 NA. apply has_nul_notin in P2. cbn [add_files]. rewrite bind_get, WL, L1, L2, L3. change (0 <? 1) with true. change (nth_error [name] (Z.to_nat 0)) with (Some name). cbv iota.
  apply list_eqb_neq in NA. rewrite NA.
  assert (LS : lstat (w_fs w) name = SNode (NFile body)) by (unfold lstat; rewrite P2, F; destruct name; [contradiction|reflexivity]).
  unfold appendIt. rewrite bind_assoc, bind_get, bind_assoc, bind_get, WL, LS, L4, (open_file E (w_fs w) name body P1 P2 F R).
  unfold append_new. rewrite bind_assoc, bind_getl, bind_assoc, bind_getl, bind_assoc, bind_getl, bind_assoc, bind_ret. rewrite WL, L4. cbn [orb]. rewrite bind_assoc. apply bind_ext. intros; reflexivity.
Qed.

Lemma copy_long nm : zlen nm < 1024 -> copy (zeros FilenameLength) nm = nm ++ zeros (1024 - zlen nm).
Proof.
  intros H. pose proof (zlen_nonneg nm). unfold copy. assert (Z : zlen (zeros FilenameLength) = FilenameLength) by reflexivity. rewrite Z.
  change FilenameLength with 1024 in *. rewrite Z.min_r by lia. rewrite take_zlen. f_equal. unfold drop, zeros. unfold zlen in *.
  replace (Z.to_nat 1024) with (Z.to_nat (Z.of_nat (length nm)) + Z.to_nat (1024 - Z.of_nat (length nm)))%nat by lia.
  rewrite repeat_app, skipn_app, repeat_length, Nat.sub_diag, skipn_all2; [reflexivity|]. rewrite repeat_length. lia.
Qed.

(** The header made for it. *)
Record long_header (E : env) (h : hdr) (file : path) (body : list Z) : Prop := {
  lh_name : Name h = Base file ++ zeros (1024 - zlen (Base file));
  lh_level : HeaderLevel h = 0;
  lh_mode : isSymlinkMode (UnixMode h) = false /\ 0 <= UnixMode h < 2 ^ 16 /\ Z.land (UnixMode h) UnixFileTypemask = UnixFileRegular;
  lh_meth : zlen (Method h) = 5 /\ Forall (fun c => 0 <= c < 256) (Method h);
  lh_packed : PackedSize h = 0;
  lh_orig : OriginalSize h = zlen body;
  lh_attr : Attribute h = genericAttribute;
  lh_crc : Crc h = 0;
  lh_time : UnixLastModifiedStamp h = e_mtime E file;
  lh_uid : 0 <= UnixUID h < 65536;
  lh_gid : 0 <= UnixGid h < 65536
}.

Lemma init_long E l f file body : (forall p, 0 <= e_perm E p < 512) -> l_level l = 0 -> zlen (Base file) < 1024 -> long_header E (initHeader E l f file (NFile body)) file body.
Proof.
  intros P L N. unfold initHeader, initHeader_file. constructor; cbn [HeaderLevel Name Method PackedSize OriginalSize Attribute Crc UnixLastModifiedStamp UnixMode UnixUID UnixGid
    set_UnixMode set_UnixGid set_UnixUID set_Stamp set_ExtendType set_Crc set_Name set_HeaderLevel set_Attribute set_OriginalSize set_PackedSize set_Method]; try reflexivity.
  - apply copy_long. exact N.
  - now rewrite L.
  - apply mode_plain. destruct (stat f file); try lia; apply P.
  - split; [reflexivity|]. repeat constructor; lia.
  - apply u16_range.
  - apply u16_range.
Qed.

(** The same header with the name cut off. *)
Lemma cut_plain E h file body : long_header E h file body -> 221 < zlen (Base file) -> Forall (fun c => 0 < c < 256 /\ c <> 92 /\ c <> 47) (Base file) ->
  0 <= e_mtime E file < 2 ^ 32 -> zlen body < 2 ^ 32 -> plain (set_Name (take 221 (Base file)) h) (take 221 (Base file)).
Proof.
  intros [HN HL (M1 & M2 & M3) FH FP1 FP2 FP3 FP4 FP5 FU1 FU2] LN F T B. pose proof (zlen_nonneg body) as Z0.
  apply Build_plain.
  - exact HL.
  - exists 0. symmetry. apply app_nil_r.
  - unfold take. rewrite <- (firstn_skipn (Z.to_nat 221) (Base file)) in F. apply Forall_app in F. eapply Forall_impl; [|exact (proj1 F)]. cbv beta. lia.
  - unfold take, zlen in *. rewrite firstn_length. lia.
  - exact FH.
  - change (0 <= PackedSize h < 2 ^ 32). lia.
  - change (0 <= OriginalSize h < 2 ^ 32). lia.
  - change (0 <= Attribute h < 256). rewrite FP3. unfold genericAttribute. lia.
  - change (0 <= Crc h < 2 ^ 16). lia.
  - change (0 <= UnixLastModifiedStamp h < 2 ^ 32). rewrite FP5. exact T.
  - exact M2.
  - exact M1.
  - exact FU1.
  - exact FU2.
Qed.

(** What is made of it. *)
Lemma added_long E h file body w eo : GenericFormat (e_opts E) = false -> long_header E h file body -> 221 < zlen (Base file) -> Forall (fun c => 0 < c < 256 /\ c <> 92 /\ c <> 47) (Base file) ->
  0 <= e_mtime E file < 2 ^ 32 -> zlen body < 2 ^ 32 -> body <> [] -> w_fs w (e_tmp E) = Some (NFile []) ->
  EncodeLzhuf (l_method (w_lha w)) (zlen body) body (w_glob w) = Ok eo -> eo_packed eo < eo_original eo ->
  0 <= eo_packed eo < 2 ^ 32 -> 0 <= eo_original eo < 2 ^ 32 -> 0 <= eo_crc eo < 2 ^ 16 -> 0 <= eo_method eo < 256 ->
  exists w' e, addOne E h body w = Done tt w' /\ same_but (e_tmp E) w w' /\ w_fs w' (e_tmp E) = Some (NFile (layout0 e ++ eo_out eo)) /\
    file_entry e /\ e_name e = take 221 (Base file) /\ e_method e = meth 104 (eo_method eo) /\ e_packed e = eo_packed eo /\ e_original e = eo_original eo /\ e_crc e = eo_crc eo.
Proof.
  intros G LH LN F T B NE T0 HE LT B1 B2 B3 B4. pose proof (cut_plain E h file body LH LN F T B) as P.
  assert (F0 : Forall (fun c => 0 < c) (Base file)) by (eapply Forall_impl; [|exact F]; cbv beta; lia).
  rewrite (addOne_cut E h (Base file) body G (lh_level _ _ _ _ LH) (proj1 (lh_mode _ _ _ _ LH)) (lh_name _ _ _ _ LH) ltac:(lia) F0 w).
  destruct LH as [_ _ (_ & _ & MR) _ _ FO _ _ _ _ _].
  set (nm := take 221 (Base file)) in *. set (h' := set_Name nm h) in *.
  assert (FN : Forall (fun c => 0 < c < 256 /\ c <> 92 /\ c <> 47) nm).
  { unfold nm, take. rewrite <- (firstn_skipn (Z.to_nat 221) (Base file)) in F. apply Forall_app in F. exact (proj1 F). }
  assert (P' : plain (packed_hdr h' eo) nm) by (apply plain_packed; assumption).
  assert (Zb : OriginalSize h' <> 0) by (change (OriginalSize h <> 0); rewrite FO; destruct body as [|x b]; [contradiction|rewrite zlen_cons; pose proof (zlen_nonneg b); lia]).
  assert (HE' : EncodeLzhuf (l_method (w_lha w)) (OriginalSize h') body (w_glob w) = Ok eo) by (change (OriginalSize h') with (OriginalSize h); rewrite FO; exact HE).
  destruct (addOne_packed E G h' nm body [] w eo P Zb T0 HE' LT P') as (w1 & R1 & R2 & R3 & R4). cbn [app] in R4. rewrite (overwrite_header E h' (packed_hdr h' eo) nm (eo_out eo) P P') in R4.
  exists w1, (entry_of (e_stamp E) (packed_hdr h' eo) nm). split; [exact R1|]. split; [exact R2|]. split; [exact R4|].
  assert (EN : entry_name nm) by (split; [exact (pl_len _ _ P)|exact FN]). destruct (base_slashes _ EN) as [BS1 BS2].
  split. { constructor; [now apply plain_legal| |exact MR]. cbn [entry_of e_name]. rewrite BS2. intros I. rewrite Forall_forall in FN. specialize (FN 0 I). lia. }
  split; [cbn [entry_of e_name]; exact BS2|]. repeat split; reflexivity.
Qed.

(** The claim is false: the program reports success, and what is taken out has the first
    221 bytes of the name. *)
Theorem C115_long_name_refuted :
  forall E fl w cs a file body,
    asks_add a file fl -> asked_level fl = 0 -> f_g fl = 5 -> asked_method fl = 5 \/ asked_method fl = 6 \/ asked_method fl = 7 /\ zlen body < 65536 ->
    creatable E a w -> file <> a -> long_source E w file body -> after cs (w_glob w) -> shorter (asked_method fl) (w_glob w) body ->
    exists w' c, main E fl w = Done (0, []) w' /\ w_fs w' a = Some (NFile c) /\ (forall q, q <> a -> q <> e_tmp E -> w_fs w' q = w_fs w q) /\
      forall E2 fl2 w2 cs2, asks_extract a fl2 -> stored_at E2 a c w2 -> after cs2 (w_glob w2) -> w_fs w2 (firstn 221 (Base file)) = None ->
        exists w3, main E2 fl2 w2 = Done (0, []) w3 /\ w_fs w3 (firstn 221 (Base file)) = Some (NFile body) /\
          w_fs w3 (Base file) = w_fs w2 (Base file) /\ forall q, q <> firstn 221 (Base file) -> w_fs w3 q = w_fs w2 q.
Proof.
  intros E fl w cs a file body AD LV G5 HM CR NA S A (NE & eo & HE & LT). pose proof CR as [C1 C2 C3 C4 C5 C6 C7].
  assert (NF : file <> []) by apply (ls_path _ _ _ _ S). destruct (main_add E a file fl w AD (proj1 C1) NF) as (l & AG & R). rewrite G5 in R. change (negb (5 =? 5)) with false in R.
  set (E' := with_generic false E) in R. pose proof AG as [L1 L2 L3 L4 L5 L6 L7 L8 L9 L10].
  assert (CR' : creatable E' a (started false l w)) by (constructor; assumption).
  set (w0 := made E' (started false l w) a) in *.
  assert (FO : forall q, q <> e_tmp E -> w_fs w0 q = w_fs w q) by (intros q Q; unfold w0; cbn [made w_fs set_wlha]; now rewrite fs_set_other).
  assert (NT : file <> e_tmp E) by (intros X; pose proof (ls_file _ _ _ _ S) as Y; rewrite X, C3 in Y; discriminate).
  assert (S0 : long_source E' w0 file body). { destruct S as [S1 S2 S3 S4 S5 S6]. constructor; try assumption. rewrite FO; assumption. }
  assert (T0 : w_fs w0 (e_tmp E') = Some (NFile [])) by apply fs_set_same.
  pose proof (add_long E' w0 file body (w_lha w0) S0 eq_refl L1 L2 L3 L6 NA) as AF.
  pose proof (init_long E' (w_lha w0) (w_fs w0) file body (cr_perm _ _ _ CR') (eq_trans L9 LV) (proj2 (proj1 (ls_name _ _ _ _ S)))) as LH.
  revert AF LH. generalize (initHeader E' (w_lha w0) (w_fs w0) file (NFile body)). intros h AF LH. destruct S as [S1 S2 S3 [S4 S4'] S5 [HB HL]].
  destruct (round_trip_567 cs (w_glob w) [] glob0 (asked_method fl) body eo []) as (M1 & M2 & M3 & M4 & _); auto; [split; [constructor|reflexivity]|constructor|].
  assert (B4 : 0 <= eo_crc eo < 2 ^ 16) by (rewrite M3; apply calcCrc_range; [lia|exact HB]).
  pose proof (zlen_nonneg (eo_out eo)) as Z1. pose proof (zlen_nonneg body) as Z0.
  assert (HE' : EncodeLzhuf (l_method (w_lha w0)) (zlen body) body (w_glob w0) = Ok eo) by (change (EncodeLzhuf (l_method l) (zlen body) body (w_glob w) = Ok eo); rewrite L10; exact HE).
  destruct (added_long E' h file body w0 eo eq_refl LH (proj1 S4) S4' S5 HL NE T0 HE' LT) as (w1 & e & R1 & R2 & R4 & FE & E1 & E2' & E3 & E4 & E5); try lia.
  set (nm := Base file) in *. assert (TN : take 221 nm = firstn 221 nm) by reflexivity. rewrite <- TN. set (nm' := take 221 nm) in *.
  assert (FN : Forall (fun c => 0 < c < 256 /\ c <> 92 /\ c <> 47) nm').
  { unfold nm', take. rewrite <- (firstn_skipn (Z.to_nat 221) nm) in S4'. apply Forall_app in S4'. exact (proj1 S4'). }
  assert (LN : zlen nm' = 221) by (unfold nm', take, zlen in *; rewrite firstn_length; lia).
  assert (AF' : add_files (appendIt E') 1 0 None w0 = Done None w1) by (rewrite AF, (bindIO_done _ _ _ _ _ R1); reflexivity).
  destruct (add_command_new E' (appendIt E') a (started false l w) None w1 _ file CR' L2 L4 L6 L5 AF' R2 R4 L1) as (w3 & Y1 & _ & Y3 & _ & Y5).
  assert (EN : entry_name nm') by (split; [lia|exact FN]).
  destruct (base_slashes _ EN) as [BS1 BS2].
  assert (PK : packs e (eo_out eo) body).
  { exists (asked_method fl), cs, (w_glob w), eo. split; [exact HM|]. split; [exact HB|]. split; [exact NE|]. split; [exact A|]. split; [exact HE|]. split; [exact LT|]. split; [reflexivity|].
    split; [rewrite E2', M1, Z.add_comm; reflexivity|]. split; [lia|]. split; [congruence|congruence]. }
  exists w3, (archive_bytes [(e, eo_out eo)]). rewrite R.
  split; [unfold CommandAdd; rewrite (bindIO_done _ _ _ _ _ Y1); reflexivity|].
  split; [rewrite Y3; unfold archive_bytes; cbn [flat_map fst snd]; rewrite app_nil_r, <- !app_assoc; reflexivity|]. split; [exact Y5|].
  intros E2 fl2 w2 cs2 AE ST A2 NB.
  assert (DN : nm <> nm') by (intros X; rewrite X in S4; lia).
  destruct (C76_extract_command_partial E2 fl2 w2 cs2 a [(e, eo_out eo)] [(nm', body)]) as (w4 & X1 & X2 & X3); auto.
  - apply single_bytes; [apply FE|eapply packs_bytes; exact PK].
  - constructor; [|constructor]. cbn [fst snd]. split; [exact FE|]. split; [|now apply packs_holds]. exists []. constructor; [rewrite E1; exact BS1|now left|].
    split; [intros X; rewrite X in LN; discriminate LN|]. intros I. rewrite Forall_forall in FN. specialize (FN 47 I). lia.
  - constructor; [intros []|constructor].
  - intros f [<-|[]]. exact NB.
  - cbn. destruct (l0_name _ (fe_legal _ FE)) as [X _]. split; [exact X|exact Logic.I].
  - exists w4. split; [exact X1|]. split; [exact (X2 _ (or_introl eq_refl))|]. split; [apply X3; intros [X|[]]; apply DN; symmetry; exact X|]. intros q Q. apply X3. intros [X|[]]. now apply Q.
Qed.

(** A file whose name consists of 230 times "a", a hundred zero bytes long, and the same
    directory without it. *)
Definition ex_long : path := repeat 97 230.
Definition ex_long_world : world :=
  W (fs_set ex_long (Some (NFile (repeat 0 100))) (fun _ => None)) [] glob0 false [] (w_lha (ex_adder [] [])) [].
Definition ex_long_flags : flags := FLAGS [98] false false false false false [] false ex_long false false false false 5 0 0 [].

Example C115_example :
  asks_add [98] ex_long ex_long_flags /\ asked_level ex_long_flags = 0 /\ f_g ex_long_flags = 5 /\ asked_method ex_long_flags = 5 /\
  creatable ex_env [98] ex_long_world /\ ex_long <> [98] /\ long_source ex_env ex_long_world ex_long (repeat 0 100) /\ after [] (w_glob ex_long_world) /\
  shorter 5 (w_glob ex_long_world) (repeat 0 100) /\ (name_room false <= length (repeat 97 230))%nat /\
  firstn (name_room false) (repeat 97 230) = firstn (name_room false) (repeat 97 230 ++ [98]) /\
  (forall c, stored_at ex_env [98] c (ex_listing c) /\ after [] (w_glob (ex_listing c)) /\ w_fs (ex_listing c) (firstn 221 (Base ex_long)) = None).
Proof.
  split; [constructor; try reflexivity; left; split; reflexivity|]. split; [reflexivity|]. split; [reflexivity|]. split; [reflexivity|].
  split. { constructor; try reflexivity; try discriminate; try (cbn; lia); try (split; [discriminate|intros [X|[]]; discriminate X]); try (intros [X|[]]; discriminate X). }
  split; [discriminate|].
  split.
  { assert (BL : Base ex_long = ex_long) by (vm_compute; reflexivity). constructor.
    - split; [discriminate|]. intros X. apply repeat_spec in X. discriminate X.
    - apply fs_set_same.
    - reflexivity.
    - rewrite BL. split; [change (221 < 230 < 1024); lia|]. apply Forall_forall. intros x X. apply repeat_spec in X. subst. lia.
    - cbn. lia.
    - split; [|reflexivity]. apply Forall_forall. intros x X. apply repeat_spec in X. subst. unfold is_byte. lia. }
  split; [split; [constructor|reflexivity]|]. split; [exact ex_shorter|]. split; [cbn; lia|]. split; [vm_compute; reflexivity|].
  intros c. split; [apply ex_stored_at|]. split; [split; [constructor|reflexivity]|vm_compute; reflexivity].
Qed.

Print Assumptions C115_same_header_refuted.
Print Assumptions C115_names_told_apart_partial.
Print Assumptions C115_long_name_refuted.
