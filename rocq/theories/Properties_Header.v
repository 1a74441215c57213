(** Properties of entry headers. *)
From Verif Require Import Go GoLemmas M_Crc M_Bitio M_Header S_Header P_Header.

(** ** C20: a level 0 header written and read back

    [Name] of the header to write holds the name followed by NUL bytes. *)
Theorem C20_level0_round_trip : forall o stamp h nm k rest,
  GenericFormat o = false ->
  HeaderLevel h = 0 ->
  Name h = nm ++ zeros k ->
  zlen nm <= 221 ->
  Forall (fun c => 0 < c < 256 /\ c <> 92) nm ->
  zlen (Method h) = 5 -> Forall (fun c => 0 <= c < 256) (Method h) ->
  0 <= PackedSize h < 2 ^ 32 -> 0 <= OriginalSize h < 2 ^ 32 -> 0 <= Attribute h < 256 ->
  0 <= Crc h < 2 ^ 16 -> 0 <= UnixLastModifiedStamp h < 2 ^ 32 ->
  0 <= UnixMode h < 2 ^ 16 -> Z.land (UnixMode h) 40960 <> 40960 ->
  0 <= UnixUID h < 2 ^ 16 -> 0 <= UnixGid h < 2 ^ 16 ->
  exists l h',
    WriteHeader o stamp h = Ok (Some l) /\
    GetHeader o NewLzHeader (l ++ rest) = Ok (ENil, true, h', rest) /\
    HeaderSize h' = zlen l /\
    Method h' = Method h /\ PackedSize h' = PackedSize h /\ OriginalSize h' = OriginalSize h /\
    Attribute h' = Attribute h /\ HeaderLevel h' = 0 /\ Name h' = nm ++ [0] /\
    HasCrc h' = true /\ Crc h' = Crc h /\ UnixLastModifiedStamp h' = UnixLastModifiedStamp h /\
    UnixMode h' = UnixMode h /\ UnixUID h' = UnixUID h /\ UnixGid h' = UnixGid h.
Proof.
  intros o stamp h nm k rest Ho Hl Hn Ln Fn Lm Fm Hp Hor Hat Hc Hst Hmo Hsy Hui Hgi.
  assert (F1 : Forall (fun c => 0 <= c < 256) nm) by (eapply Forall_impl; [|exact Fn]; cbv beta; lia).
  assert (F2 : Forall (fun c => c <> 0) nm) by (eapply Forall_impl; [|exact Fn]; cbv beta; lia).
  assert (F3 : Forall (fun c => c <> 92) nm) by (eapply Forall_impl; [|exact Fn]; cbv beta; lia).
  assert (HS : isSymlinkMode (UnixMode h) = false) by (unfold isSymlinkMode; apply Z.eqb_neq; exact Hsy).
  assert (Lg : legal0 (entry_of stamp h nm)).
  { constructor; cbn [entry_of e_method e_packed e_original e_dostime e_attr e_name e_crc e_minor e_time e_mode e_uid e_gid]; try assumption; try lia.
    - split; [unfold zlen in Lm; lia|exact Fm].
    - apply Z.mod_pos_bound. lia.
    - split; [unfold to_backslash; rewrite map_length; unfold zlen in Ln; lia|].
      unfold to_backslash. clear -F1. induction F1 as [|x l Hx F IH]; cbn [map]; constructor; [destruct (x =? 47); lia|exact IH]. }
  exists (layout0 (entry_of stamp h nm)), (read0 NewLzHeader (entry_of stamp h nm)).
  split.
  { apply (WriteHeader_layout0 o stamp h nm (zeros k)); try assumption.
    - unfold zeros. destruct (Z.to_nat k); reflexivity.
    - rewrite Hn. apply Forall_app. split; [exact F1|]. apply bytesP_zeros. }
  split.
  { apply GetHeader_layout0; [exact Lg|change (zlen (Method NewLzHeader)) with 5; lia| |exact HS].
    cbn [entry_of e_name]. unfold to_backslash. rewrite zlen_map. change (zlen (Name NewLzHeader)) with 1024. lia. }
  unfold read0. cbn [HeaderSize Method PackedSize OriginalSize Attribute HeaderLevel Name HasCrc Crc UnixLastModifiedStamp UnixMode UnixUID UnixGid entry_of e_method e_packed e_original e_dostime e_attr e_name e_crc e_minor e_time e_mode e_uid e_gid].
  rewrite slash_back_to by assumption. tauto.
Qed.

(** A header for "a/b" of 7 bytes compressed to 5, mode 0100644. *)
Definition ex_hdr : hdr :=
  HDR 0 0 [45; 108; 104; 53; 45] 5 7 32 0 ([97; 47; 98] ++ zeros 1021) [] 4660 true 0 85 0 1600000000 33188 1000 100 [] [].
Example C20_example : exists l h', WriteHeader (OPTS false false) (fun t => t) ex_hdr = Ok (Some l) /\ zlen l = 39 /\
  GetHeader (OPTS false false) NewLzHeader (l ++ [1; 2]) = Ok (ENil, true, h', [1; 2]) /\ Name h' = [97; 47; 98; 0].
Proof.
  destruct (C20_level0_round_trip (OPTS false false) (fun t => t) ex_hdr [97; 47; 98] 1021 [1; 2]) as (l & h' & W & R & S & T); try reflexivity; try (cbn; lia); try (cbn; discriminate).
  - repeat constructor; lia.
  - repeat constructor; lia.
  - exists l, h'. split; [exact W|]. split; [|split; [exact R|tauto]].
    assert (E : WriteHeader (OPTS false false) (fun t => t) ex_hdr = Ok (Some l)) by exact W. vm_compute in E. injection E as <-. reflexivity.
Qed.

(** ** C47: what is written is the documented layout *)
Theorem C47_written_layout : forall o stamp h nm k,
  GenericFormat o = false ->
  HeaderLevel h = 0 -> Z.land (UnixMode h) 40960 <> 40960 ->
  Name h = nm ++ zeros k -> Forall (fun c => 0 < c < 256) nm ->
  let e := E0 (Method h) (PackedSize h) (OriginalSize h) (stamp (UnixLastModifiedStamp h) mod 2 ^ 32) (Attribute h)
              (map (fun c => if c =? 47 then 92 else c) nm) (Crc h) 0 (UnixLastModifiedStamp h) (UnixMode h) (UnixUID h) (UnixGid h) in
  legal0 e ->
  WriteHeader o stamp h = Ok (Some (layout0 e)).
Proof.
  intros o stamp h nm k Ho Hl Hs Hn Fn e Lg.
  apply (WriteHeader_layout0 o stamp h nm (zeros k)); try assumption.
  - unfold isSymlinkMode. apply Z.eqb_neq. exact Hs.
  - unfold zeros. destruct (Z.to_nat k); reflexivity.
  - rewrite Hn. apply Forall_app. split; [eapply Forall_impl; [|exact Fn]; cbv beta; lia|apply bytesP_zeros].
  - eapply Forall_impl; [|exact Fn]; cbv beta; lia.
Qed.

(** And any header with that layout, whoever wrote it, is read as the entry it
    describes; backslashes become slashes. *)
Theorem C47_layout_read : forall o h0 e rest,
  legal0 e -> zlen (Method h0) >= 5 -> zlen (Name h0) > zlen (e_name e) -> Z.land (e_mode e) 40960 <> 40960 ->
  exists h, GetHeader o h0 (layout0 e ++ rest) = Ok (ENil, true, h, rest) /\
    HeaderSize h = zlen (layout0 e) /\ Method h = e_method e /\ PackedSize h = e_packed e /\ OriginalSize h = e_original e /\
    Attribute h = e_attr e /\ HeaderLevel h = 0 /\ Name h = map (fun c => if c =? 92 then 47 else c) (e_name e) ++ [0] /\
    HasCrc h = true /\ Crc h = e_crc e /\ MinorVersion h = e_minor e /\ UnixLastModifiedStamp h = e_time e /\
    UnixMode h = e_mode e /\ UnixUID h = e_uid e /\ UnixGid h = e_gid e.
Proof.
  intros o h0 e rest Lg HM HN HS. exists (read0 h0 e).
  split; [apply GetHeader_layout0; try assumption; unfold isSymlinkMode; apply Z.eqb_neq; exact HS|].
  unfold read0. cbn [HeaderSize Method PackedSize OriginalSize Attribute HeaderLevel Name HasCrc Crc MinorVersion UnixLastModifiedStamp UnixMode UnixUID UnixGid].
  repeat (split; [reflexivity|]). split; [|tauto].
  f_equal. unfold slash_back. apply map_ext_in. intros c Hc. destruct (l0_name e Lg) as [_ F]. rewrite Forall_forall in F. specialize (F c Hc). cbv beta in F.
  unfold conv_byte, delim_index, index_of, option_map. rewrite (Z.eqb_sym 92 c).
  destruct (Z.ltb_spec c 128).
  - destruct (Z.eqb_spec 255 c); [lia|]. destruct (Z.eqb_spec c 92); reflexivity.
  - destruct (Z.eqb_spec c 92); [lia|]. reflexivity.
Qed.

Example C47_example : exists e, legal0 e /\ zlen (e_name e) = 3 /\ zlen (layout0 e) = 39 /\ zlen (Name NewLzHeader) > zlen (e_name e).
Proof.
  exists (E0 [45; 108; 104; 53; 45] 5 7 0 32 [97; 92; 98] 4660 0 1600000000 33188 1000 100).
  split; [|cbn; repeat split; lia]. constructor; cbn; repeat constructor; lia.
Qed.

(** ** C21: one byte changed *)
Theorem C21_corruption_detected : forall o h1 h2 inp e h' rest i y,
  Forall (fun c => 0 <= c < 256) inp ->
  GetHeader o h1 inp = Ok (e, true, h', rest) ->
  (1 <= i < length inp)%nat -> Z.of_nat i < nth 0 inp 0 + 2 ->
  0 <= y < 256 -> y <> nth i inp 0 ->
  (forall e2 h2' r2, GetHeader o h2 (set_byte i y inp) <> Ok (e2, true, h2', r2)) /\
  (1 <= zlen (Name h2) -> ~ In (nth 20 (set_byte i y inp) 0) [1; 2; 3] ->
   exists e2 h2' r2, GetHeader o h2 (set_byte i y inp) = Ok (e2, false, h2', r2)).
Proof.
  intros o h1 h2 inp e h' rest i y F A Hi Hh Hy Hn.
  assert (E : inp = firstn i inp ++ nth i inp 0 :: skipn (S i) inp).
  { rewrite <- (firstn_skipn i inp) at 1. f_equal. clear -Hi. revert i Hi. induction inp as [|x inp IH]; intros i Hi; [cbn in Hi; lia|].
    destruct i as [|i]; [reflexivity|]. cbn [skipn nth]. destruct inp as [|z inp]; [cbn in Hi; lia|]. destruct i; [reflexivity|]. apply IH. cbn in *. lia. }
  assert (N : forall e2 h2' r2, GetHeader o h2 (set_byte i y inp) <> Ok (e2, true, h2', r2)).
  { intros e2 h2' r2 B. unfold set_byte in B.
    assert (HD : hd 0 (firstn i inp) = nth 0 inp 0) by (destruct inp; [cbn in Hi; lia|]; destruct i; [lia|reflexivity]).
    eapply (checksum_change o h1 h2 (firstn i inp) (nth i inp 0) y (skipn (S i) inp)).
    - rewrite <- E. exact F.
    - exact Hy.
    - congruence.
    - rewrite <- E. exact A.
    - rewrite HD. unfold zlen. rewrite firstn_length, Nat.min_l by lia. lia.
    - exact B. }
  split; [exact N|]. intros L1 LV.
  destruct (GetHeader_level0_total o h2 (set_byte i y inp)) as (e2 & ok & h2' & r2 & G & _); [|exact L1|exact LV|].
  - unfold set_byte. rewrite E in F. apply Forall_app in F. destruct F as [Fa Fb]. inversion Fb; subst. apply Forall_app. split; [exact Fa|]. constructor; assumption.
  - destruct ok; [elim (N _ _ _ G)|]. eauto.
Qed.

Definition ex_lay : list Z := layout0 (E0 [45; 108; 104; 53; 45] 5 7 0 32 [97; 92; 98] 4660 0 1600000000 33188 1000 100).
Example C21_example : (exists h', GetHeader (OPTS false false) NewLzHeader ex_lay = Ok (ENil, true, h', [])) /\ nth 0 ex_lay 0 = 37 /\ length ex_lay = 39%nat /\
  exists h2 r2, GetHeader (OPTS false false) NewLzHeader (set_byte 23 99 ex_lay) = Ok (EOther, false, h2, r2).
Proof. split; [|split; [|split]]; try reflexivity; [eexists|do 2 eexists]; vm_compute; reflexivity. Qed.

(** ** C22: level 1 headers cannot be written *)
Theorem C22_level1_written_refuted : forall o stamp h,
  HeaderLevel h = 1 -> Z.land (UnixMode h) 40960 <> 40960 -> WriteHeader o stamp h = Panic.
Proof.
  intros o stamp h Hl Hs. unfold WriteHeader. rewrite Hl. unfold isSymlinkMode, UnixFileSymlink.
  destruct (Z.eqb_spec (Z.land (UnixMode h) 40960) 40960); [contradiction|].
  change (1 =? 0) with false. change (1 =? 1) with true. cbv iota. rewrite writeLevel1_panics. reflexivity.
Qed.
Example C22_example : HeaderLevel (set_HeaderLevel 1 ex_hdr) = 1 /\ Z.land (UnixMode (set_HeaderLevel 1 ex_hdr)) 40960 <> 40960.
Proof. split; [reflexivity|discriminate]. Qed.

(** ** C23: level 2 and 3 headers crash the reader *)
Theorem C23_level2_read_refuted : forall o h inp,
  22 <= zlen inp -> nth 0 inp 0 <> 0 -> nth 20 inp 0 = 2 -> 26 <= nth 0 inp 0 + 256 * nth 1 inp 0 ->
  GetHeader o h inp = Panic.
Proof. intros. now apply level2_panics. Qed.

Theorem C23_level3_read_refuted : forall o h inp,
  28 <= zlen inp -> nth 0 inp 0 <> 0 -> nth 20 inp 0 = 3 ->
  32 <= nth 24 inp 0 + 256 * nth 25 inp 0 + 65536 * nth 26 inp 0 + 16777216 * nth 27 inp 0 ->
  GetHeader o h inp = Panic.
Proof. intros. now apply level3_panics. Qed.

(** A level 2 header of 31 bytes, with an empty name. *)
Example C23_example : exists inp, 22 <= zlen inp /\ nth 0 inp 0 <> 0 /\ nth 20 inp 0 = 2 /\ 26 <= nth 0 inp 0 + 256 * nth 1 inp 0.
Proof. exists ([31; 0; 45; 108; 104; 53; 45; 5; 0; 0; 0; 7; 0; 0; 0; 0; 0; 0; 0; 32; 2; 52; 18; 85; 3; 0; 1; 0; 0; 0; 0]). repeat split; vm_compute; discriminate. Qed.

(** Levels other than 1, 2 and 3 never crash it. *)
Theorem C23_read_returns_partial : forall o h inp,
  Forall (fun c => 0 <= c < 256) inp -> 1 <= zlen (Name h) -> ~ In (nth 20 inp 0) [1; 2; 3] ->
  exists e ok h' rest, GetHeader o h inp = Ok (e, ok, h', rest) /\ 1 <= zlen (Name h') /\ (ok = true -> zlen rest + 22 <= zlen inp).
Proof.
  intros o h inp F L N. destruct (GetHeader_level0_total o h inp F L N) as (e & ok & h' & r & G & L' & _ & K). exists e, ok, h', r. auto.
Qed.
Example C23_partial_example : Forall (fun c => 0 <= c < 256) ex_lay /\ 1 <= zlen (Name NewLzHeader) /\ ~ In (nth 20 ex_lay 0) [1; 2; 3].
Proof. split; [vm_compute; repeat constructor; discriminate|]. split; [vm_compute; discriminate|]. vm_compute. lia. Qed.

(** ** C45: what the library writes at level 2 it cannot read *)
Theorem C45_level2_written_read_refuted : forall o stamp h l o' h' rest,
  HeaderLevel h = 2 -> zlen (Method h) = 5 -> WriteHeader o stamp h = Ok (Some l) -> zlen l < 65536 ->
  GetHeader o' h' (l ++ rest) = Panic.
Proof. exact write_level2_unreadable. Qed.
Example C45_example : exists l, HeaderLevel (set_HeaderLevel 2 ex_hdr) = 2 /\ WriteHeader (OPTS false false) (fun t => t) (set_HeaderLevel 2 ex_hdr) = Ok (Some l) /\ zlen l < 65536.
Proof. eexists. split; [reflexivity|]. split; [vm_compute; reflexivity|]. vm_compute. reflexivity. Qed.

(** ** C44: level 1 archives made by other tools *)
Theorem C44_level1_extended_refuted : forall o h0 e rest,
  legal1 e -> zlen (Method h0) >= 5 -> zlen (Name h0) >= zlen (f_name e) -> f_exts e <> [] ->
  forall er h r, GetHeader o h0 (layout1 e ++ rest) <> Ok (er, true, h, r).
Proof.
  intros o h0 e rest Lg HM HN HX er h r H. rewrite GetHeader_layout1 in H by assumption.
  destruct (set0 _ _) as [nm| |]; cbn [bind] in H; [|discriminate H..].
  destruct (Z.ltb_spec 0 (next_size (f_exts e))) as [P|P].
  2: { destruct (f_exts e) as [|[ty d] l]; [contradiction|]. cbn [next_size] in P. lia. }
  destruct (getExtendedHeader _ _ _) as [[[x h1] r1]| |] eqn:E; cbn [bind] in H; [|discriminate H..].
  destruct x as [t|]; [|discriminate H].
  eapply ext_never; [|exact E]. cbn. rewrite body1_len by (apply Lg). pose proof (zlen_nonneg (f_name e)). lia.
Qed.

(** Without extended headers the last byte of the name is lost. *)
Theorem C44_level1_name_refuted : forall o h0 e nm c rest,
  legal1 e -> zlen (Method h0) >= 5 -> zlen (Name h0) >= zlen (f_name e) -> f_exts e = [] -> f_os e = 85 ->
  f_name e = nm ++ [c] ->
  exists h, GetHeader o h0 (layout1 e ++ rest) = Ok (ENil, true, h, rest) /\
    Name h = map (fun c => if c =? 92 then 47 else c) nm ++ [0] /\
    PackedSize h = f_skip e /\ OriginalSize h = f_original e /\ Crc h = f_crc e /\ Method h = f_method e.
Proof.
  intros o h0 e nm c rest Lg HM HN HX HO HF. rewrite GetHeader_layout1 by assumption. rewrite HX, HF. cbn [next_size ext_bytes app].
  replace (zlen (nm ++ [c]) - 1) with (zlen nm) by (rewrite zlen_app; change (zlen [c]) with 1; lia).
  rewrite set0_last. cbn [bind]. change (0 <? 0) with false. cbv iota. cbn [bind].
  unfold finishHeader. cbn [ExtendType set_HeaderSize fixed1]. rewrite HO.
  change ((85 =? ExtendHuman) || (85 =? ExtendOs68k) || (85 =? ExtendXosk) || (85 =? ExtendUnix) || (85 =? ExtendJava) || (85 =? ExtendMacos) || (85 =? ExtendAmiga)) with true.
  change (85 =? ExtendMacos) with false. change (85 =? ExtendAmiga) with false. cbv iota. cbn [andb]. cbv iota.
  unfold set_Name. cbn [Name UnixMode]. change (isSymlinkMode (Z.lor UnixFileRegular UnixRwRwRw)) with false. cbv iota.
  eexists. split; [reflexivity|]. cbn [Name PackedSize OriginalSize Crc Method]. split; [|tauto].
  unfold convertFilename. change ((codeSJIS =? codeSJIS) && (none =? toLower)) with false. cbn [andb]. cbv iota.
  cbn [Name set_HeaderSize fixed1]. rewrite map_app. f_equal. destruct (l1_name e Lg) as [_ F]. rewrite HF in F. apply Forall_app in F. destruct F as [F _].
  apply map_ext_in. intros a Ha. rewrite Forall_forall in F. specialize (F a Ha). cbv beta in F.
  unfold conv_byte, delim_index, index_of, option_map. rewrite (Z.eqb_sym 92 a).
  destruct (Z.ltb_spec a 128).
  - destruct (Z.eqb_spec 255 a); [lia|]. destruct (Z.eqb_spec a 92); reflexivity.
  - destruct (Z.eqb_spec a 92); [lia|]. reflexivity.
Qed.

(** A name stored in an extended header leaves the base name empty: a panic. *)
Theorem C44_level1_empty_name_refuted : forall o h0 e rest,
  legal1 e -> zlen (Method h0) >= 5 -> f_name e = [] -> GetHeader o h0 (layout1 e ++ rest) = Panic.
Proof.
  intros o h0 e rest Lg HM HN. rewrite GetHeader_layout1; [rewrite HN; reflexivity|assumption|assumption|rewrite HN; change (zlen (@nil Z)) with 0; pose proof (zlen_nonneg (Name h0)); lia].
Qed.

Example C44_example : exists e, legal1 e /\ f_exts e <> [] /\ zlen (layout1 e) = 33 /\ zlen (f_name e) = 1.
Proof.
  exists (E1 [45; 108; 104; 53; 45] 11 7 0 32 [97] 4660 85 [(80, [164; 129])]).
  split; [constructor; cbn; repeat constructor; cbn; repeat constructor; lia|]. split; [discriminate|]. split; reflexivity.
Qed.
Example C44_name_example : exists e, legal1 e /\ f_exts e = [] /\ f_os e = 85 /\ f_name e = [97; 98] ++ [99].
Proof.
  exists (E1 [45; 108; 104; 53; 45] 11 7 0 32 [97; 98; 99] 4660 85 []).
  split; [constructor; cbn; repeat constructor; lia|]. repeat split.
Qed.

(** ** C39: Windows time stamps *)
Theorem C39_filetime_exact : forall data p t,
  0 <= p -> 116444736000000000 <= t < 2 ^ 64 ->
  take 8 (drop p data) = [t mod 256; t / 256 mod 256; t / 65536 mod 256; t / 16777216 mod 256;
     t / 2 ^ 32 mod 256; t / 2 ^ 40 mod 256; t / 2 ^ 48 mod 256; t / 2 ^ 56] ->
  wintimeToUnixStamp data p = Ok ((t - 116444736000000000) / 10000000, p + 8).
Proof.
  intros data p t Hp Ht H.
  set (b := [t mod 256; t / 256 mod 256; t / 65536 mod 256; t / 16777216 mod 256; t / 2 ^ 32 mod 256; t / 2 ^ 40 mod 256; t / 2 ^ 48 mod 256; t / 2 ^ 56]) in *.
  rewrite (wintime_exact data p b (drop 8 (drop p data)) Hp).
  - assert (V : val_le b = t).
    { unfold b, val_le.
      change (2 ^ 32) with 4294967296. change (2 ^ 40) with 1099511627776. change (2 ^ 48) with 281474976710656. change (2 ^ 56) with 72057594037927936.
      assert (D : forall k, 0 < k -> t / (k * 256) = t / k / 256) by (intros; rewrite Z.div_div by lia; reflexivity).
      change 65536 with (256 * 256). rewrite (D 256) by lia. change 16777216 with (256 * 256 * 256). rewrite (D (256 * 256)) by lia. rewrite (D 256) by lia.
      change 4294967296 with (256 * 256 * 256 * 256). rewrite (D (256 * 256 * 256)) by lia. rewrite (D (256 * 256)) by lia. rewrite (D 256) by lia.
      change 1099511627776 with (256 * 256 * 256 * 256 * 256). rewrite (D (256 * 256 * 256 * 256)) by lia. rewrite (D (256 * 256 * 256)) by lia. rewrite (D (256 * 256)) by lia. rewrite (D 256) by lia.
      change 281474976710656 with (256 * 256 * 256 * 256 * 256 * 256). rewrite (D (256 * 256 * 256 * 256 * 256)) by lia. rewrite (D (256 * 256 * 256 * 256)) by lia. rewrite (D (256 * 256 * 256)) by lia. rewrite (D (256 * 256)) by lia. rewrite (D 256) by lia.
      change 72057594037927936 with (256 * 256 * 256 * 256 * 256 * 256 * 256). rewrite (D (256 * 256 * 256 * 256 * 256 * 256)) by lia. rewrite (D (256 * 256 * 256 * 256 * 256)) by lia. rewrite (D (256 * 256 * 256 * 256)) by lia. rewrite (D (256 * 256 * 256)) by lia. rewrite (D (256 * 256)) by lia. rewrite (D 256) by lia.
      clear. pose proof (Z.div_mod t 256 ltac:(lia)). set (t1 := t / 256) in *. clearbody t1.
      pose proof (Z.div_mod t1 256 ltac:(lia)). set (t2 := t1 / 256) in *. clearbody t2.
      pose proof (Z.div_mod t2 256 ltac:(lia)). set (t3 := t2 / 256) in *. clearbody t3.
      pose proof (Z.div_mod t3 256 ltac:(lia)). set (t4 := t3 / 256) in *. clearbody t4.
      pose proof (Z.div_mod t4 256 ltac:(lia)). set (t5 := t4 / 256) in *. clearbody t5.
      pose proof (Z.div_mod t5 256 ltac:(lia)). set (t6 := t5 / 256) in *. clearbody t6.
      pose proof (Z.div_mod t6 256 ltac:(lia)). lia. }
    rewrite V. rewrite Z.mod_small by lia. reflexivity.
  - unfold b. repeat constructor; try (apply Z.mod_pos_bound; lia); [apply Z.div_pos; lia|apply Z.div_lt_upper_bound; lia].
  - reflexivity.
  - rewrite <- H. symmetry. apply take_drop.
Qed.
(** 2020-09-13 12:26:40 UTC. *)
Example C39_example : let t := 132444736000000000 in
  wintimeToUnixStamp [9; 0; 128; 166; 33; 201; 137; 214; 1] 1 = Ok (1600000000, 9) /\ 116444736000000000 <= t < 2 ^ 64.
Proof. split; [vm_compute; reflexivity|cbn; lia]. Qed.

(** ** C43: a backslash in a name *)
Theorem C43_backslash_name_refuted : exists o stamp h l h',
  Name h = [97; 92; 98; 0] /\ WriteHeader o stamp h = Ok (Some l) /\
  GetHeader o NewLzHeader l = Ok (ENil, true, h', []) /\ Name h' = [97; 47; 98; 0].
Proof.
  exists (OPTS false false), (fun t => t), (set_Name [97; 92; 98; 0] ex_hdr). do 2 eexists.
  split; [reflexivity|]. split; [vm_compute; reflexivity|]. split; vm_compute; reflexivity.
Qed.

(** ** C46: a reused header object

    The name is cut to the length of the name read before it. *)
Theorem C46_reused_header_refuted : exists o inp1 inp2 h1 h2 h2',
  GetHeader o NewLzHeader inp1 = Ok (ENil, true, h1, []) /\
  GetHeader o NewLzHeader inp2 = Ok (ENil, true, h2, []) /\ Name h2 = [97; 98; 99; 0] /\
  GetHeader o h1 inp2 = Ok (ENil, true, h2', []) /\ Name h2' = [97; 0; 0; 0] /\ Crc h2' <> Crc h2.
Proof.
  exists (OPTS false false), (layout0 (E0 [45; 108; 104; 53; 45] 5 7 0 32 [120] 4660 0 1600000000 33188 1000 100)),
    (layout0 (E0 [45; 108; 104; 53; 45] 5 7 0 32 [97; 98; 99] 4660 0 1600000000 33188 1000 100)).
  do 3 eexists. split; [vm_compute; reflexivity|]. split; [vm_compute; reflexivity|]. split; [vm_compute; reflexivity|].
  split; [vm_compute; reflexivity|]. split; [vm_compute; reflexivity|]. vm_compute. discriminate.
Qed.

(** ** C48: the MS-DOS time stamp

    The year is 1900 too high, so the 7-bit year field is always wrong. *)
Theorem C48_dos_time_refuted : forall year month day hour minute second,
  1980 <= year <= 2107 -> 1 <= month <= 12 -> 1 <= day <= 31 -> 0 <= hour <= 23 -> 0 <= minute <= 59 -> 0 <= second <= 59 ->
  genericStamp year month day hour minute second mod 2 ^ 32 <> dos_datetime year month day hour minute second.
Proof.
  intros y mo d ho mi s Hy Hmo Hd Hho Hmi Hs. unfold genericStamp, dos_datetime. rewrite !Z.shiftl_mul_pow2 by lia.
  change (2 ^ 32) with 4294967296. change (2 ^ 25) with 33554432. change (2 ^ 21) with 2097152. change (2 ^ 16) with 65536. change (2 ^ 11) with 2048. change (2 ^ 5) with 32.
  assert (HS : 0 <= s / 2 <= 29) by (split; [apply Z.div_pos; lia|]; apply Z.lt_succ_r, Z.div_lt_upper_bound; lia).
  set (low := mo * 2097152 + d * 65536 + ho * 2048 + mi * 32 + s / 2).
  assert (HL : 0 <= low < 33554432) by (unfold low; lia).
  intros E. replace ((y - 80) * 33554432 + mo * 2097152 + d * 65536 + ho * 2048 + mi * 32 + s / 2) with ((y - 80) * 33554432 + low) in E by (unfold low; lia).
  replace ((y - 1980) * 33554432 + mo * 2097152 + d * 65536 + ho * 2048 + mi * 32 + s / 2) with ((y - 1980) * 33554432 + low) in E by (unfold low; lia).
  pose proof (Z.div_mod ((y - 80) * 33554432 + low) 4294967296). lia.
Qed.
Example C48_example : genericStamp 2020 9 13 12 26 40 mod 2 ^ 32 = 690840404 /\ dos_datetime 2020 9 13 12 26 40 = 1361929044.
Proof. split; vm_compute; reflexivity. Qed.

Print Assumptions C20_level0_round_trip.
Print Assumptions C21_corruption_detected.
Print Assumptions C22_level1_written_refuted.
Print Assumptions C23_level2_read_refuted.
Print Assumptions C23_level3_read_refuted.
Print Assumptions C23_read_returns_partial.
Print Assumptions C39_filetime_exact.
Print Assumptions C43_backslash_name_refuted.
Print Assumptions C44_level1_extended_refuted.
Print Assumptions C44_level1_name_refuted.
Print Assumptions C44_level1_empty_name_refuted.
Print Assumptions C45_level2_written_read_refuted.
Print Assumptions C46_reused_header_refuted.
Print Assumptions C47_written_layout.
Print Assumptions C47_layout_read.
Print Assumptions C48_dos_time_refuted.
