(** Property C114: level 0 headers made on a Macintosh, an Amiga and under OS-9. *)
From Verif Require Import Go GoLemmas M_Crc M_Bitio S_Header S_Listing S_Level0 S_Systems M_Header M_Os M_Archive S_AnyEntry P_Header P_Accept P_Level0 P_AnyEntry.

Lemma conv_mac l : Forall (fun b => 0 <= b < 256) l -> map (conv_byte [255; 47; 58; 92] [47; 58; 47; 47] none) l = from_mac l.
Proof.
  intros F. unfold from_mac. apply map_ext_in. intros c H. rewrite Forall_forall in F. specialize (F _ H).
  unfold conv_byte, delim_index. change (none =? toUpper) with false. change (none =? toLower) with false. cbn [andb]. cbv iota.
  destruct (Z.ltb_spec c 128) as [L|L].
  - unfold index_of, option_map. rewrite (Z.eqb_sym 255 c), (Z.eqb_sym 47 c), (Z.eqb_sym 58 c), (Z.eqb_sym 92 c).
    destruct (Z.eqb_spec c 255); [lia|]. destruct (Z.eqb_spec c 47) as [->|]; [reflexivity|]. destruct (Z.eqb_spec c 58) as [->|]; [reflexivity|].
    destruct (Z.eqb_spec c 92) as [->|]; reflexivity.
  - destruct (Z.eqb_spec c 58); [lia|]. destruct (Z.eqb_spec c 47); [lia|]. destruct (Z.eqb_spec c 92); [lia|]. reflexivity.
Qed.

(** A header of a Macintosh is read: the parts of the path are separated by '/', a '/' in a
    name has become ':'; method, sizes, CRC and attribute are those of the header. *)
Theorem C114_macintosh_header_partial :
  forall o e rest t,
    legall e -> y_area e = macintosh :: t ->
    exists h, GetHeader o NewLzHeader (layoutl e ++ rest) = Ok (ENil, true, h, rest) /\
      Name h = from_mac (y_name e) ++ [0] /\ Method h = y_method e /\ PackedSize h = y_packed e /\ OriginalSize h = y_original e /\
      HasCrc h = true /\ Crc h = y_crc e /\ Attribute h = y_attr e.
Proof.
  intros o e rest t L A. rewrite GetHeader_layoutl_raw; [|exact L|vm_compute; discriminate|].
  2:{ change (zlen (Name NewLzHeader)) with FilenameLength. destruct (ll_name _ L) as [LN _]. unfold FilenameLength, zlen. lia. }
  assert (ET : ExtendType (readl NewLzHeader e) = 109) by (unfold readl; cbn [ExtendType]; rewrite A; reflexivity).
  unfold finishHeader. change (ExtendType (rawl NewLzHeader e)) with (ExtendType (readl NewLzHeader e)). rewrite ET.
  match goal with |- context [if ?b then none else ?l] => change b with true end.
  change (109 =? ExtendMacos) with true. change (109 =? ExtendAmiga) with false. cbv iota. cbn [andb]. cbv iota.
  unfold set_Name, convertFilename. cbn [Name rawl]. change ((codeSJIS =? codeSJIS) && (none =? toLower)) with false. cbn [andb]. cbv iota. cbn [UnixMode rawl].
  unfold y_mode. rewrite A. change (is_unix (macintosh :: t)) with false. cbv iota. change (isSymlinkMode (32768 + 438)) with false. cbv iota.
  eexists. split; [reflexivity|]. cbn [Name Method PackedSize OriginalSize HasCrc Crc Attribute rawl]. rewrite map_app.
  rewrite conv_mac by apply (ll_name _ L). repeat split; reflexivity.
Qed.

(** OS-9: as any other header. *)
Theorem C114_os9_header_partial :
  forall o e rest s t,
    legall e -> y_area e = s :: t -> In s os9 -> ConvertCase o = false ->
    exists h, GetHeader o NewLzHeader (layoutl e ++ rest) = Ok (ENil, true, h, rest) /\ describesl e h.
Proof.
  intros o e rest s t L A S CC.
  assert (U : is_unix (y_area e) = false) by (rewrite A; destruct S as [<-|[<-|[]]]; reflexivity).
  exists (readl NewLzHeader e). split.
  - apply GetHeader_layoutl_gen; auto; [vm_compute; discriminate| | |].
    + change (zlen (Name NewLzHeader)) with FilenameLength. destruct (ll_name _ L) as [LN _]. unfold FilenameLength, zlen. lia.
    + intros x <-. unfold readl. cbn [ExtendType]. rewrite A. destruct S as [<-|[<-|[]]]; split; discriminate.
    + unfold y_mode. rewrite U. reflexivity.
  - constructor; try (repeat split; reflexivity). cbn [readl Name]. now rewrite (slash_back_l e L).
Qed.

Lemma amiga_read o e rest t : legall e -> y_area e = amiga :: t ->
  GetHeader o NewLzHeader (layoutl e ++ rest) = Ok (ENil, true, readl NewLzHeader e, rest).
Proof.
  intros L A. rewrite GetHeader_layoutl_raw; [|exact L|vm_compute; discriminate|].
  2:{ change (zlen (Name NewLzHeader)) with FilenameLength. destruct (ll_name _ L) as [LN _]. unfold FilenameLength, zlen. lia. }
  assert (ET : ExtendType (readl NewLzHeader e) = 65) by (unfold readl; cbn [ExtendType]; rewrite A; reflexivity).
  unfold finishHeader. change (ExtendType (rawl NewLzHeader e)) with (ExtendType (readl NewLzHeader e)). rewrite ET.
  match goal with |- context [if ?b then none else ?l] => change b with true end.
  change (65 =? ExtendMacos) with false. change (65 =? ExtendAmiga) with true. cbv iota. cbn [andb].
  replace (last (Name (rawl NewLzHeader e)) 0 =? lhaPathsep) with false by (cbn [rawl Name]; rewrite last_last; reflexivity).
  rewrite Bool.andb_false_r. cbn [andb]. cbv iota.
  match goal with |- context [set_Name ?n ?h] => replace (set_Name n h) with (readl NewLzHeader e) end.
  - change (UnixMode (readl NewLzHeader e)) with (y_mode e). unfold y_mode. rewrite A. reflexivity.
  - unfold set_Name, convertFilename. cbn [Name rawl]. change ((codeSJIS =? codeSJIS) && (none =? toLower)) with false. cbn [andb]. cbv iota.
    rewrite map_app. unfold readl at 1, slash_back. reflexivity.
Qed.

(** Refuted for directories of an Amiga, which have the method -lh0- and a name that ends with
    '/': they are to be read as directories (-lhd-), as the code intends.  Whatever the header,
    it is read as a stored file, because the name has got a NUL after the '/'. *)
Theorem C114_amiga_directory_refuted :
  forall o e rest t dir,
    legall e -> y_area e = amiga :: t -> y_method e = Lzhuff0Method -> y_name e = dir ++ [47] ->
    exists h, GetHeader o NewLzHeader (layoutl e ++ rest) = Ok (ENil, true, h, rest) /\ Method h = Lzhuff0Method /\ Method h <> LzhdirsMethod.
Proof.
  intros o e rest t dir L A M N. eexists. split; [eapply amiga_read; eauto|]. cbn [readl Method]. rewrite M. split; [reflexivity|discriminate].
Qed.

(** Files of an Amiga are read, with or without conversion to lower case. *)
Theorem C114_amiga_header_partial :
  forall o e rest t,
    legall e -> y_area e = amiga :: t ->
    exists h, GetHeader o NewLzHeader (layoutl e ++ rest) = Ok (ENil, true, h, rest) /\ describesl e h.
Proof.
  intros o e rest t L A. eexists. split; [eapply amiga_read; eauto|]. constructor; try (repeat split; reflexivity). cbn [readl Name]. now rewrite (slash_back_l e L).
Qed.

(** "a:b/c" of a Macintosh is "a/b:c"; a directory "d/" of an Amiga. *)
Definition ex_mac : entryl := EL Lzhuff0Method 3 3 0 32 [97; 58; 98; 47; 99] 0 [109].
Definition ex_amiga : entryl := EL Lzhuff0Method 0 0 0 32 [100; 47] 0 [65].
Example C114_example : legall ex_mac /\ from_mac (y_name ex_mac) = [97; 47; 98; 58; 99] /\ legall ex_amiga /\ legall (EL Lzhuff0Method 0 0 0 32 [100] 0 [75]).
Proof.
  split; [|split; [reflexivity|split]]; constructor; cbn; try lia; repeat split; try reflexivity; repeat constructor; lia.
Qed.

Print Assumptions C114_macintosh_header_partial.
Print Assumptions C114_os9_header_partial.
Print Assumptions C114_amiga_directory_refuted.
Print Assumptions C114_amiga_header_partial.
