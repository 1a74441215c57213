(** C123: the descriptions of the headers of an archive.  [holds] is defined in
    Properties_Lh1.v, [checksum_shown] and [without_nul] in S_ListText.v. *)
From Coq Require Import String.
From Verif Require Import Go GoLemmas M_Crc M_Bitio P_Bitio M_Maketree M_Maketbl M_Huf M_Slide M_Larc M_Decode M_Lzhuf S_Bits S_Huff S_Lz S_Lh1 S_Larc P_Larc S_Text S_Header S_Listing S_ListText M_Header M_Os M_Archive S_History S_Archive M_List M_String
  P_Header P_Accept P_List P_Os P_RoundTrip P_Single P_Read1 P_ExtractAll P_Verify P_Text Properties_Slide Properties_Archive Properties_Extract Properties_Listing Properties_Larc Properties_Lh5 Properties_Lh1 Properties_Damage.

(** *** The specification *)

(** What a description should say about an entry with a level 0 header. *)
Definition description (e : entry0) : list Z :=
  text "Name:" ++ slashes (e_name e) ++ newline
  ++ text "Realname:" ++ newline
  ++ text "HeaderLevel:0" ++ newline
  ++ text "CompressLevel:" ++ e_method e ++ newline
  ++ text "HasCrc:true" ++ newline
  ++ text "Crc:" ++ checksum_shown (e_crc e) ++ newline
  ++ text "Original Size :" ++ decimal (e_original e) ++ text " bytes" ++ newline
  ++ text "Packed Size : " ++ decimal (e_packed e) ++ text " bytes " ++ newline.

(** *** Proofs *)

Lemma index_in m ms : forall i k, method_index m ms i = Some k -> In m ms.
Proof.
  induction ms as [|x ms IH]; intros i k E; cbn [method_index] in E; [discriminate|]. destruct (list_eqb m x) eqn:X; [left; symmetry; apply list_eqb_eq; exact X|right; exact (IH _ _ E)].
Qed.

Lemma method_clean m k : method_num m = Some k -> clean m.
Proof.
  intros E. apply index_in in E. assert (F : Forall clean methods) by (unfold methods, meth, clean; repeat constructor; discriminate).
  rewrite Forall_forall in F. exact (F _ E).
Qed.

Lemma without_zeros n : without_nul (repeat 0 n) = [].
Proof. induction n as [|n IH]; [reflexivity|exact IH]. Qed.

Lemma describe_read e : file_entry e -> clean (e_method e) -> without_nul (header_String (read0 NewLzHeader e)) = description e.
Proof.
  intros FE M. pose proof (slash_back_slashes e FE) as SB.
  assert (N : clean (slashes (e_name e))).
  { apply Forall_forall. unfold slashes. intros x X. apply in_map_iff in X. destruct X as (y & Y & I). pose proof (fe_name _ FE) as Z0. destruct (y =? 92); [lia|]. subst. intros ->. contradiction. }
  assert (T : forall l, forallb (fun b => negb (b =? 0)) l = true -> clean l).
  { intros l H. apply Forall_forall. intros x X. rewrite forallb_forall in H. specialize (H x X). destruct (Z.eqb_spec x 0); [discriminate H|assumption]. }
  assert (W : forall s, forallb (fun b => negb (b =? 0)) (text s) = true -> without_nul (text s) = text s) by (intros; apply clean_id, T; assumption).
  assert (NL : without_nul newline = newline) by reflexivity.
  assert (HX : clean (checksum_shown (e_crc e))) by (apply clean_app; [apply clean_repeat; discriminate|apply clean_hexadecimal]).
  unfold header_String, description. rewrite !without_app. change (Name (read0 NewLzHeader e)) with (slash_back (e_name e) ++ [0]). rewrite SB, without_app.
  change (Realname (read0 NewLzHeader e)) with (repeat 0 (Z.to_nat 1024)). rewrite without_zeros.
  change (HeaderLevel (read0 NewLzHeader e)) with 0. change (Method (read0 NewLzHeader e)) with (e_method e). change (HasCrc (read0 NewLzHeader e)) with true.
  change (Crc (read0 NewLzHeader e)) with (e_crc e). change (OriginalSize (read0 NewLzHeader e)) with (e_original e). change (PackedSize (read0 NewLzHeader e)) with (e_packed e).
  change (fmt_04x (e_crc e)) with (checksum_shown (e_crc e)). change (fmt_d 0 (e_original e)) with (decimal (e_original e)). change (fmt_d 0 (e_packed e)) with (decimal (e_packed e)).
  rewrite (clean_id _ N), (clean_id _ M), (clean_id _ HX), !(clean_id _ (clean_decimal _)), !W, NL by reflexivity.
  change (without_nul [0]) with (@nil Z). rewrite app_nil_r. change (without_nul (fmt_d 0 0)) with (text "0"). change (without_nul (fmt_bool true)) with (text "true").
  reflexivity.
Qed.

Lemma described_all E w cs a es files :
  reader E a w -> after cs (w_glob w) -> w_fs w a = Some (NFile (archive_bytes es)) -> bytes (archive_bytes es) ->
  Forall2 (fun x f => file_entry (fst x) /\ (exists dir, named (fst x) dir (fst f)) /\ holds (fst x) (snd x) (snd f)) es files ->
  exists w', Headers E w = Done (map (fun x => read0 NewLzHeader (fst x)) es, false) w'.
Proof.
  intros R A Hf B F. pose proof (holds_all _ _ F) as F'. pose proof R as [Hl Hv Ha Hr Hs]. rewrite (open_headers E a w _ R Hf).
  destruct (headers_decodable E es (set_wverify true w) [] cs (S (length (archive_bytes es))) F') as [w' W]; try (cbn [w_lha set_wverify]; rewrite Hl; reflexivity); auto.
  { apply entries_length. }
  rewrite W. cbn [app]. eexists. reflexivity.
Qed.

(** *** C123 *)

(** Up to NUL bytes, the descriptions of the headers that Headers returns are what they
    should be. *)
Theorem C123_described_partial :
  forall E w cs a es files,
    reader E a w -> after cs (w_glob w) -> w_fs w a = Some (NFile (archive_bytes es)) -> bytes (archive_bytes es) ->
    Forall2 (fun x f => file_entry (fst x) /\ (exists dir, named (fst x) dir (fst f)) /\ holds (fst x) (snd x) (snd f)) es files ->
    exists headers w', Headers E w = Done (headers, false) w' /\ Forall2 (fun x h => without_nul (header_String h) = description (fst x)) es headers.
Proof.
  intros E w cs a es files R A Hf B F. destruct (described_all E w cs a es files R A Hf B F) as [w' W]. eexists _, w'. split; [exact W|].
  pose proof (holds_all _ _ F) as F'. clear -F'. induction F' as [|[e d] es (FE & _ & body & method & MN & _) F IH]; cbn [map fst]; constructor; [|exact IH].
  apply describe_read; [exact FE|exact (method_clean _ _ MN)].
Qed.

(** But not one of them is plain text: the name is followed by a NUL byte, and where
    the target of a link would be shown there are 1024 of them. *)
Theorem C123_plain_text_refuted :
  forall E w cs a es files,
    reader E a w -> after cs (w_glob w) -> w_fs w a = Some (NFile (archive_bytes es)) -> bytes (archive_bytes es) ->
    Forall2 (fun x f => file_entry (fst x) /\ (exists dir, named (fst x) dir (fst f)) /\ holds (fst x) (snd x) (snd f)) es files ->
    exists headers w', Headers E w = Done (headers, false) w' /\
      Forall2 (fun x h => exists more, header_String h = text "Name:" ++ slashes (e_name (fst x)) ++ [0] ++ newline ++ text "Realname:" ++ repeat 0 (Z.to_nat 1024) ++ newline ++ more) es headers.
Proof.
  intros E w cs a es files R A Hf B F. destruct (described_all E w cs a es files R A Hf B F) as [w' W]. eexists _, w'. split; [exact W|].
  pose proof (holds_all _ _ F) as F'. clear -F'. induction F' as [|[e d] es (FE & _) F IH]; cbn [map fst]; constructor; [|exact IH].
  unfold header_String. change (Name (read0 NewLzHeader e)) with (slash_back (e_name e) ++ [0]). rewrite (slash_back_slashes e FE), <- !app_assoc.
  change (Realname (read0 NewLzHeader e)) with (repeat 0 (Z.to_nat 1024)). eexists. reflexivity.
Qed.

(** The hypotheses are met by the archive of C66; the description of another entry. *)
Example C123_example :
  Forall2 (fun x f => file_entry (fst x) /\ (exists dir, named (fst x) dir (fst f)) /\ holds (fst x) (snd x) (snd f)) ex_mix_es ex_mix_files /\
  description (E0 (text "-lh5-") 1234 5678 0 32 (text "dir\file") 2748 0 1000000 33188 0 0) =
    text "Name:dir/file" ++ newline ++ text "Realname:" ++ newline ++ text "HeaderLevel:0" ++ newline ++ text "CompressLevel:-lh5-" ++ newline
    ++ text "HasCrc:true" ++ newline ++ text "Crc:0abc" ++ newline ++ text "Original Size :5678 bytes" ++ newline ++ text "Packed Size : 1234 bytes " ++ newline.
Proof. split; [exact (proj1 C66_example)|reflexivity]. Qed.

Print Assumptions C123_described_partial.
Print Assumptions C123_plain_text_refuted.
Print Assumptions C123_example.
