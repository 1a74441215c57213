(** Property C110: entries packed by the adaptive method -lh2-.  The format is written
    down in S_Lh2.v, S_Lh1.v and S_Lz.v; [reader], [file_entry], [named] and [asks_for] are
    defined in S_Archive.v. *)
From Verif Require Import Go GoLemmas M_Crc M_Bitio P_Bitio M_Maketree M_Maketbl M_Huf M_Slide M_Larc M_Decode M_Lzhuf S_Bits S_Huff S_Lz S_Lh1 S_Lh2 S_Larc P_Larc S_Header S_Listing M_Header M_Os M_Archive S_History S_Archive
  P_Header P_Accept P_List P_Os P_HufLens P_RoundTrip P_Single P_Read1 P_ExtractAll P_Dhuf P_DhKeep P_Lz P_Lh1 P_Lh2Dec P_Stream S_Lh5 Properties_Slide Properties_Archive Properties_Extract Properties_Listing Properties_Larc Properties_Lh5 Properties_Lh1.

(** [e] and [data] are an entry of [body], packed in the format -lh2- with copies of up
    to [most] bytes.  The format allows 256. *)
Definition lh2_entry (most : Z) (e : entry0) (data body : list Z) : Prop :=
  exists ts pad, e_method e = [45; 108; 104; 50; 45] /\ lh2_ok most 0 ts /\ byte_string_bits data = lh2_stream ts ++ pad /\ (length pad < 16)%nat /\
    e_packed e = zlen data /\ e_original e = zlen body /\ body = lz_expand ts /\ e_crc e = calcCrc 0 body.

(** Proved for copies of at most 31 bytes and bodies of at most 1856 bytes, in a process
    that may have packed anything and unpacked anything but -lh1- and -lh2- data before. *)
Theorem C110_lh2_extracted_partial :
  forall E w cs a e dir base header data body,
    reader E a w -> after cs (w_glob w) -> Forall not_adaptive cs -> w_fs w a = Some (NFile (archive_bytes [(e, data)])) ->
    file_entry e -> named e dir base -> asks_for header (dir ++ base) -> bytes data ->
    lh2_entry 31 e data body -> zlen body <= 1856 ->
    exists w', DecompresBytes E header w = Done (body, false) w' /\ w_fs w' = w_fs w.
Proof.
  intros E w cs a e dir base header data body R A NA Hf FE ND Hh B (ts & pad & HM & OK & EB & HP & P1 & P2 & P3 & P4) HL.
  unfold archive_bytes in Hf. cbn [flat_map fst snd] in Hf. rewrite app_nil_r, <- app_assoc in Hf.
  assert (B2 : bytes (data ++ [0])) by (apply Forall_app; split; [exact B|constructor; [unfold is_byte; lia|constructor]]).
  assert (MN : method_num (e_method e) = Some 2) by (rewrite HM; reflexivity). rewrite P3 in HL.
  destruct (lh2_decodes (w_glob w) ts data [0] pad (after_sz _ _ A) (after_blank _ _ A NA) OK HL B2 EB HP) as [g2 X].
  assert (EO : e_original e = zlen (lz_expand ts)) by congruence. rewrite <- EO, <- P1 in X.
  destruct (stream_any E e dir base 2 header w a (data ++ [0]) g2 _ _ _ _ FE ND MN ltac:(discriminate) Hf R Hh X) as [k Z0].
  rewrite Z0, P4, P3, !Z.eqb_refl. cbn [negb]. rewrite loop_end. eexists. split; reflexivity.
Qed.

(** Three bytes and a copy of 32 bytes: the data are not what is returned, not even by a
    new process. *)
Definition ex_lh2_items : list lztok := [LzByte 97; LzByte 98; LzByte 99; LzCopy 32 3].
Definition ex_lh2_data : list Z := [37; 38; 39; 37; 0; 8].
Definition ex_lh2 : entry0 := E0 [45; 108; 104; 50; 45] 6 35 0 32 [122] 58443 0 1000000 33188 0 0.
Lemma ex_lh2_entry : lh2_entry 256 ex_lh2 ex_lh2_data (lz_expand ex_lh2_items).
Proof.
  exists ex_lh2_items, (repeat false 2). split; [reflexivity|]. split; [cbn [lh2_ok]; repeat split; vm_compute; first [reflexivity|discriminate]|]. split; [vm_compute; reflexivity|]. split; [cbn; lia|]. repeat split; vm_compute; reflexivity.
Qed.

Theorem C110_lh2_extracted_refuted :
  exists e data body, file_entry e /\ named e [] [122] /\ bytes data /\ lh2_entry 256 e data body /\
    forall E w a header, reader E a w -> w_glob w = glob0 -> w_fs w a = Some (NFile (archive_bytes [(e, data)])) -> asks_for header [122] ->
    exists got err w', DecompresBytes E header w = Done (got, err) w' /\ got <> body.
Proof.
  exists ex_lh2, ex_lh2_data, (lz_expand ex_lh2_items).
  assert (FE : file_entry ex_lh2) by (constructor; [constructor; cbn; try lia; split; auto; repeat constructor; lia|cbn; lia|reflexivity]).
  assert (ND : named ex_lh2 [] [122]) by (constructor; [reflexivity|now left|split; [discriminate|cbn; lia]]).
  assert (B : bytes ex_lh2_data) by (repeat constructor; unfold is_byte; lia).
  split; [exact FE|]. split; [exact ND|]. split; [exact B|]. split; [exact ex_lh2_entry|].
  intros E w a header R G Hf Hh. unfold archive_bytes in Hf. cbn [flat_map fst snd] in Hf. rewrite app_nil_r, <- app_assoc in Hf.
  assert (X : exists g2, DecodeLzhuf 2 false 35 6 (ex_lh2_data ++ [0]) glob0 = Ok (g2, 6624, [97; 98] ++ repeat 99 33, 6, [0])).
  { assert (Y : match DecodeLzhuf 2 false 35 6 (ex_lh2_data ++ [0]) glob0 with Ok (_, c, o, n, r) => (c, o, n, r) | _ => (0, [], 0, []) end = (6624, [97; 98] ++ repeat 99 33, 6, [0])) by (vm_compute; reflexivity).
    destruct (DecodeLzhuf 2 false 35 6 (ex_lh2_data ++ [0]) glob0) as [[[[[g2 c] o] n] r]| |]; try discriminate Y. injection Y as -> -> -> ->. exists g2. reflexivity. }
  destruct X as [g2 X]. rewrite <- G in X.
  destruct (stream_any E ex_lh2 [] [122] 2 header w a (ex_lh2_data ++ [0]) g2 _ _ _ _ FE ND eq_refl ltac:(discriminate) Hf R Hh X) as [k Z0]. rewrite Z0.
  change (6624 =? e_crc ex_lh2) with false. cbn [negb]. eexists _, _, _. split; [reflexivity|].
  assert (L : zlen (lz_expand ex_lh2_items) = 35) by (vm_compute; reflexivity). intros Q. rewrite <- Q in L. discriminate L.
Qed.

(** Bytes and copies, one of which reaches back before the start of the data; three
    symbols for distances come into use. *)
Definition ex_lh2_items2 : list lztok := [LzByte 97; LzByte 98; LzByte 99; LzCopy 31 3; LzByte 100; LzCopy 31 35; LzCopy 31 7; LzByte 101; LzCopy 30 128; LzCopy 20 100; LzCopy 3 1].
Definition ex_lh2_data2 : list Z := [37; 38; 39; 38; 8; 163; 122; 45; 177; 138; 73; 223; 234; 163; 196; 64].
Definition ex_lh2_2 : entry0 := E0 [45; 108; 104; 50; 45] 16 151 0 32 [122] 60465 0 1000000 33188 0 0.
Example C110_example :
  file_entry ex_lh2_2 /\ named ex_lh2_2 [] [122] /\ lh2_entry 31 ex_lh2_2 ex_lh2_data2 (lz_expand ex_lh2_items2) /\ zlen (lz_expand ex_lh2_items2) <= 1856 /\
  after [] glob0 /\ Forall not_adaptive [].
Proof.
  split. { constructor; [constructor; cbn; try lia; split; auto; repeat constructor; lia|cbn; lia|reflexivity]. }
  split. { constructor; [reflexivity|now left|split; [discriminate|cbn; lia]]. }
  split.
  { exists ex_lh2_items2, []. split; [reflexivity|]. split; [cbn [lh2_ok]; repeat split; vm_compute; first [reflexivity|discriminate]|]. split; [vm_compute; reflexivity|]. split; [cbn; lia|]. repeat split; vm_compute; reflexivity. }
  split; [vm_compute; discriminate|]. split; [split; [constructor|reflexivity]|constructor].
Qed.

Print Assumptions C110_lh2_extracted_partial.
Print Assumptions C110_lh2_extracted_refuted.
Print Assumptions C110_example.
