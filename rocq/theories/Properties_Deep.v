(** Words of more than 12 bits in entries packed by -lh3-.  The format is written down in
    S_Lh3.v. *)
From Verif Require Import Go GoLemmas M_Crc M_Bitio P_Bitio M_Maketree M_Maketbl M_Huf M_Dhuf M_Shuf M_Slide M_Larc M_Decode M_Lzhuf S_Bits P_Bits S_Huff S_Lz S_Lh1 S_Lh5 S_Lh3 S_Larc P_Larc S_Header S_Listing M_Header M_Os M_Archive S_History S_Archive
  P_Header P_Accept P_List P_Os P_HufLens P_HufTables P_RoundTrip P_Single P_Read1 P_ExtractAll P_Dhuf P_DhKeep P_Lz P_Lh3 P_Stream Properties_Slide Properties_Archive Properties_Extract Properties_Listing Properties_Larc Properties_Lh5 Properties_Lh3.

(** The bytes 97 to 108 have words of 1 to 12 bits, 109 and 110 have words of 13 bits;
    the only item is the byte 110. *)
Definition ex_lh3_deep : block3 :=
  B3 (lens_of [(97, 1); (98, 2); (99, 3); (100, 4); (101, 5); (102, 6); (103, 7); (104, 8); (105, 9); (106, 10); (107, 11); (108, 12); (109, 13); (110, 13)]) None [LzByte 110].
Definition ex_lh3_deep_data : list Z := [0; 1; 0; 0; 0; 0; 0; 0; 0; 0; 0; 0; 0; 0; 66; 50; 157; 43; 107; 227; 58; 223; 56; 0; 0; 0; 0; 0; 0; 0; 0; 0; 0; 0; 0; 0; 0; 0; 0; 0; 0; 0; 0; 0; 1; 255; 240].
Definition ex_lh3_deep_entry : entry0 := E0 [45; 108; 104; 51; 45] 47 1 0 32 [122] 60545 0 1000000 33188 0 0.

Lemma ex_lh3_deep_ok : lh3_entry [ex_lh3_deep] ex_lh3_deep_entry ex_lh3_deep_data [110].
Proof.
  exists (repeat false 4). split; [reflexivity|]. split.
  { constructor; [|constructor]. constructor.
    - cbn. lia.
    - items.
    - apply (lens_ok _ 286); vm_compute; reflexivity.
    - split; [intros c _; cbn [b_dists b_given ex_lh3_deep]; pose proof (ready_len_range c); lia|exact ready_kraft].
    - discriminate. }
  split; [vm_compute; reflexivity|]. split; [cbn; lia|]. repeat split; vm_compute; reflexivity.
Qed.

(** The limit of 12 bits in [C100_lh3_extracted_partial] cannot be dropped: the entry
    keeps every other limit, and 109, the byte whose word differs in its last bit, is
    decoded in place of 110, so that the checksum does not agree and an error is
    returned. *)
Theorem C100_lh3_long_word_refuted :
  lh3_entry [ex_lh3_deep] ex_lh3_deep_entry ex_lh3_deep_data [110] /\ near ex_lh3_deep /\
  forall E w a header,
    reader E a w -> w_glob w = glob0 -> w_fs w a = Some (NFile (archive_bytes [(ex_lh3_deep_entry, ex_lh3_deep_data)])) -> asks_for header [122] ->
    exists w', DecompresBytes E header w = Done ([], true) w'.
Proof.
  split; [exact ex_lh3_deep_ok|]. split; [split; [reflexivity|intros len d [|[]]; discriminate]|]. intros E w a header R A Hf Hh.
  unfold archive_bytes in Hf. cbn [flat_map fst snd] in Hf. rewrite app_nil_r, <- app_assoc in Hf.
  assert (X : match DecodeLzhuf 3 false 1 47 (ex_lh3_deep_data ++ [0]) glob0 with Ok (_, c, o, _, _) => (c =? 60865) && list_eqb o [109] | _ => false end = true) by (vm_compute; reflexivity).
  destruct (DecodeLzhuf 3 false 1 47 (ex_lh3_deep_data ++ [0]) glob0) as [[[[[g2 c] o] n] r]| |] eqn:D; [|discriminate X|discriminate X]. apply andb_prop in X. destruct X as [X1 X2]. apply Z.eqb_eq in X1. apply list_eqb_eq in X2. subst c o.
  rewrite <- A in D. change 1 with (e_original ex_lh3_deep_entry) in D. change 47 with (e_packed ex_lh3_deep_entry) in D.
  assert (FE : file_entry ex_lh3_deep_entry) by (constructor; [constructor; cbn; try lia; split; auto; repeat constructor; lia|cbn; lia|reflexivity]).
  assert (ND : named ex_lh3_deep_entry [] [122]) by (constructor; [reflexivity|now left|split; [discriminate|cbn; lia]]).
  destruct (stream_any E ex_lh3_deep_entry [] [122] 3 header w a _ g2 _ _ _ _ FE ND eq_refl ltac:(discriminate) Hf R Hh D) as [k Z0].
  rewrite Z0. change (e_crc ex_lh3_deep_entry) with 60545. change (negb (60865 =? 60545)) with true. cbv iota. eexists. reflexivity.
Qed.

(** The entry is a well-formed one; only the limit of 12 bits is not kept. *)
Example C100_long_word_example :
  file_entry ex_lh3_deep_entry /\ named ex_lh3_deep_entry [] [122] /\ bytes ex_lh3_deep_data /\ ~ short_words ex_lh3_deep.
Proof.
  split. { constructor; [constructor; cbn; try lia; split; auto; repeat constructor; lia|cbn; lia|reflexivity]. }
  split. { constructor; [reflexivity|now left|split; [discriminate|cbn; lia]]. }
  split. { repeat (constructor; [unfold is_byte; lia|]). constructor. }
  intros S. assert (H : has 286 (b_chars ex_lh3_deep) 110) by (repeat split; vm_compute; intuition discriminate). specialize (S 110 H). vm_compute in S. lia.
Qed.

(** The upper bits of the distance are given with a code in which 0 to 7 have words of 1 to
    8 bits, 8 and 9 have words of 9 bits: 513 times the byte 97, then a copy of three bytes
    from the start. *)
Definition ex_lh3_wide : block3 :=
  B3 (lens_of [(97, 1); (256, 2); (285, 2)]) (Some (lens_of [(0, 1); (1, 2); (2, 3); (3, 4); (4, 5); (5, 6); (6, 7); (7, 8); (8, 9); (9, 9)]))
    [LzByte 97; LzCopy 256 1; LzCopy 256 1; LzCopy 3 513].
Definition ex_lh3_wide_data : list Z := [0; 4; 0; 0; 0; 0; 0; 0; 0; 0; 0; 0; 0; 0; 64; 0; 0; 0; 0; 0; 0; 0; 0; 0; 0; 0; 0; 0; 0; 0; 0; 0; 0; 0; 8; 128; 0; 0; 4; 98; 70; 138; 207; 19; 32; 0; 0; 0; 0; 0; 0; 0; 0; 0; 0; 0; 0; 0; 0; 0; 0; 0; 0; 0; 0; 0; 0; 0; 0; 0; 0; 0; 0; 0; 0; 0; 0; 0; 0; 0; 0; 0; 0; 0; 0; 0; 0; 0; 0; 0; 0; 0; 0; 0; 0; 0; 0; 0; 0; 0; 0; 0; 0; 15; 128; 7; 192; 2; 255; 0].
Definition ex_lh3_wide_entry : entry0 := E0 [45; 108; 104; 51; 45] 110 516 0 32 [122] 41872 0 1000000 33188 0 0.

Lemma ex_lh3_wide_ok : lh3_entry [ex_lh3_wide] ex_lh3_wide_entry ex_lh3_wide_data (repeat 97 516).
Proof.
  exists (repeat false 1). split; [reflexivity|]. split.
  { constructor; [|constructor]. constructor.
    - cbn. lia.
    - items.
    - apply (lens_ok _ 286); vm_compute; reflexivity.
    - apply (lens_ok _ 128); vm_compute; reflexivity.
    - intros len E k _. injection E as <-. cbn [fold_right fst snd]. repeat match goal with |- context [?x =? k] => destruct (x =? k); [lia|] end. lia. }
  split; [vm_compute; reflexivity|]. split; [cbn; lia|]. repeat split; vm_compute; reflexivity.
Qed.

(** Nor can the limit of 8 bits for the words of distances: bytes from before the start
    are copied, and an error is returned. *)
Theorem C100_lh3_long_distance_word_refuted :
  lh3_entry [ex_lh3_wide] ex_lh3_wide_entry ex_lh3_wide_data (repeat 97 516) /\ short_words ex_lh3_wide /\
  forall E w a header,
    reader E a w -> w_glob w = glob0 -> w_fs w a = Some (NFile (archive_bytes [(ex_lh3_wide_entry, ex_lh3_wide_data)])) -> asks_for header [122] ->
    exists w', DecompresBytes E header w = Done ([], true) w'.
Proof.
  split; [exact ex_lh3_wide_ok|]. split.
  { intros c _. cbn [b_chars ex_lh3_wide word lens_of]. unfold codeword. rewrite to_bits_length. cbn [fold_right fst snd]. destruct (97 =? c), (256 =? c), (285 =? c); lia. }
  intros E w a header R A Hf Hh.
  unfold archive_bytes in Hf. cbn [flat_map fst snd] in Hf. rewrite app_nil_r, <- app_assoc in Hf.
  assert (X : match DecodeLzhuf 3 false 516 110 (ex_lh3_wide_data ++ [0]) glob0 with Ok (_, c, o, _, _) => (c =? 55088) && list_eqb o (repeat 97 513 ++ [32; 32; 32]) | _ => false end = true) by (vm_compute; reflexivity).
  destruct (DecodeLzhuf 3 false 516 110 (ex_lh3_wide_data ++ [0]) glob0) as [[[[[g2 c] o] n] r]| |] eqn:D; [|discriminate X|discriminate X]. apply andb_prop in X. destruct X as [X1 _]. apply Z.eqb_eq in X1. subst c.
  rewrite <- A in D. change 516 with (e_original ex_lh3_wide_entry) in D. change 110 with (e_packed ex_lh3_wide_entry) in D.
  assert (FE : file_entry ex_lh3_wide_entry) by (constructor; [constructor; cbn; try lia; split; auto; repeat constructor; lia|cbn; lia|reflexivity]).
  assert (ND : named ex_lh3_wide_entry [] [122]) by (constructor; [reflexivity|now left|split; [discriminate|cbn; lia]]).
  destruct (stream_any E ex_lh3_wide_entry [] [122] 3 header w a _ g2 _ _ _ _ FE ND eq_refl ltac:(discriminate) Hf R Hh D) as [k Z0].
  rewrite Z0. change (e_crc ex_lh3_wide_entry) with 41872. change (negb (55088 =? 41872)) with true. cbv iota. eexists. reflexivity.
Qed.

Print Assumptions C100_lh3_long_word_refuted.
Print Assumptions C100_lh3_long_distance_word_refuted.
