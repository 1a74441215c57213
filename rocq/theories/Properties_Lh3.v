(** Property C100: entries packed by the method -lh3-.  The format is written down in
    S_Lh3.v and S_Lz.v; [reader], [file_entry], [named] and [asks_for] are defined in
    S_Archive.v, [after] in S_History.v. *)
From Verif Require Import Go GoLemmas M_Crc M_Bitio P_Bitio M_Maketree M_Maketbl M_Huf M_Dhuf M_Shuf M_Slide M_Larc M_Decode M_Lzhuf S_Bits P_Bits S_Huff S_Lz S_Lh1 S_Lh5 S_Lh3 S_Larc P_Larc S_Header S_Listing M_Header M_Os M_Archive S_History S_Archive
  P_Header P_Accept P_List P_Os P_HufLens P_HufTables P_RoundTrip P_Single P_Read1 P_ExtractAll P_Dhuf P_DhKeep P_Lz P_Lh3 P_Stream Properties_Slide Properties_Archive Properties_Extract Properties_Listing Properties_Larc Properties_Lh5.

(** [e] and [data] are an entry of [body], packed in the format -lh3- with the blocks
    [bs]. *)
Definition lh3_entry (bs : list block3) (e : entry0) (data body : list Z) : Prop :=
  exists pad, e_method e = [45; 108; 104; 51; 45] /\ Forall block3_ok bs /\ byte_string_bits data = lh3_stream bs ++ pad /\ (length pad < 16)%nat /\
    e_packed e = zlen data /\ e_original e = zlen body /\ body = lz_expand (lh3_items bs) /\ e_crc e = calcCrc 0 body.

Lemma glob0_blank : blank (g_huf glob0).
Proof. intros i Hi. unfold glob0, huf0. cbn [g_huf ptTable]. rewrite at_amake. reflexivity. Qed.

(** Proved for a process that has not packed or unpacked anything before, for codes of
    bytes and lengths with words of at most 12 bits, and blocks that use the ready-made
    code for distances up to 64 only ([near]), followed by blocks that give a code for
    distances up to 1088 with words of at most 8 bits, or the one distance symbol they
    use ([sent]). *)
Theorem C100_lh3_extracted_partial :
  forall E w a e dir base header data body ns ss,
    reader E a w -> w_glob w = glob0 -> w_fs w a = Some (NFile (archive_bytes [(e, data)])) ->
    file_entry e -> named e dir base -> asks_for header (dir ++ base) -> bytes data ->
    lh3_entry (ns ++ ss) e data body -> Forall short_words (ns ++ ss) -> Forall near ns -> Forall sent ss ->
    exists w', DecompresBytes E header w = Done (body, false) w' /\ w_fs w' = w_fs w.
Proof.
  intros E w a e dir base header data body ns ss R A Hf FE ND Hh B (pad & M & OK & EB & HP & P1 & P2 & P3 & P4) SW FN FS.
  unfold archive_bytes in Hf. cbn [flat_map fst snd] in Hf. rewrite app_nil_r, <- app_assoc in Hf.
  assert (B2 : bytes (data ++ [0])) by (apply Forall_app; split; [exact B|constructor; [unfold is_byte; lia|constructor]]).
  assert (MN : method_num (e_method e) = Some 3) by (rewrite M; reflexivity).
  destruct (lh3_decodes (w_glob w) ns ss data [0] pad) as [g2 D]; auto; try (rewrite A; first [reflexivity | constructor; reflexivity | right; exact glob0_blank]).
  rewrite <- P3, <- P1, <- P2 in D.
  destruct (stream_any E e dir base 3 header w a (data ++ [0]) g2 _ _ _ _ FE ND MN ltac:(discriminate) Hf R Hh D) as [k X].
  rewrite X, P4, !Z.eqb_refl. cbn [negb]. rewrite loop_end. eexists. split; reflexivity.
Qed.

(** The code in which the symbols listed have these lengths. *)
Definition lens_of (l : list (Z * Z)) : code := Lengths (fun c => fold_right (fun p k => if fst p =? c then snd p else k) 0 l).

(** Distances above 64 in the ready-made code: a byte, then three spaces from before the
    start of the data. *)
Definition ex_lh3_far : block3 := B3 (lens_of [(97, 1); (256, 1)]) None [LzByte 97; LzCopy 3 65].
Definition ex_lh3_far_data : list Z := [0; 2; 0; 0; 0; 0; 0; 0; 0; 0; 0; 0; 0; 0; 64; 0; 0; 0; 0; 0; 0; 0; 0; 0; 0; 0; 0; 0; 0; 0; 0; 0; 0; 0; 8; 0; 0; 0; 0; 160; 0].
Definition ex_lh3_far_entry : entry0 := E0 [45; 108; 104; 51; 45] 41 4 0 32 [122] 11782 0 1000000 33188 0 0.

Lemma ready_kraft : kraft 128 ready_len = 65536.
Proof. vm_compute. reflexivity. Qed.

Lemma lens_ok l n : kraft (Z.of_nat n) (fun c => fold_right (fun p k => if fst p =? c then snd p else k) 0 l) = 65536 -> forallb (fun p => (0 <=? snd p) && (snd p <=? 15)) l = true -> code_ok (Z.of_nat n) (lens_of l).
Proof.
  intros K F. split; [|exact K]. intros c _. clear K. induction l as [|p l IH]; cbn [fold_right forallb] in *; [lia|]. apply andb_prop in F. destruct F as [F1 F2]. destruct (fst p =? c); [lia|auto].
Qed.

(* each item is one of the format; all its numbers are literals *)
Ltac items := repeat (apply Forall_cons; [repeat split; vm_compute; intuition discriminate|]); apply Forall_nil.

Lemma ex_lh3_far_ok : lh3_entry [ex_lh3_far] ex_lh3_far_entry ex_lh3_far_data (lz_expand (lh3_items [ex_lh3_far])).
Proof.
  exists (repeat false 5). split; [reflexivity|]. split.
  { constructor; [|constructor]. constructor.
    - cbn. lia.
    - items.
    - apply (lens_ok _ 286); vm_compute; reflexivity.
    - split; [intros c _; cbn [b_dists b_given ex_lh3_far]; pose proof (ready_len_range c); lia|exact ready_kraft].
    - discriminate. }
  split; [vm_compute; reflexivity|]. split; [cbn; lia|]. repeat split; vm_compute; reflexivity.
Qed.

(** The claim is false of it, in a new process already: three copies of the byte are
    returned instead of the spaces. *)
Theorem C100_lh3_extracted_refuted :
  lh3_entry [ex_lh3_far] ex_lh3_far_entry ex_lh3_far_data [97; 32; 32; 32] /\
  forall E w a header,
    reader E a w -> w_glob w = glob0 -> w_fs w a = Some (NFile (archive_bytes [(ex_lh3_far_entry, ex_lh3_far_data)])) -> asks_for header [122] ->
    exists got err w', DecompresBytes E header w = Done (got, err) w' /\ got <> [97; 32; 32; 32].
Proof.
  split; [exact ex_lh3_far_ok|]. intros E w a header R A Hf Hh.
  unfold archive_bytes in Hf. cbn [flat_map fst snd] in Hf. rewrite app_nil_r, <- app_assoc in Hf.
  assert (X : match DecodeLzhuf 3 false 4 41 (ex_lh3_far_data ++ [0]) glob0 with Ok (_, c, o, _, _) => (c =? 23206) && list_eqb o [97; 97; 97; 97] | _ => false end = true) by (vm_compute; reflexivity).
  destruct (DecodeLzhuf 3 false 4 41 (ex_lh3_far_data ++ [0]) glob0) as [[[[[g2 c] o] n] r]| |] eqn:D; [|discriminate X|discriminate X]. apply andb_prop in X. destruct X as [X1 X2]. apply Z.eqb_eq in X1. apply list_eqb_eq in X2. subst c o.
  rewrite <- A in D. change 4 with (e_original ex_lh3_far_entry) in D. change 41 with (e_packed ex_lh3_far_entry) in D.
  assert (FE : file_entry ex_lh3_far_entry) by (constructor; [constructor; cbn; try lia; split; auto; repeat constructor; lia|cbn; lia|reflexivity]).
  assert (ND : named ex_lh3_far_entry [] [122]) by (constructor; [reflexivity|now left|split; [discriminate|cbn; lia]]).
  destruct (stream_any E ex_lh3_far_entry [] [122] 3 header w a _ g2 _ _ _ _ FE ND eq_refl ltac:(discriminate) Hf R Hh D) as [k Z0].
  rewrite Z0. change (e_crc ex_lh3_far_entry) with 11782. change (negb (23206 =? 11782)) with true. cbv iota. eexists _, _, _. split; [reflexivity|discriminate].
Qed.

(** Nor is it enough that the entry is within the limits of the partial theorem: an
    entry that a new process extracts is extracted wrongly once the process has read an
    -lh1- entry. *)
Definition ex_lh3_two : block3 := B3 (lens_of [(97, 1); (98, 1)]) None [LzByte 97; LzByte 98].
Definition ex_lh3_two_data : list Z := [0; 2; 0; 0; 0; 0; 0; 0; 0; 0; 0; 0; 0; 0; 66; 0; 0; 0; 0; 0; 0; 0; 0; 0; 0; 0; 0; 0; 0; 0; 0; 0; 0; 0; 0; 0; 0; 0; 0; 128].
Definition ex_lh3_two_entry : entry0 := E0 [45; 108; 104; 51; 45] 40 2 0 32 [122] 31144 0 1000000 33188 0 0.

Lemma ex_lh3_two_ok : lh3_entry [ex_lh3_two] ex_lh3_two_entry ex_lh3_two_data [97; 98] /\ Forall short_words [ex_lh3_two] /\ Forall near [ex_lh3_two].
Proof.
  split; [|split].
  - exists (repeat false 7). split; [reflexivity|]. split.
    { constructor; [|constructor]. constructor.
      - cbn. lia.
      - items.
      - apply (lens_ok _ 286); vm_compute; reflexivity.
      - split; [intros c _; cbn [b_dists b_given ex_lh3_two]; pose proof (ready_len_range c); lia|exact ready_kraft].
      - discriminate. }
    split; [vm_compute; reflexivity|]. split; [cbn; lia|]. repeat split; vm_compute; reflexivity.
  - constructor; [|constructor]. intros c _. cbn [b_chars ex_lh3_two word lens_of]. unfold codeword. rewrite to_bits_length. cbn [fold_right fst snd]. destruct (97 =? c), (98 =? c); lia.
  - constructor; [|constructor]. split; [reflexivity|]. intros len d [|[|[]]]; discriminate.
Qed.

Theorem C100_lh3_after_lh1_refuted :
  exists cs g, after cs g /\
    lh3_entry [ex_lh3_two] ex_lh3_two_entry ex_lh3_two_data [97; 98] /\
    forall E w a header,
      reader E a w -> w_fs w a = Some (NFile (archive_bytes [(ex_lh3_two_entry, ex_lh3_two_data)])) -> asks_for header [122] ->
      (w_glob w = glob0 -> exists w', DecompresBytes E header w = Done ([97; 98], false) w') /\
      (w_glob w = g -> exists got err w', DecompresBytes E header w = Done (got, err) w' /\ got <> [97; 98]).
Proof.
  assert (FE : file_entry ex_lh3_two_entry) by (constructor; [constructor; cbn; try lia; split; auto; repeat constructor; lia|cbn; lia|reflexivity]).
  assert (ND : named ex_lh3_two_entry [] [122]) by (constructor; [reflexivity|now left|split; [discriminate|cbn; lia]]).
  assert (X : match DecodeLzhuf 1 false 1 2 [246; 0] glob0 with
    | Ok (g, _, _, _, _) => match DecodeLzhuf 3 false 2 40 (ex_lh3_two_data ++ [0]) g with Ok (_, c, o, _, _) => (c =? 0) && list_eqb o [0; 0] | _ => false end
    | _ => false end = true) by (vm_compute; reflexivity).
  destruct (DecodeLzhuf 1 false 1 2 [246; 0] glob0) as [[[[[g c1] o1] n1] r1]| |] eqn:D1; [|discriminate X|discriminate X].
  exists [CallDec 1 false 1 2 [246; 0]], g. split.
  { split; [constructor; [|constructor]; cbn; split; [lia|]; split; [lia|]; repeat constructor; lia|]. cbn [run_calls run_call]. rewrite D1. reflexivity. }
  destruct ex_lh3_two_ok as (O1 & O2 & O3). split; [exact O1|]. intros E w a header R Hf Hh. split.
  - intros A. destruct (C100_lh3_extracted_partial E w a ex_lh3_two_entry [] [122] header ex_lh3_two_data [97; 98] [ex_lh3_two] [] R A Hf FE ND Hh) as (w' & W1 & _); auto.
    { repeat constructor; unfold is_byte; lia. } { exists w'. exact W1. }
  - intros A. unfold archive_bytes in Hf. cbn [flat_map fst snd] in Hf. rewrite app_nil_r, <- app_assoc in Hf.
    destruct (DecodeLzhuf 3 false 2 40 (ex_lh3_two_data ++ [0]) g) as [[[[[g2 c] o] n] r]| |] eqn:D; [|discriminate X|discriminate X]. apply andb_prop in X. destruct X as [X1 X2]. apply Z.eqb_eq in X1. apply list_eqb_eq in X2. subst c o.
    rewrite <- A in D. change 2 with (e_original ex_lh3_two_entry) in D. change 40 with (e_packed ex_lh3_two_entry) in D.
    destruct (stream_any E ex_lh3_two_entry [] [122] 3 header w a _ g2 _ _ _ _ FE ND eq_refl ltac:(discriminate) Hf R Hh D) as [k Z0].
    rewrite Z0. change (e_crc ex_lh3_two_entry) with 31144. change (negb (0 =? 31144)) with true. cbv iota. eexists _, _, _. split; [reflexivity|discriminate].
Qed.

(** A block with the ready-made code, one with a code of two distance symbols, and one
    with a single symbol of each kind. *)
Definition ex_lh3_near : block3 := B3 (lens_of [(97, 2); (98, 2); (256, 2); (285, 2)]) None [LzByte 97; LzByte 98; LzCopy 3 1; LzCopy 40 4; LzCopy 3 64].
Definition ex_lh3_given : block3 := B3 (Single 256) (Some (lens_of [(0, 1); (16, 1)])) [LzCopy 3 5; LzCopy 3 1025; LzCopy 3 6].
Definition ex_lh3_single : block3 := B3 (Single 285) (Some (Single 0)) [LzCopy 256 50].
Definition ex_lh3_data : list Z :=
  [0; 5] ++ repeat 0 12 ++ [70; 32] ++ repeat 0 19 ++ [136; 0; 0; 0; 68; 48; 6; 16; 7; 31; 128; 1; 194; 16; 128; 68] ++ repeat 0 7 ++ [4] ++ repeat 0 55 ++
  [2; 64; 10; 0; 3; 8; 66; 59; 17; 16; 28; 24; 128].
Definition ex_lh3 : entry0 := E0 [45; 108; 104; 51; 45] 127 313 0 32 [122] 9068 0 1000000 33188 0 0.

Example C100_example :
  file_entry ex_lh3 /\ named ex_lh3 [] [122] /\
  lh3_entry ([ex_lh3_near] ++ [ex_lh3_given; ex_lh3_single]) ex_lh3 ex_lh3_data (lz_expand (lh3_items ([ex_lh3_near] ++ [ex_lh3_given; ex_lh3_single]))) /\
  Forall short_words ([ex_lh3_near] ++ [ex_lh3_given; ex_lh3_single]) /\ Forall near [ex_lh3_near] /\ Forall sent [ex_lh3_given; ex_lh3_single].
Proof.
  split. { constructor; [constructor; cbn; try lia; split; auto; repeat constructor; lia|cbn; lia|reflexivity]. }
  split. { constructor; [reflexivity|now left|split; [discriminate|cbn; lia]]. }
  split; [|split; [|split]].
  - exists (repeat false 7). split; [reflexivity|]. split.
    { cbn [app]. constructor; [|constructor; [|constructor; [|constructor]]]; constructor.
      - cbn. lia.
      - items.
      - apply (lens_ok _ 286); vm_compute; reflexivity.
      - split; [intros c _; cbn [b_dists b_given ex_lh3_near]; pose proof (ready_len_range c); lia|exact ready_kraft].
      - discriminate.
      - cbn. lia.
      - items.
      - cbn. lia.
      - apply (lens_ok _ 128); vm_compute; reflexivity.
      - intros len X. injection X as <-. intros k _. cbn [fold_right fst snd]. destruct (0 =? k), (16 =? k); lia.
      - cbn. lia.
      - items.
      - cbn. lia.
      - cbn. lia.
      - discriminate. }
    split; [vm_compute; reflexivity|]. split; [cbn; lia|]. repeat split; vm_compute; reflexivity.
  - cbn [app]. constructor; [|constructor; [|constructor; [|constructor]]]; intros c _; [|cbn; lia|cbn; lia].
    cbn [b_chars ex_lh3_near word lens_of]. unfold codeword. rewrite to_bits_length. cbn [fold_right fst snd]. destruct (97 =? c), (98 =? c), (256 =? c), (285 =? c); lia.
  - constructor; [|constructor]. split; [reflexivity|]. intros len d. cbn. intros [H|[H|[H|[H|[H|[]]]]]]; inversion H; lia.
  - constructor; [|constructor; [|constructor]].
    + eexists. split; [reflexivity|]. cbn [lens_of]. split; intros c Hc; cbn [fold_right fst snd]; destruct (Z.eqb_spec 0 c), (Z.eqb_spec 16 c); lia.
    + eexists. split; [reflexivity|]. exact Logic.I.
Qed.

Print Assumptions C100_lh3_extracted_partial.
Print Assumptions C100_lh3_extracted_refuted.
Print Assumptions C100_lh3_after_lh1_refuted.
