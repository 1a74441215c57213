(** Property C111: outputs that fail.  [disk] is defined in S_Writer.v, [holds] (an entry
    of -lh5-, -lh6-, -lh7-, -lzs- or -lh1- data) in Properties_Lh1.v. *)
From Verif Require Import Go GoLemmas M_Crc P_Crc M_Bitio M_Maketree M_Maketbl M_Huf M_Slide M_Larc M_Decode M_Lzhuf M_Writer S_Writer P_Writer S_Bits S_Huff S_Lz P_Lz S_Lh5 S_Header S_Listing M_Header M_Os M_Archive S_History S_Archive
  P_Header P_Os P_ExtractAll Properties_Slide Properties_Archive Properties_Extract Properties_Listing Properties_Larc Properties_Lh5 Properties_Lh1.

(** The claim is that the CRC DecodeLzhuf returns tells whether the data have been
    written: it is the CRC the entry announces only if they have.

    It is false of all entries: DecodeLzhuf returns the CRC announced and the number
    of bytes of the entry, and the file on the full disk has the first bytes only. *)
Theorem C111_full_disk_noticed_refuted :
  forall cs g e data body rest m room,
    after cs g -> bytes (data ++ rest) -> holds e data body -> method_num (e_method e) = Some m ->
    0 <= room < zlen body ->
    exists g2 file, DecodeLzhufW (disk room) m false (e_original e) (e_packed e) (data ++ rest) g [] = Ok (g2, e_crc e, e_packed e, rest, file) /\
      file = take room body /\ file <> body.
Proof.
  intros cs g e data body rest m room A B H M R. destruct (holds_decodable _ _ _ H) as (m' & M' & _ & C & _ & P).
  rewrite M in M'. injection M' as <-. destruct (P cs g rest A B) as [g2 D].
  assert (NC : dec_dicbit m <> Some 0) by (intros X; unfold copied in C; rewrite X in C; discriminate).
  destruct (packed_sim (disk room) [] _ _ _ _ _ _ _ _ _ _ _ NC D) as (ch & E1 & E2).
  exists g2, (take room body). rewrite E2, disk_written0, E1 by lia. split; [reflexivity|]. split; [reflexivity|].
  intros X. apply (f_equal zlen) in X. unfold take, zlen in *. rewrite firstn_length in X. lia.
Qed.

(** What is true, of every format, all data and every earlier use of the package: if
    DecodeLzhuf returns when the output does not fail, it returns on every disk; the file
    has the first bytes of the data, as many as there is room for; and if there is room
    for all of them the results are the same. *)
Theorem C111_full_disk_noticed_partial :
  forall g m broken original packed inp g2 crc out n rest room,
    DecodeLzhuf m broken original packed inp g = Ok (g2, crc, out, n, rest) -> 0 <= room ->
    exists n' rest', DecodeLzhufW (disk room) m broken original packed inp g [] = Ok (g2, crc, n', rest', take room out) /\
      (zlen out <= room -> n' = n /\ rest' = rest /\ take room out = out).
Proof.
  intros g m b o p inp g2 crc out n rest room D R.
  assert (T : zlen out <= room -> take room out = out) by (intros L; unfold take; apply firstn_all2; unfold zlen in L; lia).
  destruct (dec_dicbit m) as [k|] eqn:K; [destruct (Z.eq_dec k 0) as [->|NZ]|].
  - unfold DecodeLzhuf in D. unfold DecodeLzhufW. rewrite K in *. change (0 =? 0) with true in *. cbv iota in *.
    destruct (copyfile o inp) as [[[o1 r1] i1]| |] eqn:C; cbn [bind] in D; try discriminate. injection D as <- <- <- <- <-.
    destruct (copyfile_disk room _ _ _ _ _ R C) as [I1 I2]. destruct (Z_lt_le_dec room (zlen o1)) as [L|L].
    + destruct (I2 L) as [rest2 X]. rewrite X. cbn [bind]. exists 0, rest2. split; [reflexivity|lia].
    + rewrite (I1 L). cbn [bind]. exists r1, i1. rewrite (T L). split; [reflexivity|]. repeat split.
  - destruct (packed_sim (disk room) [] m b o p inp g g2 crc out n rest) as (ch & E1 & E2); [rewrite K; congruence|exact D|].
    exists n, rest. rewrite E2, disk_written0, E1 by exact R. split; [reflexivity|]. intros L. repeat split. exact (T L).
  - destruct (packed_sim (disk room) [] m b o p inp g g2 crc out n rest) as (ch & E1 & E2); [rewrite K; congruence|exact D|].
    exists n, rest. rewrite E2, disk_written0, E1 by exact R. split; [reflexivity|]. intros L. repeat split. exact (T L).
Qed.

(** The formats without compression (-lh0-, -lz4-, -pm0-): the CRC returned is 0 in any
    case, but a full disk shows in the number of bytes read, which is 0. *)
Theorem C111_stored_full_disk_partial :
  forall g m broken original packed inp g2 crc out n rest room,
    m = 0 \/ m = 10 \/ m = 12 ->
    DecodeLzhuf m broken original packed inp g = Ok (g2, crc, out, n, rest) -> 0 <= room ->
    exists n' rest', DecodeLzhufW (disk room) m broken original packed inp g [] = Ok (g2, 0, n', rest', take room out) /\
      (n' = 0 <-> room < zlen out \/ n = 0).
Proof.
  intros g m b o p inp g2 crc out n rest room Hm D R.
  assert (K : dec_dicbit m = Some 0) by (destruct Hm as [-> | [-> | ->]]; reflexivity).
  unfold DecodeLzhuf in D. unfold DecodeLzhufW. rewrite K in *. change (0 =? 0) with true in *. cbv iota in *.
  destruct (copyfile o inp) as [[[o1 r1] i1]| |] eqn:C; cbn [bind] in D; try discriminate. injection D as <- <- <- <- <-.
  destruct (copyfile_disk room _ _ _ _ _ R C) as [I1 I2]. destruct (Z_lt_le_dec room (zlen o1)) as [L|L].
  - destruct (I2 L) as [rest2 X]. rewrite X. cbn [bind]. exists 0, rest2. split; [reflexivity|]. split; auto.
  - rewrite (I1 L). cbn [bind]. exists r1, i1. unfold take. rewrite firstn_all2 by (unfold zlen in L; lia). split; [reflexivity|]. lia.
Qed.

(** Adding a file without compression to an archive on a full disk ends the program:
    the size is taken to be 0 and divided by. *)
Theorem C111_stored_added_panics :
  forall size inp out n rest room, copyfile size inp = Ok (out, n, rest) -> 0 <= room < zlen out ->
    EncodeStoredW (disk room) size inp [] = Panic.
Proof.
  intros size inp out n rest room C R. unfold EncodeStoredW. destruct (copyfile_disk room _ _ _ _ _ (proj1 R) C) as [_ I2].
  destruct (I2 (proj2 R)) as [rest2 X]. rewrite X. reflexivity.
Qed.

(** The -lh5- entry of C67_example, 24 bytes on a disk with room for ten; three bytes
    stored, which copyfile makes 2048, on a disk with room for a hundred. *)
Example C111_example :
  holds ex_lh5 ex_lh_data (lz_expand ex_items) /\ method_num (e_method ex_lh5) = Some 5 /\ zlen (lz_expand ex_items) = 24 /\
  (exists g2, DecodeLzhufW (disk 10) 5 false 24 (zlen ex_lh_data) ex_lh_data glob0 [] = Ok (g2, e_crc ex_lh5, zlen ex_lh_data, [], [97; 98; 97; 98; 97; 98; 97; 98; 97; 98])) /\
  calcCrc 0 [97; 98; 97; 98; 97; 98; 97; 98; 97; 98] <> e_crc ex_lh5 /\
  (exists out, copyfile 3 [1; 2; 3] = Ok (out, 3, []) /\ zlen out = 2048).
Proof.
  split; [left; exact ex_lh5_ok|]. split; [reflexivity|]. split; [reflexivity|].
  split; [|split; [vm_compute; discriminate|eexists; split; vm_compute; reflexivity]].
  destruct (C111_full_disk_noticed_refuted [] glob0 ex_lh5 ex_lh_data (lz_expand ex_items) [] 5 10) as (g2 & f & X & F & _).
  - split; [constructor|reflexivity].
  - rewrite app_nil_r. repeat constructor; unfold is_byte; lia.
  - left. exact ex_lh5_ok.
  - reflexivity.
  - split; [lia|]. change (zlen (lz_expand ex_items)) with 24. lia.
  - exists g2. rewrite app_nil_r in X. subst f. exact X.
Qed.

Print Assumptions C111_full_disk_noticed_refuted.
Print Assumptions C111_full_disk_noticed_partial.
Print Assumptions C111_stored_full_disk_partial.
Print Assumptions C111_stored_added_panics.
