(** Vocabulary for files with long names. *)
From Verif Require Import Go M_Crc M_Bitio M_Maketree M_Maketbl M_Huf M_Slide M_Lzhuf S_History S_Header M_Header M_Os M_Archive S_Archive S_Add.

(** As [source] of S_Add.v, but the name has more than 221 bytes, and fewer than 1024. *)
Record long_source (E : env) (w : world) (name : path) (body : list Z) : Prop := {
  ls_path : file_path name;
  ls_file : w_fs w name = Some (NFile body);
  ls_readable : e_readable E name = true;
  ls_name : 221 < zlen (Base name) < 1024 /\ Forall (fun c => 0 < c < 256 /\ c <> 92 /\ c <> 47) (Base name);
  ls_time : 0 <= e_mtime E name < 2 ^ 32;
  ls_body : bytes body /\ zlen body < 2 ^ 32
}.

(** The most bytes of a name that fit into a header of level 0: a header has at most 257
    bytes, 24 of which are needed, and 12 more for the area of Unix. *)
Definition name_room (generic : bool) : nat := if generic then 233%nat else 221%nat.
