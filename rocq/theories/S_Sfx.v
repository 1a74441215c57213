(** Vocabulary for self-extracting archives: an archive of which the first part is a
    program for MS-DOS, recognised by the extension of its name. *)
From Verif Require Import Go M_Crc M_Bitio M_Maketree M_Maketbl M_Huf M_Slide M_Lzhuf S_Header M_Header M_Os M_Archive S_Archive M_Cli S_Listing S_Cli.

(** A letter in either case. *)
Definition letter (c x : Z) : Prop := x = c \/ x = c - 32.

(** A name that ends in .exe or .com, in either case *)
Definition program_name (a : list Z) : Prop :=
  exists stem x y z, a = stem ++ [46; x; y; z] /\
    ((letter 101 x /\ letter 120 y /\ letter 101 z) \/ (letter 99 x /\ letter 111 y /\ letter 109 z)).

(** Twenty-one bytes that look like the beginning of a header to the search: the method
    -l..- or -p..-, and either the level 0 or 1, a header size above 20 and the checksum 0,
    or the level 2, a header size of 24 or more in the lower byte and the byte 32 before
    the level. *)
Definition looks_like_header (m : list Z) : Prop :=
  exists size check kind a b sizes level, m = [size; check; 45; kind; a; b; 45] ++ sizes ++ [level] /\ zlen sizes = 13 /\ (kind = 108 \/ kind = 112) /\
    ((level = 0 \/ level = 1) /\ 20 < size /\ check = 0 \/ level = 2 /\ 24 <= size /\ nth 12 sizes 0 = 32).

(** The file [a] is readable, holds [c], and its name says it is a program. *)
Record program_at (E : env) (a : path) (c : list Z) (w : world) : Prop := {
  pa_path : file_path a;
  pa_file : w_fs w a = Some (NFile c);
  pa_readable : e_readable E a = true;
  pa_program : program_name a
}.

(** lharc -archive a with -e, -p or -t *)
Definition asks_contents (a : path) (fl : flags) : Prop := asks_extract a fl \/ asks_print a fl \/ asks_test a fl.
