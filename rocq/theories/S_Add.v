(** Vocabulary for the properties of adding files to an archive. *)
From Verif Require Import Go M_Crc M_Bitio M_Maketree M_Maketbl M_Huf M_Slide M_Lzhuf S_History S_Header M_Header M_Os M_Archive S_Archive.

(** A program about to make the archive [a] of the files [names]: the archive does
    not exist, headers are of level 0, and the options are off. *)
Record making (E : env) (a : path) (names : list path) (w : world) : Prop := {
  mk_usual : usual E;
  mk_path : file_path a;
  mk_none : w_fs w a = None;
  mk_tmp : w_fs w (e_tmp E) = None;
  mk_diff : e_tmp E <> a;
  mk_files : l_filev (w_lha w) = names /\ l_filec (w_lha w) = Z.of_nat (length names);
  mk_level : l_level (w_lha w) = 0;
  mk_update : l_update (w_lha w) = false;
  mk_noexec : l_noexec (w_lha w) = false;
  mk_delete : l_delete (w_lha w) = false
}.

(** A regular file with contents [body] that can be read, its name one a header can
    hold, and its time of modification between 1970 and 2106. *)
Record source (E : env) (w : world) (name : path) (body : list Z) : Prop := {
  so_path : file_path name;
  so_file : w_fs w name = Some (NFile body);
  so_readable : e_readable E name = true;
  so_name : entry_name (Base name) /\ Base name <> [];
  so_time : 0 <= e_mtime E name < 2 ^ 32;
  so_body : bytes body /\ zlen body < 2 ^ 32
}.

(** The entry [e] with [data] is for the file [name] with contents [body]: it has the
    file's base name and time, and [data] are its contents. *)
Record entry_for (E : env) (name : path) (body : list Z) (e : entry0) (data : list Z) : Prop := {
  ef_file : file_entry e;
  ef_name : e_name e = Base name;
  ef_time : e_time e = e_mtime E name;
  ef_data : packs e data body \/
            (body = [] /\ data = [] /\ e_method e = [45; 108; 104; 48; 45] /\ e_packed e = 0 /\ e_original e = 0 /\ e_crc e = 0)
}.

(** An exclusion pattern is the base name of the file, up to case. *)
Definition excludes (x name : path) : Prop := ToUpper x = ToUpper (Base name).
