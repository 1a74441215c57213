(** Vocabulary for adding files that are removed afterwards. *)
From Verif Require Import Go M_Crc M_Bitio M_Maketree M_Maketbl M_Huf M_Slide M_Lzhuf S_History S_Header M_Header M_Os M_Archive S_Archive S_Add.

(** The same process with DeleteAfterAppend off. *)
Definition keeping (w : world) : world :=
  let l := w_lha w in
  set_wlha (LHA (l_archive l) (l_noexec l) (l_force l) (l_ignoredir l) (l_stdout l) (l_macbin l) (l_update l) (l_backup l) (l_new l) false (l_sort l) (l_recursive l) (l_broken l)
    (l_skip l) (l_level l) (l_method l) (l_extractdir l) (l_exclude l) (l_filev l) (l_filec l) (l_newbuf l)) w.

(** A program about to make the archive [a] of the files [names], which are to be
    removed afterwards: DeleteAfterAppend is on, and the rest is as in [making]. *)
Record moving (E : env) (a : path) (names : list path) (w : world) : Prop := {
  mv_delete : l_delete (w_lha w) = true;
  mv_making : making E a names (keeping w)
}.
