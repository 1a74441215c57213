(** Outputs that fail. *)
From Verif Require Import Go.

(** A file on a disk with [room] bytes for it.  Writing what does not fit fails; as much
    of it as fits is kept.  The state is the content of the file. *)
Definition disk (room : Z) (file l : list Z) : bool * list Z :=
  if zlen file + zlen l <=? room then (false, file ++ l)
  else (true, file ++ take (room - zlen file) l).

(** An output that does not fail. *)
Definition sound (file l : list Z) : bool * list Z := (false, file ++ l).
