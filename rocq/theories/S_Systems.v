(** Names in headers made on a Macintosh: ':' separates the parts of a path there and
    '/' may be part of a name.  On Unix it is the other way round.  Level 0 headers
    may have backslashes for separators.  Independent of the model. *)
From Coq Require Import ZArith List.
Import ListNotations.
Open Scope Z_scope.

Definition from_mac (name : list Z) : list Z :=
  map (fun c => if c =? 58 then 47 else if c =? 47 then 58 else if c =? 92 then 47 else c) name.

(** The system a header was made on, by the first byte of the area after the CRC. *)
Definition macintosh : Z := 109.  (* 'm' *)
Definition amiga : Z := 65.       (* 'A' *)
Definition os9 : list Z := [75; 88]. (* 'K', 'X' *)
