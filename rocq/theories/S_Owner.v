(** Characters and the columns of a listing for users, groups and permissions.
    Independent of the model. *)
From Coq Require Import ZArith List Lia.
Import ListNotations.
Open Scope Z_scope.

(** The characters of Unicode other than NUL, and their encoding in UTF-8. *)
Definition character (c : Z) : Prop := 0 < c < 1114112 /\ ~ 55296 <= c < 57344.
Definition utf8 (c : Z) : list Z :=
  if c <? 128 then [c]
  else if c <? 2048 then [192 + c / 64; 128 + c mod 64]
  else if c <? 65536 then [224 + c / 4096; 128 + (c / 64) mod 64; 128 + c mod 64]
  else [240 + c / 262144; 128 + (c / 4096) mod 64; 128 + (c / 64) mod 64; 128 + c mod 64].
Definition utf8s (cs : list Z) : list Z := flat_map utf8 cs.

(** The letters for the permissions of a file of OS-9: directory, shared, and executing,
    writing and reading for others and for the owner. *)
Definition os9_permissions (mode : Z) : list Z :=
  map (fun x => if Z.testbit mode (fst x) then snd x else 45) [(7, 100); (6, 115); (5, 101); (4, 119); (3, 114); (2, 101); (1, 119); (0, 114)].
