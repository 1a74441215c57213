(** Move-to-front lists: the specification of the history of -pm2-.  Independent of
    the model. *)
From Coq Require Import ZArith List.
Import ListNotations.
Open Scope Z_scope.

(** The byte used last comes first; the others keep their order. *)
Definition to_front (b : Z) (l : list Z) : list Z := b :: remove Z.eq_dec b l.

(** [a], [a+1], ... [b] *)
Definition run (a b : Z) : list Z := map Z.of_nat (seq (Z.to_nat a) (Z.to_nat (b - a + 1))).

(** The order PMarc starts with. *)
Definition mtf_start : list Z :=
  run 32 127 ++ run 0 31 ++ run 160 223 ++ run 128 159 ++ run 224 255.

(** After the bytes [bs], the first of them first. *)
Definition mtf_after (bs : list Z) : list Z := fold_left (fun l b => to_front b l) bs mtf_start.
