(** Bit strings, most significant bit first.  Used to state what a bit stream
    contains. *)
From Coq Require Import ZArith List Bool.
Import ListNotations.
Open Scope Z_scope.

(** The low [n] bits of [x], most significant first. *)
Fixpoint to_bits (n : nat) (x : Z) : list bool :=
  match n with
  | O => []
  | S n' => Z.testbit x (Z.of_nat n') :: to_bits n' x
  end.

Fixpoint of_bits_acc (acc : Z) (l : list bool) : Z :=
  match l with
  | [] => acc
  | b :: r => of_bits_acc (2 * acc + Z.b2z b) r
  end.

(** The number a bit string denotes. *)
Definition of_bits (l : list bool) : Z := of_bits_acc 0 l.

(** The bits of a byte string. *)
Definition byte_string_bits (l : list Z) : list bool := flat_map (to_bits 8) l.
