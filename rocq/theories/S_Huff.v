(** Canonical prefix codes with lengths of at most 16 bits, independently of the
    model.  A code over the symbols [0 .. n-1] is given by its lengths
    [len : Z -> Z]; length 0 means that the symbol has no codeword. *)
From Coq Require Import ZArith List Bool.
From Verif Require Import S_Bits.
Import ListNotations.
Open Scope Z_scope.

(** f 0 + ... + f (n-1) *)
Fixpoint sumn (n : nat) (f : Z -> Z) : Z :=
  match n with
  | O => 0
  | S n' => sumn n' f + f (Z.of_nat n')
  end.

(** Share of the code space a codeword of length [l] takes, in 1/65536. *)
Definition weight (l : Z) : Z := if l =? 0 then 0 else 2 ^ (16 - l).

(** The Kraft sum, in 1/65536. *)
Definition kraft (n : Z) (len : Z -> Z) : Z := sumn (Z.to_nat n) (fun k => weight (len k)).

Definition lengths_ok (n : Z) (len : Z -> Z) : Prop :=
  forall k, 0 <= k < n -> 0 <= len k <= 16.

(** Codewords are ordered by length, then by symbol. *)
Definition before (len : Z -> Z) (k c : Z) : bool :=
  (len k <? len c) || ((len k =? len c) && (k <? c)).

(** The canonical code of [c], left-aligned in 16 bits: the space taken by the
    codewords before it. *)
Definition canon (n : Z) (len : Z -> Z) (c : Z) : Z :=
  sumn (Z.to_nat n) (fun k => if before len k c then weight (len k) else 0).

(** The codeword of [c] as a bit string. *)
Definition codeword (n : Z) (len : Z -> Z) (c : Z) : list bool :=
  to_bits (Z.to_nat (len c)) (canon n len c / 2 ^ (16 - len c)).

(** No codeword is a prefix of another one. *)
Definition prefix_free (n : Z) (len : Z -> Z) (word : Z -> list bool) : Prop :=
  forall c d, 0 <= c < n -> 0 <= d < n -> len c <> 0 -> len d <> 0 -> c <> d ->
    forall t, word d <> word c ++ t.
