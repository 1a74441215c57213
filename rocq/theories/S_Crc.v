(** What CRC-16/ARC is, independently of the model.

    A message is the sequence of its bits, least significant bit of each byte
    first.  It is read as a polynomial over GF(2) whose first bit has the highest
    degree.  Its CRC is the remainder of M(x)*x^16 modulo
    G(x) = x^16 + x^15 + x^2 + 1, written with its bits reversed. *)
From Coq Require Import ZArith List Bool.
Import ListNotations.
Open Scope Z_scope.

Definition byte_bits (b : Z) : list bool :=
  map (Z.testbit b) [0; 1; 2; 3; 4; 5; 6; 7].

Definition msg_bits (msg : list Z) : list bool := flat_map byte_bits msg.

(** A polynomial over GF(2) is the integer whose binary digits are its
    coefficients; addition is [Z.lxor]. *)
Definition msg_poly (bits : list bool) : Z :=
  fold_left (fun m (b : bool) => 2 * m + Z.b2z b) bits 0.

(** Product of polynomials over GF(2). *)
Fixpoint pmul_pos (a : positive) (b : Z) : Z :=
  match a with
  | xH => b
  | xO a' => 2 * pmul_pos a' b
  | xI a' => Z.lxor (2 * pmul_pos a' b) b
  end.
Definition pmul (a b : Z) : Z :=
  match a with Zpos p => pmul_pos p b | _ => 0 end.

(** x^16 + x^15 + x^2 + 1 *)
Definition G16 : Z := 2^16 + 2^15 + 2^2 + 1.

(** Reversal of 16 bits. *)
Definition reflect16 (r : Z) : Z :=
  fold_left (fun acc i => 2 * acc + Z.b2z (Z.testbit r i))
    [0; 1; 2; 3; 4; 5; 6; 7; 8; 9; 10; 11; 12; 13; 14; 15] 0.

(** [c] is the CRC-16/ARC of [msg]: M(x)*x^16 + R(x) is a multiple of G(x),
    where R is [c] with its bits reversed, of degree below 16. *)
Definition is_crc16 (msg : list Z) (c : Z) : Prop :=
  0 <= c < 2^16 /\
  exists q, 0 <= q /\
    Z.lxor (msg_poly (msg_bits msg) * 2^16) (reflect16 c) = pmul q G16.

(** Two messages of equal length differ in a burst of at most 16 bits. *)
Definition burst16 (a b : list Z) : Prop :=
  length a = length b /\
  msg_bits a <> msg_bits b /\
  exists i, forall k,
    nth k (msg_bits a) false <> nth k (msg_bits b) false -> (i <= k < i + 16)%nat.

(** Number of positions in which two bit strings differ. *)
Fixpoint distance (a b : list bool) : nat :=
  match a, b with
  | x :: a', y :: b' => (if Bool.eqb x y then 0 else 1) + distance a' b'
  | _, _ => 0
  end.
