(** Text: strings as lists of bytes, numerals and columns.  Independent of the model. *)
From Coq Require Import String ZArith List.
From Coq Require Ascii DecimalString HexadecimalString.
Import ListNotations.
Open Scope Z_scope.

(** The bytes of a string of ASCII characters. *)
Definition text (s : string) : list Z := map (fun c => Z.of_nat (Ascii.nat_of_ascii c)) (list_ascii_of_string s).
Arguments text s%string.

(** Numerals: decimal, and hexadecimal with small letters. *)
Definition decimal (n : Z) : list Z := text (DecimalString.NilZero.string_of_int (Z.to_int n)).
Definition hexadecimal (n : Z) : list Z := text (HexadecimalString.NilZero.string_of_uint (N.to_hex_uint (Z.to_N n))).

Definition spaces (n : nat) : list Z := repeat 32 n.

(** Columns of [n] characters, filled on the left and on the right. *)
Definition right_of (n : nat) (s : list Z) : list Z := spaces (n - length s) ++ s.
Definition left_of (n : nat) (s : list Z) : list Z := s ++ spaces (n - length s).

Definition newline : list Z := [10].
