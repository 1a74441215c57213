(** What a sequence of LZ77 tokens stands for, independently of the model. *)
From Coq Require Import ZArith List Bool.
Import ListNotations.
Open Scope Z_scope.

(** A literal byte, or a copy of [len] bytes from [dist] bytes back. *)
Inductive lztok := LzByte (b : Z) | LzCopy (len dist : Z).

(** The byte [dist] positions before the end of [out]; before the beginning of
    the output the window holds blanks. *)
Definition back (out : list Z) (dist : Z) : Z :=
  if dist <=? Z.of_nat (length out) then nth (Z.to_nat (Z.of_nat (length out) - dist)) out 32 else 32.

(** Copy byte by byte: the source may overlap the bytes being produced. *)
Fixpoint lz_copy (n : nat) (dist : Z) (out : list Z) : list Z :=
  match n with
  | O => out
  | S n' => lz_copy n' dist (out ++ [back out dist])
  end.

Definition lz_step (out : list Z) (t : lztok) : list Z :=
  match t with
  | LzByte b => out ++ [b]
  | LzCopy len dist => lz_copy (Z.to_nat len) dist out
  end.

(** The bytes a sequence of tokens expands to. *)
Definition lz_expand (ts : list lztok) : list Z := fold_left lz_step ts [].

(** A token a window of [dsize] bytes and matches of 3 to [maxlen] bytes allow. *)
Definition lz_ok (dsize maxlen : Z) (t : lztok) : Prop :=
  match t with
  | LzByte b => 0 <= b < 256
  | LzCopy len dist => 3 <= len <= maxlen /\ 1 <= dist <= dsize
  end.
