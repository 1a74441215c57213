(** Archives as sequences of entries: vocabulary for listing.  Independent of the
    model. *)
From Coq Require Import ZArith List.
From Verif Require Import S_Header.
Import ListNotations.
Open Scope Z_scope.

(** The byte and the 32-bit word at a position; past the end there are zeros. *)
Definition byte_at (l : list Z) (k : Z) : Z := nth (Z.to_nat k) l 0.
Definition long_at (l : list Z) (k : Z) : Z := byte_at l k + 256 * byte_at l (k + 1) + 65536 * byte_at l (k + 2) + 16777216 * byte_at l (k + 3).

(** The positions at which the headers of [c] start, following the sizes stored in
    them: a header takes the number of bytes in its first byte plus two, and is
    followed by the packed data, whose size is at offset 7. *)
Inductive header_at (c : list Z) : Z -> Prop :=
| ha_first : header_at c 0
| ha_next k : header_at c k -> byte_at c k <> 0 -> header_at c (k + byte_at c k + 2 + long_at c (k + 7)).

(** An archive: entries, each a header and its packed data, and a zero byte. *)
Definition archive_bytes (l : list (entry0 * list Z)) : list Z :=
  flat_map (fun x => layout0 (fst x) ++ snd x) l ++ [0].

(** Every entry has as many bytes of data as its header says. *)
Definition sized (l : list (entry0 * list Z)) : Prop :=
  Forall (fun x => Z.of_nat (length (snd x)) = e_packed (fst x)) l.

(** No name is longer than the one before it. *)
Fixpoint names_shrink (n : nat) (l : list (entry0 * list Z)) : Prop :=
  match l with
  | [] => True
  | x :: l' => (length (e_name (fst x)) <= n)%nat /\ names_shrink (length (e_name (fst x))) l'
  end.
