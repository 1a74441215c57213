(** Archives in which a name is longer than the one before it: vocabulary.  Independent
    of the model. *)
From Coq Require Import ZArith List.
From Verif Require Import S_Header.
Import ListNotations.
Open Scope Z_scope.

(** Those of [fs] that belong to entries whose names are not longer than the name of the
    entry before them; before the first entry any name that a header can hold. *)
Fixpoint fitting {A} (n : nat) (es : list (entry0 * list Z)) (fs : list A) : list A :=
  match es, fs with
  | x :: es', f :: fs' => (if Nat.leb (length (e_name (fst x))) n then [f] else []) ++ fitting (length (e_name (fst x))) es' fs'
  | _, _ => []
  end.

(** What follows the first [n] bytes of the name, up to the CRC. *)
Definition tail (n : nat) (e : entry0) : list Z := skipn n (e_name e ++ le16 (e_crc e)).

(** In no entry whose name is longer than the one before it, by the length [n], is the
    third byte after the first [n] a U, K or X. *)
Fixpoint unmarked (n : nat) (es : list (entry0 * list Z)) : Prop :=
  match es with
  | [] => True
  | x :: es' => ((n < length (e_name (fst x)))%nat -> ~ In (nth 2 (tail n (fst x)) 0) [85; 75; 88]) /\ unmarked (length (e_name (fst x))) es'
  end.

(** In no entry whose name is longer than the one before it, by the length [n], are the
    two bytes after the first [n] the CRC of the entry. *)
Fixpoint shifted (n : nat) (es : list (entry0 * list Z)) : Prop :=
  match es with
  | [] => True
  | x :: es' => ((n < length (e_name (fst x)))%nat -> firstn 2 (tail n (fst x)) <> le16 (e_crc (fst x))) /\ shifted (length (e_name (fst x))) es'
  end.

(** Those of [fs] that belong to the entries before the first one whose name is longer
    than the one before it. *)
Fixpoint leading {A} (n : nat) (es : list (entry0 * list Z)) (fs : list A) : list A :=
  match es, fs with
  | x :: es', f :: fs' => if Nat.leb (length (e_name (fst x))) n then f :: leading (length (e_name (fst x))) es' fs' else []
  | _, _ => []
  end.

(** The same for the letter m. *)
Fixpoint unmac (n : nat) (es : list (entry0 * list Z)) : Prop :=
  match es with
  | [] => True
  | x :: es' => ((n < length (e_name (fst x)))%nat -> nth 2 (tail n (fst x)) 0 <> 109) /\ unmac (length (e_name (fst x))) es'
  end.
