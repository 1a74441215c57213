(** The -lh2- format, independently of the model: LZ77 tokens over a window of 8192
    bytes; bytes and lengths in the adaptive code of S_Lh1.v over 286 symbols, the upper
    bits of the distances in a second adaptive code, which gets a new symbol for every
    64 bytes that have been written. *)
From Coq Require Import ZArith List Bool.
From Verif Require Import S_Bits S_Huff S_Lz S_Lh1.
Import ListNotations.
Open Scope Z_scope.

(** Symbols: 0 .. 255 are bytes, 253 + len a copy of 3 .. 31 bytes; 285 stands for all
    longer copies and is followed by 8 bits, the length less 32. *)
Definition lh2_sym (x : lztok) : Z :=
  match x with LzByte b => b | LzCopy len _ => if len <? 32 then 253 + len else 285 end.
Definition lh2_more (x : lztok) : list bool :=
  match x with LzByte _ => [] | LzCopy len _ => if len <? 32 then [] else to_bits 8 (len - 32) end.

(** ** The code of the upper bits of the distances *)

(** The tree, and the number of symbols that were counted.  A tree of one leaf gives it
    the empty code, and does not change. *)
Definition lh2_adapt (st : tree * Z) (s : Z) : tree * Z :=
  let '(t, n) := if snd st =? 32768 then (halve (fst st), wt (halve (fst st)) 0) else st in
  ((if (length t =? 1)%nat then t else climb (length t) (put t 0 (wt t 0 + 1, wh t 0)) (find_what (Leaf s) t)), n + 1).

(** A new symbol: the last leaf gives its place to a fork, under which it hangs together
    with the new leaf, whose weight is 0.  Then the tree is adapted to the new symbol. *)
Definition add_leaf (t : tree) (s : Z) : tree :=
  let m := Z.of_nat (length t) - 1 in
  put t m (wt t m, Fork ((m + 2) / 2)) ++ [(wt t m, wh t m); (0, Leaf s)].
Definition leaves (t : tree) : Z := (Z.of_nat (length t) + 1) / 2.

(** There is a symbol for every 64 bytes written so far, at most 128. *)
Fixpoint lh2_widen (k : nat) (count : Z) (st : tree * Z) : tree * Z :=
  match k with
  | O => st
  | S k' =>
      let n := leaves (fst st) in
      if (64 * n <? count) && (n <? 128) then lh2_widen k' count (lh2_adapt (add_leaf (fst st) n, snd st) n) else st
  end.

(** ** The stream; [count] bytes have been written. *)
Fixpoint lh2_bits (t : tree) (st : tree * Z) (count : Z) (ts : list lztok) : list bool :=
  match ts with
  | [] => []
  | x :: r =>
      sym_code t (lh2_sym x) ++ lh2_more x ++
      match x with
      | LzByte _ => lh2_bits (adapt t (lh2_sym x)) st (count + 1) r
      | LzCopy len d =>
          let st := lh2_widen 128 count st in
          let s := (d - 1) / 64 in
          sym_code (fst st) s ++ to_bits 6 ((d - 1) mod 64) ++
          lh2_bits (adapt t (lh2_sym x)) (lh2_adapt st s) (count + len) r
      end
  end.
Definition lh2_stream (ts : list lztok) : list bool := lh2_bits (start_tree 286) ([(1, Leaf 0)], 0) 0 ts.

(** Distances reach to the end of the farthest 64 bytes that have a symbol.  Copies have
    at most [most] bytes. *)
Definition reach (count : Z) : Z := Z.min 8192 (64 * Z.max 1 ((count + 63) / 64)).
Fixpoint lh2_ok (most count : Z) (ts : list lztok) : Prop :=
  match ts with
  | [] => True
  | LzByte b :: r => 0 <= b < 256 /\ lh2_ok most (count + 1) r
  | LzCopy len d :: r => 3 <= len <= most /\ 1 <= d <= reach count /\ lh2_ok most (count + len) r
  end.
