(** The -lh1- format, independently of the model: LZ77 tokens over a window of 4096
    bytes; bytes and lengths in an adaptive Huffman code that both sides start with
    equal weights and adapt after every symbol, distances in a fixed prefix code. *)
From Coq Require Import ZArith List Bool.
From Verif Require Import S_Bits S_Huff S_Lz.
Import ListNotations.
Open Scope Z_scope.

(** ** The tree *)

(** The nodes are kept in a list, the heaviest first, so the root is node 0.  The two
    subtrees of a node are neighbours: [Fork m] has the subtrees at 2m - 1 (bit 1) and
    2m (bit 0). *)
Inductive what := Leaf (sym : Z) | Fork (m : Z).
Definition tree := list (Z * what).

Definition what_eqb (a b : what) : bool :=
  match a, b with
  | Leaf x, Leaf y => x =? y
  | Fork x, Fork y => x =? y
  | _, _ => false
  end.

Definition node (t : tree) (i : Z) : Z * what := nth (Z.to_nat i) t (0, Leaf 0).
Definition wt (t : tree) (i : Z) : Z := fst (node t i).
Definition wh (t : tree) (i : Z) : what := snd (node t i).

Fixpoint set_at {A} (n : nat) (v : A) (l : list A) : list A :=
  match l, n with
  | [], _ => []
  | _ :: r, O => v :: r
  | x :: r, S n' => x :: set_at n' v r
  end.
Definition put (t : tree) (i : Z) (v : Z * what) : tree := set_at (Z.to_nat i) v t.

(** Where a leaf or a fork is, and the first of the nodes of a weight. *)
Fixpoint find_what (w : what) (t : tree) : Z :=
  match t with
  | [] => 0
  | x :: r => if what_eqb (snd x) w then 0 else 1 + find_what w r
  end.
Fixpoint find_weight (f : Z) (t : tree) : Z :=
  match t with
  | [] => 0
  | x :: r => if fst x =? f then 0 else 1 + find_weight f r
  end.
Definition above (t : tree) (p : Z) : Z := find_what (Fork ((p + 1) / 2)) t.

(** ** The code of a symbol *)

Fixpoint path (k : nat) (t : tree) (p : Z) : list bool :=
  match k with
  | O => []
  | S k' => if p =? 0 then [] else path k' t (above t p) ++ [Z.odd p]
  end.
Definition sym_code (t : tree) (s : Z) : list bool := path (length t) t (find_what (Leaf s) t).

(** ** Building a tree from leaves, given heaviest first *)

(** Nodes are placed lightest first.  The two oldest nodes placed that have no parent
    yet get one, whose weight is the sum of theirs; it is placed after all the leaves
    that are not heavier. *)
Fixpoint lighter (f : Z) (l : tree) : tree * tree :=
  match l with
  | [] => ([], [])
  | x :: r => if fst x <=? f then let '(a, b) := lighter f r in (x :: a, b) else ([], l)
  end.

Fixpoint joins (k : nat) (last : Z) (t : nat) (rest placed : tree) : tree :=
  match k with
  | O => placed
  | S k' =>
      let need := (2 * t + 2 - length placed)%nat in
      let placed := placed ++ firstn need rest in
      let f := fst (nth (2 * t) placed (0, Leaf 0)) + fst (nth (2 * t + 1) placed (0, Leaf 0)) in
      let '(lo, hi) := lighter f (skipn need rest) in
      joins k' last (S t) hi (placed ++ lo ++ [(f, Fork (last - Z.of_nat t))])
  end.

Definition build (leaves : tree) : tree :=
  let n := length leaves in
  rev (joins (n - 1) (Z.of_nat n - 1) 0 (rev leaves) []).

(** Every symbol has weight 1 at the start; the last one is the first leaf. *)
Definition start_tree (n : nat) : tree :=
  build (rev (map (fun i => (1, Leaf (Z.of_nat i))) (List.seq 0 n))).

(** ** Adapting to a symbol *)

(** When 2^15 symbols have been counted the weights of the leaves are halved, rounding
    up, and the tree is built anew. *)
Definition is_leaf (x : Z * what) : bool := match snd x with Leaf _ => true | Fork _ => false end.
Definition halve (t : tree) : tree :=
  build (map (fun x => ((fst x + 1) / 2, snd x)) (filter is_leaf t)).

(** Node [p] changes places with the first node of its weight, and its weight grows by
    one; then the same for its parent. *)
Definition grow (t : tree) (p : Z) : tree * Z :=
  let q := find_weight (wt t p) t in
  let t1 := put (put t p (wt t q, wh t q)) q (wt t p + 1, wh t p) in
  (t1, q).
Fixpoint climb (k : nat) (t : tree) (p : Z) : tree :=
  match k with
  | O => t
  | S k' =>
      if p =? 0 then t
      else let '(t1, q) := grow t p in climb k' t1 (above t1 q)
  end.
Definition adapt (t : tree) (s : Z) : tree :=
  let t := if wt t 0 =? 32768 then halve t else t in
  climb (length t) (put t 0 (wt t 0 + 1, wh t 0)) (find_what (Leaf s) t).

(** ** The stream *)

(** Distances: the upper six bits of the distance less one in a canonical code with
    these lengths, the lower six as they are. *)
Definition dist_len (k : Z) : Z :=
  if k <? 1 then 3 else if k <? 4 then 4 else if k <? 12 then 5 else if k <? 24 then 6 else if k <? 48 then 7 else 8.
Definition dist_bits (d : Z) : list bool :=
  codeword 64 dist_len ((d - 1) / 64) ++ to_bits 6 ((d - 1) mod 64).

(** Symbols: 0 .. 255 are bytes, 253 + len stands for a copy of len bytes. *)
Definition tok_sym (t : lztok) : Z := match t with LzByte b => b | LzCopy len _ => 253 + len end.

Fixpoint lh1_bits (t : tree) (ts : list lztok) : list bool :=
  match ts with
  | [] => []
  | x :: r =>
      sym_code t (tok_sym x) ++
      (match x with LzByte _ => [] | LzCopy _ d => dist_bits d end) ++
      lh1_bits (adapt t (tok_sym x)) r
  end.
Definition lh1_stream (ts : list lztok) : list bool := lh1_bits (start_tree 314) ts.

Definition lh1_ok : lztok -> Prop := lz_ok 4096 60.
