(** Semantics of the Go fragments used by the model: outcomes, fixed-width
    integers, slices and loops.  Nothing here is specific to the lha package. *)
From Coq Require Export ZArith List Bool Lia FMapPositive.
Export ListNotations.
Open Scope Z_scope.

(** ** Outcomes *)

(** [Ok a]: normal return; [Panic]: Go run-time panic (index out of range, nil
    dereference, division by zero); [NoFuel]: the model's loop bound was used
    up, i.e. nothing is known about the run. *)
Inductive res (A : Type) : Type :=
| Ok (a : A)
| Panic
| NoFuel.
Arguments Ok {A} a.
Arguments Panic {A}.
Arguments NoFuel {A}.

Definition bind {A B} (m : res A) (k : A -> res B) : res B :=
  match m with
  | Ok a => k a
  | Panic => Panic
  | NoFuel => NoFuel
  end.

Notation "x <- m ;; k" := (bind m (fun x => k))
  (at level 90, m at next level, right associativity).
Notation "' p <- m ;; k" := (bind m (fun p => k))
  (at level 90, p pattern, m at next level, right associativity).

(** ** Fixed-width unsigned integers *)

Definition u8 (x : Z) : Z := x mod 256.
Definition u16 (x : Z) : Z := x mod 65536.
Definition u32 (x : Z) : Z := x mod 4294967296.
Definition u64 (x : Z) : Z := x mod 18446744073709551616.

(** Conversion to a signed 16-bit integer (two's complement). *)
Definition i16 (x : Z) : Z :=
  let y := x mod 65536 in if y <? 32768 then y else y - 65536.

(** ** Slices of integers *)

Record arr := mkArr { alen : Z; amap : PositiveMap.t Z; adef : Z }.

Definition apos (i : Z) : positive := Z.to_pos (i + 1).

(** Content at an index, without bounds check. *)
Definition at_ (a : arr) (i : Z) : Z :=
  match PositiveMap.find (apos i) (amap a) with
  | Some v => v
  | None => adef a
  end.

Definition upd (a : arr) (i v : Z) : arr :=
  mkArr (alen a) (PositiveMap.add (apos i) v (amap a)) (adef a).

(** [make([]T, n)] *)
Definition amake (n : Z) : arr := mkArr n (PositiveMap.empty Z) 0.
(** a slice of length [n] filled with [v] *)
Definition afill (n v : Z) : arr := mkArr n (PositiveMap.empty Z) v.

Definition inb (a : arr) (i : Z) : bool := (0 <=? i) && (i <? alen a).

(** [a[i]] *)
Definition aget (a : arr) (i : Z) : res Z :=
  if inb a i then Ok (at_ a i) else Panic.

(** [a[i] = v] *)
Definition aset (a : arr) (i v : Z) : res arr :=
  if inb a i then Ok (upd a i v) else Panic.

(** ** Loops *)

(** [for i := lo; i < lo+n; i++ { body }] *)
Fixpoint for_up {S : Type} (n : nat) (i : Z) (body : Z -> S -> res S) (s : S) : res S :=
  match n with
  | O => Ok s
  | Datatypes.S n' => s' <- body i s ;; for_up n' (i + 1) body s'
  end.

Definition forZ {S : Type} (lo hi : Z) (body : Z -> S -> res S) (s : S) : res S :=
  for_up (Z.to_nat (hi - lo)) lo body s.

(** Loops with [break]/early [return]: a step either goes on or stops. *)
Inductive ctl (S T : Type) : Type :=
| Go (s : S)
| Stop (t : T).
Arguments Go {S T} s.
Arguments Stop {S T} t.

Fixpoint loopN {S T : Type} (fuel : nat) (step : S -> res (ctl S T)) (s : S)
  : res (ctl S T) :=
  match fuel with
  | O => Ok (Go s)
  | Datatypes.S f =>
      c <- step s ;;
      match c with
      | Stop t => Ok (Stop t)
      | Go s' => loopN f step s'
      end
  end.

(** The same loop with a binary iteration bound, so that large bounds cost
    nothing when the loop stops early. *)
Fixpoint loopP {S T : Type} (p : positive) (step : S -> res (ctl S T)) (s : S)
  : res (ctl S T) :=
  match p with
  | xH => step s
  | xO q =>
      c <- loopP q step s ;;
      match c with
      | Stop t => Ok (Stop t)
      | Go s' => loopP q step s'
      end
  | xI q =>
      c <- step s ;;
      match c with
      | Stop t => Ok (Stop t)
      | Go s' =>
          c' <- loopP q step s' ;;
          match c' with
          | Stop t => Ok (Stop t)
          | Go s'' => loopP q step s''
          end
      end
  end.

(** [loop fuel step s]: iterate [step] until it stops, at most [fuel] times. *)
Definition loop {S T : Type} (fuel : Z) (step : S -> res (ctl S T)) (s : S) : res T :=
  match fuel with
  | Zpos p =>
      c <- loopP p step s ;;
      match c with
      | Stop t => Ok t
      | Go _ => NoFuel
      end
  | _ => NoFuel
  end.

(** Counted loop with early exit. *)
Fixpoint for_ctl {S T : Type} (n : nat) (i : Z) (body : Z -> S -> res (ctl S T)) (s : S)
  : res (ctl S T) :=
  match n with
  | O => Ok (Go s)
  | Datatypes.S n' =>
      c <- body i s ;;
      match c with
      | Stop t => Ok (Stop t)
      | Go s' => for_ctl n' (i + 1) body s'
      end
  end.

(** ** Lists of bytes *)

(** Reading [n] bytes from a reader holding [l]. *)
Definition take (n : Z) (l : list Z) : list Z := firstn (Z.to_nat n) l.
Definition drop (n : Z) (l : list Z) : list Z := skipn (Z.to_nat n) l.
Definition zlen {A} (l : list A) : Z := Z.of_nat (length l).

(** [copy(a[i:], l)] for a list that fits *)
Fixpoint blit (a : arr) (i : Z) (l : list Z) : res arr :=
  match l with
  | [] => Ok a
  | x :: l' => a' <- aset a i x ;; blit a' (i + 1) l'
  end.

(** Contents [a[i..i+n)] as a list. *)
Fixpoint slice_list (a : arr) (i : Z) (n : nat) : list Z :=
  match n with
  | O => []
  | S n' => at_ a i :: slice_list a (i + 1) n'
  end.

Definition is_byte (x : Z) : Prop := 0 <= x < 256.
Definition bytes (l : list Z) : Prop := Forall is_byte l.
