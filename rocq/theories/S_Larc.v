(** The formats -lzs- and -lz5- of LArc, written down independently of the model: a ring
    buffer, in which copies are given by absolute positions. *)
From Coq Require Import ZArith List Bool.
From Verif Require Import S_Bits.
Import ListNotations.
Open Scope Z_scope.

(** A byte, or a copy of [len] bytes from position [pos] of the ring. *)
Inductive rtok := RByte (b : Z) | RCopy (pos len : Z).

(** The ring, the next position to be written, and the output so far. *)
Record ring := RING { r_at : Z -> Z; r_pos : Z; r_out : list Z }.

(** Every byte that is produced also goes into the ring. *)
Definition ring_put (size : Z) (m : ring) (b : Z) : ring :=
  RING (fun q => if q =? r_pos m then b else r_at m q) ((r_pos m + 1) mod size) (r_out m ++ [b]).

(** Byte by byte: a copy may read what it wrote. *)
Fixpoint ring_copy (size : Z) (n : nat) (pos : Z) (m : ring) : ring :=
  match n with
  | O => m
  | S n => ring_copy size n (pos + 1) (ring_put size m (r_at m (pos mod size)))
  end.

Definition ring_step (size : Z) (m : ring) (t : rtok) : ring :=
  match t with
  | RByte b => ring_put size m b
  | RCopy pos len => ring_copy size (Z.to_nat len) pos m
  end.

Definition ring_run (size start : Z) (init : Z -> Z) (ts : list rtok) : ring :=
  fold_left (ring_step size) ts (RING init start []).

(** -lzs-: 2048 blanks, writing starts at 2031; copies have 2 to 17 bytes. *)
Definition lzs_data (ts : list rtok) : list Z := r_out (ring_run 2048 2031 (fun _ => 32) ts).

Definition lzs_ok (t : rtok) : Prop :=
  match t with
  | RByte b => 0 <= b < 256
  | RCopy pos len => 0 <= pos < 2048 /\ 2 <= len <= 17
  end.

(** A bit 1 and the byte, or a bit 0, 11 bits of position and 4 bits of length. *)
Definition lzs_bits (t : rtok) : list bool :=
  match t with
  | RByte b => true :: to_bits 8 b
  | RCopy pos len => false :: to_bits 11 pos ++ to_bits 4 (len - 2)
  end.

(** -lz5-: a ring of 4096 with the contents below, writing starts at 4078; copies have
    3 to 18 bytes. *)
Definition lz5_init (q : Z) : Z :=
  if q <? 3328 then q / 13
  else if q <? 3584 then q - 3328
  else if q <? 3840 then 3839 - q
  else if q <? 3968 then 0
  else 32.

Definition lz5_data (ts : list rtok) : list Z := r_out (ring_run 4096 4078 lz5_init ts).

Definition lz5_ok (t : rtok) : Prop :=
  match t with
  | RByte b => 0 <= b < 256
  | RCopy pos len => 0 <= pos < 4096 /\ 3 <= len <= 18
  end.

(** A byte itself; a copy as the low 8 bits of the position, then its high 4 bits and
    the length less 3. *)
Definition lz5_item (t : rtok) : list Z :=
  match t with
  | RByte b => [b]
  | RCopy pos len => [pos mod 256; 16 * (pos / 256) + (len - 3)]
  end.

Definition is_rbyte (t : rtok) : bool := match t with RByte _ => true | RCopy _ _ => false end.

(** [f] says for up to eight items whether they are bytes, from its lowest bit on. *)
Definition lz5_flags (f : Z) (g : list rtok) : Prop :=
  0 <= f < 256 /\ forall i t, nth_error g i = Some t -> Z.testbit f (Z.of_nat i) = is_rbyte t.

(** Groups of eight items behind a flag byte; the last group may be shorter. *)
Inductive lz5_stream : list rtok -> list Z -> Prop :=
| lz5_end : lz5_stream [] []
| lz5_last f g : (1 <= length g <= 8)%nat -> lz5_flags f g -> lz5_stream g (f :: flat_map lz5_item g)
| lz5_group f g ts data : length g = 8%nat -> lz5_flags f g -> lz5_stream ts data ->
    lz5_stream (g ++ ts) (f :: flat_map lz5_item g ++ data).
