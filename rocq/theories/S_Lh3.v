(** The -lh3- format, independently of the model: LZ77 items over a window of 8192 bytes,
    grouped in blocks; each block starts with the lengths of the prefix codes used in it. *)
From Coq Require Import ZArith List Bool.
From Verif Require Import S_Bits S_Huff S_Lz S_Lh5.
Import ListNotations.
Open Scope Z_scope.

(** Bytes and the lengths of copies share a code of 286 symbols: 0 .. 255 are bytes,
    253 + len a copy of up to 31 bytes; 285 stands for 32 bytes and more, the excess
    follows in eight bits. *)
Definition lh3_sym (t : lztok) : Z := match t with LzByte b => b | LzCopy len _ => Z.min (253 + len) 285 end.
Definition lh3_excess (t : lztok) : list bool :=
  match t with LzByte _ => [] | LzCopy len _ => if 32 <=? len then to_bits 8 (len - 32) else [] end.

(** The upper seven bits of a distance less one have a code of 128 symbols, the lower
    six are given as they are. *)
Definition upper (d : Z) : Z := (d - 1) / 64.
Definition lower (d : Z) : list bool := to_bits 6 ((d - 1) mod 64).

(** A block gives the code of the distances, or uses a ready-made one with these lengths. *)
Definition ready_len (k : Z) : Z :=
  if k <? 1 then 2 else if k <? 3 then 4 else if k <? 6 then 5 else if k <? 13 then 6 else if k <? 31 then 7 else if k <? 78 then 8 else 9.

Record block3 := B3 { b_chars : code; b_given : option code; b_items : list lztok }.
Definition b_dists (b : block3) : code := match b_given b with Some k => k | None => Lengths ready_len end.

Definition item3_bits (b : block3) (t : lztok) : list bool :=
  word 286 (b_chars b) (lh3_sym t) ++ lh3_excess t ++
  match t with LzByte _ => [] | LzCopy _ d => word 128 (b_dists b) (upper d) ++ lower d end.

(** The lengths of the code of bytes and lengths: a bit 0 for length 0, a bit 1 and four
    bits else; three times length 1, which no code has, and nine bits are a single symbol. *)
Definition char_len (k : Z) : list bool := if k =? 0 then [false] else true :: to_bits 4 (k - 1).
Definition chars_bits (k : code) : list bool :=
  match k with
  | Single c => char_len 1 ++ char_len 1 ++ char_len 1 ++ to_bits 9 c
  | Lengths len => flat_map (fun i => char_len (len (Z.of_nat i))) (List.seq 0 286)
  end.

(** The lengths of the code of distances, four bits each. *)
Definition given_bits (k : option code) : list bool :=
  match k with
  | None => [false]
  | Some (Single c) => true :: to_bits 4 1 ++ to_bits 4 1 ++ to_bits 4 1 ++ to_bits 7 c
  | Some (Lengths len) => true :: flat_map (fun i => to_bits 4 (len (Z.of_nat i))) (List.seq 0 128)
  end.

Definition item3_ok (b : block3) (t : lztok) : Prop :=
  lz_ok 8192 256 t /\ has 286 (b_chars b) (lh3_sym t) /\
  match t with LzByte _ => True | LzCopy _ d => has 128 (b_dists b) (upper d) end.

Record block3_ok (b : block3) : Prop := {
  bo_count : (1 <= length (b_items b))%nat /\ Z.of_nat (length (b_items b)) < 65536;
  bo_items : Forall (item3_ok b) (b_items b);
  bo_chars : code_ok 286 (b_chars b);
  bo_dists : code_ok 128 (b_dists b);
  bo_four : forall len, b_given b = Some (Lengths len) -> forall k, 0 <= k < 128 -> len k <= 15
}.

Definition block3_bits (b : block3) : list bool :=
  to_bits 16 (Z.of_nat (length (b_items b))) ++ chars_bits (b_chars b) ++ given_bits (b_given b) ++ flat_map (item3_bits b) (b_items b).

Definition lh3_stream (bs : list block3) : list bool := flat_map block3_bits bs.
Definition lh3_items (bs : list block3) : list lztok := flat_map b_items bs.

(** The blocks for which extraction is proved. *)

(** The words of the code of bytes and lengths have at most 12 bits. *)
Definition short_words (b : block3) : Prop := forall c, has 286 (b_chars b) c -> (length (word 286 (b_chars b) c) <= 12)%nat.
(** The ready-made code, and no distance above 64. *)
Definition near (b : block3) : Prop := b_given b = None /\ forall len d, In (LzCopy len d) (b_items b) -> d <= 64.
(** A code given in the block, for distances up to 1088 and with words of at most 8 bits. *)
Definition sent (b : block3) : Prop :=
  exists k, b_given b = Some k /\ match k with Single _ => True | Lengths len => (forall c, 17 <= c < 128 -> len c = 0) /\ forall c, 0 <= c < 17 -> len c <= 8 end.
