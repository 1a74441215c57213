(** The formats -lh4- .. -lh7-, independently of the model: LZ77 items, grouped in
    blocks; each block starts with the lengths of the canonical prefix codes used in it. *)
From Coq Require Import ZArith List Bool.
From Verif Require Import S_Bits S_Huff S_Lz.
Import ListNotations.
Open Scope Z_scope.

(** ** Prefix codes *)

(** A code for one symbol, which takes no bits, or a canonical code given by the
    lengths of its words. *)
Inductive code := Single (c : Z) | Lengths (len : Z -> Z).

Definition code_ok (n : Z) (k : code) : Prop :=
  match k with
  | Single c => 0 <= c < n
  | Lengths len => lengths_ok n len /\ kraft n len = 65536
  end.
Definition has (n : Z) (k : code) (c : Z) : Prop :=
  0 <= c < n /\ match k with Single c0 => c = c0 | Lengths len => len c <> 0 end.
Definition word (n : Z) (k : code) (c : Z) : list bool :=
  match k with Single _ => [] | Lengths len => codeword n len c end.

(** ** How a code is described *)

(** A length of up to 6 takes three bits; longer ones go on in unary. *)
Definition len_bits (k : Z) : list bool :=
  if k <=? 6 then to_bits 3 k else repeat true (Z.to_nat (k - 4)) ++ [false].

(** The first [m] lengths of a small code.  In the code for lengths the third is
    followed by a count of zero lengths that are left out. *)
Inductive small_lens (len : Z -> Z) (m : Z) (gap : bool) : Z -> list bool -> Prop :=
| small_end i : m <= i -> small_lens len m gap i []
| small_one i b : i < m -> ~ (gap = true /\ i = 2) -> small_lens len m gap (i + 1) b ->
    small_lens len m gap i (len_bits (len i) ++ b)
| small_gap k b : 2 < m -> gap = true -> 0 <= k <= 3 -> (forall j, 3 <= j < 3 + k -> len j = 0) -> small_lens len m gap (3 + k) b ->
    small_lens len m gap 2 (len_bits (len 2) ++ to_bits 2 k ++ b).

Inductive small_code (n : Z) (nbit : nat) (gap : bool) : code -> list bool -> Prop :=
| small_single c : small_code n nbit gap (Single c) (to_bits nbit 0 ++ to_bits nbit c)
| small_lengths len m b : 1 <= m <= n -> (forall k, m <= k < n -> len k = 0) -> small_lens len m gap 0 b ->
    small_code n nbit gap (Lengths len) (to_bits nbit m ++ b).

(** The first [m] lengths of the code for bytes and lengths of copies, in the code
    [tc]: symbol [k + 2] is the length [k], the symbols 0, 1 and 2 are runs of zeros. *)
Inductive big_lens (tc : code) (len : Z -> Z) (m : Z) : Z -> list bool -> Prop :=
| big_end i : i = m -> big_lens tc len m i []
| big_one i b : i < m -> len i <> 0 -> has 19 tc (len i + 2) -> big_lens tc len m (i + 1) b ->
    big_lens tc len m i (word 19 tc (len i + 2) ++ b)
| big_zero i b : i < m -> len i = 0 -> has 19 tc 0 -> big_lens tc len m (i + 1) b ->
    big_lens tc len m i (word 19 tc 0 ++ b)
| big_few i k b : 0 <= k < 16 -> i + (k + 3) <= m -> (forall j, i <= j < i + (k + 3) -> len j = 0) -> has 19 tc 1 -> big_lens tc len m (i + (k + 3)) b ->
    big_lens tc len m i (word 19 tc 1 ++ to_bits 4 k ++ b)
| big_many i k b : 0 <= k < 512 -> i + (k + 20) <= m -> (forall j, i <= j < i + (k + 20) -> len j = 0) -> has 19 tc 2 -> big_lens tc len m (i + (k + 20)) b ->
    big_lens tc len m i (word 19 tc 2 ++ to_bits 9 k ++ b).

Inductive big_code (tc : code) : code -> list bool -> Prop :=
| big_single c : big_code tc (Single c) (to_bits 9 0 ++ to_bits 9 c)
| big_lengths len m b : 1 <= m <= 510 -> (forall k, m <= k < 510 -> len k = 0) -> big_lens tc len m 0 b ->
    big_code tc (Lengths len) (to_bits 9 m ++ b).

(** ** Items *)

(** Symbols 0 .. 255 are bytes, 253 + len a copy of len bytes.  It is followed by the
    number of significant bits of the distance less one, and by these bits except the
    first. *)
Definition significant (p : Z) : Z := if p =? 0 then 0 else Z.log2 p + 1.
Definition item_ok (n : Z) (cc pc : code) (t : lztok) : Prop :=
  match t with
  | LzByte b => has 510 cc b
  | LzCopy len d => has 510 cc (253 + len) /\ has n pc (significant (d - 1))
  end.
Definition item_bits (n : Z) (cc pc : code) (t : lztok) : list bool :=
  match t with
  | LzByte b => word 510 cc b
  | LzCopy len d => word 510 cc (253 + len) ++ word n pc (significant (d - 1)) ++ to_bits (Z.to_nat (significant (d - 1) - 1)) (d - 1)
  end.

(** ** Blocks *)

(** [n] symbols for distances, whose code is described with [nbit] bits; a window of
    [dsize] bytes. *)
Inductive block (n : Z) (nbit : nat) (dsize : Z) (ts : list lztok) : list bool -> Prop :=
| block_bits tc cc pc bt bc bp :
    (1 <= length ts)%nat -> Z.of_nat (length ts) < 65536 -> Forall (lz_ok dsize 256) ts -> Forall (item_ok n cc pc) ts ->
    code_ok 19 tc -> small_code 19 5 true tc bt ->
    code_ok 510 cc -> big_code tc cc bc ->
    code_ok n pc -> small_code n nbit false pc bp ->
    block n nbit dsize ts (to_bits 16 (Z.of_nat (length ts)) ++ bt ++ bc ++ bp ++ flat_map (item_bits n cc pc) ts).

Inductive blocks (n : Z) (nbit : nat) (dsize : Z) : list lztok -> list bool -> Prop :=
| blocks_none : blocks n nbit dsize [] []
| blocks_more ts us b c : block n nbit dsize ts b -> blocks n nbit dsize us c -> blocks n nbit dsize (ts ++ us) (b ++ c).

(** The four formats. *)
Definition lh_blocks (method : Z) : list lztok -> list bool -> Prop :=
  if method =? 4 then blocks 14 4 4096
  else if method =? 5 then blocks 14 4 8192
  else if method =? 6 then blocks 16 5 32768
  else blocks 17 5 65536.
