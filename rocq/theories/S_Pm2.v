(** The format -pm2- of PMarc, independently of the model: literals are given by their
    place in a move-to-front list (S_Mtf.v), copies by length and distance, both in
    prefix codes that are renewed after fixed amounts of data. *)
From Coq Require Import ZArith List Bool.
From Verif Require Import S_Bits S_Lz S_Mtf S_Lh5.
Import ListNotations.
Open Scope Z_scope.

(** ** Codes *)

(** [0], ... [n - 1] *)
Definition upto (n : Z) : list Z := map Z.of_nat (seq 0 (Z.to_nat n)).

(** The share of the code space that the words of the symbols in [l] take, in units of
    1 / 2 ^ 31. *)
Definition space (len : Z -> Z) (l : list Z) : Z :=
  fold_right (fun c k => (if len c =? 0 then 0 else 2 ^ (31 - len c)) + k) 0 l.
Definition complete_code (n : Z) (len : Z -> Z) : Prop :=
  (forall c, 0 <= c < n -> 0 <= len c <= 31) /\ space len (upto n) = 2 ^ 31.

(** The words are given out in the order of their lengths, and of the symbols. *)
Definition pm_word (n : Z) (k : code) (c : Z) : list bool :=
  match k with
  | Single _ => []
  | Lengths len =>
      let before := filter (fun d => (len d <? len c) || ((len d =? len c) && (d <? c))) (upto n) in
      to_bits (Z.to_nat (len c)) (space len before / 2 ^ (31 - len c))
  end.

(** What a code for the 29 classes of items looks like in the data; the flag tells
    whether a code for distances is needed with it. *)
Inductive class_code : code -> bool -> list bool -> Prop :=
| class_single v : 0 <= v < 29 ->
    class_code (Single v) ((9 <=? v) && (v <? 28)) (to_bits 5 (v + 1) ++ to_bits 3 0)
| class_lengths n least width len : 1 <= n <= 29 -> 1 <= least < 8 -> 0 <= width < 8 -> complete_code n len -> (forall c, n <= c -> len c = 0) ->
    (forall c, 0 <= c < n -> len c = 0 \/ least <= len c < least + 2 ^ width - 1) ->
    class_code (Lengths len) (10 <=? n)
      (to_bits 5 n ++ to_bits 3 least ++ to_bits 3 width ++
       flat_map (fun c => to_bits (Z.to_nat width) (if len c =? 0 then 0 else len c - least + 1)) (upto n)).

(** What a code for the classes of distances looks like, of which there are [n]. *)
Inductive dist_code (n : Z) : option code -> list bool -> Prop :=
| dist_none : dist_code n None (flat_map (fun _ => to_bits 3 0) (upto n))
| dist_single v l : 0 <= v < n -> 1 <= l < 8 ->
    dist_code n (Some (Single v)) (flat_map (fun c => to_bits 3 (if c =? v then l else 0)) (upto n))
| dist_lengths len a b : 0 <= a < b -> b < n -> len a <> 0 -> len b <> 0 -> complete_code n len -> (forall c, n <= c -> len c = 0) -> (forall c, 0 <= len c < 8) ->
    dist_code n (Some (Lengths len)) (flat_map (fun c => to_bits 3 (len c)) (upto n)).

(** The codes in use: for the classes of items, whether distances need a code, and the
    code for the classes of distances. *)
Record codes := CODES { p_class : option code; p_need : bool; p_dist : option code }.
Definition no_codes : codes := CODES None false None.

Definition dist_part (n : Z) (ks ks' : codes) (bits : list bool) : Prop :=
  p_class ks' = p_class ks /\ p_need ks' = p_need ks /\
  if p_need ks then dist_code n (p_dist ks') bits else p_dist ks' = p_dist ks /\ bits = [].
Definition class_part (ks ks' : codes) (bits : list bool) : Prop :=
  exists k need, class_code k need bits /\ ks' = CODES (Some k) need (p_dist ks).

(** The codes are renewed when [next] bytes are there. *)
Inductive renewal (next : Z) (ks : codes) : codes -> list bool -> Prop :=
| renew_start ks1 ks2 b1 b2 : next = 0 -> class_part ks ks1 b1 -> dist_part 5 ks1 ks2 b2 -> renewal next ks ks2 (b1 ++ b2)
| renew_6 ks2 b2 : next = 1024 -> dist_part 6 ks ks2 b2 -> renewal next ks ks2 b2
| renew_7 ks2 b2 : next = 2048 -> dist_part 7 ks ks2 b2 -> renewal next ks ks2 b2
| renew_8 ks2 b2 : next = 4096 -> dist_part 8 ks ks2 b2 -> renewal next ks ks2 (false :: b2)
| renew_8_class ks1 ks2 b1 b2 : next = 4096 -> class_part ks ks1 b1 -> dist_part 8 ks1 ks2 b2 -> renewal next ks ks2 (true :: b1 ++ b2)
| renew_not : 8192 <= next -> renewal next ks ks [false]
| renew_both ks1 ks2 b1 b2 : 8192 <= next -> class_part ks ks1 b1 -> dist_part 8 ks1 ks2 b2 -> renewal next ks ks2 (true :: b1 ++ b2).
Definition next_renewal (next : Z) : Z :=
  if next =? 0 then 1024 else if next =? 1024 then 2048 else if next =? 2048 then 4096 else next + 4096.

(** ** Items *)

(** The classes 0 to 7 are literals, each for a range of places in the list. *)
Definition place_base (g : Z) : Z := nth (Z.to_nat g) [0; 8; 16; 32; 64; 96; 128; 192] 0.
Definition place_bits (g : Z) : nat := nth (Z.to_nat g) [3; 3; 4; 5; 5; 5; 6; 6]%nat 0%nat.
(** The classes 8 to 28 are copies, each for a range of lengths. *)
Definition length_base (g : Z) : Z := if g <? 23 then g - 6 else nth (Z.to_nat (g - 23)) [17; 25; 33; 65; 129; 256] 0.
Definition length_bits (g : Z) : nat := if g <? 23 then 0%nat else nth (Z.to_nat (g - 23)) [3; 3; 5; 6; 7; 0]%nat 0%nat.

(** Going back [p + 1] bytes, in a copy of class [g]. *)
Inductive distance_bits (ks : codes) (g p : Z) : list bool -> Prop :=
| dist_short : g = 8 -> 0 <= p < 64 -> distance_bits ks g p (to_bits 6 p)
| dist_one : g = 28 -> p = 0 -> distance_bits ks g p []
| dist_near k : 9 <= g < 28 -> p_dist ks = Some k -> has 8 k 0 -> 0 <= p < 64 -> distance_bits ks g p (pm_word 8 k 0 ++ to_bits 6 p)
| dist_far k j : 9 <= g < 28 -> p_dist ks = Some k -> has 8 k j -> 1 <= j -> 2 ^ (5 + j) <= p < 2 ^ (6 + j) ->
    distance_bits ks g p (pm_word 8 k j ++ to_bits (Z.to_nat (5 + j)) (p - 2 ^ (5 + j))).

(** The item [it] after the bytes [out]. *)
Inductive pm2_item (ks : codes) (out : list Z) : lztok -> list bool -> Prop :=
| item_byte k g x : p_class ks = Some k -> has 29 k g -> g < 8 -> 0 <= x < 2 ^ Z.of_nat (place_bits g) ->
    pm2_item ks out (LzByte (nth (Z.to_nat (place_base g + x)) (mtf_after out) 0)) (pm_word 29 k g ++ to_bits (place_bits g) x)
| item_copy k g x p b : p_class ks = Some k -> has 29 k g -> 8 <= g -> 0 <= x < 2 ^ Z.of_nat (length_bits g) -> distance_bits ks g p b ->
    pm2_item ks out (LzCopy (length_base g + x) (p + 1)) (pm_word 29 k g ++ to_bits (length_bits g) x ++ b).

(** The items [its] after the bytes [out], with codes that all satisfy [P]. *)
Inductive pm2_items (P : codes -> Prop) : Z -> codes -> list Z -> list lztok -> list bool -> Prop :=
| pm2_end next ks out : pm2_items P next ks out [] []
| pm2_renew next ks ks' out it its b1 b2 : next <= Z.of_nat (length out) -> renewal next ks ks' b1 -> P ks' ->
    pm2_items P (next_renewal next) ks' out (it :: its) b2 -> pm2_items P next ks out (it :: its) (b1 ++ b2)
| pm2_one next ks out it its b1 b2 : Z.of_nat (length out) < next -> pm2_item ks out it b1 ->
    pm2_items P next ks (lz_step out it) its b2 -> pm2_items P next ks out (it :: its) (b1 ++ b2).

(** All the data: a bit without meaning, then the items. *)
Definition pm2_stream (P : codes -> Prop) (its : list lztok) (bits : list bool) : Prop :=
  exists b bs, bits = b :: bs /\ pm2_items P 0 no_codes [] its bs.

(** The format has no more conditions on the codes. *)
Definition any_codes (ks : codes) : Prop := True.
(** Codes with one symbol, which take no bits. *)
Definition single_codes (ks : codes) : Prop :=
  (exists v, p_class ks = Some (Single v)) /\ (p_dist ks = None \/ exists v, p_dist ks = Some (Single v)).
