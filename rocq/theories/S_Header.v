(** The level 0 header of the LHA format, as documented for the format (and in the
    comment of header.go:432-474): little-endian fields, a size byte counting the
    bytes after the first two, and a checksum byte, the sum of those bytes
    modulo 256.  Independent of the model. *)
From Coq Require Import ZArith List.
Import ListNotations.
Open Scope Z_scope.

Definition le16 (v : Z) : list Z := [v mod 256; v / 256 mod 256].
Definition le32 (v : Z) : list Z := [v mod 256; v / 256 mod 256; v / 65536 mod 256; v / 16777216 mod 256].

Record entry0 := E0 {
  e_method : list Z;      (* 5 characters, such as -lh5- *)
  e_packed : Z;
  e_original : Z;
  e_dostime : Z;
  e_attr : Z;
  e_name : list Z;        (* path, separated by backslashes *)
  e_crc : Z;
  e_minor : Z;
  e_time : Z;             (* Unix time *)
  e_mode : Z;
  e_uid : Z;
  e_gid : Z
}.

(** What follows the size and the checksum. *)
Definition body0 (e : entry0) : list Z :=
  e_method e ++ le32 (e_packed e) ++ le32 (e_original e) ++ le32 (e_dostime e) ++
  [e_attr e; 0; Z.of_nat (length (e_name e))] ++ e_name e ++ le16 (e_crc e) ++
  [85; e_minor e] ++ le32 (e_time e) ++ le16 (e_mode e) ++ le16 (e_uid e) ++ le16 (e_gid e).

Definition checksum (l : list Z) : Z := fold_right Z.add 0 l mod 256.

Definition layout0 (e : entry0) : list Z :=
  Z.of_nat (length (body0 e)) :: checksum (body0 e) :: body0 e.

(** The values the fields can hold. *)
Record legal0 (e : entry0) : Prop := {
  l0_method : length (e_method e) = 5%nat /\ Forall (fun b => 0 <= b < 256) (e_method e);
  l0_packed : 0 <= e_packed e < 2 ^ 32;
  l0_original : 0 <= e_original e < 2 ^ 32;
  l0_dostime : 0 <= e_dostime e < 2 ^ 32;
  l0_attr : 0 <= e_attr e < 256;
  l0_name : (length (e_name e) <= 221)%nat /\ Forall (fun b => 0 <= b < 256) (e_name e);
  l0_crc : 0 <= e_crc e < 2 ^ 16;
  l0_minor : 0 <= e_minor e < 256;
  l0_time : 0 <= e_time e < 2 ^ 32;
  l0_mode : 0 <= e_mode e < 2 ^ 16;
  l0_uid : 0 <= e_uid e < 2 ^ 16;
  l0_gid : 0 <= e_gid e < 2 ^ 16
}.

(** The level 1 header: a base header like level 0 with an operating system byte
    and the size of the first extended header, then the extended headers, each
    with a type byte, data and the size of the next one. *)
Record entry1 := E1 {
  f_method : list Z;
  f_skip : Z;             (* packed size plus the size of the extended headers *)
  f_original : Z;
  f_dostime : Z;
  f_attr : Z;
  f_name : list Z;
  f_crc : Z;
  f_os : Z;
  f_exts : list (Z * list Z)
}.

Definition next_size (l : list (Z * list Z)) : Z :=
  match l with [] => 0 | (_, d) :: _ => Z.of_nat (length d) + 3 end.

Fixpoint ext_bytes (l : list (Z * list Z)) : list Z :=
  match l with
  | [] => []
  | (ty, d) :: l' => ty :: d ++ le16 (next_size l') ++ ext_bytes l'
  end.

Definition body1 (e : entry1) : list Z :=
  f_method e ++ le32 (f_skip e) ++ le32 (f_original e) ++ le32 (f_dostime e) ++
  [f_attr e; 1; Z.of_nat (length (f_name e))] ++ f_name e ++ le16 (f_crc e) ++ [f_os e] ++ le16 (next_size (f_exts e)).

Definition layout1 (e : entry1) : list Z :=
  Z.of_nat (length (body1 e)) :: checksum (body1 e) :: body1 e ++ ext_bytes (f_exts e).

Record legal1 (e : entry1) : Prop := {
  l1_method : length (f_method e) = 5%nat /\ Forall (fun b => 0 <= b < 256) (f_method e);
  l1_skip : 0 <= f_skip e < 2 ^ 32;
  l1_original : 0 <= f_original e < 2 ^ 32;
  l1_dostime : 0 <= f_dostime e < 2 ^ 32;
  l1_attr : 0 <= f_attr e < 256;
  l1_name : (length (f_name e) <= 230)%nat /\ Forall (fun b => 0 <= b < 256) (f_name e);
  l1_crc : 0 <= f_crc e < 2 ^ 16;
  l1_os : 0 <= f_os e < 256;
  l1_exts : Forall (fun x => 0 <= fst x < 256 /\ Z.of_nat (length (snd x)) + 3 < 2 ^ 16 /\ Forall (fun b => 0 <= b < 256) (snd x)) (f_exts e)
}.

(** One byte of a file replaced. *)
Definition set_byte (i : nat) (y : Z) (l : list Z) : list Z := firstn i l ++ y :: skipn (S i) l.

(** The date and time packed as MS-DOS does: years from 1980 in 7 bits, month 4,
    day 5, hour 5, minute 6, seconds divided by 2 in 5 bits. *)
Definition dos_datetime (year month day hour minute second : Z) : Z :=
  (year - 1980) * 2 ^ 25 + month * 2 ^ 21 + day * 2 ^ 16 + hour * 2 ^ 11 + minute * 2 ^ 5 + second / 2.
