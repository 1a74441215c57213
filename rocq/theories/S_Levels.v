(** Headers of level 1 without extended headers, of level 2 and of level 3: vocabulary. *)
From Coq Require Import ZArith List.
From Verif Require Import S_Header S_Listing S_Archive.
Import ListNotations.
Open Scope Z_scope.

(** ** Level 2: no checksum and no name; the name is in an extended header.  The first
    two bytes are the size of the whole header. *)
Record entry2 := E2 {
  t_method : list Z;
  t_packed : Z;
  t_original : Z;
  t_time : Z;             (* seconds since 1970 *)
  t_attr : Z;
  t_crc : Z;
  t_os : Z;
  t_exts : list (Z * list Z)
}.

Definition size2 (e : entry2) : Z := 26 + Z.of_nat (length (ext_bytes (t_exts e))).

Definition layout2 (e : entry2) : list Z :=
  le16 (size2 e) ++ t_method e ++ le32 (t_packed e) ++ le32 (t_original e) ++ le32 (t_time e) ++ [t_attr e; 2] ++
  le16 (t_crc e) ++ [t_os e] ++ le16 (next_size (t_exts e)) ++ ext_bytes (t_exts e).

(** A header starts with a byte other than 0, which marks the end of the archive. *)
Record legal2 (e : entry2) : Prop := {
  l2_method : length (t_method e) = 5%nat;
  l2_size : size2 e < 2 ^ 16 /\ size2 e mod 256 <> 0
}.

(** ** Level 3: like level 2, with sizes of four bytes. *)
Fixpoint ext_bytes4 (l : list (Z * list Z)) : list Z :=
  match l with
  | [] => []
  | (ty, data) :: l' => [ty] ++ data ++ le32 (match l' with [] => 0 | (_, d) :: _ => Z.of_nat (length d) + 5 end) ++ ext_bytes4 l'
  end.

Definition size3 (e : entry2) : Z := 32 + Z.of_nat (length (ext_bytes4 (t_exts e))).

Definition layout3 (e : entry2) : list Z :=
  [4; 0] ++ t_method e ++ le32 (t_packed e) ++ le32 (t_original e) ++ le32 (t_time e) ++ [t_attr e; 3] ++
  le16 (t_crc e) ++ [t_os e] ++ le32 (size3 e) ++ le32 (match t_exts e with [] => 0 | (_, d) :: _ => Z.of_nat (length d) + 5 end) ++ ext_bytes4 (t_exts e).

Record legal3 (e : entry2) : Prop := {
  l3_method : length (t_method e) = 5%nat;
  l3_size : size3 e < 2 ^ 32
}.

(** ** Level 1 without extended headers *)
Record plain1 (e : entry1) : Prop := {
  p1_legal : legal1 e;
  p1_name : ~ In 0 (f_name e);
  p1_exts : f_exts e = [];
  p1_system : ~ In (f_os e) [109; 65; 75; 88]
}.

(** The entry as level 0 would hold it. *)
Definition as0 (e : entry1) : entry0 :=
  E0 (f_method e) (f_skip e) (f_original e) (f_dostime e) (f_attr e) (f_name e) (f_crc e) 0 (f_dostime e) 33188 0 0.

Definition archive1 (l : list (entry1 * list Z)) : list Z := flat_map (fun x => layout1 (fst x) ++ snd x) l ++ [0].

Fixpoint names_shrink1 (n : nat) (l : list (entry1 * list Z)) : Prop :=
  match l with
  | [] => True
  | x :: l' => (length (f_name (fst x)) <= n)%nat /\ names_shrink1 (length (f_name (fst x))) l'
  end.

(** An entry whose base name, without its last byte, is [base]. *)
Record shorter (e : entry1) (base : list Z) : Prop := {
  sh_plain : plain1 e;
  sh_named : exists dir c, named (as0 e) dir (base ++ [c]);
  sh_base : base <> []
}.
