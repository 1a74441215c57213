(** The level 0 header in general: the fields of S_Header.v, then, after the CRC, an
    area that is empty in the archives of the first programs for MS-DOS; otherwise
    its first byte names the operating system.  The area of Unix ('U') has a version
    byte, the time (4 bytes), the mode, the user and the group (2 bytes each).
    Independent of the model. *)
From Coq Require Import ZArith List.
From Verif Require Import S_Header S_Listing.
Import ListNotations.
Open Scope Z_scope.

Record entryl := EL {
  y_method : list Z;
  y_packed : Z;
  y_original : Z;
  y_dostime : Z;
  y_attr : Z;
  y_name : list Z;
  y_crc : Z;
  y_area : list Z
}.

Definition bodyl (e : entryl) : list Z :=
  y_method e ++ le32 (y_packed e) ++ le32 (y_original e) ++ le32 (y_dostime e) ++
  [y_attr e; 0; Z.of_nat (length (y_name e))] ++ y_name e ++ le16 (y_crc e) ++ y_area e.

Definition layoutl (e : entryl) : list Z :=
  Z.of_nat (length (bodyl e)) :: checksum (bodyl e) :: bodyl e.

(** The area is that of Unix. *)
Definition is_unix (area : list Z) : bool :=
  match area with
  | 85 :: t => (11 <=? length t)%nat
  | _ => false
  end.

(** The mode of an entry; without an area for Unix, a regular file that everyone may
    read and write. *)
Definition word_at (l : list Z) (k : Z) : Z := byte_at l k + 256 * byte_at l (k + 1).
Definition y_mode (e : entryl) : Z := if is_unix (y_area e) then word_at (y_area e) 6 else 32768 + 438.

(** The values the fields can hold. *)
Record legall (e : entryl) : Prop := {
  ll_method : length (y_method e) = 5%nat /\ Forall (fun b => 0 <= b < 256) (y_method e);
  ll_packed : 0 <= y_packed e < 2 ^ 32;
  ll_original : 0 <= y_original e < 2 ^ 32;
  ll_dostime : 0 <= y_dostime e < 2 ^ 32;
  ll_attr : 0 <= y_attr e < 256;
  ll_name : (length (y_name e) + length (y_area e) <= 233)%nat /\ Forall (fun b => 0 <= b < 256) (y_name e);
  ll_crc : 0 <= y_crc e < 2 ^ 16;
  ll_area : Forall (fun b => 0 <= b < 256) (y_area e)
}.

(** An entry for a regular file, its name without NUL, of a system other than the
    Macintosh ('m'), the Amiga ('A') and OS-9 ('K', 'X'), which have rules of their
    own for names. *)
Record file_entryl (e : entryl) : Prop := {
  fl_legal : legall e;
  fl_name : ~ In 0 (y_name e);
  fl_regular : Z.land (y_mode e) 61440 = 32768;
  fl_system : forall s t, y_area e = s :: t -> ~ In s [109; 65; 75; 88]
}.

Definition archivel (l : list (entryl * list Z)) : list Z :=
  flat_map (fun x => layoutl (fst x) ++ snd x) l ++ [0].

Definition sizedl (l : list (entryl * list Z)) : Prop :=
  Forall (fun x => Z.of_nat (length (snd x)) = y_packed (fst x)) l.

Fixpoint names_shrinkl (n : nat) (l : list (entryl * list Z)) : Prop :=
  match l with
  | [] => True
  | x :: l' => (length (y_name (fst x)) <= n)%nat /\ names_shrinkl (length (y_name (fst x))) l'
  end.

(** The headers of S_Header.v are those with an area for Unix of 12 bytes. *)
Definition of_unix (e : entry0) : entryl :=
  EL (e_method e) (e_packed e) (e_original e) (e_dostime e) (e_attr e) (e_name e) (e_crc e)
    ([85; e_minor e] ++ le32 (e_time e) ++ le16 (e_mode e) ++ le16 (e_uid e) ++ le16 (e_gid e)).

(** The same entry with an area for Unix: what the packed data are is said of it. *)
Definition as_unix (e : entryl) : entry0 :=
  E0 (y_method e) (y_packed e) (y_original e) (y_dostime e) (y_attr e) (y_name e) (y_crc e) 0 0 (y_mode e) 0 0.

(** ** Times *)

(** A date and time of day between 1980 and 2107, with the number of days in a month
    taken as at most 31. *)
Record calendar := CAL { c_year : Z; c_month : Z; c_day : Z; c_hour : Z; c_minute : Z; c_second : Z }.
Definition valid_date (t : calendar) : Prop :=
  1980 <= c_year t <= 2107 /\ 1 <= c_month t <= 12 /\ 1 <= c_day t <= 31 /\ 0 <= c_hour t < 24 /\ 0 <= c_minute t < 60 /\ 0 <= c_second t < 60.

(** What a header for MS-DOS contains. *)
Definition dos_of (t : calendar) : Z := dos_datetime (c_year t) (c_month t) (c_day t) (c_hour t) (c_minute t) (c_second t).

(** Seconds from the beginning of 1970 to the time [t] in the Gregorian calendar, UTC. *)
Definition leap (y : Z) : bool := andb (y mod 4 =? 0) (orb (negb (y mod 100 =? 0)) (y mod 400 =? 0)).
Definition month_days (y m : Z) : Z :=
  if m =? 2 then (if leap y then 29 else 28) else if orb (orb (m =? 4) (m =? 6)) (orb (m =? 9) (m =? 11)) then 30 else 31.
Definition year_days (y : Z) : Z := if leap y then 366 else 365.
Definition count (f : Z -> Z) (from n : nat) : Z := fold_right Z.add 0 (map (fun i => f (Z.of_nat i)) (seq from n)).
Definition unix_time (t : calendar) : Z :=
  ((count year_days 1970 (Z.to_nat (c_year t - 1970)) + count (month_days (c_year t)) 1 (Z.to_nat (c_month t - 1)) + (c_day t - 1)) * 24 + c_hour t) * 3600
  + c_minute t * 60 + c_second t.
