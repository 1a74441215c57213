(** What the listing of an archive of level 0 entries shows, as text.  Independent of
    the model. *)
From Coq Require Import String ZArith List Bool.
From Verif Require Import S_Text S_Header S_Listing S_Level0.
Import ListNotations.
Open Scope Z_scope.

(** The letters for the permissions of a regular file. *)
Definition letter (mode : Z) (bit : Z) (c : Z) : Z := if Z.testbit mode bit then c else 45.
Definition letter_or (mode : Z) (bit1 : Z) (c1 : Z) (bit2 : Z) (c2 : Z) : Z := if Z.testbit mode bit1 then c1 else letter mode bit2 c2.
Definition permissions (mode : Z) : list Z :=
  [ 45;
    letter mode 8 114; letter mode 7 119; letter_or mode 11 115 6 120;
    letter mode 5 114; letter mode 4 119; letter_or mode 10 115 3 120;
    letter mode 2 114; letter mode 1 119; letter_or mode 9 116 0 120 ].

(** The system of an entry: that of its area, 0 if it has none or one for Unix that is
    too short. *)
Definition y_system (e : entryl) : Z :=
  match y_area e with
  | [] => 0
  | s :: _ => if (s =? 85) && negb (is_unix (y_area e)) then 0 else s
  end.

Definition labels : list (Z * list Z) :=
  [ (0, text "[generic]"); (67, text "[CP/M]"); (70, text "[FLEX]"); (57, text "[OS-9]"); (77, text "[MS-DOS]"); (50, text "[OS/2]"); (72, text "[Human68K]");
    (51, text "[OS-386]"); (82, text "[Runser]"); (84, text "[TownsOS]"); (74, text "[JAVA]") ].
Definition label (system : Z) : list Z :=
  match find (fun x => fst x =? system) labels with Some x => snd x | None => text "[unknown]" end.

Definition uid (e : entryl) : Z := if is_unix (y_area e) then word_at (y_area e) 8 else 0.
Definition gid (e : entryl) : Z := if is_unix (y_area e) then word_at (y_area e) 10 else 0.

(** The first columns: permissions, user and group for Unix, the system otherwise. *)
Definition who (system : Z) (e : entryl) : list Z :=
  if system =? 85 then permissions (y_mode e) ++ text " " ++ right_of 5 (decimal (uid e)) ++ text "/" ++ left_of 5 (decimal (gid e)) ++ text " "
  else left_of 11 (label system) ++ spaces 12.

(** The sizes and the packed size in percent of the original one.  A ratio is shown as
    [q] tenths of a percent, where [q / 10] differs from [100 * packed / original] by
    at most 1/20 and a relative error of 2^-53. *)
Definition ratio_shown (packed original : Z) (r : list Z) : Prop :=
  if original =? 0 then r = text "******"
  else exists q, 0 <= q /\ r = right_of 5 (decimal (q / 10) ++ text "." ++ decimal (q mod 10)) ++ text "%" /\
                 2 ^ 54 * Z.abs (q * original - 1000 * packed) <= 2 ^ 53 * original + 2000 * packed.
Definition sizes (v : bool) (packed original : Z) (r : list Z) : list Z :=
  (if v then right_of 7 (decimal packed) ++ text " " else []) ++ right_of 7 (decimal original) ++ text " " ++ r.

(** The line of an entry, [v] telling -lv from -l.  Twelve spaces stand where the time
    should be; backslashes in names are shown as slashes. *)
Definition shown_path (name : list Z) : list Z := map (fun c => if c =? 92 then 47 else c) name.
Definition checksum_shown (crc : Z) : list Z := repeat 48 (4 - length (hexadecimal crc)) ++ hexadecimal crc.
Definition line_of (v : bool) (system : Z) (e : entryl) (r : list Z) : list Z :=
  who system e ++ sizes v (y_packed e) (y_original e) r ++
  (if v then text " " ++ y_method e ++ text " " ++ checksum_shown (y_crc e) else []) ++
  text " " ++ spaces 12 ++ text " " ++ shown_path (y_name e) ++ newline.

Definition title (v : bool) : list Z :=
  (if v then text "PERMISSION  UID  GID    PACKED    SIZE  RATIO METHOD CRC     STAMP     NAME"
   else text "PERMISSION  UID  GID      SIZE  RATIO     STAMP           NAME") ++ newline.
Definition bar (v : bool) : list Z :=
  (if v then text "---------- ----------- ------- ------- ------ ---------- ------------ ----------"
   else text "---------- ----------- ------- ------ ------------ --------------------") ++ newline.

(** The last line: the number of files and the sums of their sizes. *)
Definition total_line (v : bool) (n packed original : Z) (r : list Z) : list Z :=
  text " Total " ++ right_of 9 (decimal n) ++ (if n =? 1 then text " file  " else text " files ") ++ sizes v packed original r ++
  text " " ++ (if v then spaces 11 else []) ++ spaces 12 ++ newline.

Definition total (f : entryl -> Z) (es : list entryl) : Z := fold_right Z.add 0 (map f es).

(** The whole text. *)
Definition listing_of (v : bool) (es : list entryl) (out : list Z) : Prop :=
  exists lines r,
    Forall2 (fun e line => exists r, ratio_shown (y_packed e) (y_original e) r /\ line = line_of v (y_system e) e r) es lines /\
    ratio_shown (total y_packed es) (total y_original es) r /\
    out = title v ++ bar v ++ concat lines ++ bar v ++ total_line v (Z.of_nat (length es)) (total y_packed es) (total y_original es) r.

(** No entry without an area comes directly behind one that is marked for a system. *)
Fixpoint unmarked_first (previous : Z) (es : list entryl) : Prop :=
  match es with
  | [] => True
  | e :: es' => (y_area e = [] -> previous = 0) /\ unmarked_first (y_system e) es'
  end.

(** A text without its NUL bytes. *)
Definition without_nul (l : list Z) : list Z := filter (fun b => negb (b =? 0)) l.

(** The same entry with another time: in the field of MS-DOS and, in an area for Unix,
    in the bytes 2 to 5. *)
Record retimed (e e' : entryl) : Prop := {
  rt_method : y_method e' = y_method e;
  rt_sizes : y_packed e' = y_packed e /\ y_original e' = y_original e;
  rt_attr : y_attr e' = y_attr e;
  rt_name : y_name e' = y_name e;
  rt_crc : y_crc e' = y_crc e;
  rt_area : y_area e' = y_area e \/ (is_unix (y_area e) = true /\ exists t, length t = 4%nat /\ y_area e' = firstn 2 (y_area e) ++ t ++ skipn 6 (y_area e))
}.
