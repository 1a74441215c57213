(** Model of the text that listing an archive prints: lhext.go:996-1047 and
    1652-1885.  [M_Archive.CommandList] gives the headers in the order in which they
    are printed; [list_text] is what is printed for them.  What a panic leaves
    unfinished is not modelled, nor are errors of writing to standard output. *)
From Coq Require Import String.
From Coq Require SpecFloat.
From Verif Require Import Go S_Text M_Header M_Os M_Archive M_Cli.
Import SpecFloat.

(** ** The verbs of fmt.Printf that are used *)

(** utf8.DecodeRune: the number of bytes of the first character *)
Definition within (lo hi x : Z) : bool := (lo <=? x) && (x <=? hi).
Definition rune_class (a : Z) : Z * Z * Z :=
  if within 194 223 a then (2, 128, 191)
  else if a =? 224 then (3, 160, 191)
  else if a =? 237 then (3, 128, 159)
  else if within 225 239 a then (3, 128, 191)
  else if a =? 240 then (4, 144, 191)
  else if within 241 243 a then (4, 128, 191)
  else if a =? 244 then (4, 128, 143)
  else (1, 0, 0).
Definition rune_width (s : list Z) : nat :=
  match s with
  | [] => 0%nat
  | a :: t =>
      let '(size, lo, hi) := rune_class a in
      if size =? 2 then match t with b :: _ => if within lo hi b then 2%nat else 1%nat | [] => 1%nat end
      else if size =? 3 then match t with b :: c :: _ => if within lo hi b && within 128 191 c then 3%nat else 1%nat | _ => 1%nat end
      else if size =? 4 then match t with b :: c :: d :: _ => if within lo hi b && within 128 191 c && within 128 191 d then 4%nat else 1%nat | _ => 1%nat end
      else 1%nat
  end.

(** utf8.RuneCount, and the first [n] characters; [fuel] is at least the number of bytes *)
Fixpoint rune_count (fuel : nat) (s : list Z) : nat :=
  match fuel, s with
  | S fuel', _ :: _ => S (rune_count fuel' (skipn (rune_width s) s))
  | _, _ => 0%nat
  end.
Fixpoint first_runes (fuel n : nat) (s : list Z) : list Z :=
  match fuel, n, s with
  | S fuel', S n', _ :: _ => firstn (rune_width s) s ++ first_runes fuel' n' (skipn (rune_width s) s)
  | _, _, _ => []
  end.

(** Padding with spaces to [n] characters *)
Definition pad_left (n : nat) (s : list Z) : list Z := spaces (n - rune_count (length s) s) ++ s.
Definition pad_right (n : nat) (s : list Z) : list Z := s ++ spaces (n - rune_count (length s) s).

(** %5.5s and %-5.5s *)
Definition fmt_5_5s (s : list Z) : list Z := pad_left 5 (first_runes (length s) 5 s).
Definition fmt_m5_5s (s : list Z) : list Z := pad_right 5 (first_runes (length s) 5 s).

(** %nd, %-nd, %04x *)
Definition fmt_d (n : nat) (v : Z) : list Z := right_of n (decimal v).
Definition fmt_md (n : nat) (v : Z) : list Z := left_of n (decimal v).
Definition fmt_04x (v : Z) : list Z := repeat 48 (4 - length (hexadecimal v)) ++ hexadecimal v.

(** float64 of an integer, and the numbers of IEEE 754 as the standard library of
    Coq computes them *)
Definition f64 (n : Z) : spec_float := binary_normalize 53 1024 n 0 false.

(** The nearest whole number to [10 * m * 2 ^ e], the even one of two *)
Definition tenths (m : positive) (e : Z) : Z :=
  if 0 <=? e then 10 * Zpos m * 2 ^ e
  else
    let d := 2 ^ (- e) in
    let q := 10 * Zpos m / d in
    let r := 10 * Zpos m mod d in
    if 2 * r <? d then q else if d <? 2 * r then q + 1 else if Z.even q then q else q + 1.

(** %5.1f: strconv.FormatFloat rounds the exact value to one decimal *)
Definition fmt_5_1f (x : spec_float) : list Z :=
  right_of 5 match x with
  | S754_zero s => (if s then text "-" else []) ++ text "0.0"
  | S754_infinity s => if s then text "-Inf" else text "+Inf"
  | S754_nan => text "NaN"
  | S754_finite s m e => (if s then text "-" else []) ++ decimal (tenths m e / 10) ++ text "." ++ decimal (tenths m e mod 10)
  end.

(** ** The listing *)

(** lhext.go:1873-1884 printSize.  [v] is l.VerboseListing. *)
Definition printSize (v : bool) (packed original : Z) : list Z :=
  (if v then fmt_d 7 packed ++ text " " else []) ++
  fmt_d 7 original ++ text " " ++
  (if original =? 0 then text "******"
   else fmt_5_1f (SFdiv 53 1024 (SFmul 53 1024 (f64 packed) (f64 100)) (f64 original)) ++ text "%").

(** lhext.go:1865-1871 printStamp.  [b] is l.Verbose; the time is not used. *)
Definition printStamp (t : Z) (b v : bool) : list Z := if v && b then spaces 19 else spaces 12.

(** lhext.go:1012-1030 printBar *)
Definition printBar (b v : bool) : list Z :=
  (if v then
     if b then text "---------- ----------- ------- ------- ------ ---------- ------------------- ---"
     else text "---------- ----------- ------- ------- ------ ---------- ------------ ----------"
   else
     if b then text "---------- ----------- ------- ------ ------------ ---"
     else text "---------- ----------- ------- ------ ------------ --------------------") ++ newline.

(** lhext.go:1032-1047 listHeader *)
Definition listHeader (b v : bool) : list Z :=
  (if v then
     if b then text "PERMISSION  UID  GID    PACKED    SIZE  RATIO METHOD CRC     STAMP            LV"
     else text "PERMISSION  UID  GID    PACKED    SIZE  RATIO METHOD CRC     STAMP     NAME"
   else
     if b then text "PERMISSION  UID  GID      SIZE  RATIO     STAMP     LV"
     else text "PERMISSION  UID  GID      SIZE  RATIO     STAMP           NAME") ++ newline ++ printBar b v.

(** lhext.go:996-1010 listTailer *)
Definition listTailer (b v : bool) (files packed original : Z) : list Z :=
  printBar b v ++ text " Total " ++ fmt_d 9 files ++ text " file" ++ (if files =? 1 then text " " else text "s") ++ text " " ++
  printSize v packed original ++ text " " ++ (if v then spaces 11 else []) ++ printStamp 0 b v ++ newline.

(** macro.go:131-155 *)
Definition has (mode mask : Z) : bool := negb (Z.land mode mask =? 0).
Definition mark (mode mask c : Z) : Z := if has mode mask then c else 45.

(** lhext.go:1669-1721: the permissions, an array of 11 bytes whose last is 0 *)
Definition unix_modebits (mode : Z) : list Z :=
  [ if has mode 16384 then 100 else if Z.land mode 40960 =? 40960 then 108 else 45;
    mark mode 256 114; mark mode 128 119; (if has mode 2048 then 115 else mark mode 64 120);
    mark mode 32 114; mark mode 16 119; (if has mode 1024 then 115 else mark mode 8 120);
    mark mode 4 114; mark mode 2 119; (if has mode 512 then 116 else mark mode 1 120);
    0 ].

(** lhext.go:1727-1754: the first eight *)
Definition osk_modebits (mode : Z) : list Z :=
  [ mark mode 128 100; mark mode 64 115; mark mode 32 101; mark mode 16 119; mark mode 8 114; mark mode 4 101; mark mode 2 119; mark mode 1 114 ].

(** lhext.go:1756-1792 and macro.go:96-113: %-11.11s of the name of the system *)
Definition system_name (t : Z) : list Z :=
  if t =? 0 then text "[generic]"
  else if t =? 67 then text "[CP/M]"
  else if t =? 70 then text "[FLEX]"
  else if t =? 57 then text "[OS-9]"
  else if t =? 77 then text "[MS-DOS]"
  else if t =? 109 then text "[Mac OS]"
  else if t =? 50 then text "[OS/2]"
  else if t =? 72 then text "[Human68K]"
  else if t =? 51 then text "[OS-386]"
  else if t =? 82 then text "[Runser]"
  else if t =? 84 then text "[TownsOS]"
  else if t =? 74 then text "[JAVA]"
  else text "[unknown]".

(** lhext.go:1795-1836: the user and the group *)
Definition owner (h : hdr) : list Z :=
  (if nth 0 (User h) 0 =? 0 then fmt_d 5 (UnixUID h) else fmt_5_5s (User h)) ++ text "/" ++
  (if nth 0 (Group h) 0 =? 0 then fmt_md 5 (UnixGid h) else fmt_m5_5s (Group h)) ++ text " ".

(** lhext.go:1658-1664 and 1851-1857: the name; [Name] and [Realname] are printed with
    all the bytes the header object has for them *)
Definition shown_name (h : hdr) : list Z :=
  if Z.land (UnixMode h) 40960 =? 40960 then Name h ++ text " -> " ++ Realname h else Name h.

(** lhext.go:1652-1863 listOne.  hdr.User and hdr.Group are never empty. *)
Definition listOne (b v : bool) (h : hdr) : list Z :=
  (if b then shown_name h ++ newline else []) ++
  (if ExtendType h =? 85 then unix_modebits (UnixMode h) ++ text " " ++ owner h
   else if ExtendType h =? 75 then owner h
   else if ExtendType h =? 88 then osk_modebits (UnixMode h) ++ text " " ++ owner h
   else left_of 11 (firstn 11 (system_name (ExtendType h))) ++ spaces 12) ++
  printSize v (PackedSize h) (OriginalSize h) ++
  (if v then text " " ++ firstn 5 (Method h ++ repeat 0 5) ++ [0] ++ text " " ++ (if HasCrc h then fmt_04x (Crc h) else text "****") else []) ++
  text " " ++ printStamp (UnixLastModifiedStamp h) b v ++
  (if b then text " [" ++ decimal (HeaderLevel h) ++ text "]" else text " " ++ shown_name h) ++ newline.

(** lhext.go:961-991: what CommandList prints for the headers it lists, Quiet being
    false.  Sums are not reduced to 64 bits: that would take 2^31 entries. *)
Definition list_text (b v : bool) (hs : list hdr) : list Z :=
  listHeader b v ++ flat_map (listOne b v) hs ++
  listTailer b v (Z.of_nat (length hs)) (fold_right Z.add 0 (map PackedSize hs)) (fold_right Z.add 0 (map OriginalSize hs)).

(** cmd/lharc.go:109-114, 157-162, 219, 230: l.VerboseListing after parseOption;
    l.Verbose is false. *)
Definition verbose_listing (fl : flags) : bool := negb (f_l fl) && negb (f_e fl) && negb (f_p fl) && f_lv fl.

(** What lharc prints when it lists the headers [hs]. *)
Definition main_text (fl : flags) (hs : list hdr) : list Z := list_text false (verbose_listing fl) hs.
