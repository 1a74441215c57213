(** Model of header.go: reading and writing entry headers.

    The package variables [ptr], [getPtr], [putPtr] are set by setupGet/setupPut
    before every use, so the cursor is passed explicitly.  The buffer [data] of
    4096 bytes is a list.  Messages to stderr are not modelled. *)
From Verif Require Import Go M_Crc M_Bitio.

Definition lzheaderStorage : Z := 4096.    (* macro.go:10 *)
Definition FilenameLength : Z := 1024.     (* macro.go:8 *)

(** macro.go:62-77, the method names *)
Definition meth (c2 c3 : Z) : list Z := [45; 108; c2; c3; 45].
Definition Lzhuff0Method : list Z := meth 104 48.      (* "-lh0-" *)
Definition LzhdirsMethod : list Z := meth 104 100.     (* "-lhd-" *)

(** macro.go:99-131 *)
Definition ExtendGeneric : Z := 0.
Definition ExtendUnix : Z := 85.        (* 'U' *)
Definition ExtendMsdos : Z := 77.       (* 'M' *)
Definition ExtendMacos : Z := 109.      (* 'm' *)
Definition ExtendOs68k : Z := 75.       (* 'K' *)
Definition ExtendXosk : Z := 88.        (* 'X' *)
Definition ExtendHuman : Z := 72.       (* 'H' *)
Definition ExtendAmiga : Z := 65.       (* 'A' *)
Definition ExtendJava : Z := 74.        (* 'J' *)
Definition genericAttribute : Z := 32.
Definition genericDirectoryAttribute : Z := 16.
Definition lhaPathsep : Z := 255.
Definition UnixFileTypemask : Z := 61440.     (* 0170000 *)
Definition UnixFileRegular : Z := 32768.      (* 0100000 *)
Definition UnixFileDirectory : Z := 16384.    (* 0040000 *)
Definition UnixFileSymlink : Z := 40960.      (* 0120000 *)
Definition UnixRwRwRw : Z := 438.             (* 0666 *)

(** header.go:33-56 *)
Record hdr := HDR {
  HeaderSize : Z;
  SizeFieldLength : Z;
  Method : list Z;
  PackedSize : Z;
  OriginalSize : Z;
  Attribute : Z;
  HeaderLevel : Z;
  Name : list Z;
  Realname : list Z;
  Crc : Z;
  HasCrc : bool;
  HeaderCrc : Z;
  ExtendType : Z;
  MinorVersion : Z;
  UnixLastModifiedStamp : Z;
  UnixMode : Z;
  UnixUID : Z;
  UnixGid : Z;
  User : list Z;
  Group : list Z
}.

Definition zeros (n : Z) : list Z := repeat 0 (Z.to_nat n).

(** header.go:71-80 *)
Definition NewLzHeader : hdr :=
  HDR 0 0 (zeros 5) 0 0 0 0 (zeros FilenameLength) (zeros FilenameLength) 0 false 0 ExtendGeneric 0 0 0 0 0 (zeros 256) (zeros 256).

(** Assignments to single fields. *)
Definition set_HeaderSize v h := HDR v (SizeFieldLength h) (Method h) (PackedSize h) (OriginalSize h) (Attribute h) (HeaderLevel h) (Name h) (Realname h) (Crc h) (HasCrc h) (HeaderCrc h) (ExtendType h) (MinorVersion h) (UnixLastModifiedStamp h) (UnixMode h) (UnixUID h) (UnixGid h) (User h) (Group h).
Definition set_SizeFieldLength v h := HDR (HeaderSize h) v (Method h) (PackedSize h) (OriginalSize h) (Attribute h) (HeaderLevel h) (Name h) (Realname h) (Crc h) (HasCrc h) (HeaderCrc h) (ExtendType h) (MinorVersion h) (UnixLastModifiedStamp h) (UnixMode h) (UnixUID h) (UnixGid h) (User h) (Group h).
Definition set_Method v h := HDR (HeaderSize h) (SizeFieldLength h) v (PackedSize h) (OriginalSize h) (Attribute h) (HeaderLevel h) (Name h) (Realname h) (Crc h) (HasCrc h) (HeaderCrc h) (ExtendType h) (MinorVersion h) (UnixLastModifiedStamp h) (UnixMode h) (UnixUID h) (UnixGid h) (User h) (Group h).
Definition set_PackedSize v h := HDR (HeaderSize h) (SizeFieldLength h) (Method h) v (OriginalSize h) (Attribute h) (HeaderLevel h) (Name h) (Realname h) (Crc h) (HasCrc h) (HeaderCrc h) (ExtendType h) (MinorVersion h) (UnixLastModifiedStamp h) (UnixMode h) (UnixUID h) (UnixGid h) (User h) (Group h).
Definition set_OriginalSize v h := HDR (HeaderSize h) (SizeFieldLength h) (Method h) (PackedSize h) v (Attribute h) (HeaderLevel h) (Name h) (Realname h) (Crc h) (HasCrc h) (HeaderCrc h) (ExtendType h) (MinorVersion h) (UnixLastModifiedStamp h) (UnixMode h) (UnixUID h) (UnixGid h) (User h) (Group h).
Definition set_Attribute v h := HDR (HeaderSize h) (SizeFieldLength h) (Method h) (PackedSize h) (OriginalSize h) v (HeaderLevel h) (Name h) (Realname h) (Crc h) (HasCrc h) (HeaderCrc h) (ExtendType h) (MinorVersion h) (UnixLastModifiedStamp h) (UnixMode h) (UnixUID h) (UnixGid h) (User h) (Group h).
Definition set_HeaderLevel v h := HDR (HeaderSize h) (SizeFieldLength h) (Method h) (PackedSize h) (OriginalSize h) (Attribute h) v (Name h) (Realname h) (Crc h) (HasCrc h) (HeaderCrc h) (ExtendType h) (MinorVersion h) (UnixLastModifiedStamp h) (UnixMode h) (UnixUID h) (UnixGid h) (User h) (Group h).
Definition set_Name v h := HDR (HeaderSize h) (SizeFieldLength h) (Method h) (PackedSize h) (OriginalSize h) (Attribute h) (HeaderLevel h) v (Realname h) (Crc h) (HasCrc h) (HeaderCrc h) (ExtendType h) (MinorVersion h) (UnixLastModifiedStamp h) (UnixMode h) (UnixUID h) (UnixGid h) (User h) (Group h).
Definition set_Realname v h := HDR (HeaderSize h) (SizeFieldLength h) (Method h) (PackedSize h) (OriginalSize h) (Attribute h) (HeaderLevel h) (Name h) v (Crc h) (HasCrc h) (HeaderCrc h) (ExtendType h) (MinorVersion h) (UnixLastModifiedStamp h) (UnixMode h) (UnixUID h) (UnixGid h) (User h) (Group h).
Definition set_Crc v h := HDR (HeaderSize h) (SizeFieldLength h) (Method h) (PackedSize h) (OriginalSize h) (Attribute h) (HeaderLevel h) (Name h) (Realname h) v (HasCrc h) (HeaderCrc h) (ExtendType h) (MinorVersion h) (UnixLastModifiedStamp h) (UnixMode h) (UnixUID h) (UnixGid h) (User h) (Group h).
Definition set_HasCrc v h := HDR (HeaderSize h) (SizeFieldLength h) (Method h) (PackedSize h) (OriginalSize h) (Attribute h) (HeaderLevel h) (Name h) (Realname h) (Crc h) v (HeaderCrc h) (ExtendType h) (MinorVersion h) (UnixLastModifiedStamp h) (UnixMode h) (UnixUID h) (UnixGid h) (User h) (Group h).
Definition set_HeaderCrc v h := HDR (HeaderSize h) (SizeFieldLength h) (Method h) (PackedSize h) (OriginalSize h) (Attribute h) (HeaderLevel h) (Name h) (Realname h) (Crc h) (HasCrc h) v (ExtendType h) (MinorVersion h) (UnixLastModifiedStamp h) (UnixMode h) (UnixUID h) (UnixGid h) (User h) (Group h).
Definition set_ExtendType v h := HDR (HeaderSize h) (SizeFieldLength h) (Method h) (PackedSize h) (OriginalSize h) (Attribute h) (HeaderLevel h) (Name h) (Realname h) (Crc h) (HasCrc h) (HeaderCrc h) v (MinorVersion h) (UnixLastModifiedStamp h) (UnixMode h) (UnixUID h) (UnixGid h) (User h) (Group h).
Definition set_MinorVersion v h := HDR (HeaderSize h) (SizeFieldLength h) (Method h) (PackedSize h) (OriginalSize h) (Attribute h) (HeaderLevel h) (Name h) (Realname h) (Crc h) (HasCrc h) (HeaderCrc h) (ExtendType h) v (UnixLastModifiedStamp h) (UnixMode h) (UnixUID h) (UnixGid h) (User h) (Group h).
Definition set_Stamp v h := HDR (HeaderSize h) (SizeFieldLength h) (Method h) (PackedSize h) (OriginalSize h) (Attribute h) (HeaderLevel h) (Name h) (Realname h) (Crc h) (HasCrc h) (HeaderCrc h) (ExtendType h) (MinorVersion h) v (UnixMode h) (UnixUID h) (UnixGid h) (User h) (Group h).
Definition set_UnixMode v h := HDR (HeaderSize h) (SizeFieldLength h) (Method h) (PackedSize h) (OriginalSize h) (Attribute h) (HeaderLevel h) (Name h) (Realname h) (Crc h) (HasCrc h) (HeaderCrc h) (ExtendType h) (MinorVersion h) (UnixLastModifiedStamp h) v (UnixUID h) (UnixGid h) (User h) (Group h).
Definition set_UnixUID v h := HDR (HeaderSize h) (SizeFieldLength h) (Method h) (PackedSize h) (OriginalSize h) (Attribute h) (HeaderLevel h) (Name h) (Realname h) (Crc h) (HasCrc h) (HeaderCrc h) (ExtendType h) (MinorVersion h) (UnixLastModifiedStamp h) (UnixMode h) v (UnixGid h) (User h) (Group h).
Definition set_UnixGid v h := HDR (HeaderSize h) (SizeFieldLength h) (Method h) (PackedSize h) (OriginalSize h) (Attribute h) (HeaderLevel h) (Name h) (Realname h) (Crc h) (HasCrc h) (HeaderCrc h) (ExtendType h) (MinorVersion h) (UnixLastModifiedStamp h) (UnixMode h) (UnixUID h) v (User h) (Group h).
Definition set_User v h := HDR (HeaderSize h) (SizeFieldLength h) (Method h) (PackedSize h) (OriginalSize h) (Attribute h) (HeaderLevel h) (Name h) (Realname h) (Crc h) (HasCrc h) (HeaderCrc h) (ExtendType h) (MinorVersion h) (UnixLastModifiedStamp h) (UnixMode h) (UnixUID h) (UnixGid h) v (Group h).
Definition set_Group v h := HDR (HeaderSize h) (SizeFieldLength h) (Method h) (PackedSize h) (OriginalSize h) (Attribute h) (HeaderLevel h) (Name h) (Realname h) (Crc h) (HasCrc h) (HeaderCrc h) (ExtendType h) (MinorVersion h) (UnixLastModifiedStamp h) (UnixMode h) (UnixUID h) (UnixGid h) (User h) v.

(** ** Reading fields *)

(** header.go:144-148 getByte *)
Definition getByte (data : list Z) (p : Z) : res (Z * Z) :=
  if p <? 0 then Panic
  else match nth_error data (Z.to_nat p) with
       | Some b => Ok (b, p + 1)
       | None => Panic
       end.

(** header.go:168-174 getWord *)
Definition getWord (data : list Z) (p : Z) : res (Z * Z) :=
  '(b0, p) <- getByte data p ;;
  '(b1, p) <- getByte data p ;;
  Ok (Z.shiftl b1 8 + b0, p).

(** header.go:186-195 getLongword *)
Definition getLongword (data : list Z) (p : Z) : res (Z * Z) :=
  '(b0, p) <- getByte data p ;;
  '(b1, p) <- getByte data p ;;
  '(b2, p) <- getByte data p ;;
  '(b3, p) <- getByte data p ;;
  Ok (Z.shiftl b3 24 + Z.shiftl b2 16 + Z.shiftl b1 8 + b0, p).

(** header.go:204-211: the loop of getBytes, [n] bytes *)
Fixpoint get_n (data : list Z) (p : Z) (n : nat) : res (list Z * Z) :=
  match n with
  | O => Ok ([], p)
  | S n' =>
      '(b, p) <- getByte data p ;;
      '(l, p) <- get_n data p n' ;;
      Ok (b :: l, p)
  end.

(** header.go:204-211 getBytes: a buffer of [len] bytes of which at most [size] are
    read, the number read, and the cursor.  [make] panics on a negative length. *)
Definition getBytes (data : list Z) (p len size : Z) : res (list Z * Z * Z) :=
  if len <? 0 then Panic
  else
    let i := Z.min len size in
    '(l, p) <- get_n data p (Z.to_nat i) ;;
    Ok (l ++ zeros (len - i), i, p).

(** [buf[i] = 0] on a byte slice held as a list *)
Definition set0 (l : list Z) (i : Z) : res (list Z) :=
  if (0 <=? i) && (i <? zlen l) then Ok (take i l ++ 0 :: drop (i + 1) l) else Panic.

(** header.go:133-142 calcSum (indices stay in range for every caller) *)
Definition calcSum (data : list Z) (start len : Z) : Z :=
  Z.land (fold_left Z.add (take len (drop start data)) 0) 255.

(** Read of [n] bytes into data[off..]: what is read, the new buffer and the rest
    of the reader.  Files and byte readers return all bytes available up to [n],
    and an error (EOF) exactly when none is. *)
Definition readInto (data : list Z) (off n : Z) (inp : list Z) : list Z * list Z * list Z :=
  let c := take n inp in
  (c, take off data ++ c ++ drop (off + zlen c) data, drop n inp).

(** Errors returned by the reading functions. *)
Inductive herr := ENil | EEof | EOther.

(** header.go:251-277 wintimeToUnixStamp: subtraction with borrow, then long
    division by 10^7. *)
Definition epochBytes : list Z := [1; 157; 177; 222; 213; 62; 128; 0].

(** header.go:257-265, bytes 7 down to 0; the bytes of the stamp come least
    significant first.  [e] is epoch[7], epoch[6], ... *)
Fixpoint wintime_sub (e b : list Z) (borrow : Z) : list Z :=
  match e, b with
  | e0 :: e', b0 :: b' =>
      let d := u64 (b0 - e0 - borrow) in
      Z.land d 255 :: wintime_sub e' b' (if 255 <? d then 1 else 0)
  | _, _ => []
  end.

(** header.go:266-275, most significant byte first *)
Definition wintime_div (w : list Z) : Z :=
  fst (fold_left (fun '(q, t) x =>
         let t := u64 (Z.shiftl t 8 + x) in
         (u64 (u64 (Z.shiftl q 8) + t / 10000000), t mod 10000000)) w (0, 0)).

(** header.go:251-277 wintimeToUnixStamp *)
Definition wintimeToUnixStamp (data : list Z) (p : Z) : res (Z * Z) :=
  '(b, p) <- get_n data p 8 ;;
  Ok (wintime_div (rev (wintime_sub (rev epochBytes) b 0)), p).

(** ** Extended headers, header.go:298-404

    Only level 1 headers call this with a reachable return: getHeaderLevel2 and
    getHeaderLevel3 panic before.  Level 1 passes a CRC of 0, so line 391 is never
    reached, and the size field has 2 bytes, so [n] is 2.  The loop tests
    [l.HeaderSize], which nothing in it changes. *)
Record xst := XST {
  x_hdr : hdr;
  x_data : list Z;
  x_dir : list Z;       (* dirname *)
  x_size : Z;           (* headerSize *)
  x_whole : Z;          (* wholeSize *)
  x_in : list Z
}.

(** header.go:319-389, the switch on the type; returns the state and the cursor *)
Definition ext_switch (x : xst) : res (xst * Z) :=
  let h := x_hdr x in let data := x_data x in let size := x_size x in
  let hs := HeaderSize h in
  '(ty, p) <- getByte data 0 ;;
  if ty =? 0 then
    '(w, p) <- getWord data p ;;
    Ok (XST (set_HeaderCrc w h) (take 1 data ++ [0; 0] ++ drop 3 data) (x_dir x) size (x_whole x) (x_in x), p + (hs - 2 - 2))
  else if ty =? 1 then
    '(nm, i, p) <- getBytes data p (hs - 2) (zlen (Name h)) ;;
    nm <- set0 nm (i - 1) ;;
    Ok (XST (set_Name nm h) data (x_dir x) size (x_whole x) (x_in x), p)
  else if ty =? 2 then
    '(d, i, p) <- getBytes data p (size - 2) (zlen (x_dir x)) ;;
    d <- set0 d (i - 1) ;;
    Ok (XST h data d size (x_whole x) (x_in x), p)
  else if ty =? 64 then
    '(w, p) <- getWord data p ;;
    Ok (XST (set_Attribute (u8 w) h) data (x_dir x) size (x_whole x) (x_in x), p)
  else if ty =? 65 then
    '(t, p) <- wintimeToUnixStamp data (p + 8) ;;
    Ok (XST (set_Stamp t h) data (x_dir x) size (x_whole x) (x_in x), p + 8)
  else if ty =? 66 then Ok (x, p + 16)
  else if ty =? 80 then
    '(w, p) <- getWord data p ;;
    Ok (XST (set_UnixMode w h) data (x_dir x) size (x_whole x) (x_in x), p)
  else if ty =? 81 then
    '(g, i, p) <- getBytes data p (size - 2) (zlen (Group h)) ;;
    g <- set0 g (i - 1) ;;
    Ok (XST (set_Group g h) data (x_dir x) size (x_whole x) (x_in x), p)
  else if ty =? 83 then
    '(g, i, p) <- getBytes data p (size - 2) (zlen (User h)) ;;
    g <- set0 g (i - 1) ;;
    Ok (XST (set_User g h) data (x_dir x) size (x_whole x) (x_in x), p)
  else if ty =? 84 then
    '(t, p) <- getLongword data p ;;
    Ok (XST (set_Stamp t h) data (x_dir x) size (x_whole x) (x_in x), p)
  else Ok (x, p + (size - 2)).

(** One iteration of the loop at header.go:310; it stops with [None] when the
    function returns an error. *)
Definition ext_step (x : xst) : res (ctl xst (option Z * hdr * list Z)) :=
  if HeaderSize (x_hdr x) =? 0 then Ok (Stop (Some (x_whole x), x_hdr x, x_in x))
  else if lzheaderStorage <? HeaderSize (x_hdr x) then Ok (Stop (None, x_hdr x, x_in x))
  else
    let '(c, data, rest) := readInto (x_data x) 0 (HeaderSize (x_hdr x)) (x_in x) in
    if zlen c =? 0 then Ok (Stop (None, x_hdr x, rest))
    else
      '(x, p) <- ext_switch (XST (x_hdr x) data (x_dir x) (x_size x) (x_whole x) rest) ;;
      '(size, p) <- getWord (x_data x) p ;;
      Ok (Go (XST (x_hdr x) (x_data x) (x_dir x) size (x_whole x + size) (x_in x))).

(** header.go:298-404 for level 1: the total size ([None] for an error), the header
    and the rest of the reader. *)
Definition getExtendedHeader (h : hdr) (size : Z) (inp : list Z) : res (option Z * hdr * list Z) :=
  loop (zlen inp + 2) ext_step (XST h (zeros lzheaderStorage) (zeros FilenameLength) size size inp).

(** ** Level 0, header.go:475-562 *)

(** Result of the level readers: the error, whether a header was read, the header
    and the rest of the reader. *)
Definition lev_res : Type := herr * bool * hdr * list Z.

(** header.go:541-558: the old-style extended header *)
Definition level0_ext (h : hdr) (data : list Z) (p ext : Z) : res hdr :=
  '(et, p) <- getByte data p ;;
  let h := set_ExtendType et h in
  let ext := ext - 1 in
  if et =? ExtendUnix then
    if 11 <=? ext then
      '(mv, p) <- getByte data p ;;
      '(st, p) <- getLongword data p ;;
      '(md, p) <- getWord data p ;;
      '(ui, p) <- getWord data p ;;
      '(gi, p) <- getWord data p ;;
      Ok (set_UnixGid gi (set_UnixUID ui (set_UnixMode md (set_Stamp st (set_MinorVersion mv h)))))
    else Ok (set_ExtendType ExtendGeneric h)
  else Ok h.

(** header.go:475-562 getHeaderLevel0.  genericToUnixStamp (224-226) is the
    identity: time.Unix(t,0).Unix() = t. *)
Definition getHeaderLevel0 (h : hdr) (data inp : list Z) : res lev_res :=
  '(hs, p) <- getByte data 0 ;;
  let h := set_HeaderSize hs (set_SizeFieldLength 2 h) in
  '(checksum, p) <- getByte data p ;;
  let remain := hs + 2 - 21 in
  if remain <=? 0 then Ok (EOther, false, h, inp)
  else
    let '(c, data, rest) := readInto data 21 remain inp in
    if zlen c =? 0 then Ok (EOther, false, h, rest)
    else if negb (calcSum data 2 hs =? checksum) then Ok (EOther, false, h, rest)
    else
      '(m, _, p) <- getBytes data p 5 (zlen (Method h)) ;;
      '(ps, p) <- getLongword data p ;;
      '(os, p) <- getLongword data p ;;
      '(st, p) <- getLongword data p ;;
      '(at', p) <- getByte data p ;;
      '(lv, p) <- getByte data p ;;
      '(nl, p) <- getByte data p ;;
      '(nm, i, p) <- getBytes data p (nl + 1) (zlen (Name h)) ;;
      nm <- set0 nm (i - 1) ;;
      let p := p - 1 in
      let h := set_UnixUID 0 (set_UnixGid 0 (set_UnixMode (Z.lor UnixFileRegular UnixRwRwRw)
               (set_Name nm (set_HeaderLevel lv (set_Attribute at' (set_Stamp st (set_OriginalSize os (set_PackedSize ps (set_Method m h))))))))) in
      let ext := hs + 2 - nl - 24 in
      if ext <? 0 then
        if ext =? -2 then Ok (ENil, true, set_HasCrc false (set_ExtendType ExtendGeneric h), rest)
        else Ok (EOther, false, h, rest)
      else
        '(crc, p) <- getWord data p ;;
        let h := set_Crc crc (set_HasCrc true h) in
        if ext =? 0 then Ok (ENil, true, h, rest)
        else
          h <- level0_ext h data p ext ;;
          Ok (ENil, true, set_HeaderSize (HeaderSize h + 2) h, rest).

(** ** Level 1, header.go:595-666 *)
Definition getHeaderLevel1 (h : hdr) (data inp : list Z) : res lev_res :=
  '(hs, p) <- getByte data 0 ;;
  let h := set_HeaderSize hs (set_SizeFieldLength 2 h) in
  '(checksum, p) <- getByte data p ;;
  let remain := hs + 2 - 21 in
  if remain <=? 0 then Ok (EOther, false, h, inp)
  else
    let '(c, data, rest) := readInto data 21 remain inp in
    if zlen c =? 0 then Ok (EOther, false, h, rest)
    else if negb (calcSum data 2 hs =? checksum) then Ok (EOther, false, h, rest)
    else
      '(m, _, p) <- getBytes data p 5 (zlen (Method h)) ;;
      '(ps, p) <- getLongword data p ;;
      '(os, p) <- getLongword data p ;;
      '(st, p) <- getLongword data p ;;
      '(at', p) <- getByte data p ;;
      '(lv, p) <- getByte data p ;;
      '(nl, p) <- getByte data p ;;
      '(nm, i, p) <- getBytes data p nl (zlen (Name h)) ;;
      nm <- set0 nm (i - 1) ;;
      '(crc, p) <- getWord data p ;;
      '(et, p) <- getByte data p ;;
      let h := set_ExtendType et (set_Crc crc (set_HasCrc true (set_UnixUID 0 (set_UnixGid 0 (set_UnixMode (Z.lor UnixFileRegular UnixRwRwRw)
               (set_Name nm (set_HeaderLevel lv (set_Attribute at' (set_Stamp st (set_OriginalSize os (set_PackedSize ps (set_Method m h)))))))))))) in
      let dummy := hs + 2 - nl - 27 in
      let p := if 0 <? dummy then p + dummy else p in
      '(ext, p) <- getWord data p ;;
      if 0 <? ext then
        '(o, h, rest) <- getExtendedHeader h ext rest ;;
        match o with
        | None => Ok (EOther, false, h, rest)
        | Some ext => Ok (ENil, true, set_HeaderSize (HeaderSize h + ext + 2) (set_PackedSize (PackedSize h - ext) h), rest)
        end
      else
        Ok (ENil, true, set_HeaderSize (HeaderSize h + 2) h, rest).

(** ** Levels 2 and 3, header.go:697-848

    Both compute a CRC over [uint(n - len(data))] bytes of [data]: with n <= 11 and
    4096 bytes of data this wraps to more than 2^63, and calcCrc (crcio.go:37-44)
    indexes past the buffer.  So a run that gets there panics. *)
Definition getHeaderLevel2 (h : hdr) (data inp : list Z) : res lev_res :=
  '(hs, p) <- getWord data 0 ;;
  let h := set_HeaderSize hs (set_SizeFieldLength 2 h) in
  if hs - 26 <? 0 then Ok (EOther, false, h, inp)
  else
    let '(c, data, rest) := readInto data 21 5 inp in
    if zlen c =? 0 then Ok (EOther, false, h, rest)
    else if lzheaderStorage <? u64 (zlen c - lzheaderStorage) then Panic
    else NoFuel.

(** header.go:793-848 *)
Definition getHeaderLevel3 (h : hdr) (data inp : list Z) : res lev_res :=
  '(sf, p) <- getWord data 0 ;;
  let h := set_SizeFieldLength sf h in
  let '(c, data, rest) := readInto data 21 11 inp in
  if zlen c =? 0 then Ok (EOther, false, h, rest)
  else
    '(hs, _) <- getLongword data 24 ;;
    let h := set_HeaderSize hs h in
    if hs - 32 <? 0 then Ok (EOther, false, h, rest)
    else if lzheaderStorage <? u64 (zlen c - lzheaderStorage) then Panic
    else NoFuel.

(** ** File names *)

Definition none : Z := 0.
Definition toLower : Z := 1.
Definition toUpper : Z := 2.
Definition codeSJIS : Z := 2.

(** Position of a byte in a list. *)
Fixpoint index_of (c : Z) (l : list Z) : option nat :=
  match l with
  | [] => None
  | x :: l' => if x =? c then Some O else option_map S (index_of c l')
  end.

(** header.go:989: strings.Index(fromDelim, string(name[i])).  A byte from 128 up
    becomes a two-byte UTF-8 sequence starting with 0xC2 or 0xC3, which none of the
    delimiter strings contains. *)
Definition delim_index (c : Z) (from : list Z) : option nat :=
  if c <? 128 then index_of c from else None.

(** unicode.IsLower/IsUpper on utf8.DecodeRune of one byte: bytes from 128 up
    decode to U+FFFD, which has no case. *)
Definition isLower (c : Z) : bool := (97 <=? c) && (c <=? 122).
Definition isUpper (c : Z) : bool := (65 <=? c) && (c <=? 90).

(** header.go:988-1005, one byte *)
Definition conv_byte (from to : list Z) (caseTo c : Z) : Z :=
  match delim_index c from with
  | Some i => nth i to 0
  | None =>
      if (caseTo =? toUpper) && isLower c then c - 32
      else if (caseTo =? toLower) && isUpper c then c + 32
      else c
  end.

(** header.go:975-1007 *)
Definition convertFilename (name : list Z) (fromCode : Z) (from to : list Z) (caseTo : Z) : list Z :=
  let caseTo := if (fromCode =? codeSJIS) && (caseTo =? toLower) && existsb isLower name then none else caseTo in
  map (conv_byte from to caseTo) name.

(** Global options of the package (header.go:24-25); all others of header.go:423-430
    are never assigned. *)
Record opts := OPTS { ConvertCase : bool; GenericFormat : bool }.

(** strings.Index of a single byte below 128 *)
Fixpoint find_byte (c : Z) (l : list Z) (i : Z) : option Z :=
  match l with
  | [] => None
  | x :: l' => if x =? c then Some i else find_byte c l' (i + 1)
  end.

(** Go's copy(dst, src) *)
Definition copy (dst src : list Z) : list Z :=
  let n := Z.min (zlen dst) (zlen src) in take n src ++ drop n dst.

Fixpoint list_eqb (a b : list Z) : bool :=
  match a, b with
  | [], [] => true
  | x :: a', y :: b' => (x =? y) && list_eqb a' b'
  | _, _ => false
  end.

Definition isSymlinkMode (m : Z) : bool := Z.land m UnixFileSymlink =? UnixFileSymlink.

(** header.go:901-970: after the level reader *)
Definition finishHeader (o : opts) (h : hdr) (rest : list Z) : res lev_res :=
  let low := if ConvertCase o then toLower else none in
  let et := ExtendType h in
  let fcase :=
    if (et =? ExtendHuman) || (et =? ExtendOs68k) || (et =? ExtendXosk) || (et =? ExtendUnix)
       || (et =? ExtendJava) || (et =? ExtendMacos) || (et =? ExtendAmiga) then none else low in
  let '(from, to) := if et =? ExtendMacos then ([255; 47; 58; 92], [47; 58; 47; 47]) else ([255; 92], [47; 47]) in
  let h := if (et =? ExtendAmiga) && (0 <? zlen (Name h)) && (last (Name h) 0 =? lhaPathsep) && list_eqb (Method h) Lzhuff0Method
           then set_Method (copy (Method h) LzhdirsMethod) h else h in
  let h := set_Name (convertFilename (Name h) codeSJIS from to fcase) h in
  if isSymlinkMode (UnixMode h) then
    match find_byte 124 (Name h) 0 with
    | Some p => Ok (ENil, true, set_Realname (copy (Realname h) (take (zlen (Name h) - 1 - p) (drop p (Name h)))) h, rest)
    | None => Ok (EOther, false, h, rest)
    end
  else Ok (ENil, true, h, rest).

(** header.go:850-973 GetHeader *)
Definition GetHeader (o : opts) (h : hdr) (inp : list Z) : res lev_res :=
  match inp with
  | [] => Ok (EEof, false, h, [])
  | b :: inp' =>
      if b =? 0 then Ok (ENil, false, h, inp')
      else
        let data := b :: zeros (lzheaderStorage - 1) in
        let '(c, data, rest) := readInto data 1 20 inp' in
        if zlen c =? 0 then Ok (EOther, false, h, rest)
        else
          '(lv, _) <- getByte data 20 ;;
          let r := if lv =? 0 then getHeaderLevel0 h data rest
                   else if lv =? 1 then getHeaderLevel1 h data rest
                   else if lv =? 2 then getHeaderLevel2 h data rest
                   else if lv =? 3 then getHeaderLevel3 h data rest
                   else Ok (EOther, false, h, rest) in
          '(e, ok, h, rest) <- r ;;
          match e, ok with
          | ENil, true => finishHeader o h rest
          | _, _ => Ok (e, false, h, rest)
          end
  end.

(** ** Writing *)

(** header.go:181-184 putWord, 197-202 putLongWord: the bytes appended *)
Definition putWord (v : Z) : list Z := [u8 v; u8 (Z.shiftr v 8)].
Definition putLongWord (v : Z) : list Z := [u8 v; u8 (Z.shiftr v 8); u8 (Z.shiftr v 16); u8 (Z.shiftr v 24)].

(** header.go:213-217 putBytes; [buf[i]] panics past the end *)
Definition putBytes (l : list Z) (n : Z) : res (list Z) :=
  if n <=? zlen l then Ok (take n l) else Panic.

(** header.go:1369-1378 lengthOfStringInByte *)
Fixpoint cstrlen (l : list Z) : Z :=
  match l with
  | [] => 0
  | x :: l' => if x =? 0 then 0 else 1 + cstrlen l'
  end.

(** header.go:1227-1281 writeHeaderLevel0.  The buffer of 4096 bytes cannot
    overflow: at most 257 bytes are put.  [stamp] is unixToGenericStamp (240-249),
    which depends on the local time zone. *)
Definition writeHeaderLevel0 (o : opts) (stamp : Z -> Z) (h : hdr) (pathname : list Z) : res (list Z) :=
  m <- putBytes (Method h) 5 ;;
  let nl := cstrlen pathname in
  let limit := if GenericFormat o then 233 else 221 in
  let nl := if limit <? nl then limit else nl in
  nm <- putBytes pathname nl ;;
  let body := m ++ putLongWord (PackedSize h) ++ putLongWord (OriginalSize h) ++ putLongWord (stamp (UnixLastModifiedStamp h))
              ++ [u8 (Attribute h); u8 (HeaderLevel h); u8 nl] ++ nm ++ putWord (Crc h) in
  if GenericFormat o then
    let hs := 24 + nl - 2 in
    Ok (u8 hs :: u8 (calcSum ([0; 0] ++ body) 2 hs) :: body)
  else
    let body := body ++ [ExtendUnix; 0] ++ putLongWord (UnixLastModifiedStamp h) ++ putWord (UnixMode h) ++ putWord (UnixUID h) ++ putWord (UnixGid h) in
    let hs := 36 + nl - 2 in
    Ok (u8 hs :: u8 (calcSum ([0; 0] ++ body) 2 hs) :: body).

(** strings.Index(s, "\xC3\xBF"): string(lhaPathsep) is the UTF-8 encoding of
    U+00FF, not the byte 255.  -1 when absent. *)
Fixpoint index_ff (l : list Z) (i : Z) : Z :=
  match l with
  | [] => -1
  | x :: l' => if (x =? 195) && (match l' with y :: _ => y =? 191 | [] => false end) then i else index_ff l' (i + 1)
  end.

(** header.go:1194-1225 writeUnixInfo *)
Definition writeUnixInfo (h : hdr) : list Z :=
  putWord 5 ++ [80] ++ putWord (UnixMode h) ++
  putWord 7 ++ [81] ++ putWord (UnixGid h) ++ putWord (UnixUID h) ++
  (if hd 0 (Group h) =? 0 then [] else putWord (zlen (Group h) + 3) ++ [82] ++ Group h) ++
  (if hd 0 (User h) =? 0 then [] else putWord (zlen (User h) + 3) ++ [83] ++ User h) ++
  (if HeaderLevel h =? 1 then putWord 7 ++ [84] ++ putLongWord (UnixLastModifiedStamp h) else []).

(** header.go:1283-1368 writeHeaderLevel1.  The test at line 1291 is [index != 0],
    so without a separator the slice expression [pathname[0:-1]] panics; otherwise
    the slice [data[putPtr:putPtr+len(data)]] at line 1357 exceeds the capacity. *)
Definition writeHeaderLevel1 (o : opts) (stamp : Z -> Z) (h : hdr) (pathname : list Z) : res (list Z) :=
  let index := index_ff pathname 0 in
  if index =? -1 then Panic
  else
    let '(basename, nl, dirname, dl) :=
      if negb (index =? 0)
      then (take index pathname, cstrlen (take index pathname), pathname, index + 1 - cstrlen pathname)
      else (pathname, cstrlen pathname, [], 0) in
    m <- putBytes (Method h) 5 ;;
    nm <- (if 230 <? nl then Ok [0] else l <- putBytes basename nl ;; Ok (u8 nl :: l)) ;;
    let body := [0; 0] ++ m ++ putLongWord (PackedSize h) ++ putLongWord (OriginalSize h) ++ putLongWord (stamp (UnixLastModifiedStamp h))
                ++ [32; u8 (HeaderLevel h)] ++ nm ++ putWord (Crc h) ++ [if GenericFormat o then 0 else ExtendUnix] in
    e1 <- (if 230 <? nl then l <- putBytes basename nl ;; Ok (putWord (nl + 3) ++ [1] ++ l) else Ok []) ;;
    e2 <- (if 0 <? dl then l <- putBytes dirname dl ;; Ok (putWord (dl + 3) ++ [2] ++ l) else Ok []) ;;
    let all := body ++ e1 ++ e2 ++ (if GenericFormat o then [] else writeUnixInfo h) ++ putWord 0 in
    if lzheaderStorage <? zlen all + lzheaderStorage then Panic else Ok all.

(** header.go:1379-1472 writeHeaderLevel2 *)
Definition writeHeaderLevel2 (o : opts) (h : hdr) (pathname : list Z) : res (list Z) :=
  let index := index_ff pathname 0 in
  let '(basename, nl, dirname, dl) :=
    if negb (index =? -1)
    then (take index pathname, cstrlen (take index pathname), pathname, index + 1 - cstrlen pathname)
    else (pathname, cstrlen pathname, [], 0) in
  m <- putBytes (Method h) 5 ;;
  nm <- putBytes basename nl ;;
  e2 <- (if 0 <? dl then l <- putBytes dirname dl ;; Ok (putWord (dl + 3) ++ [2] ++ l) else Ok []) ;;
  let h1 := m ++ putLongWord (PackedSize h) ++ putLongWord (OriginalSize h) ++ putLongWord (UnixLastModifiedStamp h)
            ++ [32; u8 (HeaderLevel h)] ++ putWord (Crc h) ++ [if GenericFormat o then 0 else ExtendUnix] ++ putWord 5 ++ [0] in
  let h2 := putWord nl ++ nm ++ e2 ++ (if GenericFormat o then [] else writeUnixInfo h) ++ putWord 0 in
  let hs := zlen h1 + zlen h2 + 4 in
  let h2 := if Z.land hs 255 =? 0 then h2 ++ [0] else h2 in
  let hs := if Z.land hs 255 =? 0 then hs + 1 else hs in
  let hcrc := calcCrc 0 (putWord hs ++ h1 ++ [0; 0] ++ h2) in
  Ok (putWord hs ++ h1 ++ putWord hcrc ++ h2).

(** strings.LastIndex(s, "|") = -1 *)
Definition has_bar (l : list Z) : bool := existsb (Z.eqb 124) l.

(** header.go:1125-1192 WriteHeader: [None] is an error return with nothing
    written, [Some l] the bytes written. *)
Definition WriteHeader (o : opts) (stamp : Z -> Z) (h : hdr) : res (option (list Z)) :=
  let fcase := if GenericFormat o && ConvertCase o then toUpper else none in
  let delim := if HeaderLevel h =? 0 then [92] else [255] in
  let path :=
    if isSymlinkMode (UnixMode h) then
      if has_bar (Name h) then Some (Name h ++ [124] ++ Realname h) else None
    else Some (Name h ++ [0]) in
  match path with
  | None => Ok None
  | Some path =>
      let path := convertFilename path none [47] delim fcase in
      if HeaderLevel h =? 0 then l <- writeHeaderLevel0 o stamp h path ;; Ok (Some l)
      else if HeaderLevel h =? 1 then l <- writeHeaderLevel1 o stamp h path ;; Ok (Some l)
      else if HeaderLevel h =? 2 then l <- writeHeaderLevel2 o h path ;; Ok (Some l)
      else Ok None
  end.

(** The calendar part of unixToGenericStamp (header.go:240-249), for the broken
    down local time. *)
Definition genericStamp (year month day hour minute second : Z) : Z :=
  Z.shiftl (year - 80) 25 + Z.shiftl month 21 + Z.shiftl day 16 + Z.shiftl hour 11 + Z.shiftl minute 5 + second / 2.
