(** Model of larc.go: the decoders of -lzs- and -lz5-. *)
From Verif Require Import Go M_Bitio.

(** larc.go:20-27 decodeCLzs; also returns the new [matchpos] *)
Definition decodeCLzs (matchpos : Z) (r : rst) : res (Z * Z * rst) :=
  '(b, r) <- getbits 1 r ;;
  if b =? 0 then
    '(p, r) <- getbits 11 r ;;
    '(n, r) <- getbits 4 r ;;
    Ok (u16 (n + 256), p, r)
  else
    '(c, r) <- getbits 8 r ;;
    Ok (c, matchpos, r).

(** larc.go:32-34 decodePLzs, with [magic0] = 18 (macro.go:167) *)
Definition decodePLzs (loc matchpos : Z) : Z := Z.land (u16 (u16 (loc - u16 matchpos) - 18)) 2047.

(** larc.go:45-76 decodeCLz5.  The reader is used directly, without counting.  At the
    end of the data [Read] fails: the flag byte and the second byte of a match then make
    the function return 0, while for the first byte the buffer keeps what it held, i.e.
    the flag byte if it was read in this call and else 0. *)
Definition read1 (l : list Z) : option Z * list Z :=
  match l with [] => (None, []) | c :: l => (Some c, l) end.

Record lz5 := LZ5 { z_cnt : Z; z_flag : Z; z_pos : Z; z_in : list Z }.

Definition decodeCLz5 (s : lz5) : Z * lz5 :=
  let '(b, stop, s) :=
    if z_cnt s =? 0 then
      match read1 (z_in s) with
      | (None, i) => (0, true, LZ5 8 (z_flag s) (z_pos s) i)
      | (Some b, i) => (b, false, LZ5 8 b (z_pos s) i)
      end
    else (0, false, s) in
  if (stop : bool) then (0, s)
  else
    let '(c, i) := match read1 (z_in s) with (None, i) => (b, i) | (Some c, i) => (c, i) end in
    let s := LZ5 (z_cnt s - 1) (z_flag s) (z_pos s) i in
    if Z.land (z_flag s) 1 =? 0 then
      match read1 i with
      | (None, i) => (0, LZ5 (z_cnt s) (z_flag s) c i)
      | (Some e, i) => (Z.land e 15 + 256, LZ5 (z_cnt s) (Z.shiftr (z_flag s) 1) (c + Z.shiftl (Z.land e 240) 4) i)
      end
    else (c, LZ5 (z_cnt s) (Z.shiftr (z_flag s) 1) (z_pos s) i).

(** larc.go:80-82 decodePLz5, with [magic5] = 19 (macro.go:168) *)
Definition decodePLz5 (loc matchpos : Z) : Z := Z.land (u16 (u16 (loc - u16 matchpos) - 19)) 4095.

(** larc.go:86-112 decodeStartLz5: the initial contents of the window.  Lines 106-108
    store one blank 110 times. *)
Definition decodeStartLz5 (text : arr) : res arr :=
  t <- forZ 0 256 (fun i t => forZ 0 13 (fun j t => aset t (i * 13 + 18 + j) (u8 i)) t) text ;;
  t <- forZ 0 256 (fun i t => aset t (256 * 13 + 18 + i) (u8 i)) t ;;
  t <- forZ 0 256 (fun i t => aset t (256 * 13 + 256 + 18 + i) (u8 (255 - i))) t ;;
  t <- forZ 0 128 (fun j t => aset t (256 * 13 + 512 + 18 + j) 0) t ;;
  forZ 0 (128 - 18) (fun j t => aset t (256 * 13 + 512 + 128 + 18) 32) t.
