(** Model of two goroutines that decompress at the same time, each with an [Lha] of its
    own.  The tables of huf.go, the window [dtext], its size [dicsiz] (macro.go:46,
    slide.go:10-22) and [decodeCount] are package variables, which the two share; the bit
    reader, [loc], the sizes and the files belong to the [Lha].

    Simplification: a goroutine is taken to be interrupted only between iterations of the
    loop of decode (slide.go:144-185), and not inside one.  Every such interleaving is one
    the program can follow; it can follow many more.  Methods -lh4- .. -lh7-, without
    ExtractBrokenArchive. *)
From Verif Require Import Go M_Crc M_Bitio M_Maketree M_Maketbl M_Huf M_Slide M_Decode M_Lzhuf.

(** The package variables. *)
Record shared := SH { sh_huf : huf; sh_text : arr; sh_dicsiz : Z; sh_count : Z }.

(** A goroutine: before its call of decode; in the loop, with the local [dicsiz1 + 1] and
    the fields of its [Lha]; or after the call, with the CRC, the bytes written, the
    number of bytes read and what is left of its reader. *)
Inductive task :=
| Waiting (dicbit size packed : Z) (inp : list Z)
| Working (d1 size packed : Z) (r : rst) (loc crc : Z) (out : list (list Z))
| Finished (crc : Z) (out : list Z) (n : Z) (rest : list Z).

(** slide.go:111-148: all that comes before the loop *)
Definition conc_start (dicbit size packed : Z) (inp : list Z) (s : shared) : res (shared * task) :=
  let d := Z.shiftl 1 dicbit in
  r <- initGetbits packed inp ;;
  Ok (SH (decodeStartSt1 dicbit (sh_huf s)) (afill d 32) d 0, Working d size packed r 0 0 []).

(** slide.go:149-185, one iteration: [dicsiz1] is local, [dicsiz] is not.  The iteration
    of [decode_step] with both. *)
Definition conc_iter (d1 : Z) (dicsiz : Z) (s : dst) : res dst :=
  '(c, h, r) <- decodeCSt1 (d_huf s) (d_r s) ;;
  let s := DST h r (d_text s) (d_loc s) (d_crc s) (d_out s) (d_count s) in
  if c <? 256 then
    s <- dput dicsiz c s ;;
    Ok (DST (d_huf s) (d_r s) (d_text s) (d_loc s) (d_crc s) (d_out s) (d_count s + 1))
  else
    let len := c - (256 - threshold) in
    '(p, r) <- decodePSt1 h r ;;
    let off := p + 1 in
    let matchpos := Z.land (u64 (d_loc s - off)) (d1 - 1) in
    forZ 0 len (fun i s =>
      c <- aget (d_text s) (Z.land (matchpos + i) (d1 - 1)) ;;
      dput dicsiz c s)
      (DST h r (d_text s) (d_loc s) (d_crc s) (d_out s) (d_count s + len)).

(** slide.go:186-192: after the loop.  A slice of [dtext] beyond its end panics. *)
Definition conc_end (packed : Z) (s : dst) : res task :=
  s <- (if d_loc s =? 0 then Ok s else if alen (d_text s) <? d_loc s then Panic else Ok (fwriteCrc (d_loc s) s)) ;;
  Ok (Finished (d_crc s) (concat (rev (d_out s))) (packed - compsize (d_r s)) (infile (d_r s))).

(** One step of a goroutine. *)
Definition conc_step (s : shared) (t : task) : res (shared * task) :=
  match t with
  | Waiting dicbit size packed inp => conc_start dicbit size packed inp s
  | Working d1 size packed r loc crc out =>
      let x := DST (sh_huf s) r (sh_text s) loc crc out (sh_count s) in
      if sh_count s <? size then
        x <- conc_iter d1 (sh_dicsiz s) x ;;
        Ok (SH (d_huf x) (d_text x) (sh_dicsiz s) (d_count x), Working d1 size packed (d_r x) (d_loc x) (d_crc x) (d_out x))
      else
        t <- conc_end packed x ;; Ok (s, t)
  | Finished _ _ _ _ => Ok (s, t)
  end.

(** The scheduler lets the goroutines take steps: [true] stands for the first one. *)
Fixpoint conc_run (sched : list bool) (s : shared) (a b : task) : res (shared * task * task) :=
  match sched with
  | [] => Ok (s, a, b)
  | true :: sched => '(s, a) <- conc_step s a ;; conc_run sched s a b
  | false :: sched => '(s, b) <- conc_step s b ;; conc_run sched s a b
  end.
