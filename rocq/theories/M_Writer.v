(** Model of crcio.go:101-112 (fwriteCrc), slide.go:104-193 (decode), util.go:25-65
    (copyfile) and extract.go:18-107 (DecodeLzhuf) with an output that can fail: an
    [io.Writer] is a state and a function that takes a state and the bytes handed over to
    whether the writer has returned an error, and the next state.  Everywhere else in the model
    writers never fail and are the list of bytes handed over.  VerifyMode is off: with
    it the coders do not call the writer at all (crcio.go:104). *)
From Verif Require Import Go M_Crc M_Bitio M_Maketree M_Maketbl M_Huf M_Dhuf M_Shuf M_Larc M_Pm2 M_Slide M_Decode M_Lzhuf.

Section Writer.
Context {A : Type} (write : A -> list Z -> bool * A).

(** crcio.go:101-112: the CRC is computed first; the error of Write is returned *)
Definition fwriteCrcW (n : Z) (st : dst * A) : bool * (dst * A) :=
  let '(s, w) := st in
  let s := fwriteCrc n s in
  let '(failed, w) := write w (hd [] (d_out s)) in
  (failed, (s, w)).

(** slide.go:155-160 and 177-182: [_ = l.fwriteCrc(...)] *)
Definition dputW (dicsiz c : Z) (st : dst * A) : res (dst * A) :=
  let '(s, w) := st in
  t <- aset (d_text s) (d_loc s) (u8 c) ;;
  let loc := u16 (d_loc s + 1) in
  let s := DST (d_huf s) (d_r s) t loc (d_crc s) (d_out s) (d_count s) in
  if loc =? dicsiz then
    let '(_, (s, w)) := fwriteCrcW dicsiz (s, w) in
    Ok (DST (d_huf s) (d_r s) (d_text s) 0 (d_crc s) (d_out s) (d_count s), w)
  else Ok (s, w).

(** slide.go:174-183 *)
Definition dcopyW (dicsiz len matchpos : Z) (st : dst * A) : res (dst * A) :=
  forZ 0 len (fun i st =>
    c <- aget (d_text (fst st)) (Z.land (matchpos + i) (dicsiz - 1)) ;;
    dputW dicsiz c st) st.

(** slide.go:144-185, one iteration for the methods -lh4- .. -lh7- *)
Definition decode_stepW (dicsiz origsize : Z) (st : dst * A) : res (ctl (dst * A) (dst * A)) :=
  let '(s, w) := st in
  if d_count s <? origsize then
    '(c, h, r) <- decodeCSt1 (d_huf s) (d_r s) ;;
    let s := DST h r (d_text s) (d_loc s) (d_crc s) (d_out s) (d_count s) in
    if c <? 256 then
      '(s, w) <- dputW dicsiz c (s, w) ;;
      Ok (Go (DST (d_huf s) (d_r s) (d_text s) (d_loc s) (d_crc s) (d_out s) (d_count s + 1), w))
    else
      let len := c - (256 - threshold) in
      '(p, r) <- decodePSt1 h r ;;
      let off := p + 1 in
      let matchpos := Z.land (u64 (d_loc s - off)) (dicsiz - 1) in
      st <- dcopyW dicsiz len matchpos
             (DST h r (d_text s) (d_loc s) (d_crc s) (d_out s) (d_count s + len), w) ;;
      Ok (Go st)
  else Ok (Stop st).

(** slide.go:186-188: the last bytes, [_ = l.fwriteCrc(...)] *)
Definition finishW (st : dst * A) : dst * A :=
  if d_loc (fst st) =? 0 then st else snd (fwriteCrcW (d_loc (fst st)) st).

(** slide.go:104-193 for -lh4- .. -lh7- *)
Definition decodeW (dicbit : Z) (broken : bool) (origsize packed : Z) (inp : list Z) (h : huf) (w : A)
  : res (decres * A) :=
  let d := Z.shiftl 1 dicbit in
  let text := if broken then amake d else afill d 32 in
  r <- initGetbits packed inp ;;
  st <- loop (origsize + 2) (decode_stepW d origsize)
         (DST (decodeStartSt1 dicbit h) r text 0 0 [] 0, w) ;;
  let '(s, w) := finishW st in
  Ok (DR (d_huf s) (d_crc s) (concat (rev (d_out s)))
         (packed - compsize (d_r s)) (infile (d_r s)), w).

(** slide.go:144-185, one iteration for the other methods *)
Definition old_stepW (method dicsiz origsize : Z) (st : dst * A * ext) : res (ctl (dst * A * ext) (dst * A * ext)) :=
  let '(s, w, x) := st in
  if d_count s <? origsize then
    '(c, s, x) <- decodeMethodC method s x ;;
    if c <? 256 then
      '(s, w) <- dputW dicsiz c (s, w) ;;
      Ok (Go (DST (d_huf s) (d_r s) (d_text s) (d_loc s) (d_crc s) (d_out s) (d_count s + 1), w, x))
    else
      let len := c - adjust method in
      '(p, s, x) <- decodeMethodP method s x ;;
      let off := p + 1 in
      let matchpos := Z.land (u64 (d_loc s - off)) (dicsiz - 1) in
      st <- dcopyW dicsiz len matchpos (DST (d_huf s) (d_r s) (d_text s) (d_loc s) (d_crc s) (d_out s) (d_count s + len), w) ;;
      Ok (Go (st, x))
  else Ok (Stop st).

(** slide.go:104-193 for the other methods *)
Definition decode_oldW (method dicbit : Z) (broken : bool) (origsize packed : Z) (inp : list Z) (g : glob) (w : A)
  : res (glob * decres * A) :=
  let d := Z.shiftl 1 dicbit in
  let text := if broken then amake d else afill d 32 in
  '(h, r, text, x) <- decodeMethodStart method packed inp text (g_huf g) (EXT (g_dh g) (g_pm g) 0 0 0) ;;
  '(st, x) <- loop (origsize + 2) (old_stepW method d origsize) (DST h r text 0 0 [] 0, w, x) ;;
  let '(s, w) := finishW st in
  Ok (GLOB (d_huf s) (g_hpos g) (g_hflag g) (g_prevs g) (g_text g) (x_dh x) (x_pm x),
      DR (d_huf s) (d_crc s) (concat (rev (d_out s))) (packed - compsize (d_r s)) (infile (d_r s)), w).

(** util.go:40-63, the loop of copyfile: an error of Write ends it with size 0.  The
    result: whether there was an error, the size, the rest of the input, the writer. *)
Fixpoint copy_loopW (fuel : nat) (buf inp : list Z) (rsize : Z) (w : A) : res (bool * Z * list Z * A) :=
  match fuel with
  | O => NoFuel
  | S fuel' =>
      let chunk := take buffersize inp in
      if zlen chunk =? 0 then Ok (false, rsize, inp, w)
      else
        let buf := chunk ++ drop (zlen chunk) buf in
        let '(failed, w) := write w buf in
        if failed then Ok (true, 0, drop buffersize inp, w)
        else copy_loopW fuel' buf (drop buffersize inp) (rsize + zlen chunk) w
  end.

(** util.go:25-65 *)
Definition copyfileW (size : Z) (inp : list Z) (w : A) : res (bool * Z * list Z * A) :=
  if 0 <? size then copy_loopW (S (length inp)) (repeat 0 (Z.to_nat buffersize)) inp 0 w
  else Ok (false, 0, inp, w).

(** extract.go:18-107: the package variables, the CRC returned, the number of bytes read,
    the rest of the input, the writer.  The error of copyfile is dropped (line 85). *)
Definition DecodeLzhufW (method : Z) (broken : bool) (original packed : Z) (inp : list Z) (g : glob) (w : A)
  : res (glob * Z * Z * list Z * A) :=
  match dec_dicbit method with
  | Some dicbit =>
      if dicbit =? 0 then
        '(_, r, rest, w) <- copyfileW original inp w ;;
        Ok (g, 0, r, rest, w)
      else
        '(x, w) <- decodeW dicbit broken original packed inp (g_huf g) w ;;
        Ok (GLOB (dr_huf x) (g_hpos g) (g_hflag g) (g_prevs g) (g_text g) (g_dh g) (g_pm g),
            dr_crc x, dr_readSize x, dr_in x, w)
  | None =>
      '(g, x, w) <- decode_oldW method (old_dicbit method) broken original packed inp g w ;;
      Ok (g, dr_crc x, dr_readSize x, dr_in x, w)
  end.

(** append.go:24-57 for the method 0, with the same kind of output: the size of the
    input, which is also the packed size, and the writer.  The error of copyfile is
    dropped (line 48); the division at line 53 panics when the size is 0. *)
Definition EncodeStoredW (size : Z) (inp : list Z) (w : A) : res (Z * A) :=
  '(_, r, _, w) <- copyfileW size inp w ;;
  if r =? 0 then Panic else Ok (r, w).

End Writer.
