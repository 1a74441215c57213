(** Model of slide.go:23-193 for the methods other than -lh4- .. -lh7-: the same loop as
    [M_Slide.decode] with the decoders of dhuf.go, shuf.go, larc.go and pm.go. *)
From Verif Require Import Go M_Crc M_Bitio M_Maketree M_Maketbl M_Huf M_Dhuf M_Shuf M_Larc M_Pm2 M_Slide.

(** What these decoders use besides [dst]: package variables, and the fields [flagcnt],
    [mFlag] and [matchpos] of [Lha] (lha.go:30-74).  The last two start at 0 here; in a
    reused [Lha] they may start with other values, which are read only once the data of
    an -lz5- entry have ended. *)
Record ext := EXT { x_dh : dh; x_pm : pm; x_cnt : Z; x_flag : Z; x_pos : Z }.

Definition with_hr (h : huf) (r : rst) (s : dst) : dst := DST h r (d_text s) (d_loc s) (d_crc s) (d_out s) (d_count s).
Definition with_r (r : rst) (s : dst) : dst := with_hr (d_huf s) r s.

(** slide.go:23-48 decodeMethodStart.  -lz5- and the methods without a decoder do not
    call initGetbits; the reader then keeps all of its data. *)
Definition decodeMethodStart (method packed : Z) (inp : list Z) (text : arr) (h : huf) (x : ext) : res (huf * rst * arr * ext) :=
  if method =? 1 then
    r <- initGetbits packed inp ;;
    '(h, d) <- decodeStartFix h (x_dh x) ;;
    Ok (h, r, text, EXT d (x_pm x) (x_cnt x) (x_flag x) (x_pos x))
  else if method =? 2 then
    r <- initGetbits packed inp ;;
    d <- decodeStartDyn (x_dh x) ;;
    Ok (h, r, text, EXT d (x_pm x) (x_cnt x) (x_flag x) (x_pos x))
  else if method =? 3 then
    r <- initGetbits packed inp ;;
    let '(h, d) := decodeStartSt0 h (x_dh x) in
    Ok (h, r, text, EXT d (x_pm x) (x_cnt x) (x_flag x) (x_pos x))
  else if method =? 8 then
    r <- initGetbits packed inp ;;
    Ok (h, r, text, x)
  else if method =? 9 then
    t <- decodeStartLz5 text ;;
    Ok (h, RS 0 0 0 packed inp, t, EXT (x_dh x) (x_pm x) 0 (x_flag x) (x_pos x))
  else if method =? 13 then
    r <- initGetbits packed inp ;;
    '(m, r) <- decodeStartPm2 (x_pm x) r ;;
    Ok (h, r, text, EXT (set_next 0 (x_dh x)) m (x_cnt x) (x_flag x) (x_pos x))
  else Ok (h, RS 0 0 0 packed inp, text, x).

(** slide.go:77-102 decodeMethodC *)
Definition decodeMethodC (method : Z) (s : dst) (x : ext) : res (Z * dst * ext) :=
  if (method =? 1) || (method =? 2) then
    '(c, d, r) <- decodeCDyn (x_dh x) (d_r s) ;;
    Ok (c, with_r r s, EXT d (x_pm x) (x_cnt x) (x_flag x) (x_pos x))
  else if method =? 3 then
    '(c, h, r) <- decodeCSt0 (k_n1 (x_dh x)) (d_huf s) (d_r s) ;;
    Ok (c, with_hr h r s, x)
  else if method =? 8 then
    '(c, p, r) <- decodeCLzs (x_pos x) (d_r s) ;;
    Ok (c, with_r r s, EXT (x_dh x) (x_pm x) (x_cnt x) (x_flag x) p)
  else if method =? 9 then
    let r := d_r s in
    let '(c, z) := decodeCLz5 (LZ5 (x_cnt x) (x_flag x) (x_pos x) (infile r)) in
    Ok (c, with_r (RS (bitbuf r) (subbitbuf r) (bitcount r) (compsize r) (z_in z)) s,
        EXT (x_dh x) (x_pm x) (z_cnt z) (z_flag z) (z_pos z))
  else if method =? 13 then
    '(c, n, m, r) <- decodeCPm2 (d_text s) (d_loc s) (d_count s) (k_next (x_dh x)) (x_pm x) (d_r s) ;;
    Ok (c, with_r r s, EXT (set_next n (x_dh x)) m (x_cnt x) (x_flag x) (x_pos x))
  else Ok (0, s, x).

(** slide.go:50-75 decodeMethodP *)
Definition decodeMethodP (method : Z) (s : dst) (x : ext) : res (Z * dst * ext) :=
  if (method =? 1) || (method =? 3) then
    '(p, r) <- decodePSt0 (d_huf s) (d_r s) ;; Ok (p, with_r r s, x)
  else if method =? 2 then
    '(p, d, r) <- decodePDyn (d_count s) (x_dh x) (d_r s) ;;
    Ok (p, with_r r s, EXT d (x_pm x) (x_cnt x) (x_flag x) (x_pos x))
  else if method =? 8 then Ok (decodePLzs (d_loc s) (x_pos x), s, x)
  else if method =? 9 then Ok (decodePLz5 (d_loc s) (x_pos x), s, x)
  else if method =? 13 then
    '(p, r) <- decodePPm2 (x_pm x) (d_r s) ;; Ok (p, with_r r s, x)
  else Ok (0, s, x).

(** slide.go:138-141: -lzs- and -pm2- count lengths from 2 *)
Definition adjust (method : Z) : Z := if (method =? 8) || (method =? 13) then 256 - 2 else 256 - threshold.

(** slide.go:144-185, one iteration *)
Definition old_step (method dicsiz origsize : Z) (st : dst * ext) : res (ctl (dst * ext) (dst * ext)) :=
  let '(s, x) := st in
  if d_count s <? origsize then
    '(c, s, x) <- decodeMethodC method s x ;;
    if c <? 256 then
      s <- dput dicsiz c s ;;
      Ok (Go (DST (d_huf s) (d_r s) (d_text s) (d_loc s) (d_crc s) (d_out s) (d_count s + 1), x))
    else
      let len := c - adjust method in
      '(p, s, x) <- decodeMethodP method s x ;;
      let off := p + 1 in
      let matchpos := Z.land (u64 (d_loc s - off)) (dicsiz - 1) in
      s <- dcopy dicsiz len matchpos (DST (d_huf s) (d_r s) (d_text s) (d_loc s) (d_crc s) (d_out s) (d_count s + len)) ;;
      Ok (Go (s, x))
  else Ok (Stop (st)).

(** slide.go:104-193 decode for these methods *)
Definition decode_old (method dicbit : Z) (broken : bool) (origsize packed : Z) (inp : list Z) (g : glob)
  : res (glob * decres) :=
  let d := Z.shiftl 1 dicbit in
  let text := if broken then amake d else afill d 32 in
  '(h, r, text, x) <- decodeMethodStart method packed inp text (g_huf g) (EXT (g_dh g) (g_pm g) 0 0 0) ;;
  '(s, x) <- loop (origsize + 2) (old_step method d origsize) (DST h r text 0 0 [] 0, x) ;;
  let s := if d_loc s =? 0 then s else fwriteCrc (d_loc s) s in
  Ok (GLOB (d_huf s) (g_hpos g) (g_hflag g) (g_prevs g) (g_text g) (x_dh x) (x_pm x),
      DR (d_huf s) (d_crc s) (concat (rev (d_out s))) (packed - compsize (d_r s)) (infile (d_r s))).
