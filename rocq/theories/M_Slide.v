(** Model of slide.go (LZ77 coder/decoder) and of encodeAlloc (append.go). *)
From Verif Require Import Go M_Crc M_Bitio M_Maketree M_Maketbl M_Huf M_Dhuf M_Pm2.

Definition hshsiz : Z := 32768.      (* append.go:21 *)
Definition maxDicsiz : Z := 65536.   (* macro.go:94 *)
Definition Maxmatch : Z := 256.      (* macro.go:16 *)
Definition threshold : Z := 3.       (* macro.go *)
Definition limit : Z := 256.         (* slide.go:15 *)

(** Package variables of append.go:14-18, slide.go:10-12 that survive between
    calls, together with those of huf.go and of the decoders of other methods. *)
Record glob := GLOB {
  g_huf : huf;
  g_hpos : arr;      (* hash[i].pos *)
  g_hflag : arr;     (* hash[i].tooFlag *)
  g_prevs : arr;
  g_text : arr;
  g_dh : dh;         (* dhuf.go *)
  g_pm : pm          (* pm.go, pmtree.go, pm2hist.go *)
}.

(** Process start: nothing is allocated. *)
Definition glob0 : glob := GLOB huf0 (amake 0) (amake 0) (amake 0) (amake 0) dh0 pm0.

(** The parameters encodeAlloc chooses for a method (append.go:60-83):
    dicbit and maxmatch; [None] is the "unknown method" error. *)
Definition method_params (method : Z) : option (Z * Z) :=
  if method =? 1 then Some (12, 60)
  else if method =? 5 then Some (13, Maxmatch)
  else if method =? 6 then Some (15, Maxmatch)
  else if method =? 7 then Some (16, Maxmatch)
  else None.

(** append.go:85-95: allocation happens only when [hash] is still empty. *)
Definition encodeAlloc (txtsiz : Z) (g : glob) : glob :=
  if alen (g_hpos g) =? 0 then
    GLOB (set_buf (amake 65535) (g_huf g)) (amake hshsiz) (amake hshsiz)
         (amake maxDicsiz) (amake (txtsiz + 1)) (g_dh g) (g_pm g)
  else g.

(** Encoder state during one call of encode: the LZ part. *)
Record sl := SL {
  s_text : arr;
  s_hpos : arr;
  s_hflag : arr;
  s_prevs : arr;
  s_rem : Z;            (* l.remainder *)
  s_in : list Z;        (* rest of the input *)
  s_crc : Z
}.

(** The values fixed for one call. *)
Record prm := PRM { p_dicsiz : Z; p_txtsiz : Z; p_maxmatch : Z }.

(** slide.go:258-262 insertHash *)
Definition insertHash (P : prm) (token pos : Z) (s : sl) : res sl :=
  h <- aget (s_hpos s) token ;;
  pv <- aset (s_prevs s) (Z.land pos (p_dicsiz P - 1)) h ;;
  hp <- aset (s_hpos s) token pos ;;
  Ok (SL (s_text s) hp (s_hflag s) pv (s_rem s) (s_in s) (s_crc s)).

(** slide.go:264-266 initHash.  In Go [&] binds tighter than [^], so only the
    third byte is masked: the result can be up to 65535. *)
Definition initHash (text : arr) (pos : Z) : res Z :=
  a <- aget text pos ;;
  b <- aget text (pos + 1) ;;
  c <- aget text (pos + 2) ;;
  Ok (Z.lxor (u16 (Z.shiftl (Z.lxor (u16 (Z.shiftl a 5)) b) 5))
             (Z.land c (hshsiz - 1))).

(** slide.go:268-270 nextHash *)
Definition nextHash (text : arr) (token pos : Z) : res Z :=
  c <- aget text (pos + 2) ;;
  Ok (Z.land (Z.lxor (u16 (Z.shiftl (u16 token) 5)) c) (hshsiz - 1)).

(** slide.go:285-292 and 293-299: positions move down by [dicsiz]. *)
Definition shift_pos (d j : Z) : Z := if d <? j then j - d else 0.

(** crcio.go:46-69 freadCrc (TextMode off) into [text] at [pindex]: up to [n]
    bytes; at end of input nothing is read and the CRC is unchanged. *)
Definition freadCrc (text : arr) (crc pindex n : Z) (inp : list Z)
  : res (arr * Z * Z * list Z) :=
  let b := take n inp in
  t <- blit text pindex b ;;
  Ok (t, calcCrc crc b, zlen b, drop n inp).

(** slide.go:272-300 updateDict; returns the state and the new position *)
Definition updateDict (P : prm) (pos : Z) (s : sl) : res (sl * Z) :=
  let d := p_dicsiz P in
  t <- blit (s_text s) 0 (slice_list (s_text s) d (Z.to_nat (p_txtsiz P - d))) ;;
  '(t, crc, n, inp) <- freadCrc t (s_crc s) (p_txtsiz P - d) d (s_in s) ;;
  '(hp, hf) <- forZ 0 hshsiz (fun i '(hp, hf) =>
     j <- aget hp i ;;
     hp <- aset hp i (shift_pos d j) ;;
     hf <- aset hf i 0 ;;
     Ok (hp, hf)) (s_hpos s, s_hflag s) ;;
  pv <- forZ 0 d (fun i pv => j <- aget pv i ;; aset pv i (shift_pos d j)) (s_prevs s) ;;
  Ok (SL t hp hf pv (u64 (s_rem s + n)) inp crc, u64 (pos - d)).

(** slide.go:302-309 nextToken *)
Definition nextToken (P : prm) (token pos : Z) (s : sl) : res (Z * Z * sl) :=
  let s := SL (s_text s) (s_hpos s) (s_hflag s) (s_prevs s)
              (u64 (s_rem s - 1)) (s_in s) (s_crc s) in
  let pos := pos + 1 in
  '(s, pos) <- (if p_txtsiz P - p_maxmatch P <=? pos then updateDict P pos s
                else Ok (s, pos)) ;;
  token <- nextHash (s_text s) token pos ;;
  Ok (token, pos, s).

(** slide.go:18-21 *)
Record matchdata := MD { m_len : Z; m_off : Z }.

(** slide.go:368-371: length of the common prefix of text[a..] and text[b..],
    at most [max]. *)
Definition collate (text : arr) (a b max : Z) : res Z :=
  loop (max + 2) (fun le =>
    if le <? max then
      x <- aget text (a + le) ;;
      y <- aget text (b + le) ;;
      if x =? y then Ok (Go (le + 1)) else Ok (Stop le)
    else Ok (Stop le)) 0.

(** slide.go:349-389 searchDict1 *)
Definition searchDict1 (P : prm) (token pos off max : Z) (m : matchdata) (s : sl)
  : res (matchdata * sl) :=
  sp <- aget (s_hpos s) token ;;
  let scanEnd := pos - p_dicsiz P in
  '(m, chain) <-
    loop (p_txtsiz P + 2) (fun '(scanPos, chain, m) =>
      let scanBeg := scanPos - off in
      if (0 <? scanBeg) && (scanEnd <? scanBeg) then
        let chain := chain + 1 in
        x <- aget (s_text s) (scanBeg + m_len m) ;;
        y <- aget (s_text s) (pos + m_len m) ;;
        '(m, brk) <-
          (if x =? y then
             le <- collate (s_text s) scanBeg pos max ;;
             if m_len m <? le then
               Ok (MD le (pos - scanBeg), le =? max)
             else Ok (m, false)
           else Ok (m, false)) ;;
        if (brk : bool) then Ok (Stop (m, chain))
        else
          sp <- aget (s_prevs s) (Z.land scanPos (p_dicsiz P - 1)) ;;
          Ok (Go (sp, chain, m))
      else Ok (Stop (m, chain))) (sp, 0, m) ;;
  hf <- (if limit <=? chain then aset (s_hflag s) token 1 else Ok (s_hflag s)) ;;
  Ok (m, SL (s_text s) (s_hpos s) hf (s_prevs s) (s_rem s) (s_in s) (s_crc s)).

(** slide.go:311-347 searchDict *)
Definition searchDict (P : prm) (token pos min : Z) (s : sl) : res (matchdata * sl) :=
  let min := if min <? threshold - 1 then threshold - 1 else min in
  let mx := p_maxmatch P in
  '(off, tok) <-
    loop (mx + 2) (fun '(off, tok) =>
      f <- aget (s_hflag s) tok ;;
      if negb (f =? 0) && (off <? mx - threshold) then
        let off := off + 1 in
        tok <- nextHash (s_text s) tok (pos + off) ;;
        Ok (Go (off, tok))
      else Ok (Stop (off, tok))) (0, token) ;;
  let '(off, tok) := if off =? mx - threshold then (0, token) else (off, tok) in
  '(m, s) <- searchDict1 P tok pos off mx (MD min 0) s ;;
  '(m, s) <-
    (if (0 <? off) && (m_len m <? off + 3) then
       searchDict1 P token pos 0 (off + 2) m s
     else Ok (m, s)) ;;
  let m := if s_rem s <? m_len m then MD (s_rem s) (m_off m) else m in
  Ok (m, s).

(** Loop state of encode (slide.go:431-460). *)
Record est := EST {
  e_sl : sl;
  e_huf : huf;
  e_w : wst;
  e_tok : Z;
  e_pos : Z;
  e_match : matchdata;
  e_count : Z
}.

(** slide.go:450-455: [k] calls of nextToken and insertHash *)
Definition skip_tokens (P : prm) (k : Z) (token pos : Z) (s : sl) : res (Z * Z * sl) :=
  forZ 0 k (fun _ '(token, pos, s) =>
    '(token, pos, s) <- nextToken P token pos s ;;
    s <- insertHash P token pos s ;;
    Ok (token, pos, s)) (token, pos, s).

(** slide.go:431-460, one iteration.  encodeOuput (slide.go:237-256) calls
    outputSt1 for every method that encodeAlloc lets through (1, 5, 6, 7). *)
Definition encode_step (P : prm) (e : est) : res (ctl est est) :=
  if (0 <? s_rem (e_sl e)) && negb (unpackable (e_w e)) then
    let last := e_match e in
    '(token, pos, s) <- nextToken P (e_tok e) (e_pos e) (e_sl e) ;;
    '(m, s) <- searchDict P token pos (m_len last - 1) s ;;
    s <- insertHash P token pos s ;;
    if (m_len last <? m_len m) || (m_len last <? threshold) then
      c <- aget (s_text s) (pos - 1) ;;
      '(h, w) <- outputSt1 c 0 (e_huf e) (e_w e) ;;
      Ok (Go (EST s h w token pos m (e_count e + 1)))
    else
      '(h, w) <- outputSt1 (u16 (m_len last + (256 - threshold)))
                           (u16 (Z.land (u64 (m_off last - 1)) (p_dicsiz P - 1)))
                           (e_huf e) (e_w e) ;;
      '(token, pos, s) <- skip_tokens P (m_len last - 2) token pos s ;;
      '(token, pos, s) <- nextToken P token pos s ;;
      '(m, s) <- searchDict P token pos (threshold - 1) s ;;
      s <- insertHash P token pos s ;;
      Ok (Go (EST s h w token pos m (e_count e + m_len last)))
  else Ok (Stop e).

(** Result of encode: what EncodeLzhuf sees.  [er_err] is the error of the
    initial read (empty input). *)
Record encres := ER {
  er_glob : glob;
  er_crc : Z;
  er_out : list Z;        (* bytes written to the output *)
  er_packed : Z;          (* inter.packed *)
  er_original : Z;        (* inter.original *)
  er_unpackable : bool;
  er_err : bool;
  er_in : list Z          (* what is left in the input reader *)
}.

(** slide.go:391-467 encode, for dictionary size [2^dicbit] and [maxmatch], after
    encodeAlloc.  [body] is the whole input, [size] is inter.original. *)
Definition encode (dicbit mx size : Z) (body : list Z) (g : glob) : res encres :=
  let d := Z.shiftl 1 dicbit in
  let P := PRM d (2 * d + mx) mx in
  (* initSlide, slide.go:469-474 *)
  '(hp, hf) <- forZ 0 hshsiz (fun i '(hp, hf) =>
     hp <- aset hp i 0 ;; hf <- aset hf i 0 ;; Ok (hp, hf)) (g_hpos g, g_hflag g) ;;
  h <- encodeStartSt1 dicbit (g_huf g) ;;
  t <- forZ 0 (p_txtsiz P + 1) (fun i t => aset t i 32) (g_text g) ;;
  match body with
  | [] => Ok (ER (GLOB h hp hf (g_prevs g) t (g_dh g) (g_pm g)) 0 [] 0 size false true [])
  | _ =>
    '(t, crc, v, inp) <- freadCrc t 0 d (p_txtsiz P - d) body ;;
    let m := if v <? threshold - 1 then MD v 0 else MD (threshold - 1) 0 in
    token <- initHash t d ;;
    s <- insertHash P token d (SL t hp hf (g_prevs g) v inp crc) ;;
    e <- loop (zlen body + 2) (encode_step P) (EST s h (initPutbits size) token d m 0) ;;
    '(h, w) <- encodeEndSt1 (e_huf e) (e_w e) ;;
    let s := e_sl e in
    Ok (ER (GLOB h (s_hpos s) (s_hflag s) (s_prevs s) (s_text s) (g_dh g) (g_pm g)) (s_crc s)
           (rev (wout w)) (wcompsize w) (e_count e) (unpackable w) false (s_in s))
  end.

(** ** Decoding *)

(** Decoder state during one call of decode. *)
Record dst := DST {
  d_huf : huf;
  d_r : rst;
  d_text : arr;
  d_loc : Z;            (* l.loc, uint16 *)
  d_crc : Z;
  d_out : list (list Z);(* chunks written, last one first *)
  d_count : Z           (* decodeCount *)
}.

(** crcio.go:101-112 fwriteCrc of dtext[0..n) *)
Definition fwriteCrc (n : Z) (s : dst) : dst :=
  let l := slice_list (d_text s) 0 (Z.to_nat n) in
  DST (d_huf s) (d_r s) (d_text s) (d_loc s) (calcCrc (d_crc s) l) (l :: d_out s) (d_count s).

(** slide.go:155-160 and 177-182: append a byte to the window, flushing a full
    window.  [l.loc] is a uint16, so for a window of 65536 bytes the test at line
    157 never holds. *)
Definition dput (dicsiz c : Z) (s : dst) : res dst :=
  t <- aset (d_text s) (d_loc s) (u8 c) ;;
  let loc := u16 (d_loc s + 1) in
  let s := DST (d_huf s) (d_r s) t loc (d_crc s) (d_out s) (d_count s) in
  if loc =? dicsiz then
    let s := fwriteCrc dicsiz s in
    Ok (DST (d_huf s) (d_r s) (d_text s) 0 (d_crc s) (d_out s) (d_count s))
  else Ok s.

(** slide.go:174-183: copy a match *)
Definition dcopy (dicsiz len matchpos : Z) (s : dst) : res dst :=
  forZ 0 len (fun i s =>
    c <- aget (d_text s) (Z.land (matchpos + i) (dicsiz - 1)) ;;
    dput dicsiz c s) s.

(** slide.go:144-185, one iteration for the methods -lh4- .. -lh7- *)
Definition decode_step (dicsiz origsize : Z) (s : dst) : res (ctl dst dst) :=
  if d_count s <? origsize then
    '(c, h, r) <- decodeCSt1 (d_huf s) (d_r s) ;;
    let s := DST h r (d_text s) (d_loc s) (d_crc s) (d_out s) (d_count s) in
    if c <? 256 then
      s <- dput dicsiz c s ;;
      Ok (Go (DST (d_huf s) (d_r s) (d_text s) (d_loc s) (d_crc s) (d_out s) (d_count s + 1)))
    else
      let len := c - (256 - threshold) in
      '(p, r) <- decodePSt1 h r ;;
      let off := p + 1 in
      let matchpos := Z.land (u64 (d_loc s - off)) (dicsiz - 1) in
      s <- dcopy dicsiz len matchpos
             (DST h r (d_text s) (d_loc s) (d_crc s) (d_out s) (d_count s + len)) ;;
      Ok (Go s)
  else Ok (Stop s).

(** Result of decode *)
Record decres := DR {
  dr_huf : huf;
  dr_crc : Z;
  dr_out : list Z;      (* bytes handed to the output writer (when not verifying) *)
  dr_readSize : Z;      (* inter.readSize *)
  dr_in : list Z        (* what is left in the archive reader *)
}.

(** slide.go:104-193 decode for -lh4- .. -lh7-.  [broken] is
    ExtractBrokenArchive.  The loop decodes at least one byte per iteration. *)
Definition decode (dicbit : Z) (broken : bool) (origsize packed : Z) (inp : list Z) (h : huf)
  : res decres :=
  let d := Z.shiftl 1 dicbit in
  let text := if broken then amake d else afill d 32 in
  r <- initGetbits packed inp ;;
  s <- loop (origsize + 2) (decode_step d origsize)
         (DST (decodeStartSt1 dicbit h) r text 0 0 [] 0) ;;
  let s := if d_loc s =? 0 then s else fwriteCrc (d_loc s) s in
  Ok (DR (d_huf s) (d_crc s) (concat (rev (d_out s)))
         (packed - compsize (d_r s)) (infile (d_r s))).
