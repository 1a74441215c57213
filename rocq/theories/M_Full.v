(** Model of the encoder of bitio.go:52-82, huf.go:78-321, slide.go:391-467 and
    append.go:24-57 with an output that can fail.  [write] takes the content of the file
    and the bytes handed over to whether the writer has returned an error, and the new
    content.  Where [M_Bitio], [M_Huf], [M_Slide] and [M_Lzhuf] call putcode of an output that
    never fails, this file calls [putcodeF]; nothing else differs, because every caller
    drops the error ([_ = l.putcode(...)] and [_ = l.putbits(...)]).  [wout] is the
    content of the file, last byte first. *)
From Verif Require Import Go M_Crc M_Bitio M_Maketree M_Maketbl M_Huf M_Slide M_Decode M_Lzhuf M_Writer.

Section Full.
Variable write : list Z -> list Z -> bool * list Z.

(** bitio.go:52-77 putcode: if Write fails it returns at once (line 65); [subbitbuf] has
    been added to, [compsize] and [bitcount] are as before, and the rest of the code is
    not written. *)
Fixpoint putcode_loopF (fuel : nat) (n x : Z) (s : wst) : res wst :=
  match fuel with
  | O => NoFuel
  | S fuel' =>
      if wbitcount s <=? n then
        let n' := u8 (n - wbitcount s) in
        let sub := u8 (wsub s + u8 (Z.shiftr x (u8 (16 - wbitcount s)))) in
        let x' := u16 (Z.shiftl x (wbitcount s)) in
        if wcompsize s <? worigsize s then
          let '(failed, file) := write (rev (wout s)) [sub] in
          if (failed : bool) then
            Ok (WS sub (wbitcount s) (wcompsize s) (worigsize s) (rev file) (unpackable s))
          else
            putcode_loopF fuel' n' x'
              (WS 0 8 (wcompsize s + 1) (worigsize s) (rev file) (unpackable s))
        else
          putcode_loopF fuel' n' x'
            (WS 0 8 (wcompsize s) (worigsize s) (wout s) true)
      else
        Ok (WS (u8 (wsub s + u8 (Z.shiftr x (u8 (16 - wbitcount s)))))
               (u8 (wbitcount s - n))
               (wcompsize s) (worigsize s) (wout s) (unpackable s))
  end.

(** bitio.go:52-77 putcode *)
Definition putcodeF (n x : Z) (s : wst) : res wst := putcode_loopF 40 n x s.

(** bitio.go:79-82 putbits *)
Definition putbitsF (n x : Z) (s : wst) : res wst :=
  putcodeF n (u16 (Z.shiftl x (u8 (16 - n)))) s.

(** huf.go:78-102 writePtLen *)
Definition writePtLenF (ptLen : arr) (n nbit i_special : Z) (w : wst) : res wst :=
  n <- trim ptLen n ;;
  w <- putbitsF nbit n w ;;
  loop (n + 1) (fun '(i, w) =>
    if i <? n then
      k <- aget ptLen i ;;
      let i := i + 1 in
      w <- (if k <=? 6 then putbitsF 3 k w else putbitsF (u8 (k - 3)) 65534 w) ;;
      if i =? i_special then
        i <- loop 8 (fun i =>
          if i <? 6 then
            b <- aget ptLen i ;;
            if b =? 0 then Ok (Go (i + 1)) else Ok (Stop i)
          else Ok (Stop i)) i ;;
        w <- putbitsF 2 (u16 (i - 3)) w ;;
        Ok (Go (i, w))
      else Ok (Go (i, w))
    else Ok (Stop w)) (0, w).

(** [putcode(len[c], code[c])], used in huf.go:125-148, 162 *)
Definition putsymF (len code : arr) (c : Z) (w : wst) : res wst :=
  n <- aget len c ;; x <- aget code c ;; putcodeF n x w.

(** huf.go:105-144 writeCLen *)
Definition writeCLenF (cLen ptLen ptCode : arr) (w : wst) : res wst :=
  n <- trim cLen Nc ;;
  w <- putbitsF cbit n w ;;
  loop (n + 1) (fun '(i, w) =>
    if i <? n then
      k <- aget cLen i ;;
      let i := i + 1 in
      if k =? 0 then
        '(i, count) <- zero_run cLen n i 1 ;;
        w <- (if count <=? 2 then
                forZ 0 count (fun _ w => putsymF ptLen ptCode 0 w) w
              else if count <=? 18 then
                w <- putsymF ptLen ptCode 1 w ;; putbitsF 4 (u16 (count - 3)) w
              else if count =? 19 then
                w <- putsymF ptLen ptCode 0 w ;;
                w <- putsymF ptLen ptCode 1 w ;;
                putbitsF 4 15 w
              else
                w <- putsymF ptLen ptCode 2 w ;; putbitsF cbit (u16 (count - 20)) w) ;;
        Ok (Go (i, w))
      else
        w <- putsymF ptLen ptCode (k + 2) w ;;
        Ok (Go (i, w))
    else Ok (Stop w)) (0, w).

(** huf.go:152-165 encodeP *)
Definition encodePF (ptLen ptCode : arr) (p : Z) (w : wst) : res wst :=
  c <- nbits p ;;
  w <- putsymF ptLen ptCode c w ;;
  if 1 <? c then putbitsF (u8 (c - 1)) p w else Ok w.

(** huf.go:198-221, the loop of sendBlock over the buffered symbols.  [Stop] is
    the return at line 219 when the output got too large. *)
Definition send_symF (h : huf) (i : Z) (st : Z * Z * wst) : res (ctl (Z * Z * wst) wst) :=
  let '(flags, pos, w) := st in
  '(flags, pos) <-
    (if i mod 8 =? 0 then f <- aget (buf h) pos ;; Ok (f, u16 (pos + 1))
     else Ok (u8 (Z.shiftl flags 1), pos)) ;;
  '(pos, w) <-
    (if Z.testbit flags 7 then
       b <- aget (buf h) pos ;;
       w <- putsymF (cLen h) (cCode h) (b + 256) w ;;
       let pos := u16 (pos + 1) in
       k1 <- aget (buf h) pos ;;
       let pos := u16 (pos + 1) in
       k2 <- aget (buf h) pos ;;
       let k := u16 (u16 (Z.shiftl k1 8) + k2) in
       w <- encodePF (ptLen h) (ptCode h) k w ;;
       Ok (u16 (pos + 1), w)
     else
       b <- aget (buf h) pos ;;
       w <- putsymF (cLen h) (cCode h) b w ;;
       Ok (u16 (pos + 1), w)) ;;
  if unpackable w then Ok (Stop w) else Ok (Go (flags, pos, w)).

(** huf.go:168-196, the first half of sendBlock: the codes are built and the
    head of the block is written.  Returns also the number of symbols. *)
Definition sendHeadF (h : huf) (w : wst) : res (huf * wst * Z) :=
  r <- makeTree Nc (cFreq h) (cLen h) (cCode h) (left h) (right h) ;;
  let h := set_cFreq (r_freq r) (set_cLen (r_bitlen r) (set_cCode (r_code r)
             (set_left (r_left r) (set_right (r_right r) h)))) in
  let root := r_root r in
  size <- aget (cFreq h) root ;;
  w <- putbitsF 16 size w ;;
  '(h, w) <-
    (if Nc <=? root then
       t <- countTFreq (cLen h) (tFreq h) ;;
       r <- makeTree Nt t (ptLen h) (ptCode h) (left h) (right h) ;;
       let h := set_tFreq (r_freq r) (set_ptLen (r_bitlen r) (set_ptCode (r_code r)
                  (set_left (r_left r) (set_right (r_right r) h)))) in
       w <- (if Nt <=? r_root r then writePtLenF (ptLen h) Nt tbit 3 w
             else w <- putbitsF tbit 0 w ;; putbitsF tbit (r_root r) w) ;;
       w <- writeCLenF (cLen h) (ptLen h) (ptCode h) w ;;
       Ok (h, w)
     else
       w <- putbitsF tbit 0 w ;;
       w <- putbitsF tbit 0 w ;;
       w <- putbitsF cbit 0 w ;;
       w <- putbitsF cbit root w ;;
       Ok (h, w)) ;;
  r <- makeTree (np h) (pFreq h) (ptLen h) (ptCode h) (left h) (right h) ;;
  let h := set_pFreq (r_freq r) (set_ptLen (r_bitlen r) (set_ptCode (r_code r)
             (set_left (r_left r) (set_right (r_right r) h)))) in
  w <- (if np h <=? r_root r then writePtLenF (ptLen h) (np h) (pbit h) (-1) w
        else w <- putbitsF (pbit h) 0 w ;; putbitsF (pbit h) (r_root r) w) ;;
  Ok (h, w, size).

(** huf.go:168-228 sendBlock *)
Definition sendBlockF (h : huf) (w : wst) : res (huf * wst) :=
  '(h, w, size) <- sendHeadF h w ;;
  c <- for_ctl (Z.to_nat size) 0 (send_symF h) (0, 0, w) ;;
  match c with
  | Stop w => Ok (h, w)
  | Go (_, _, w) =>
      cf <- forZ 0 Nc (fun i t => aset t i 0) (cFreq h) ;;
      pf <- forZ 0 (np h) (fun i t => aset t i 0) (pFreq h) ;;
      Ok (set_cFreq cf (set_pFreq pf h), w)
  end.

(** huf.go:234-266 outputSt1 *)
Definition outputSt1F (c p : Z) (h : huf) (w : wst) : res (huf * wst) :=
  let mask := Z.shiftr (outputMask h) 1 in
  x <-
    (if mask =? 0 then
       let mask := 128 in
       let h := set_outputMask mask h in
       '(stop, h, w) <-
         (if block_threshold <=? outputPos h then
            '(h, w) <- sendBlockF h w ;;
            if unpackable w then Ok (true, h, w)
            else Ok (false, set_outputPos 0 h, w)
          else Ok (false, h, w)) ;;
       if (stop : bool) then Ok (Stop (h, w))
       else
         let cp := outputPos h in
         b <- aset (buf h) cp 0 ;;
         Ok (Go (set_buf b (set_cpos cp (set_outputPos (u16 (cp + 1)) h)), w))
     else Ok (Go (set_outputMask mask h, w))) ;;
  match x with
  | Stop r => Ok r
  | Go (h, w) =>
      b <- aset (buf h) (outputPos h) (u8 c) ;;
      f <- incr (cFreq h) c 1 ;;
      let h := set_buf b (set_cFreq f (set_outputPos (u16 (outputPos h + 1)) h)) in
      if 256 <=? c then
        v <- aget (buf h) (cpos h) ;;
        b <- aset (buf h) (cpos h) (Z.lor v (u8 (outputMask h))) ;;
        let q := outputPos h in
        b <- aset b q (u8 (Z.shiftr p 8)) ;;
        b <- aset b (u16 (q + 1)) (u8 p) ;;
        k <- nbits p ;;
        f <- incr (pFreq h) k 1 ;;
        Ok (set_buf b (set_pFreq f (set_outputPos (u16 (q + 2)) h)), w)
      else Ok (h, w)
  end.

(** huf.go:316-321 encodeEndSt1 *)
Definition encodeEndSt1F (h : huf) (w : wst) : res (huf * wst) :=
  if unpackable w then Ok (h, w)
  else
    '(h, w) <- sendBlockF h w ;;
    w <- putbitsF 7 0 w ;;
    Ok (h, w).

(** slide.go:431-460, one iteration.  encodeOuput (slide.go:237-256) calls
    outputSt1 for every method that encodeAlloc lets through (1, 5, 6, 7). *)
Definition encode_stepF (P : prm) (e : est) : res (ctl est est) :=
  if (0 <? s_rem (e_sl e)) && negb (unpackable (e_w e)) then
    let last := e_match e in
    '(token, pos, s) <- nextToken P (e_tok e) (e_pos e) (e_sl e) ;;
    '(m, s) <- searchDict P token pos (m_len last - 1) s ;;
    s <- insertHash P token pos s ;;
    if (m_len last <? m_len m) || (m_len last <? threshold) then
      c <- aget (s_text s) (pos - 1) ;;
      '(h, w) <- outputSt1F c 0 (e_huf e) (e_w e) ;;
      Ok (Go (EST s h w token pos m (e_count e + 1)))
    else
      '(h, w) <- outputSt1F (u16 (m_len last + (256 - threshold)))
                           (u16 (Z.land (u64 (m_off last - 1)) (p_dicsiz P - 1)))
                           (e_huf e) (e_w e) ;;
      '(token, pos, s) <- skip_tokens P (m_len last - 2) token pos s ;;
      '(token, pos, s) <- nextToken P token pos s ;;
      '(m, s) <- searchDict P token pos (threshold - 1) s ;;
      s <- insertHash P token pos s ;;
      Ok (Go (EST s h w token pos m (e_count e + m_len last)))
  else Ok (Stop e).

(** slide.go:391-467 encode, for dictionary size [2^dicbit] and [maxmatch], after
    encodeAlloc.  [body] is the whole input, [size] is inter.original. *)
Definition encodeF (dicbit mx size : Z) (body : list Z) (g : glob) : res encres :=
  let d := Z.shiftl 1 dicbit in
  let P := PRM d (2 * d + mx) mx in
  (* initSlide, slide.go:469-474 *)
  '(hp, hf) <- forZ 0 hshsiz (fun i '(hp, hf) =>
     hp <- aset hp i 0 ;; hf <- aset hf i 0 ;; Ok (hp, hf)) (g_hpos g, g_hflag g) ;;
  h <- encodeStartSt1 dicbit (g_huf g) ;;
  t <- forZ 0 (p_txtsiz P + 1) (fun i t => aset t i 32) (g_text g) ;;
  match body with
  | [] => Ok (ER (GLOB h hp hf (g_prevs g) t (g_dh g) (g_pm g)) 0 [] 0 size false true [])
  | _ =>
    '(t, crc, v, inp) <- freadCrc t 0 d (p_txtsiz P - d) body ;;
    let m := if v <? threshold - 1 then MD v 0 else MD (threshold - 1) 0 in
    token <- initHash t d ;;
    s <- insertHash P token d (SL t hp hf (g_prevs g) v inp crc) ;;
    e <- loop (zlen body + 2) (encode_stepF P) (EST s h (initPutbits size) token d m 0) ;;
    '(h, w) <- encodeEndSt1F (e_huf e) (e_w e) ;;
    let s := e_sl e in
    Ok (ER (GLOB h (s_hpos s) (s_hflag s) (s_prevs s) (s_text s) (g_dh g) (g_pm g)) (s_crc s)
           (rev (wout w)) (wcompsize w) (e_count e) (unpackable w) false (s_in s))
  end.

(** append.go:24-57 EncodeLzhuf.  The method 0 is [EncodeStoredW] of [M_Writer]. *)
Definition EncodeLzhufF (method size : Z) (inp : list Z) (g : glob) : res encout :=
  match (if 0 <? method then method_params method else None) with
  | Some (dicbit, mx) =>
      let g := encodeAlloc (2 * Z.shiftl 1 dicbit + mx) g in
      er <- encodeF dicbit mx size inp g ;;
      if er_original er =? 0 then Panic
      else Ok (EO (er_glob er) (er_crc er) (er_out er) (er_original er) (er_packed er)
                  (u8 (method + 48)) (er_in er))
  | None =>
      let m := if 0 <? method then 0 else method in
      '(_, r, rest, out) <- copyfileW write size inp [] ;;
      if r =? 0 then Panic
      else Ok (EO g 0 out r r (u8 (u8 m + 48)) rest)
  end.

End Full.
