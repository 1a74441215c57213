(** Model of huf.go: the static Huffman block coder of -lh4- .. -lh7-. *)
From Verif Require Import Go M_Bitio M_Maketree M_Maketbl.

(** macro.go: [tbit], [cbit] *)
Definition tbit : Z := 5.
Definition cbit : Z := 9.

(** The package variables of huf.go:8-28, 232 and the shared [np], [pbit],
    [blocksize] (macro.go).  They live as long as the process. *)
Record huf := HUF {
  left : arr;
  right : arr;
  cCode : arr;
  ptCode : arr;
  cTable : arr;
  ptTable : arr;
  cFreq : arr;
  pFreq : arr;
  tFreq : arr;
  cLen : arr;
  ptLen : arr;
  buf : arr;
  outputPos : Z;
  outputMask : Z;
  cpos : Z;
  np : Z;
  pbit : Z;
  blocksize : Z
}.

Definition set_left (v : arr) (s : huf) : huf :=
  HUF v (right s) (cCode s) (ptCode s) (cTable s) (ptTable s) (cFreq s) (pFreq s) (tFreq s) (cLen s) (ptLen s) (buf s) (outputPos s) (outputMask s) (cpos s) (np s) (pbit s) (blocksize s).
Definition set_right (v : arr) (s : huf) : huf :=
  HUF (left s) v (cCode s) (ptCode s) (cTable s) (ptTable s) (cFreq s) (pFreq s) (tFreq s) (cLen s) (ptLen s) (buf s) (outputPos s) (outputMask s) (cpos s) (np s) (pbit s) (blocksize s).
Definition set_cCode (v : arr) (s : huf) : huf :=
  HUF (left s) (right s) v (ptCode s) (cTable s) (ptTable s) (cFreq s) (pFreq s) (tFreq s) (cLen s) (ptLen s) (buf s) (outputPos s) (outputMask s) (cpos s) (np s) (pbit s) (blocksize s).
Definition set_ptCode (v : arr) (s : huf) : huf :=
  HUF (left s) (right s) (cCode s) v (cTable s) (ptTable s) (cFreq s) (pFreq s) (tFreq s) (cLen s) (ptLen s) (buf s) (outputPos s) (outputMask s) (cpos s) (np s) (pbit s) (blocksize s).
Definition set_cTable (v : arr) (s : huf) : huf :=
  HUF (left s) (right s) (cCode s) (ptCode s) v (ptTable s) (cFreq s) (pFreq s) (tFreq s) (cLen s) (ptLen s) (buf s) (outputPos s) (outputMask s) (cpos s) (np s) (pbit s) (blocksize s).
Definition set_ptTable (v : arr) (s : huf) : huf :=
  HUF (left s) (right s) (cCode s) (ptCode s) (cTable s) v (cFreq s) (pFreq s) (tFreq s) (cLen s) (ptLen s) (buf s) (outputPos s) (outputMask s) (cpos s) (np s) (pbit s) (blocksize s).
Definition set_cFreq (v : arr) (s : huf) : huf :=
  HUF (left s) (right s) (cCode s) (ptCode s) (cTable s) (ptTable s) v (pFreq s) (tFreq s) (cLen s) (ptLen s) (buf s) (outputPos s) (outputMask s) (cpos s) (np s) (pbit s) (blocksize s).
Definition set_pFreq (v : arr) (s : huf) : huf :=
  HUF (left s) (right s) (cCode s) (ptCode s) (cTable s) (ptTable s) (cFreq s) v (tFreq s) (cLen s) (ptLen s) (buf s) (outputPos s) (outputMask s) (cpos s) (np s) (pbit s) (blocksize s).
Definition set_tFreq (v : arr) (s : huf) : huf :=
  HUF (left s) (right s) (cCode s) (ptCode s) (cTable s) (ptTable s) (cFreq s) (pFreq s) v (cLen s) (ptLen s) (buf s) (outputPos s) (outputMask s) (cpos s) (np s) (pbit s) (blocksize s).
Definition set_cLen (v : arr) (s : huf) : huf :=
  HUF (left s) (right s) (cCode s) (ptCode s) (cTable s) (ptTable s) (cFreq s) (pFreq s) (tFreq s) v (ptLen s) (buf s) (outputPos s) (outputMask s) (cpos s) (np s) (pbit s) (blocksize s).
Definition set_ptLen (v : arr) (s : huf) : huf :=
  HUF (left s) (right s) (cCode s) (ptCode s) (cTable s) (ptTable s) (cFreq s) (pFreq s) (tFreq s) (cLen s) v (buf s) (outputPos s) (outputMask s) (cpos s) (np s) (pbit s) (blocksize s).
Definition set_buf (v : arr) (s : huf) : huf :=
  HUF (left s) (right s) (cCode s) (ptCode s) (cTable s) (ptTable s) (cFreq s) (pFreq s) (tFreq s) (cLen s) (ptLen s) v (outputPos s) (outputMask s) (cpos s) (np s) (pbit s) (blocksize s).
Definition set_outputPos (v : Z) (s : huf) : huf :=
  HUF (left s) (right s) (cCode s) (ptCode s) (cTable s) (ptTable s) (cFreq s) (pFreq s) (tFreq s) (cLen s) (ptLen s) (buf s) v (outputMask s) (cpos s) (np s) (pbit s) (blocksize s).
Definition set_outputMask (v : Z) (s : huf) : huf :=
  HUF (left s) (right s) (cCode s) (ptCode s) (cTable s) (ptTable s) (cFreq s) (pFreq s) (tFreq s) (cLen s) (ptLen s) (buf s) (outputPos s) v (cpos s) (np s) (pbit s) (blocksize s).
Definition set_cpos (v : Z) (s : huf) : huf :=
  HUF (left s) (right s) (cCode s) (ptCode s) (cTable s) (ptTable s) (cFreq s) (pFreq s) (tFreq s) (cLen s) (ptLen s) (buf s) (outputPos s) (outputMask s) v (np s) (pbit s) (blocksize s).
Definition set_np (v : Z) (s : huf) : huf :=
  HUF (left s) (right s) (cCode s) (ptCode s) (cTable s) (ptTable s) (cFreq s) (pFreq s) (tFreq s) (cLen s) (ptLen s) (buf s) (outputPos s) (outputMask s) (cpos s) v (pbit s) (blocksize s).
Definition set_pbit (v : Z) (s : huf) : huf :=
  HUF (left s) (right s) (cCode s) (ptCode s) (cTable s) (ptTable s) (cFreq s) (pFreq s) (tFreq s) (cLen s) (ptLen s) (buf s) (outputPos s) (outputMask s) (cpos s) (np s) v (blocksize s).
Definition set_blocksize (v : Z) (s : huf) : huf :=
  HUF (left s) (right s) (cCode s) (ptCode s) (cTable s) (ptTable s) (cFreq s) (pFreq s) (tFreq s) (cLen s) (ptLen s) (buf s) (outputPos s) (outputMask s) (cpos s) (np s) (pbit s) v.

(** State at process start: huf.go:8-28 and macro.go; [buf] is allocated by the
    first compression (append.go:89, huf.go:269-278). *)
Definition huf0 : huf :=
  HUF (amake 1019) (amake 1019) (amake Nc) (amake Npt) (amake 4096) (amake 256)
      (amake 1019) (amake 33) (amake 37) (amake Nc) (amake Npt) (amake 0)
      0 0 0 0 5 0.

(** ** Encoding *)

(** huf.go:43-46: [n] without trailing zero lengths. *)
Definition trim (len : arr) (n : Z) : res Z :=
  loop (n + 1) (fun n =>
    if 0 <? n then
      b <- aget len (n - 1) ;;
      if b =? 0 then Ok (Go (n - 1)) else Ok (Stop n)
    else Ok (Stop n)) n.

(** huf.go:52-56: the end of a run of zeros starting before [i] in the character
    lengths. Returns the new [i] and the count. *)
Definition zero_run (cLen : arr) (n i count : Z) : res (Z * Z) :=
  loop (n - i + 1) (fun '(i, count) =>
    if i <? n then
      b <- aget cLen i ;;
      if b =? 0 then Ok (Go (i + 1, u16 (count + 1))) else Ok (Stop (i, count))
    else Ok (Stop (i, count))) (i, count).

Definition incr (a : arr) (i by_ : Z) : res arr :=
  v <- aget a i ;; aset a i (u16 (v + by_)).

(** huf.go:37-75 countTFreq *)
Definition countTFreq (cLen tFreq : arr) : res arr :=
  tFreq <- forZ 0 Nt (fun i t => aset t i 0) tFreq ;;
  n <- trim cLen Nc ;;
  loop (n + 1) (fun '(i, t) =>
    if i <? n then
      k <- aget cLen i ;;
      let i := i + 1 in
      if k =? 0 then
        '(i, count) <- zero_run cLen n i 1 ;;
        t <- (if count <=? 2 then incr t 0 count
              else if count <=? 18 then incr t 1 1
              else if count =? 19 then t <- incr t 0 1 ;; incr t 1 1
              else incr t 2 1) ;;
        Ok (Go (i, t))
      else
        t <- incr t (k + 2) 1 ;;
        Ok (Go (i, t))
    else Ok (Stop t)) (0, tFreq).

(** huf.go:78-102 writePtLen *)
Definition writePtLen (ptLen : arr) (n nbit i_special : Z) (w : wst) : res wst :=
  n <- trim ptLen n ;;
  w <- putbits nbit n w ;;
  loop (n + 1) (fun '(i, w) =>
    if i <? n then
      k <- aget ptLen i ;;
      let i := i + 1 in
      w <- (if k <=? 6 then putbits 3 k w else putbits (u8 (k - 3)) 65534 w) ;;
      if i =? i_special then
        i <- loop 8 (fun i =>
          if i <? 6 then
            b <- aget ptLen i ;;
            if b =? 0 then Ok (Go (i + 1)) else Ok (Stop i)
          else Ok (Stop i)) i ;;
        w <- putbits 2 (u16 (i - 3)) w ;;
        Ok (Go (i, w))
      else Ok (Go (i, w))
    else Ok (Stop w)) (0, w).

(** [putcode(len[c], code[c])], used in huf.go:125-148, 162 *)
Definition putsym (len code : arr) (c : Z) (w : wst) : res wst :=
  n <- aget len c ;; x <- aget code c ;; putcode n x w.

(** huf.go:105-144 writeCLen *)
Definition writeCLen (cLen ptLen ptCode : arr) (w : wst) : res wst :=
  n <- trim cLen Nc ;;
  w <- putbits cbit n w ;;
  loop (n + 1) (fun '(i, w) =>
    if i <? n then
      k <- aget cLen i ;;
      let i := i + 1 in
      if k =? 0 then
        '(i, count) <- zero_run cLen n i 1 ;;
        w <- (if count <=? 2 then
                forZ 0 count (fun _ w => putsym ptLen ptCode 0 w) w
              else if count <=? 18 then
                w <- putsym ptLen ptCode 1 w ;; putbits 4 (u16 (count - 3)) w
              else if count =? 19 then
                w <- putsym ptLen ptCode 0 w ;;
                w <- putsym ptLen ptCode 1 w ;;
                putbits 4 15 w
              else
                w <- putsym ptLen ptCode 2 w ;; putbits cbit (u16 (count - 20)) w) ;;
        Ok (Go (i, w))
      else
        w <- putsym ptLen ptCode (k + 2) w ;;
        Ok (Go (i, w))
    else Ok (Stop w)) (0, w).

(** huf.go:155-159 and 259-263: number of significant bits of a 16-bit value. *)
Definition nbits (p : Z) : res Z :=
  loop 18 (fun '(q, c) =>
    if q =? 0 then Ok (Stop c) else Ok (Go (Z.shiftr q 1, c + 1))) (p, 0).

(** huf.go:152-165 encodeP *)
Definition encodeP (ptLen ptCode : arr) (p : Z) (w : wst) : res wst :=
  c <- nbits p ;;
  w <- putsym ptLen ptCode c w ;;
  if 1 <? c then putbits (u8 (c - 1)) p w else Ok w.

(** huf.go:198-221, the loop of sendBlock over the buffered symbols.  [Stop] is
    the return at line 219 when the output got too large. *)
Definition send_sym (h : huf) (i : Z) (st : Z * Z * wst) : res (ctl (Z * Z * wst) wst) :=
  let '(flags, pos, w) := st in
  '(flags, pos) <-
    (if i mod 8 =? 0 then f <- aget (buf h) pos ;; Ok (f, u16 (pos + 1))
     else Ok (u8 (Z.shiftl flags 1), pos)) ;;
  '(pos, w) <-
    (if Z.testbit flags 7 then
       b <- aget (buf h) pos ;;
       w <- putsym (cLen h) (cCode h) (b + 256) w ;;
       let pos := u16 (pos + 1) in
       k1 <- aget (buf h) pos ;;
       let pos := u16 (pos + 1) in
       k2 <- aget (buf h) pos ;;
       let k := u16 (u16 (Z.shiftl k1 8) + k2) in
       w <- encodeP (ptLen h) (ptCode h) k w ;;
       Ok (u16 (pos + 1), w)
     else
       b <- aget (buf h) pos ;;
       w <- putsym (cLen h) (cCode h) b w ;;
       Ok (u16 (pos + 1), w)) ;;
  if unpackable w then Ok (Stop w) else Ok (Go (flags, pos, w)).

(** huf.go:168-196, the first half of sendBlock: the codes are built and the
    head of the block is written.  Returns also the number of symbols. *)
Definition sendHead (h : huf) (w : wst) : res (huf * wst * Z) :=
  r <- makeTree Nc (cFreq h) (cLen h) (cCode h) (left h) (right h) ;;
  let h := set_cFreq (r_freq r) (set_cLen (r_bitlen r) (set_cCode (r_code r)
             (set_left (r_left r) (set_right (r_right r) h)))) in
  let root := r_root r in
  size <- aget (cFreq h) root ;;
  w <- putbits 16 size w ;;
  '(h, w) <-
    (if Nc <=? root then
       t <- countTFreq (cLen h) (tFreq h) ;;
       r <- makeTree Nt t (ptLen h) (ptCode h) (left h) (right h) ;;
       let h := set_tFreq (r_freq r) (set_ptLen (r_bitlen r) (set_ptCode (r_code r)
                  (set_left (r_left r) (set_right (r_right r) h)))) in
       w <- (if Nt <=? r_root r then writePtLen (ptLen h) Nt tbit 3 w
             else w <- putbits tbit 0 w ;; putbits tbit (r_root r) w) ;;
       w <- writeCLen (cLen h) (ptLen h) (ptCode h) w ;;
       Ok (h, w)
     else
       w <- putbits tbit 0 w ;;
       w <- putbits tbit 0 w ;;
       w <- putbits cbit 0 w ;;
       w <- putbits cbit root w ;;
       Ok (h, w)) ;;
  r <- makeTree (np h) (pFreq h) (ptLen h) (ptCode h) (left h) (right h) ;;
  let h := set_pFreq (r_freq r) (set_ptLen (r_bitlen r) (set_ptCode (r_code r)
             (set_left (r_left r) (set_right (r_right r) h)))) in
  w <- (if np h <=? r_root r then writePtLen (ptLen h) (np h) (pbit h) (-1) w
        else w <- putbits (pbit h) 0 w ;; putbits (pbit h) (r_root r) w) ;;
  Ok (h, w, size).

(** huf.go:168-228 sendBlock *)
Definition sendBlock (h : huf) (w : wst) : res (huf * wst) :=
  '(h, w, size) <- sendHead h w ;;
  c <- for_ctl (Z.to_nat size) 0 (send_sym h) (0, 0, w) ;;
  match c with
  | Stop w => Ok (h, w)
  | Go (_, _, w) =>
      cf <- forZ 0 Nc (fun i t => aset t i 0) (cFreq h) ;;
      pf <- forZ 0 (np h) (fun i t => aset t i 0) (pFreq h) ;;
      Ok (set_cFreq cf (set_pFreq pf h), w)
  end.

(** huf.go:239 [(bufsiz-3)*uint16(charBit)] with [bufsiz = 65535] (huf.go:270),
    in 16-bit arithmetic. *)
Definition block_threshold : Z := u16 ((65535 - 3) * 8).

(** huf.go:234-266 outputSt1 *)
Definition outputSt1 (c p : Z) (h : huf) (w : wst) : res (huf * wst) :=
  let mask := Z.shiftr (outputMask h) 1 in
  x <-
    (if mask =? 0 then
       let mask := 128 in
       let h := set_outputMask mask h in
       '(stop, h, w) <-
         (if block_threshold <=? outputPos h then
            '(h, w) <- sendBlock h w ;;
            if unpackable w then Ok (true, h, w)
            else Ok (false, set_outputPos 0 h, w)
          else Ok (false, h, w)) ;;
       if (stop : bool) then Ok (Stop (h, w))
       else
         let cp := outputPos h in
         b <- aset (buf h) cp 0 ;;
         Ok (Go (set_buf b (set_cpos cp (set_outputPos (u16 (cp + 1)) h)), w))
     else Ok (Go (set_outputMask mask h, w))) ;;
  match x with
  | Stop r => Ok r
  | Go (h, w) =>
      b <- aset (buf h) (outputPos h) (u8 c) ;;
      f <- incr (cFreq h) c 1 ;;
      let h := set_buf b (set_cFreq f (set_outputPos (u16 (outputPos h + 1)) h)) in
      if 256 <=? c then
        v <- aget (buf h) (cpos h) ;;
        b <- aset (buf h) (cpos h) (Z.lor v (u8 (outputMask h))) ;;
        let q := outputPos h in
        b <- aset b q (u8 (Z.shiftr p 8)) ;;
        b <- aset b (u16 (q + 1)) (u8 p) ;;
        k <- nbits p ;;
        f <- incr (pFreq h) k 1 ;;
        Ok (set_buf b (set_pFreq f (set_outputPos (u16 (q + 2)) h)), w)
      else Ok (h, w)
  end.

(** huf.go:282-312 encodeStartSt1 (encoder part; [initPutbits] is modelled by
    the initial [wst]).  huf.go:286 is an empty case: -lh4- (and -lh1-, which
    has the same dictionary size) leave [np] and [pbit] as they were. *)
Definition set_np_pbit (dicbit : Z) (h : huf) : huf :=
  if dicbit =? 12 then h
  else if dicbit =? 13 then set_pbit 4 (set_np 14 h)
  else if dicbit =? 15 then set_pbit 5 (set_np 16 h)
  else if dicbit =? 16 then set_pbit 5 (set_np 17 h)
  else h.

Definition encodeStartSt1 (dicbit : Z) (h : huf) : res huf :=
  let h := set_np_pbit dicbit h in
  cf <- forZ 0 Nc (fun i t => aset t i 0) (cFreq h) ;;
  pf <- forZ 0 Np (fun i t => aset t i 0) (pFreq h) ;;
  b <- aset (buf h) 0 0 ;;
  Ok (set_cFreq cf (set_pFreq pf (set_outputPos 0 (set_outputMask 0 (set_buf b h))))).

(** huf.go:316-321 encodeEndSt1 *)
Definition encodeEndSt1 (h : huf) (w : wst) : res (huf * wst) :=
  if unpackable w then Ok (h, w)
  else
    '(h, w) <- sendBlock h w ;;
    w <- putbits 7 0 w ;;
    Ok (h, w).

(** ** Decoding *)

(** huf.go:360-369: one code length of the position/length code. *)
Definition read_ptlen1 (r : rst) : res (Z * rst) :=
  let c := peekbits 3 r in
  if c =? 7 then
    c <- loop 20 (fun '(mask, c) =>
           if Z.land mask (bitbuf r) =? 0 then Ok (Stop c)
           else Ok (Go (Z.shiftr mask 1, c + 1))) (4096, c) ;;
    r <- fillbuf (u8 (c - 3)) r ;;
    Ok (c, r)
  else
    r <- fillbuf 3 r ;;
    Ok (c, r).

(** huf.go:344-390 readPtLen *)
Definition readPtLen (nn nbit i_special : Z) (h : huf) (r : rst) : res (huf * rst) :=
  '(n, r) <- getbits nbit r ;;
  if n =? 0 then
    '(c, r) <- getbits nbit r ;;
    len <- forZ 0 nn (fun i t => aset t i 0) (ptLen h) ;;
    tab <- forZ 0 256 (fun i t => aset t i c) (ptTable h) ;;
    Ok (set_ptLen len (set_ptTable tab h), r)
  else
    '(i, len, r) <-
      loop (Npt + 2) (fun '(i, len, r) =>
        if i <? Z.min n Npt then
          '(c, r) <- read_ptlen1 r ;;
          len <- aset len i (u8 c) ;;
          let i := i + 1 in
          if i =? i_special then
            '(c, r) <- getbits 2 r ;;
            '(i, len) <-
              loop 6 (fun '(c, i, len) =>
                if (0 <=? c) && (i <? Npt) then
                  len <- aset len i 0 ;; Ok (Go (c - 1, i + 1, len))
                else Ok (Stop (i, len))) (c - 1, i, len) ;;
            Ok (Go (i, len, r))
          else Ok (Go (i, len, r))
        else Ok (Stop (i, len, r))) (0, ptLen h, r) ;;
    len <- forZ i nn (fun i t => aset t i 0) len ;;
    '(_, s) <- makeTable nn len 8 (ptTable h) (left h) (right h) ;;
    Ok (set_ptLen len (set_ptTable (t_table s) (set_left (t_left s)
          (set_right (t_right s) h))), r).

(** The tree walks of huf.go:411-423, 473-486 and 503-511: follow [bitbuf] from
    bit [mask] on.  The first two are do-while loops ([first] = true), the last
    one tests before the first step.  [lim] is the first node number.  After the
    mask is exhausted the walk follows left links; the fuel bounds that. *)
Definition walk_cond (left : arr) (lim j mask : Z) : res bool :=
  if lim <=? j then
    if mask =? 0 then l <- aget left j ;; Ok (negb (j =? l)) else Ok true
  else Ok false.

Definition walk_step (left right : arr) (lim : Z) (r : rst) (st : bool * Z * Z) : res (ctl (bool * Z * Z) Z) :=
  let '(first, j, mask) := st in
  go <- (if (first : bool) then Ok true else walk_cond left lim j mask) ;;
  if (go : bool) then
    j <- (if Z.land (bitbuf r) mask =? 0 then aget left j else aget right j) ;;
    Ok (Go (false, j, Z.shiftr mask 1))
  else Ok (Stop j).

Definition walk (left right : arr) (lim : Z) (first : bool) (r : rst) (j mask : Z) : res Z :=
  loop 70000 (walk_step left right lim r) (first, j, mask).

(** huf.go:393-453 readCLen.  The [int16] conversions are the identity on the
    values that occur (below 1019). *)
Definition readCLen (h : huf) (r : rst) : res (huf * rst) :=
  '(n, r) <- getbits cbit r ;;
  if n =? 0 then
    '(c, r) <- getbits cbit r ;;
    len <- forZ 0 Nc (fun i t => aset t i 0) (cLen h) ;;
    tab <- forZ 0 4096 (fun i t => aset t i c) (cTable h) ;;
    Ok (set_cLen len (set_cTable tab h), r)
  else
    '(i, len, r) <-
      loop (Nc + 2) (fun '(i, len, r) =>
        if i <? Z.min n Nc then
          c <- aget (ptTable h) (peekbits 8 r) ;;
          c <- (if Nt <=? c then walk (left h) (right h) Nt true r c 128 else Ok c) ;;
          l <- aget (ptLen h) c ;;
          r <- fillbuf l r ;;
          if c <=? 2 then
            '(c, r) <- (if c =? 0 then Ok (1, r)
                        else if c =? 1 then '(x, r) <- getbits 4 r ;; Ok (x + 3, r)
                        else '(x, r) <- getbits cbit r ;; Ok (x + 20, r)) ;;
            len <- forZ i (i + c) (fun i t => aset t i 0) len ;;
            Ok (Go (i + c, len, r))
          else
            len <- aset len i (u8 (u8 c - 2)) ;;
            Ok (Go (i + 1, len, r))
        else Ok (Stop (i, len, r))) (0, cLen h, r) ;;
    len <- forZ i Nc (fun i t => aset t i 0) len ;;
    '(_, s) <- makeTable Nc len 12 (cTable h) (left h) (right h) ;;
    Ok (set_cLen len (set_cTable (t_table s) (set_left (t_left s)
          (set_right (t_right s) h))), r).

(** huf.go:460-465: reading the tables at the start of a block *)
Definition readBlockHead (h : huf) (r : rst) : res (huf * rst) :=
  '(b, r) <- getbits 16 r ;;
  let h := set_blocksize b h in
  '(h, r) <- readPtLen Nt tbit 3 h r ;;
  '(h, r) <- readCLen h r ;;
  readPtLen (np h) (pbit h) (-1) h r.

(** huf.go:457-490 decodeCSt1 *)
Definition decodeCSt1 (h : huf) (r : rst) : res (Z * huf * rst) :=
  '(h, r) <- (if blocksize h =? 0 then readBlockHead h r else Ok (h, r)) ;;
  let h := set_blocksize (u16 (blocksize h - 1)) h in
  j <- aget (cTable h) (peekbits 12 r) ;;
  if j <? Nc then
    l <- aget (cLen h) j ;;
    r <- fillbuf l r ;;
    Ok (j, h, r)
  else
    r <- fillbuf 12 r ;;
    j <- walk (left h) (right h) Nc true r j 32768 ;;
    l <- aget (cLen h) j ;;
    r <- fillbuf (u8 (l - 12)) r ;;
    Ok (j, h, r).

(** huf.go:494-518 decodePSt1 *)
Definition decodePSt1 (h : huf) (r : rst) : res (Z * rst) :=
  j <- aget (ptTable h) (peekbits 8 r) ;;
  '(j, r) <-
    (if j <? np h then
       l <- aget (ptLen h) j ;;
       r <- fillbuf l r ;;
       Ok (j, r)
     else
       r <- fillbuf 8 r ;;
       j <- walk (left h) (right h) (np h) false r j 32768 ;;
       l <- aget (ptLen h) j ;;
       r <- fillbuf (u8 (l - 8)) r ;;
       Ok (j, r)) ;;
  if j =? 0 then Ok (0, r)
  else
    '(x, r) <- getbits (u8 (j - 1)) r ;;
    Ok (u16 (u16 (Z.shiftl 1 (u16 (j - 1))) + x), r).

(** huf.go:522-541 decodeStartSt1 (the bit reader is initialised separately by
    [initGetbits]). *)
Definition decodeStartSt1 (dicbit : Z) (h : huf) : huf :=
  set_blocksize 0 (set_np_pbit dicbit h).
