(** Model of shuf.go: the fixed and semi-static position codes of -lh1- and -lh3-, and
    the block coder of -lh3-. *)
From Verif Require Import Go M_Bitio M_Maketree M_Maketbl M_Huf M_Dhuf.

(** shuf.go:13-15: the first entry is the first length, the others are the positions
    where the length grows. *)
Definition fixed (method : Z) : list Z :=
  if method =? 0 then [3; 1; 4; 12; 24; 48; 0; 0; 0; 0; 0; 0; 0; 0; 0; 0]
  else [2; 1; 1; 3; 6; 13; 31; 78; 0; 0; 0; 0; 0; 0; 0; 0].

(** shuf.go:48-52: while the next entry is [i] *)
Definition ready_grow (method i : Z) (s : Z * Z * Z) : res (ctl (Z * Z * Z) (Z * Z * Z)) :=
  let '(j, tbl, weight) := s in
  if tbl <? 16 then
    if nth (Z.to_nat tbl) (fixed method) 0 =? i then Ok (Go (j + 1, tbl + 1, Z.shiftr weight 1))
    else Ok (Stop (j, tbl, weight))
  else Panic.

(** shuf.go:46-56: one step of the loop of readyMade *)
Definition ready_step (method i : Z) (s : Z * Z * Z * Z * huf) : res (Z * Z * Z * Z * huf) :=
  let '(j, tbl, weight, code, h) := s in
  '(j, tbl, weight) <- loop 20 (ready_grow method i) (j, tbl, weight) ;;
  a <- aset (ptLen h) i (u8 j) ;;
  b <- aset (ptCode h) i (u16 code) ;;
  Ok (j, tbl, weight, code + weight, set_ptLen a (set_ptCode b h)).

(** shuf.go:35-57 readyMade *)
Definition readyMade (method : Z) (h : huf) : res huf :=
  let j := nth 0 (fixed method) 0 in
  '(_, _, _, _, h) <- forZ 0 (np h) (ready_step method) (j, 1, Z.shiftl 1 (16 - j), 0, h) ;;
  Ok h.

(** Store the table and the tree makeTable built; its error is ignored by all callers. *)
Definition use_pt (nchar : Z) (h : huf) : res huf :=
  '(_, s) <- makeTable nchar (ptLen h) 8 (ptTable h) (left h) (right h) ;;
  Ok (set_ptTable (t_table s) (set_left (t_left s) (set_right (t_right s) h))).
Definition use_c (nchar : Z) (h : huf) : res huf :=
  '(_, s) <- makeTable nchar (cLen h) 12 (cTable h) (left h) (right h) ;;
  Ok (set_cTable (t_table s) (set_left (t_left s) (set_right (t_right s) h))).

(** shuf.go:120-129 decodeStartFix; [initGetbits] is done by the caller *)
Definition decodeStartFix (h : huf) (d : dh) : res (huf * dh) :=
  let h := set_np 64 h in
  d <- startCDyn 314 60 d ;;
  h <- readyMade 0 h ;;
  h <- use_pt 64 h ;;
  Ok (h, d).

(** dhuf.go:90-97 decodeStartDyn; [initGetbits] is done by the caller *)
Definition decodeStartDyn (d : dh) : res dh :=
  d <- startCDyn 286 256 d ;;
  startPDyn 13 d.

(** shuf.go:19-26 decodeStartSt0; it leaves [blocksize] and [n1] as they were *)
Definition decodeStartSt0 (h : huf) (d : dh) : huf * dh :=
  (set_np 128 h, set_nMax 286 d).

(** shuf.go:72-95 readTreeC *)
Definition readTreeC (n1 : Z) (h : huf) (r : rst) : res (huf * rst) :=
  '(c, len, r) <-
    loop (Z.abs n1 + 2) (fun '(i, len, r) =>
      if i <? n1 then
        '(b, r) <- getbits 1 r ;;
        '(v, r) <- (if b =? 0 then Ok (0, r) else '(x, r) <- getbits 4 r ;; Ok (u8 (x + 1), r)) ;;
        len <- aset len i v ;;
        let i := i + 1 in
        a0 <- aget len 0 ;; a1 <- aget len 1 ;; a2 <- aget len 2 ;;
        if (i =? 3) && (a0 =? 1) && (a1 =? 1) && (a2 =? 1) then
          '(c, r) <- getbits cbit r ;;
          len <- forZ 0 n1 (fun i t => aset t i 0) len ;;
          Ok (Stop (Some c, len, r))
        else Ok (Go (i, len, r))
      else Ok (Stop (None, len, r))) (0, cLen h, r) ;;
  let h := set_cLen len h in
  match c with
  | Some c => tab <- forZ 0 4096 (fun i t => aset t i c) (cTable h) ;; Ok (set_cTable tab h, r)
  | None => h <- use_c n1 h ;; Ok (h, r)
  end.

(** shuf.go:98-116 readTreeP *)
Definition readTreeP (h : huf) (r : rst) : res (huf * rst) :=
  '(c, len, r) <-
    loop 130 (fun '(i, len, r) =>
      if i <? 128 then
        '(v, r) <- getbits 4 r ;;
        len <- aset len i (u8 v) ;;
        let i := i + 1 in
        a0 <- aget len 0 ;; a1 <- aget len 1 ;; a2 <- aget len 2 ;;
        if (i =? 3) && (a0 =? 1) && (a1 =? 1) && (a2 =? 1) then
          '(c, r) <- getbits 7 r ;;
          len <- forZ 0 128 (fun i t => aset t i 0) len ;;
          Ok (Stop (Some c, len, r))
        else Ok (Go (i, len, r))
      else Ok (Stop (None, len, r))) (0, ptLen h, r) ;;
  let h := set_ptLen len h in
  match c with
  | Some c => tab <- forZ 0 256 (fun i t => aset t i c) (ptTable h) ;; Ok (set_ptTable tab h, r)
  | None => Ok (h, r)
  end.

(** shuf.go:156-166 and 188-198: [i] is an int of 64 bits, here without its sign, that
    starts with the 16 bits of the buffer.  It is negative only from the 48th step on, so
    that the walk takes the left branch until then, whatever the bits are, and again after
    the 63rd.  The walk ends below [lim].  The fuel is above 64 plus the number of nodes. *)
Definition left_step (left right : arr) (lim : Z) (st : bool * Z * Z) : res (ctl (bool * Z * Z) Z) :=
  let '(first, i, j) := st in
  if (first : bool) || (lim <=? j) then
    j <- (if Z.testbit i 63 then aget right j else aget left j) ;; Ok (Go (false, u64 (Z.shiftl i 1), j))
  else Ok (Stop j).
Definition walk_left (left right : arr) (lim i j : Z) : res Z :=
  loop 1100 (left_step left right lim) (true, i, j).

(** shuf.go:139-148: the head of a block.  shuf.go:147 builds the position table for
    [Np] = 17 lengths. *)
Definition block_head (n1 : Z) (h : huf) (r : rst) : res (huf * rst) :=
  '(b, r) <- getbits 16 r ;;
  '(h, r) <- readTreeC n1 (set_blocksize b h) r ;;
  '(x, r) <- getbits 1 r ;;
  '(h, r) <- (if x =? 0 then h <- readyMade 1 h ;; Ok (h, r) else readTreeP h r) ;;
  h <- use_pt Np h ;;
  Ok (h, r).

(** shuf.go:135-173 decodeCSt0 *)
Definition decodeCSt0 (n1 : Z) (h : huf) (r : rst) : res (Z * huf * rst) :=
  '(h, r) <- (if blocksize h =? 0 then block_head n1 h r else Ok (h, r)) ;;
  let h := set_blocksize (u16 (blocksize h - 1)) h in
  j <- aget (cTable h) (peekbits 12 r) ;;
  '(j, r) <-
    (if j <? n1 then
       l <- aget (cLen h) j ;; r <- fillbuf l r ;; Ok (j, r)
     else
       r <- fillbuf 12 r ;;
       j <- walk_left (left h) (right h) n1 (bitbuf r) j ;;
       l <- aget (cLen h) j ;;
       r <- fillbuf (u8 (l - 12)) r ;;
       Ok (j, r)) ;;
  if j =? n1 - 1 then
    '(x, r) <- getbits 8 r ;; Ok (u16 (j + x), h, r)
  else Ok (u16 j, h, r).

(** shuf.go:177-202 decodePSt0 *)
Definition decodePSt0 (h : huf) (r : rst) : res (Z * rst) :=
  j <- aget (ptTable h) (peekbits 8 r) ;;
  '(j, r) <-
    (if j <? np h then
       l <- aget (ptLen h) j ;; r <- fillbuf l r ;; Ok (j, r)
     else
       r <- fillbuf 8 r ;;
       j <- walk_left (left h) (right h) (np h) (bitbuf r) j ;;
       l <- aget (ptLen h) j ;;
       r <- fillbuf (u8 (l - 8)) r ;;
       Ok (j, r)) ;;
  '(x, r) <- getbits 6 r ;;
  Ok (u16 (Z.shiftl j 6 + x), r).
