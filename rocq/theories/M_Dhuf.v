(** Model of dhuf.go: the adaptive Huffman code of -lh1- and -lh2-. *)
From Verif Require Import Go M_Bitio.

(** dhuf.go:22-32: sizes *)
Definition nChar : Z := 314.
Definition treesizeC : Z := 628.
Definition treesize : Z := 884.
Definition rootC : Z := 0.
Definition rootP : Z := 628.

(** The package variables of dhuf.go:3-20 and [n1] (macro.go:178), which the -lh3-
    decoder shares.  The entries of all arrays but [k_freq] are node numbers, block
    numbers or complements of symbols, all below 884 in absolute value, so the
    conversions to int16 are left out.  [k_freq] holds uint16. *)
Record dh := DH {
  k_child : arr;
  k_parent : arr;
  k_block : arr;
  k_edge : arr;
  k_stock : arr;
  k_snode : arr;
  k_freq : arr;
  k_totalP : Z;
  k_avail : Z;
  k_mostP : Z;
  k_nn : Z;
  k_next : Z;      (* nextcount, also used by -pm2- *)
  k_n1 : Z;
  k_nMax : Z
}.

(** Process start: macro.go:178 gives [n1]. *)
Definition dh0 : dh :=
  DH (amake treesize) (amake treesize) (amake treesize) (amake treesize) (amake treesize) (amake 442) (amake treesize) 0 0 0 0 0 286 0.

Definition set_child v d := DH v (k_parent d) (k_block d) (k_edge d) (k_stock d) (k_snode d) (k_freq d) (k_totalP d) (k_avail d) (k_mostP d) (k_nn d) (k_next d) (k_n1 d) (k_nMax d).
Definition set_parent v d := DH (k_child d) v (k_block d) (k_edge d) (k_stock d) (k_snode d) (k_freq d) (k_totalP d) (k_avail d) (k_mostP d) (k_nn d) (k_next d) (k_n1 d) (k_nMax d).
Definition set_block v d := DH (k_child d) (k_parent d) v (k_edge d) (k_stock d) (k_snode d) (k_freq d) (k_totalP d) (k_avail d) (k_mostP d) (k_nn d) (k_next d) (k_n1 d) (k_nMax d).
Definition set_edge v d := DH (k_child d) (k_parent d) (k_block d) v (k_stock d) (k_snode d) (k_freq d) (k_totalP d) (k_avail d) (k_mostP d) (k_nn d) (k_next d) (k_n1 d) (k_nMax d).
Definition set_stock v d := DH (k_child d) (k_parent d) (k_block d) (k_edge d) v (k_snode d) (k_freq d) (k_totalP d) (k_avail d) (k_mostP d) (k_nn d) (k_next d) (k_n1 d) (k_nMax d).
Definition set_snode v d := DH (k_child d) (k_parent d) (k_block d) (k_edge d) (k_stock d) v (k_freq d) (k_totalP d) (k_avail d) (k_mostP d) (k_nn d) (k_next d) (k_n1 d) (k_nMax d).
Definition set_freq v d := DH (k_child d) (k_parent d) (k_block d) (k_edge d) (k_stock d) (k_snode d) v (k_totalP d) (k_avail d) (k_mostP d) (k_nn d) (k_next d) (k_n1 d) (k_nMax d).
Definition set_totalP v d := DH (k_child d) (k_parent d) (k_block d) (k_edge d) (k_stock d) (k_snode d) (k_freq d) v (k_avail d) (k_mostP d) (k_nn d) (k_next d) (k_n1 d) (k_nMax d).
Definition set_avail v d := DH (k_child d) (k_parent d) (k_block d) (k_edge d) (k_stock d) (k_snode d) (k_freq d) (k_totalP d) v (k_mostP d) (k_nn d) (k_next d) (k_n1 d) (k_nMax d).
Definition set_mostP v d := DH (k_child d) (k_parent d) (k_block d) (k_edge d) (k_stock d) (k_snode d) (k_freq d) (k_totalP d) (k_avail d) v (k_nn d) (k_next d) (k_n1 d) (k_nMax d).
Definition set_nn v d := DH (k_child d) (k_parent d) (k_block d) (k_edge d) (k_stock d) (k_snode d) (k_freq d) (k_totalP d) (k_avail d) (k_mostP d) v (k_next d) (k_n1 d) (k_nMax d).
Definition set_next v d := DH (k_child d) (k_parent d) (k_block d) (k_edge d) (k_stock d) (k_snode d) (k_freq d) (k_totalP d) (k_avail d) (k_mostP d) (k_nn d) v (k_n1 d) (k_nMax d).
Definition set_n1 v d := DH (k_child d) (k_parent d) (k_block d) (k_edge d) (k_stock d) (k_snode d) (k_freq d) (k_totalP d) (k_avail d) (k_mostP d) (k_nn d) (k_next d) v (k_nMax d).
Definition set_nMax v d := DH (k_child d) (k_parent d) (k_block d) (k_edge d) (k_stock d) (k_snode d) (k_freq d) (k_totalP d) (k_avail d) (k_mostP d) (k_nn d) (k_next d) (k_n1 d) v.

(** Assignments to an element. *)
Definition put_child i v d := a <- aset (k_child d) i v ;; Ok (set_child a d).
Definition put_parent i v d := a <- aset (k_parent d) i v ;; Ok (set_parent a d).
Definition put_block i v d := a <- aset (k_block d) i v ;; Ok (set_block a d).
Definition put_edge i v d := a <- aset (k_edge d) i v ;; Ok (set_edge a d).
Definition put_stock i v d := a <- aset (k_stock d) i v ;; Ok (set_stock a d).
Definition put_snode i v d := a <- aset (k_snode d) i v ;; Ok (set_snode a d).
Definition put_freq i v d := a <- aset (k_freq d) i v ;; Ok (set_freq a d).

(** dhuf.go:66-67, 147-150 and others: take a block number from the stock for node
    [p] and make [p] its edge. *)
Definition new_block (p : Z) (d : dh) : res dh :=
  b <- aget (k_stock d) (k_avail d) ;;
  d <- put_block p b d ;;
  put_edge b p (set_avail (k_avail d + 1) d).

(** dhuf.go:42-45: one step of the first loop of startCDyn *)
Definition start_clear (i : Z) (d : dh) : res dh :=
  d <- put_stock i i d ;; put_block i 0 d.

(** dhuf.go:48-54: the leaves, symbol [i] at node [2 * nMax - 2 - i] *)
Definition start_leaf (nMax i : Z) (d : dh) : res dh :=
  let j := 2 * nMax - 2 - i in
  d <- put_freq j 1 d ;;
  d <- put_child j (- i - 1) d ;;
  d <- put_snode i j d ;;
  put_block j 1 d.

(** dhuf.go:58-75: the inner nodes, from [nMax - 2] down to 0; [t] counts them *)
Definition start_inner (nMax t : Z) (d : dh) : res dh :=
  let j := nMax - 2 - t in
  let i := 2 * nMax - 2 - 2 * t in
  f1 <- aget (k_freq d) i ;;
  f2 <- aget (k_freq d) (i - 1) ;;
  let f := u16 (f1 + f2) in
  d <- put_freq j f d ;;
  d <- put_child j i d ;;
  d <- put_parent (i - 1) j d ;;
  d <- put_parent i j d ;;
  g <- aget (k_freq d) (j + 1) ;;
  if f =? g then
    b <- aget (k_block d) (j + 1) ;;
    d <- put_block j b d ;;
    put_edge b j d
  else new_block j d.

(** dhuf.go:34-75 startCDyn; [maxmatch] and [nMax] are set by the caller just before *)
Definition startCDyn (nMax maxmatch : Z) (d : dh) : res dh :=
  let d := set_nMax nMax d in
  let d := set_n1 (if u16 (256 + maxmatch - 3 + 1) <=? nMax then nMax - 1 else 512) d in
  d <- forZ 0 treesizeC start_clear d ;;
  d <- forZ 0 nMax (start_leaf nMax) d ;;
  let d := set_avail 2 d in
  d <- put_edge 1 (nMax - 1) d ;;
  forZ 0 (nMax - 1) (start_inner nMax) d.

(** dhuf.go:77-88 startPDyn *)
Definition startPDyn (dicbit : Z) (d : dh) : res dh :=
  d <- put_freq rootP 1 d ;;
  d <- put_child rootP (- nChar - 1) d ;;
  d <- put_snode nChar rootP d ;;
  d <- new_block rootP d ;;
  Ok (set_next 64 (set_nn (Z.shiftl 1 dicbit) (set_totalP 0 (set_mostP rootP d)))).

(** dhuf.go:104-117: gather the leaves at the front with halved frequencies and
    give the blocks back; [j] is where the next leaf goes *)
Definition reconst_leaves (i : Z) (s : Z * Z * dh) : res (Z * Z * dh) :=
  let '(j, _, d) := s in
  k <- aget (k_child d) i ;;
  '(j, d) <- (if k <? 0 then
                f <- aget (k_freq d) i ;;
                d <- put_freq j (u16 (f + 1) / 2) d ;;
                d <- put_child j k d ;;
                Ok (j + 1, d)
              else Ok (j, d)) ;;
  b <- aget (k_block d) i ;;
  e <- aget (k_edge d) b ;;
  if e =? i then
    d <- put_stock (k_avail d - 1) b (set_avail (k_avail d - 1) d) ;;
    Ok (j, b, d)
  else Ok (j, b, d).

(** dhuf.go:122-127 and 131-136: move entries down while [lim <= x], where [x] is
    the target (first loop) or the source (second loop) *)
Definition reconst_move (target : bool) (lim : Z) (s : Z * Z * dh) : res (ctl (Z * Z * dh) (Z * Z * dh)) :=
  let '(i, j, d) := s in
  if lim <=? (if target then i else j) then
    f <- aget (k_freq d) j ;;
    d <- put_freq i f d ;;
    c <- aget (k_child d) j ;;
    d <- put_child i c d ;;
    Ok (Go (i - 1, j - 1, d))
  else Ok (Stop (i, j, d)).

(** dhuf.go:121-141: make one inner node *)
Definition reconst_join (start : Z) (s : Z * Z * Z * dh) : res (ctl (Z * Z * Z * dh) dh) :=
  let '(i, j, l, d) := s in
  if start <=? i then
    '(i, j, d) <- loop (treesize + 2) (reconst_move true l) (i, j, d) ;;
    f1 <- aget (k_freq d) l ;;
    f2 <- aget (k_freq d) (l + 1) ;;
    let f := u16 (f1 + f2) in
    k <- loop (treesize + 2) (fun k => g <- aget (k_freq d) k ;; if f <? g then Ok (Go (k + 1)) else Ok (Stop k)) start ;;
    '(i, j, d) <- loop (treesize + 2) (reconst_move false k) (i, j, d) ;;
    d <- put_freq i f d ;;
    d <- put_child i (l + 1) d ;;
    Ok (Go (i - 1, j, l - 2, d))
  else Ok (Stop d).

(** dhuf.go:143-160: parents, symbols' nodes and blocks *)
Definition reconst_links (i : Z) (s : Z * Z * dh) : res (Z * Z * dh) :=
  let '(f, b, d) := s in
  j <- aget (k_child d) i ;;
  d <- (if j <? 0 then put_snode (- j - 1) i d
        else d <- put_parent (j - 1) i d ;; put_parent j i d) ;;
  g <- aget (k_freq d) i ;;
  if g =? f then
    d <- put_block i b d ;; Ok (f, b, d)
  else
    d <- new_block i d ;;
    b <- aget (k_block d) i ;;
    Ok (g, b, d).

(** dhuf.go:99-161 reconst *)
Definition reconst (start end_ : Z) (d : dh) : res dh :=
  '(j, b, d) <- forZ start end_ reconst_leaves (start, 0, d) ;;
  d <- loop (treesize + 2) (reconst_join start) (end_ - 1, j - 1, end_ - 2, d) ;;
  '(_, _, d) <- forZ start end_ reconst_links (0, b, d) ;;
  Ok d.

(** dhuf.go:171-180: hang the subtree or leaf [r] under node [q] *)
Definition hang (r q : Z) (d : dh) : res dh :=
  if 0 <=? r then d <- put_parent (r - 1) q d ;; put_parent r q d
  else put_snode (- r - 1) q d.

(** dhuf.go:184-191 and 197-204: raise the frequency of [p], which left the block
    below it *)
Definition raise (p : Z) (d : dh) : res dh :=
  f <- aget (k_freq d) p ;;
  d <- put_freq p (u16 (f + 1)) d ;;
  f <- aget (k_freq d) p ;;
  g <- aget (k_freq d) (p - 1) ;;
  if f =? g then
    b <- aget (k_block d) (p - 1) ;;
    put_block p b d
  else new_block p d.

(** dhuf.go:163-216 swapInc.  Returns the parent of the node that was raised. *)
Definition swapInc (p : Z) (d : dh) : res (Z * dh) :=
  b <- aget (k_block d) p ;;
  q <- aget (k_edge d) b ;;
  '(p, d) <-
    (if negb (q =? p) then
       r <- aget (k_child d) p ;;
       s <- aget (k_child d) q ;;
       d <- put_child p s d ;;
       d <- put_child q r d ;;
       d <- hang r q d ;;
       d <- hang s p d ;;
       e <- aget (k_edge d) b ;;
       d <- put_edge b (e + 1) d ;;
       d <- raise q d ;;
       Ok (q, d)
     else
       b1 <- aget (k_block d) (p + 1) ;;
       if b =? b1 then
         e <- aget (k_edge d) b ;;
         d <- put_edge b (e + 1) d ;;
         d <- raise p d ;;
         Ok (p, d)
       else
         f <- aget (k_freq d) p ;;
         d <- put_freq p (u16 (f + 1)) d ;;
         f <- aget (k_freq d) p ;;
         g <- aget (k_freq d) (p - 1) ;;
         if f =? g then
           d <- put_stock (k_avail d - 1) b (set_avail (k_avail d - 1) d) ;;
           b <- aget (k_block d) (p - 1) ;;
           d <- put_block p b d ;;
           Ok (p, d)
         else Ok (p, d)) ;;
  u <- aget (k_parent d) p ;;
  Ok (u, d).

(** dhuf.go:218-232 updateC *)
Definition updateC (p : Z) (d : dh) : res dh :=
  f <- aget (k_freq d) rootC ;;
  d <- (if f =? 32768 then reconst 0 (k_nMax d * 2 - 1) d else Ok d) ;;
  f <- aget (k_freq d) rootC ;;
  d <- put_freq rootC (u16 (f + 1)) d ;;
  q <- aget (k_snode d) p ;;
  loop (treesize + 2) (fun '(q, d) =>
    '(q, d) <- swapInc q d ;;
    if q =? rootC then Ok (Stop d) else Ok (Go (q, d))) (q, d).

(** dhuf.go:234-247 updateP *)
Definition updateP (p : Z) (d : dh) : res dh :=
  d <- (if k_totalP d =? 32768 then
          d <- reconst rootP (k_mostP d + 1) d ;;
          f <- aget (k_freq d) rootP ;;
          put_freq rootP 65535 (set_totalP f d)
        else Ok d) ;;
  q <- aget (k_snode d) (p + nChar) ;;
  d <- loop (treesize + 2) (fun '(q, d) =>
         if q =? rootP then Ok (Stop d)
         else '(q, d) <- swapInc q d ;; Ok (Go (q, d))) (q, d) ;;
  Ok (set_totalP (u16 (k_totalP d + 1)) d).

(** dhuf.go:249-274 makeNewNode *)
Definition makeNewNode (p : Z) (d : dh) : res dh :=
  let m := k_mostP d in
  let r := m + 1 in
  let q := r + 1 in
  c <- aget (k_child d) m ;;
  d <- put_child r c d ;;
  d <- put_snode (- c - 1) r d ;;
  d <- put_child q (- (p + nChar) - 1) d ;;
  d <- put_child m q d ;;
  f <- aget (k_freq d) m ;;
  d <- put_freq r f d ;;
  d <- put_freq q 0 d ;;
  b <- aget (k_block d) m ;;
  d <- put_block r b d ;;
  d <- (if m =? rootP then
          d <- put_freq rootP 65535 d ;;
          b <- aget (k_block d) rootP ;;
          e <- aget (k_edge d) b ;;
          put_edge b (e + 1) d
        else Ok d) ;;
  d <- put_parent q m d ;;
  d <- put_parent r m d ;;
  let d := set_mostP q d in
  d <- put_snode (p + nChar) q d ;;
  d <- new_block q d ;;
  updateP p d.

(** dhuf.go:314-334 and 355-371: follow the bits of the input from node [c] to a leaf
    (the first test of the condition is skipped when [first]); [cnt] counts the bits
    of the current 16 that were used, [buf] holds those still to be used.  A path has
    less than [treesize] nodes. *)
Definition follow_step (child : arr) (s : bool * Z * Z * Z * rst) : res (ctl (bool * Z * Z * Z * rst) (Z * Z * rst)) :=
  let '(first, c, buf, cnt, r) := s in
  if first || (0 <? c) then
    c <- aget child (if buf <? 32768 then c else c - 1) ;;
    let buf := u16 (buf * 2) in
    let cnt := cnt + 1 in
    if cnt =? 16 then
      r <- fillbuf 16 r ;;
      Ok (Go (false, c, bitbuf r, 0, r))
    else Ok (Go (false, c, buf, cnt, r))
  else Ok (Stop (c, cnt, r)).

Definition follow (child : arr) (first : bool) (c : Z) (r : rst) : res (Z * rst) :=
  '(c, cnt, r) <- loop (treesize + 2) (follow_step child) (first, c, bitbuf r, 0, r) ;;
  r <- fillbuf cnt r ;;
  Ok (c, r).

(** dhuf.go:310-341 decodeCDyn *)
Definition decodeCDyn (d : dh) (r : rst) : res (Z * dh * rst) :=
  c <- aget (k_child d) rootC ;;
  '(c, r) <- follow (k_child d) true c r ;;
  let c := - c - 1 in
  d <- updateC c d ;;
  if c =? k_n1 d then
    '(x, r) <- getbits 8 r ;;
    Ok (u16 (c + x), d, r)
  else Ok (u16 c, d, r).

(** dhuf.go:348-354: positions come into use as the window fills; [count] is
    decodeCount.  After the last one the limit is 0xffffffff. *)
Definition grow_p (count : Z) (d : dh) : res dh :=
  loop (treesize + 2) (fun d =>
    if k_next d <? count then
      d <- makeNewNode (k_next d / 64) d ;;
      let n := k_next d + 64 in
      Ok (Go (set_next (if k_nn d <=? n then 4294967295 else n) d))
    else Ok (Stop d)) d.

(** dhuf.go:343-375 decodePDyn *)
Definition decodePDyn (count : Z) (d : dh) (r : rst) : res (Z * dh * rst) :=
  d <- grow_p count d ;;
  c <- aget (k_child d) rootP ;;
  '(c, r) <- follow (k_child d) false c r ;;
  let c := - c - 1 - nChar in
  d <- updateP c d ;;
  '(x, r) <- getbits 6 r ;;
  Ok (u16 (u16 (Z.shiftl (u16 c) 6) + x), d, r).
