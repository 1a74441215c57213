(** Model of maketree.go: building the Huffman code of a block.  The package
    variables [left] and [right] (huf.go:9-10) are passed and returned. *)
From Verif Require Import Go.

(** macro.go:501, 503, 521 *)
Definition Nc : Z := 510.
Definition Nt : Z := 19.
Definition Np : Z := 17.
Definition Npt : Z := 128.

(** maketree.go:3-22 makeCode *)
Definition makeCode (nchar : Z) (bitlen code leafNum : arr) : res arr :=
  '(start, weight, total) <-
    forZ 1 17 (fun i '(start, weight, total) =>
      start <- aset start i total ;;
      let w := Z.shiftl 1 (16 - i) in
      weight <- aset weight i w ;;
      n <- aget leafNum i ;;
      Ok (start, weight, u16 (total + u16 (w * n))))
      (amake 17, amake 17, 0) ;;
  '(_, code) <-
    forZ 0 nchar (fun c '(start, code) =>
      i <- aget bitlen c ;;
      s <- aget start i ;;
      code <- aset code c s ;;
      w <- aget weight i ;;
      start <- aset start i (u16 (s + w)) ;;
      Ok (start, code)) (start, code) ;;
  Ok code.

(** maketree.go:24-35 countLeaf; the recursion depth is bounded by [fuel]. *)
Fixpoint countLeaf (fuel : nat) (left right : arr) (node nchar : Z) (leaf_num : arr)
  (depth : Z) : res arr :=
  match fuel with
  | O => NoFuel
  | S fuel' =>
      if node <? nchar then
        let d := if depth <? 16 then depth else 16 in
        v <- aget leaf_num d ;;
        aset leaf_num d (u16 (v + 1))
      else
        l <- aget left node ;;
        leaf_num <- countLeaf fuel' left right l nchar leaf_num (depth + 1) ;;
        r <- aget right node ;;
        countLeaf fuel' left right r nchar leaf_num (depth + 1)
  end.

(** maketree.go:52-58, the inner loop of the repair: the first [i] from 15 down
    to 1 with leaves at that depth. *)
Definition split_leaf (leafNum : arr) : res arr :=
  c <- for_ctl 15 0 (fun t leafNum =>
    let i := 15 - t in
    v <- aget leafNum i ;;
    if v =? 0 then Ok (Go leafNum)
    else
      leafNum <- aset leafNum i (u16 (v - 1)) ;;
      w <- aget leafNum (i + 1) ;;
      leafNum <- aset leafNum (i + 1) (u16 (w + 2)) ;;
      Ok (Stop leafNum)) leafNum ;;
  match c with Go l => Ok l | Stop l => Ok l end.

(** maketree.go:37-71 makeLen; [sort] is the slice [code] at the call site. *)
Definition makeLen (bitlen sort leafNum : arr) : res (arr * arr) :=
  cum <- forZ 0 16 (fun t cum =>
    let i := 16 - t in
    v <- aget leafNum i ;;
    Ok (cum + Z.shiftl v (16 - i))) 0 ;;
  let cum := Z.land cum 65535 in
  leafNum <-
    (if cum =? 0 then Ok leafNum
     else
       v <- aget leafNum 16 ;;
       leafNum <- aset leafNum 16 (u16 (v - u16 cum)) ;;
       forZ 0 cum (fun _ leafNum => split_leaf leafNum) leafNum) ;;
  '(bitlen, _) <-
    forZ 0 16 (fun t '(bitlen, sortIndex) =>
      let i := 16 - t in
      k <- aget leafNum i ;;
      forZ 0 k (fun _ '(bitlen, sortIndex) =>
        c <- aget sort sortIndex ;;
        bitlen <- aset bitlen c i ;;
        Ok (bitlen, sortIndex + 1)) (bitlen, sortIndex)) (bitlen, 0) ;;
  Ok (bitlen, leafNum).

(** maketree.go:74-91 downheap *)
Definition downheap (i : Z) (heap : arr) (heapsize : Z) (freq : arr) : res arr :=
  k <- aget heap i ;;
  let k := u16 k in
  '(heap, i) <-
    loop (heapsize + 2) (fun '(heap, i, j) =>
      if j <=? u16 heapsize then
        j <- (if j <? u16 heapsize then
                h0 <- aget heap j ;;
                f0 <- aget freq h0 ;;
                h1 <- aget heap (u16 (j + 1)) ;;
                f1 <- aget freq h1 ;;
                Ok (if f1 <? f0 then u16 (j + 1) else j)
              else Ok j) ;;
        fk <- aget freq k ;;
        hj <- aget heap j ;;
        fj <- aget freq hj ;;
        if fk <=? fj then Ok (Stop (heap, i))
        else
          heap <- aset heap i hj ;;
          Ok (Go (heap, j, u16 (2 * j)))
      else Ok (Stop (heap, i))) (heap, i, u16 (2 * u16 i)) ;;
  aset heap i (i16 k).

(** The variables of the main loop of makeTree. *)
Record mt := MT {
  mt_heap : arr;
  mt_heapsize : Z;
  mt_code : arr;
  mt_sort : Z;
  mt_avail : Z;
  mt_freq : arr;
  mt_left : arr;
  mt_right : arr
}.

(** maketree.go:124-150, one iteration of the loop that merges the two least
    frequent entries. *)
Definition mt_step (nchar : Z) (s : mt) : res (ctl mt mt) :=
  i <- aget (mt_heap s) 1 ;;
  '(code, sort) <-
    (if i <? nchar then
       code <- aset (mt_code s) (mt_sort s) (u16 i) ;; Ok (code, mt_sort s + 1)
     else Ok (mt_code s, mt_sort s)) ;;
  h <- aget (mt_heap s) (mt_heapsize s) ;;
  heap <- aset (mt_heap s) 1 h ;;
  let heapsize := mt_heapsize s - 1 in
  heap <- downheap 1 heap heapsize (mt_freq s) ;;
  j <- aget heap 1 ;;
  '(code, sort) <-
    (if j <? nchar then
       code <- aset code sort (u16 j) ;; Ok (code, sort + 1)
     else Ok (code, sort)) ;;
  let root := mt_avail s in
  fi <- aget (mt_freq s) i ;;
  fj <- aget (mt_freq s) j ;;
  freq <- aset (mt_freq s) root (u16 (fi + fj)) ;;
  heap <- aset heap 1 root ;;
  heap <- downheap 1 heap heapsize freq ;;
  left <- aset (mt_left s) root (u16 i) ;;
  right <- aset (mt_right s) root (u16 j) ;;
  let s' := MT heap heapsize code sort (root + 1) freq left right in
  if heapsize <=? 1 then Ok (Stop s') else Ok (Go s').

(** Result of makeTree: the root it returns and the slices it changed. *)
Record mtres := MTR {
  r_root : Z;
  r_freq : arr;
  r_bitlen : arr;
  r_code : arr;
  r_left : arr;
  r_right : arr
}.

(** maketree.go:105-115: the used symbols are put on the heap. *)
Definition mt_collect (nchar : Z) (freq bitlen : arr) : res (arr * Z * arr) :=
  heap <- aset (amake (Nc + 1)) 1 0 ;;
  forZ 0 nchar (fun i '(heap, heapsize, bitlen) =>
    bitlen <- aset bitlen i 0 ;;
    f <- aget freq i ;;
    if f =? 0 then Ok (heap, heapsize, bitlen)
    else
      heap <- aset heap (heapsize + 1) i ;;
      Ok (heap, heapsize + 1, bitlen)) (heap, 0, bitlen).

(** maketree.go:94-167 makeTree.  [int16] variables hold values below 1019 here,
    so their wrap-around is not modelled. *)
Definition makeTree (nchar : Z) (freq bitlen code left right : arr) : res mtres :=
  '(heap, heapsize, bitlen) <- mt_collect nchar freq bitlen ;;
  if heapsize <? 2 then
    h <- aget heap 1 ;;
    code <- aset code h 0 ;;
    Ok (MTR h freq bitlen code left right)
  else
    heap <- forZ 0 (heapsize / 2) (fun t heap =>
              downheap (heapsize / 2 - t) heap heapsize freq) heap ;;
    s <- loop (heapsize + 1) (mt_step nchar)
           (MT heap heapsize code 0 nchar freq left right) ;;
    let root := mt_avail s - 1 in
    leaf_num <- countLeaf (Z.to_nat (root + 1)) (mt_left s) (mt_right s) root nchar (amake 17) 0 ;;
    '(bitlen, leaf_num) <- makeLen bitlen (mt_code s) leaf_num ;;
    code <- makeCode nchar bitlen (mt_code s) leaf_num ;;
    Ok (MTR root (mt_freq s) bitlen code (mt_left s) (mt_right s)).
