(** Model of maketbl.go: the decoding table and its overflow tree. *)
From Verif Require Import Go.

(** Where the pointer [p] of the tree insertion points: maketbl.go:5-11
    ([assignmentType] together with [pIndex]). *)
Inductive where_ := InTable | InRight | InLeft.

Record tbl := TB { t_table : arr; t_left : arr; t_right : arr; t_avail : Z }.

(** maketbl.go:100-110 and 129-136: store through the pointer. *)
Definition store (w : where_) (p v : Z) (s : tbl) : res tbl :=
  match w with
  | InTable => t <- aset (t_table s) p v ;; Ok (TB t (t_left s) (t_right s) (t_avail s))
  | InRight => r <- aset (t_right s) p v ;; Ok (TB (t_table s) (t_left s) r (t_avail s))
  | InLeft => l <- aset (t_left s) p v ;; Ok (TB (t_table s) l (t_right s) (t_avail s))
  end.

(** maketbl.go:94-128: one level of the insertion of a long code.  State: the
    pointer, the value it points to, the shifted code and the slices. *)
Definition ins_step (st : where_ * Z * Z * Z * tbl) : res (where_ * Z * Z * Z * tbl) :=
  let '(w, p, pv, i, s) := st in
  '(pv, s) <-
    (if pv =? 0 then
       let a := t_avail s in
       l <- aset (t_left s) a 0 ;;
       r <- aset (t_right s) a 0 ;;
       s <- store w p (u16 a) (TB (t_table s) l r a) ;;
       Ok (u16 a, TB (t_table s) (t_left s) (t_right s) (a + 1))
     else Ok (pv, s)) ;;
  if Z.testbit i 15 then
    v <- aget (t_right s) pv ;; Ok (InRight, pv, v, Z.shiftl i 1, s)
  else
    v <- aget (t_left s) pv ;; Ok (InLeft, pv, v, Z.shiftl i 1, s).

(** maketbl.go:82-137: the code of symbol [j], longer than the table is wide. *)
Definition insert_long (m tablebits k start_k j : Z) (s : tbl) : res tbl :=
  let p := Z.shiftr start_k m in
  pv <- aget (t_table s) p ;;
  '(w, p, _, _, s) <-
    forZ 0 (k - tablebits) (fun _ st => ins_step st)
      (InTable, p, pv, Z.shiftl start_k tablebits, s) ;;
  store w p (u16 j) s.

(** maketbl.go:69-139: the loop over the symbols.  [Stop] is the early return
    "bad table (case c)". *)
Definition tbl_step (bitlen : arr) (m tablebits : Z) (weight : arr) (j : Z) (st : arr * tbl)
  : res (ctl (arr * tbl) tbl) :=
  let '(start, s) := st in
  k <- aget bitlen j ;;
  if k =? 0 then Ok (Go (start, s))
  else
    sk <- aget start k ;;
    wk <- aget weight k ;;
    let l := sk + wk in
    if k <=? tablebits then
      let l := Z.min l 4096 in
      t <- forZ sk l (fun i t => aset t i (u16 j)) (t_table s) ;;
      start <- aset start k (u16 l) ;;
      Ok (Go (start, TB t (t_left s) (t_right s) (t_avail s)))
    else if 4096 <? Z.shiftr sk m then Ok (Stop s)
    else
      s <- insert_long m tablebits k sk j s ;;
      start <- aset start k (u16 l) ;;
      Ok (Go (start, s)).

(** maketbl.go:24-41: counting the lengths; [Stop] is "bad table (case a)". *)
Definition tbl_count (nchar : Z) (bitlen : arr) : res (ctl arr unit) :=
  for_ctl (Z.to_nat nchar) 0 (fun i count =>
    b <- aget bitlen i ;;
    if 16 <? b then Ok (Stop tt)
    else
      c <- aget count b ;;
      count <- aset count b (u16 (c + 1)) ;;
      Ok (Go count)) (amake 17).

(** maketbl.go:43-48: first code of each length. *)
Definition tbl_start (count : arr) : res (arr * arr * Z) :=
  forZ 1 17 (fun i '(start, weight, total) =>
    start <- aset start i total ;;
    let w := Z.shiftl 1 (16 - i) in
    weight <- aset weight i w ;;
    n <- aget count i ;;
    Ok (start, weight, u16 (total + u16 (w * n)))) (amake 17, amake 17, 0).

(** maketbl.go:13-140 makeTable.  Returns whether it succeeded and the slices.
    [tablebits] is 8 or 12 at every call site, so the test [tablebits > 16] is
    part of the model but never fires. *)
Definition makeTable (nchar : Z) (bitlen : arr) (tablebits : Z) (table left right : arr)
  : res (bool * tbl) :=
  let s0 := TB table left right nchar in
  c <- tbl_count nchar bitlen ;;
  match c with
  | Stop _ => Ok (false, s0)
  | Go count =>
      '(start, weight, total) <- tbl_start count ;;
      if negb (Z.land total 65535 =? 0) || (16 <? tablebits) then Ok (false, s0)
      else
        let m := 16 - tablebits in
        '(start, weight) <-
          forZ 1 (tablebits + 1) (fun i '(start, weight) =>
            a <- aget start i ;;
            start <- aset start i (Z.shiftr a m) ;;
            b <- aget weight i ;;
            weight <- aset weight i (Z.shiftr b m) ;;
            Ok (start, weight)) (start, weight) ;;
        s <- aget start (tablebits + 1) ;;
        let j := Z.shiftr s m in
        let k := Z.min (Z.shiftl 1 tablebits) 4096 in
        table <- (if j =? 0 then Ok table
                  else forZ j k (fun i t => aset t i 0) table) ;;
        c <- for_ctl (Z.to_nat nchar) 0 (tbl_step bitlen m tablebits weight)
               (start, TB table left right nchar) ;;
        match c with
        | Stop s => Ok (false, s)
        | Go (_, s) => Ok (true, s)
        end
  end.
