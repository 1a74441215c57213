(** Model of pmtree.go and pm.go: the code trees and the decoder of -pm2-. *)
From Verif Require Import Go M_Bitio M_Pm2hist.

(** pmtree.go:5-9 *)
Record ptree := PT { pt_root : Z; pt_left : arr; pt_right : arr }.

(** pmtree.go:11-20, pm.go:34-40, pm2hist.go:31-35: package variables.  [dicsiz1] is set
    by decodeStartPm2 to the constant 8191. *)
Record pm := PM {
  pm_hist : hist;
  pm_tree1 : ptree;
  pm_tree2 : ptree;
  pm_bound : Z;     (* tree1bound, byte *)
  pm_min : Z;       (* mindepth, byte *)
  pm_last : Z;      (* lastupdate *)
  pm_get : Z        (* gettree1, byte *)
}.

Definition pm0 : pm := PM hist0 (PT 0 (amake 32) (amake 32)) (PT 0 (amake 8) (amake 8)) 0 0 0 0.

(** pmtree.go:113-115 treeSetsingle *)
Definition treeSetsingle (t : ptree) (value : Z) : ptree := PT (Z.lor 128 value) (pt_left t) (pt_right t).

(** pmtree.go:126-149: is the table a complete code?  The sum there is one of multiples
    of 1/2^31 below 64, which a float64 holds exactly; here it is scaled by 2^31.
    [Some] is the result of the test, an entry above 31 is the panic of count[]. *)
Definition count_step (table : list Z) (maxdepth i : Z) (s : option arr) : res (option arr) :=
  match s with
  | None => Ok None
  | Some count =>
      let v := nth (Z.to_nat i) table 0 in
      if maxdepth <? v then Ok None
      else n <- aget count v ;; c <- aset count v (n + 1) ;; Ok (Some c)
  end.

Definition sum_step (count : arr) (i : Z) (s : option Z) : res (option Z) :=
  match s with
  | None => Ok None
  | Some total =>
      n <- aget count i ;;
      if Z.shiftl 1 i <? n then Ok None else Ok (Some (total + n * 2 ^ (31 - i)))
  end.

Definition complete (table : list Z) (bound mindepth maxdepth : Z) : res bool :=
  c <- forZ 0 bound (count_step table maxdepth) (Some (amake 32)) ;;
  match c with
  | None => Ok false
  | Some count =>
      t <- forZ mindepth (maxdepth + 1) (sum_step count) (Some 0) ;;
      Ok (match t with Some total => total =? 2 ^ 31 | None => false end)
  end.

(** State while a tree is built: left, right, parent arrays, [curr], [empty]. *)
Record pst := PST { b_left : arr; b_right : arr; b_par : arr; b_curr : Z; b_empty : Z }.

(** pmtree.go:178-185: go up to a node without a right child; [None] is the return at
    the root.  [n] counts the levels. *)
Definition climb (s : pst) : res (option (Z * Z)) :=
  loop 40 (fun '(curr, n) =>
    r <- aget (b_right s) curr ;;
    if r =? 0 then Ok (Stop (Some (curr, n)))
    else if curr =? 0 then Ok (Stop None)
    else p <- aget (b_par s) curr ;; Ok (Go (p, n + 1))) (b_curr s, 0).

(** pmtree.go:188-198: go down again by new nodes *)
Definition descend_step (s : Z * pst) : res (ctl (Z * pst) pst) :=
  let '(n, s) := s in
  p <- aset (b_par s) (b_empty s) (u8 (b_curr s)) ;;
  let curr := b_empty s in
  let empty := b_empty s + 1 in
  let n := n - 1 in
  if n =? 0 then Ok (Stop (PST (b_left s) (b_right s) p curr empty))
  else l <- aset (b_left s) curr (u8 empty) ;; Ok (Go (n, PST l (b_right s) p curr empty)).

(** pmtree.go:169-198: symbol [i] at depth [d]; [Stop] is the return of the finished tree *)
Definition place_step (table : list Z) (d i : Z) (s : pst) : res (ctl pst pst) :=
  if negb (nth (Z.to_nat i) table 0 =? d) then Ok (Go s)
  else
    l <- aget (b_left s) (b_curr s) ;;
    if l =? 0 then
      l <- aset (b_left s) (b_curr s) (Z.lor (u8 i) 128) ;;
      Ok (Go (PST l (b_right s) (b_par s) (b_curr s) (b_empty s)))
    else
      r <- aset (b_right s) (b_curr s) (Z.lor (u8 i) 128) ;;
      let s := PST (b_left s) r (b_par s) (b_curr s) (b_empty s) in
      u <- climb s ;;
      match u with
      | None => Ok (Stop s)
      | Some (curr, n) =>
          r <- aset (b_right s) curr (u8 (b_empty s)) ;;
          s <- loop 40 descend_step (n, PST (b_left s) r (b_par s) curr (b_empty s)) ;;
          Ok (Go s)
      end.

(** pmtree.go:168-209: one depth *)
Definition depth_step (table : list Z) (bound d : Z) (s : pst) : res (ctl pst pst) :=
  c <- for_ctl (Z.to_nat bound) 0 (place_step table d) s ;;
  match c with
  | Stop s => Ok (Stop s)
  | Go s =>
      l <- aget (b_left s) (b_curr s) ;;
      s <- (if l =? 0 then l <- aset (b_left s) (b_curr s) (u8 (b_empty s)) ;; Ok (PST l (b_right s) (b_par s) (b_curr s) (b_empty s))
            else r <- aset (b_right s) (b_curr s) (u8 (b_empty s)) ;; Ok (PST (b_left s) r (b_par s) (b_curr s) (b_empty s))) ;;
      p <- aset (b_par s) (b_empty s) (u8 (b_curr s)) ;;
      Ok (Go (PST (b_left s) (b_right s) p (b_empty s) (b_empty s + 1)))
  end.

(** pmtree.go:117-214 treeRebuild.  The error is ignored by the callers. *)
Definition treeRebuild (t : ptree) (bound mindepth maxdepth : Z) (table : list Z) : res ptree :=
  ok <- complete table bound mindepth maxdepth ;;
  if negb ok then Ok t
  else
    l <- forZ 0 bound (fun i a => aset a i 0) (pt_left t) ;;
    r <- forZ 0 bound (fun i a => aset a i 0) (pt_right t) ;;
    '(l, p) <- forZ 0 (mindepth - 1) (fun i '(l, p) => l <- aset l i (u8 (u8 i + 1)) ;; p <- aset p (i + 1) (u8 i) ;; Ok (l, p)) (l, amake 32) ;;
    c <- for_ctl (Z.to_nat (maxdepth + 1 - mindepth)) mindepth (depth_step table bound) (PST l r p (mindepth - 1) mindepth) ;;
    let s := match c with Go s | Stop s => s end in
    Ok (PT 0 (b_left s) (b_right s)).

(** pmtree.go:22-44 maketree1 *)
Definition maketree1 (m : pm) (r : rst) : res (pm * rst) :=
  '(bound, r) <- getbits 5 r ;;
  '(min, r) <- getbits 3 r ;;
  let set t := PM (pm_hist m) t (pm_tree2 m) bound min (pm_last m) (pm_get m) in
  if min =? 0 then Ok (set (treeSetsingle (pm_tree1 m) (u8 (bound - 1))), r)
  else
    '(nbits, r) <- getbits 3 r ;;
    '(table, r) <- forZ 0 bound (fun _ '(l, r) =>
       '(x, r) <- getbits nbits r ;;
       Ok (l ++ [if x =? 0 then 0 else u8 (u8 (u8 x - 1) + min)], r)) ([], r) ;;
    t <- treeRebuild (pm_tree1 m) bound min 31 table ;;
    Ok (set t, r).

(** pmtree.go:46-90 maketree2 *)
Definition maketree2 (bound : Z) (m : pm) (r : rst) : res (pm * rst) :=
  if pm_bound m <? 10 then Ok (m, r)
  else if (pm_bound m =? 29) && (pm_min m =? 0) then Ok (m, r)
  else
    '(table, r) <- forZ 0 bound (fun _ '(l, r) => '(x, r) <- getbits 3 r ;; Ok (l ++ [u8 x], r)) ([], r) ;;
    let used := filter (fun i => negb (nth i table 0 =? 0)) (seq 0 (Z.to_nat bound)) in
    let set t := PM (pm_hist m) (pm_tree1 m) t (pm_bound m) (pm_min m) (pm_last m) (pm_get m) in
    match used with
    | [] => Ok (m, r)
    | [i] => Ok (set (treeSetsingle (pm_tree2 m) (Z.of_nat i)), r)
    | _ => t <- treeRebuild (pm_tree2 m) bound 1 7 table ;; Ok (set t, r)
    end.

(** pmtree.go:96-99: one step down.  Note that the right link is followed whatever the
    bit is. *)
Definition tree_step (t : ptree) (s : Z * rst) : res (ctl (Z * rst) (Z * rst)) :=
  let '(i, r) := s in
  if i <? 128 then
    i <- aget (pt_right t) i ;;
    '(b, r) <- getbits 1 r ;;
    if b =? 0 then i <- aget (pt_left t) i ;; Ok (Go (i, r)) else Ok (Go (i, r))
  else Ok (Stop (Z.land i 127, r)).

(** pmtree.go:92-111 treeGet, tree1Get, tree2Get.  The fuel bounds a walk that need not end. *)
Definition treeGet (t : ptree) (r : rst) : res (Z * rst) := loop 100000 (tree_step t) (pt_root t, r).

(** pm.go:46-53 decodeStartPm2; [initGetbits] is done by the caller, who also sets
    [nextcount] to 0 *)
Definition decodeStartPm2 (m : pm) (r : rst) : res (pm * rst) :=
  h <- histInit (pm_hist m) ;;
  '(_, r) <- getbits 1 r ;;
  Ok (PM h (pm_tree1 m) (pm_tree2 m) (pm_bound m) (pm_min m) 0 (pm_get m), r).

(** pm.go:55-60 *)
Definition historyBits : list Z := [3; 3; 4; 5; 5; 5; 6; 6].
Definition historyBase : list Z := [0; 8; 16; 32; 64; 96; 128; 192].
Definition repeatBits : list Z := [3; 3; 5; 6; 7; 0].
Definition repeatBase : list Z := [17; 25; 33; 65; 129; 256].

(** pm.go:64-67: enter the bytes produced since the last call into the history *)
Definition catch_up (text : arr) (loc : Z) (m : pm) : res pm :=
  loop 8194 (fun m =>
    if pm_last m =? loc then Ok (Stop m)
    else
      b <- aget text (pm_last m) ;;
      h <- histUpdate b (pm_hist m) ;;
      Ok (Go (PM h (pm_tree1 m) (pm_tree2 m) (pm_bound m) (pm_min m) (Z.land (pm_last m + 1) 8191) (pm_get m)))) m.

(** pm.go:69-105: new trees at certain counts *)
Definition renew (count : Z) (next : Z) (m : pm) (r : rst) : res (Z * pm * rst) :=
  loop (count + 6) (fun '(next, m, r) =>
    if next <=? count then
      if next =? 0 then
        '(m, r) <- maketree1 m r ;; '(m, r) <- maketree2 5 m r ;; Ok (Go (1024, m, r))
      else if next =? 1024 then '(m, r) <- maketree2 6 m r ;; Ok (Go (2048, m, r))
      else if next =? 2048 then '(m, r) <- maketree2 7 m r ;; Ok (Go (4096, m, r))
      else if next =? 4096 then
        '(b, r) <- getbits 1 r ;;
        '(m, r) <- (if b =? 0 then Ok (m, r) else maketree1 m r) ;;
        '(m, r) <- maketree2 8 m r ;;
        Ok (Go (8192, m, r))
      else
        '(b, r) <- getbits 1 r ;;
        '(m, r) <- (if b =? 0 then Ok (m, r) else '(m, r) <- maketree1 m r ;; maketree2 8 m r) ;;
        Ok (Go (next + 4096, m, r))
    else Ok (Stop (next, m, r))) (next, m, r).

(** pm.go:62-124 decodeCPm2 *)
Definition decodeCPm2 (text : arr) (loc count next : Z) (m : pm) (r : rst) : res (Z * Z * pm * rst) :=
  m <- catch_up text loc m ;;
  '(next, m, r) <- renew count next m r ;;
  '(g, r) <- treeGet (pm_tree1 m) r ;;
  let m := PM (pm_hist m) (pm_tree1 m) (pm_tree2 m) (pm_bound m) (pm_min m) (pm_last m) g in
  if 29 <=? g then Ok (0, next, m, r)
  else if g <? 8 then
    '(x, r) <- getbits (nth (Z.to_nat g) historyBits 0) r ;;
    c <- histLookup (nth (Z.to_nat g) historyBase 0 + x) (pm_hist m) ;;
    Ok (c, next, m, r)
  else if g <? 23 then Ok (254 + 2 + (g - 8), next, m, r)
  else
    '(x, r) <- getbits (nth (Z.to_nat (g - 23)) repeatBits 0) r ;;
    Ok (u16 (254 + nth (Z.to_nat (g - 23)) repeatBase 0 + x), next, m, r).

(** pm.go:126-149 decodePPm2 *)
Definition decodePPm2 (m : pm) (r : rst) : res (Z * rst) :=
  '(nbits, delta, r) <-
    (if pm_get m =? 8 then Ok (6, 0, r)
     else if pm_get m <? 28 then
       '(g, r) <- treeGet (pm_tree2 m) r ;;
       if g =? 0 then Ok (6, 0, r) else Ok (5 + g, Z.shiftl 1 (5 + g), r)
     else Ok (0, 0, r)) ;;
  '(x, r) <- getbits (u8 nbits) r ;;
  Ok (u16 (u16 delta + x), r).
