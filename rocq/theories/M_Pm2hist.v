(** Model of pm2hist.go: the history list of the -pm2- decoder. *)
From Verif Require Import Go.

(** pm2hist.go:31-35: package variables.  [prev] and [next] have 256 bytes. *)
Record hist := HIST { hprev : arr; hnext : arr; hlast : Z }.

(** pm2hist.go:39-42 *)
Definition histInit_step (i : Z) (s : arr * arr) : res (arr * arr) :=
  p <- aset (fst s) (Z.land (255 + i) 255) (u8 i) ;;
  n <- aset (snd s) (Z.land (1 + i) 255) (u8 i) ;;
  Ok (p, n).

(** pm2hist.go:37-54 histInit; the old contents are overwritten. *)
Definition histInit (h : hist) : res hist :=
  '(p, n) <- forZ 0 256 histInit_step (hprev h, hnext h) ;;
  p <- aset p 127 0 ;;
  n <- aset n 0 127 ;;
  p <- aset p 223 128 ;;
  n <- aset n 128 223 ;;
  p <- aset p 159 224 ;;
  n <- aset n 224 159 ;;
  p <- aset p 31 160 ;;
  n <- aset n 160 31 ;;
  p <- aset p 255 32 ;;
  n <- aset n 32 255 ;;
  Ok (HIST p n 32).

(** pm2hist.go:66-68: [n] steps in one direction *)
Fixpoint walk (dir : arr) (n : nat) (i : Z) : res Z :=
  match n with
  | O => Ok i
  | S n' => j <- aget dir i ;; walk dir n' j
  end.

(** pm2hist.go:56-70 histLookup.  For [n] negative or above 256 the loop counts down
    from a negative number. *)
Definition histLookup (n : Z) (h : hist) : res Z :=
  let '(dir, m) := if 128 <=? n then (hnext h, 256 - n) else (hprev h, n) in
  if m <? 0 then NoFuel else walk dir (Z.to_nat m) (hlast h).

(** pm2hist.go:72-95 histUpdate *)
Definition histUpdate (data : Z) (h : hist) : res hist :=
  if data =? hlast h then Ok h
  else
    oldNext <- aget (hnext h) data ;;
    oldPrev <- aget (hprev h) data ;;
    p <- aset (hprev h) oldNext oldPrev ;;
    n <- aset (hnext h) oldPrev oldNext ;;
    newNext <- aget n (hlast h) ;;
    p <- aset p newNext data ;;
    n <- aset n data newNext ;;
    p <- aset p data (hlast h) ;;
    n <- aset n (hlast h) data ;;
    Ok (HIST p n data).

(** The variables before the first call. *)
Definition hist0 : hist := HIST (amake 256) (amake 256) 0.
