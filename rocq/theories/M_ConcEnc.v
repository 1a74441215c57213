(** Model of two goroutines that compress at the same time, each with an [Lha] of its own.
    The hash table, the chains, the text buffer and its sizes (slide.go:10-22, macro.go:46),
    the tables, the frequencies and the buffer of tokens of huf.go (huf.go:8-28, 232) are
    package variables, which the two share; [remainder], the bit writer, the sizes and the
    files belong to the [Lha] (lha.go:30-40), and [token], [pos], [match] and [count] are
    local to encode.

    Simplification: a goroutine is taken to be interrupted only between iterations of the
    loop of encode (slide.go:431-460), and not inside one.  Every such interleaving is one
    the program can follow; it can follow many more.  Methods with a dictionary, with the
    parameters that encodeAlloc sets (append.go:58-97). *)
From Verif Require Import Go M_Crc M_Bitio M_Maketree M_Maketbl M_Huf M_Slide.

(** The package variables; [es_prm] holds [dicsiz], [txtsiz] and [maxmatch]. *)
Record eshared := ESH { es_glob : glob; es_prm : prm }.

(** A goroutine: before its call of EncodeLzhuf; in the loop; or after the call, with the
    CRC, the bytes written and the two sizes. *)
Inductive etask :=
| EWaiting (dicbit mx size : Z) (body : list Z)
| EWorking (rem : Z) (inp : list Z) (crc : Z) (w : wst) (tok pos : Z) (m : matchdata) (count : Z)
| EDone (crc : Z) (out : list Z) (original packed : Z).

(** The variables of encode, taken apart ... *)
Definition apart (g : glob) (P : prm) (e : est) : eshared * etask :=
  let s := e_sl e in
  (ESH (GLOB (e_huf e) (s_hpos s) (s_hflag s) (s_prevs s) (s_text s) (g_dh g) (g_pm g)) P,
   EWorking (s_rem s) (s_in s) (s_crc s) (e_w e) (e_tok e) (e_pos e) (e_match e) (e_count e)).

(** ... and put together. *)
Definition together (g : glob) (rem : Z) (inp : list Z) (crc : Z) (w : wst) (tok pos : Z) (m : matchdata) (count : Z) : est :=
  EST (SL (g_text g) (g_hpos g) (g_hflag g) (g_prevs g) rem inp crc) (g_huf g) w tok pos m count.

(** append.go:58-97 and slide.go:391-430: all that comes before the loop, as in [encode].
    On an empty input encode returns at once and append.go:53 divides by the size. *)
Definition enc_start (dicbit mx size : Z) (body : list Z) (s : eshared) : res (eshared * etask) :=
  let d := Z.shiftl 1 dicbit in
  let P := PRM d (2 * d + mx) mx in
  let g := encodeAlloc (2 * d + mx) (es_glob s) in
  '(hp, hf) <- forZ 0 hshsiz (fun i '(hp, hf) =>
     hp <- aset hp i 0 ;; hf <- aset hf i 0 ;; Ok (hp, hf)) (g_hpos g, g_hflag g) ;;
  h <- encodeStartSt1 dicbit (g_huf g) ;;
  t <- forZ 0 (p_txtsiz P + 1) (fun i t => aset t i 32) (g_text g) ;;
  match body with
  | [] =>
      if size =? 0 then Panic
      else Ok (ESH (GLOB h hp hf (g_prevs g) t (g_dh g) (g_pm g)) P, EDone 0 [] size 0)
  | _ =>
    '(t, crc, v, inp) <- freadCrc t 0 d (p_txtsiz P - d) body ;;
    let m := if v <? threshold - 1 then MD v 0 else MD (threshold - 1) 0 in
    token <- initHash t d ;;
    s <- insertHash P token d (SL t hp hf (g_prevs g) v inp crc) ;;
    Ok (apart g P (EST s h (initPutbits size) token d m 0))
  end.

(** One step of a goroutine: slide.go:431-460 one iteration, or 461-467 and
    append.go:43-56 after the last one. *)
Definition enc_step (s : eshared) (t : etask) : res (eshared * etask) :=
  match t with
  | EWaiting dicbit mx size body => enc_start dicbit mx size body s
  | EWorking rem inp crc w tok pos m count =>
      let g := es_glob s in
      let e := together g rem inp crc w tok pos m count in
      if (0 <? rem) && negb (unpackable w) then
        c <- encode_step (es_prm s) e ;;
        match c with Go e | Stop e => Ok (apart g (es_prm s) e) end
      else
        '(h, w) <- encodeEndSt1 (g_huf g) w ;;
        if count =? 0 then Panic
        else Ok (ESH (GLOB h (g_hpos g) (g_hflag g) (g_prevs g) (g_text g) (g_dh g) (g_pm g)) (es_prm s),
                 EDone crc (rev (wout w)) count (wcompsize w))
  | EDone _ _ _ _ => Ok (s, t)
  end.

(** The scheduler lets the goroutines take steps: [true] stands for the first one. *)
Fixpoint enc_run (sched : list bool) (s : eshared) (a b : etask) : res (eshared * etask * etask) :=
  match sched with
  | [] => Ok (s, a, b)
  | true :: sched => '(s, a) <- enc_step s a ;; enc_run sched s a b
  | false :: sched => '(s, b) <- enc_step s b ;; enc_run sched s a b
  end.
