(** Model of bitio.go: the bit reader and the bit writer. *)
From Verif Require Import Go.

(** The fields of [Lha] (lha.go:30-74) used by the bit reader. *)
Record rst := RS {
  bitbuf : Z;      (* uint16 *)
  subbitbuf : Z;   (* byte *)
  bitcount : Z;    (* byte *)
  compsize : Z;    (* int: packed bytes not yet read *)
  infile : list Z  (* bytes the reader has left *)
}.

(** bitio.go:18-40 fillbuf.  The error it returns when the reader is at its end
    is ignored by every caller (getbits only prints it), so the model returns
    the state alone; the early return at line 28 leaves the state as here.
    [n <= 255], so the loop runs at most 33 times; the bound is 40. *)
Fixpoint fillbuf_loop (fuel : nat) (n : Z) (s : rst) : res rst :=
  match fuel with
  | O => NoFuel
  | S fuel' =>
      if bitcount s <? n then
        let n' := u8 (n - bitcount s) in
        let bb := u16 (u16 (Z.shiftl (bitbuf s) (bitcount s))
                       + Z.shiftr (subbitbuf s) (u8 (8 - bitcount s))) in
        if compsize s =? 0 then
          fillbuf_loop fuel' n' (RS bb 0 8 (compsize s) (infile s))
        else
          match infile s with
          | [] => Ok (RS bb (subbitbuf s) (bitcount s) (compsize s - 1) [])
          | c :: rest => fillbuf_loop fuel' n' (RS bb c 8 (compsize s - 1) rest)
          end
      else
        Ok (RS (u16 (u16 (Z.shiftl (bitbuf s) n)
                     + Z.shiftr (subbitbuf s) (u8 (8 - n))))
               (u8 (Z.shiftl (subbitbuf s) n))
               (u8 (bitcount s - n)) (compsize s) (infile s))
  end.

Definition fillbuf (n : Z) (s : rst) : res rst := fillbuf_loop 40 n s.

(** bitio.go:42-50 getbits *)
Definition getbits (n : Z) (s : rst) : res (Z * rst) :=
  let x := Z.shiftr (bitbuf s) (u8 (16 - n)) in
  s' <- fillbuf n s ;;
  Ok (x, s').

(** huf.go:337-339 peekbits *)
Definition peekbits (n : Z) (s : rst) : Z := Z.shiftr (bitbuf s) (u16 (16 - n)).

(** bitio.go:84-89 initGetbits *)
Definition initGetbits (compsize : Z) (infile : list Z) : res rst :=
  fillbuf 16 (RS 0 0 0 compsize infile).

(** The fields of [Lha] used by the bit writer. [wout] is what was written to
    the output, last byte first. *)
Record wst := WS {
  wsub : Z;        (* byte *)
  wbitcount : Z;   (* byte *)
  wcompsize : Z;   (* int *)
  worigsize : Z;   (* int *)
  wout : list Z;
  unpackable : bool
}.

(** bitio.go:52-77 putcode; writing to the output never fails in the model.
    [n <= 255], so at most 33 iterations. *)
Fixpoint putcode_loop (fuel : nat) (n x : Z) (s : wst) : res wst :=
  match fuel with
  | O => NoFuel
  | S fuel' =>
      if wbitcount s <=? n then
        let n' := u8 (n - wbitcount s) in
        let sub := u8 (wsub s + u8 (Z.shiftr x (u8 (16 - wbitcount s)))) in
        let x' := u16 (Z.shiftl x (wbitcount s)) in
        if wcompsize s <? worigsize s then
          putcode_loop fuel' n' x'
            (WS 0 8 (wcompsize s + 1) (worigsize s) (sub :: wout s) (unpackable s))
        else
          putcode_loop fuel' n' x'
            (WS 0 8 (wcompsize s) (worigsize s) (wout s) true)
      else
        Ok (WS (u8 (wsub s + u8 (Z.shiftr x (u8 (16 - wbitcount s)))))
               (u8 (wbitcount s - n))
               (wcompsize s) (worigsize s) (wout s) (unpackable s))
  end.

Definition putcode (n x : Z) (s : wst) : res wst := putcode_loop 40 n x s.

(** bitio.go:79-82 putbits *)
Definition putbits (n x : Z) (s : wst) : res wst :=
  putcode n (u16 (Z.shiftl x (u8 (16 - n)))) s.

(** bitio.go:91-94 initPutbits, together with the initialisation of
    [compsize], [origsize] and [unpackable] in slide.go:398-401. *)
Definition initPutbits (origsize : Z) : wst := WS 0 8 0 origsize [] false.
