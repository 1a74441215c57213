(** What a process may have done before: the coders keep tables in package variables,
    so properties range over the calls made earlier. *)
From Verif Require Import Go M_Crc M_Bitio M_Maketree M_Maketbl M_Huf M_Slide M_Lzhuf.

Inductive call :=
| CallEnc (method size : Z) (inp : list Z)
| CallDec (method : Z) (broken : bool) (original packed : Z) (inp : list Z).

(** The arguments are what callers can pass: sizes are not negative, data are bytes. *)
Definition call_ok (c : call) : Prop :=
  match c with
  | CallEnc _ size inp => 0 <= size /\ bytes inp
  | CallDec method _ original packed inp => 0 <= original /\ 0 <= packed /\ bytes inp
  end.

(** The state after a call that returned. *)
Definition run_call (c : call) (g : glob) : option glob :=
  match c with
  | CallEnc method size inp => match EncodeLzhuf method size inp g with Ok eo => Some (eo_glob eo) | _ => None end
  | CallDec method broken original packed inp =>
      match DecodeLzhuf method broken original packed inp g with Ok (g', _, _, _, _) => Some g' | _ => None end
  end.

Fixpoint run_calls (cs : list call) (g : glob) : option glob :=
  match cs with
  | [] => Some g
  | c :: cs' => match run_call c g with Some g' => run_calls cs' g' | None => None end
  end.

(** The state of a process after the calls [cs]. *)
Definition after (cs : list call) (g : glob) : Prop := Forall call_ok cs /\ run_calls cs glob0 = Some g.
