(** Model of append.go:24-57 (EncodeLzhuf), util.go:25-81 (copyfile,
    encodeStoredCrc) and extract.go:18-107 (DecodeLzhuf).  The progress indicators only print. *)
From Verif Require Import Go M_Crc M_Bitio M_Maketree M_Maketbl M_Huf M_Slide M_Decode.

Definition buffersize : Z := 2048.   (* macro.go:185 *)

(** util.go:40-63, the loop of copyfile with TextMode off.  A read fills the
    buffer as far as the input goes (files and byte readers do), but the whole
    buffer is written, and [size] is never decremented. *)
Fixpoint copy_loop (fuel : nat) (buf inp : list Z) (rsize : Z) : res (list Z * Z) :=
  match fuel with
  | O => NoFuel
  | S fuel' =>
      let chunk := take buffersize inp in
      if zlen chunk =? 0 then Ok ([], rsize)
      else
        let buf := chunk ++ drop (zlen chunk) buf in
        '(out, r) <- copy_loop fuel' buf (drop buffersize inp) (rsize + zlen chunk) ;;
        Ok (buf ++ out, r)
  end.

(** util.go:25-65 copyfile: bytes written, the size it returns, and what is left
    of the input.  All callers pass a CRC of 0, which is never updated because of
    the test at line 59. *)
Definition copyfile (size : Z) (inp : list Z) : res (list Z * Z * list Z) :=
  if 0 <? size then
    '(out, r) <- copy_loop (S (length inp)) (repeat 0 (Z.to_nat buffersize)) inp 0 ;;
    Ok (out, r, [])
  else Ok ([], 0, inp).

(** Result of EncodeLzhuf *)
Record encout := EO {
  eo_glob : glob;
  eo_crc : Z;
  eo_out : list Z;       (* bytes written to the archive *)
  eo_original : Z;       (* *original_size_var *)
  eo_packed : Z;         (* *packed_size_var *)
  eo_method : Z;         (* hdr_method[3] *)
  eo_rest : list Z       (* what is left of the input *)
}.

(** append.go:24-57.  [method] is CompressMethod.  The division at line 53 panics
    when the original size is 0. *)
Definition EncodeLzhuf (method size : Z) (inp : list Z) (g : glob) : res encout :=
  match (if 0 <? method then method_params method else None) with
  | Some (dicbit, mx) =>
      let g := encodeAlloc (2 * Z.shiftl 1 dicbit + mx) g in
      er <- encode dicbit mx size inp g ;;
      if er_original er =? 0 then Panic
      else Ok (EO (er_glob er) (er_crc er) (er_out er) (er_original er) (er_packed er)
                  (u8 (method + 48)) (er_in er))
  | None =>
      let m := if 0 <? method then 0 else method in
      '(out, r, rest) <- copyfile size inp ;;
      if r =? 0 then Panic
      else Ok (EO g 0 out r r (u8 (u8 m + 48)) rest)
  end.

(** util.go:67-81: bytes written, CRC, and the size reported for both sizes *)
Definition encodeStoredCrc (size : Z) (inp : list Z) : res (list Z * Z * Z) :=
  '(out, r, _) <- copyfile size inp ;;
  Ok (out, 0, r).

(** extract.go:29-66: dictionary size of the methods that are copied ([Some 0]) and of
    those decoded by huf.go. *)
Definition dec_dicbit (method : Z) : option Z :=
  if method =? 0 then Some 0
  else if method =? 4 then Some 12
  else if method =? 5 then Some 13
  else if method =? 6 then Some 15
  else if method =? 7 then Some 16
  else if method =? 10 then Some 0
  else if method =? 12 then Some 0
  else None.

(** extract.go:29-66: dictionary size of the other methods *)
Definition old_dicbit (method : Z) : Z :=
  if method =? 1 then 12
  else if method =? 8 then 11
  else if method =? 9 then 12
  else 13.

(** extract.go:18-107.  The result gives the state, the CRC, the bytes handed to the
    writer, the number of bytes read, and the rest of the archive. *)
Definition DecodeLzhuf (method : Z) (broken : bool) (original packed : Z) (inp : list Z) (g : glob)
  : res (glob * Z * list Z * Z * list Z) :=
  match dec_dicbit method with
  | Some dicbit =>
      if dicbit =? 0 then
        '(out, r, rest) <- copyfile original inp ;;
        Ok (g, 0, out, r, rest)
      else
        x <- decode dicbit broken original packed inp (g_huf g) ;;
        Ok (GLOB (dr_huf x) (g_hpos g) (g_hflag g) (g_prevs g) (g_text g) (g_dh g) (g_pm g),
            dr_crc x, dr_out x, dr_readSize x, dr_in x)
  | None =>
      '(g, x) <- decode_old method (old_dicbit method) broken original packed inp g ;;
      Ok (g, dr_crc x, dr_out x, dr_readSize x, dr_in x)
  end.
