(** Properties C04, C05 and C06: the bit writer and the bit reader.

    A field is a pair (width, value).  [put_fields] writes fields one after the
    other with putbits, [get_fields] reads fields of the given widths with
    getbits (both are plain folds, defined in P_Bitio.v).  [widths] is the sum of
    the widths.  The compressor flushes with [putbits 7 0]. *)
From Verif Require Import Go GoLemmas M_Bitio S_Bits P_Bits P_Bitio.

(** C04.  Whatever fields are written and flushed, initialising the reader on
    the bytes produced and reading the same widths gives the same values, and
    leaves what follows the packed bytes unread.  Packability is decided by the
    size alone. *)
Theorem C04_bit_stream_round_trip :
  forall (original : Z) (fs : list (Z * Z)) (rest : list Z),
    0 <= original ->
    Forall (fun f => 0 <= fst f <= 16 /\ 0 <= snd f < 2 ^ fst f) fs ->
    bytes rest ->
    exists w w', put_fields fs (initPutbits original) = Ok w /\ putbits 7 0 w = Ok w' /\
      (unpackable w' = true <-> original < (widths fs + 7) / 8) /\
      (unpackable w' = false ->
         exists r r', initGetbits (wcompsize w') (rev (wout w') ++ rest) = Ok r /\
           get_fields (map fst fs) r = Ok (map snd fs, r') /\
           compsize r' = 0 /\ infile r' = rest).
Proof. exact fields_roundtrip. Qed.

(** Nine fields with widths 0, 1, 7, 16, ... that straddle byte boundaries; the
    stream is 8 bytes, so an original of 8 bytes is packable and one of 7 is not. *)
Definition C04_fields : list (Z * Z) :=
  [(0, 0); (1, 1); (7, 85); (16, 65535); (3, 0); (13, 8191); (1, 0); (16, 43690); (2, 3)].

Example C04_example :
  Forall (fun f => 0 <= fst f <= 16 /\ 0 <= snd f < 2 ^ fst f) C04_fields /\
  (exists w w', put_fields C04_fields (initPutbits 8) = Ok w /\ putbits 7 0 w = Ok w' /\
     unpackable w' = false /\ rev (wout w') = [213; 255; 255; 31; 255; 85; 85; 96]) /\
  (exists w w', put_fields C04_fields (initPutbits 7) = Ok w /\ putbits 7 0 w = Ok w' /\
     unpackable w' = true).
Proof.
  split; [repeat constructor; cbn; lia|]. split.
  - eexists _, _. split; [vm_compute; reflexivity|]. split; [vm_compute; reflexivity|]. split; vm_compute; reflexivity.
  - eexists _, _. split; [vm_compute; reflexivity|]. split; vm_compute; reflexivity.
Qed.

(** C05.  However many fields are written (so: at every prefix), at most
    [original] bytes are emitted, the packed size is the number of bytes emitted,
    and the stream is marked unpackable exactly when the complete bytes of the
    fields would not fit. *)
Theorem C05_output_bounded :
  forall (original : Z) (fs : list (Z * Z)),
    0 <= original -> Forall (fun f => 0 <= fst f <= 16) fs ->
    exists w, put_fields fs (initPutbits original) = Ok w /\
      zlen (wout w) <= original /\
      wcompsize w = zlen (wout w) /\
      (unpackable w = true <-> original < widths fs / 8) /\
      (unpackable w = false -> wcompsize w = widths fs / 8).
Proof.
  intros o fs Ho Hf. destruct (initPutbits_Wr o Ho) as [W0 _].
  destruct (put_fields_ok fs _ 0 Hf W0 (initPutbits_count o)) as [w [E [W [R [C _]]]]].
  destruct (wcount_unpackable _ _ W C) as [U1 U2]. destruct R as [RO _].
  change (worigsize (initPutbits o)) with o in RO. rewrite RO in U1.
  exists w. split; [exact E|]. split; [rewrite <- (wwf_size _ W), <- RO; apply (wwf_le _ W)|].
  split; [apply (wwf_size _ W)|]. auto.
Qed.

Example C05_example :
  Forall (fun f : Z * Z => 0 <= fst f <= 16) [(16, 1); (16, 2); (5, 3)] /\
  (exists w, put_fields [(16, 1); (16, 2); (5, 3)] (initPutbits 4) = Ok w /\ unpackable w = false /\ rev (wout w) = [0; 1; 0; 2]) /\
  (exists w, put_fields [(16, 1); (16, 2); (5, 3)] (initPutbits 3) = Ok w /\ unpackable w = true /\ rev (wout w) = [0; 1; 0]).
Proof.
  split; [repeat constructor; cbn; lia|].
  split; eexists; (split; [vm_compute; reflexivity|split; vm_compute; reflexivity]).
Qed.

(** The numbers in a bit string read as consecutive fields; the string is
    continued by zeros. *)
Fixpoint fields_of (ns : list Z) (s : list bool) : list Z :=
  match ns with
  | [] => []
  | n :: ns' =>
      of_bits (firstn (Z.to_nat n) (s ++ repeat false (Z.to_nat n)))
      :: fields_of ns' (skipn (Z.to_nat n) s)
  end.

Lemma get_fields_of ns : forall packed rest r B s, Forall (fun n => 0 <= n <= 16) ns -> Rd packed rest r B s ->
  exists r', get_fields ns r = Ok (fields_of ns s, r') /\ exists B' s', Rd packed rest r' B' s'.
Proof.
  induction ns as [|n ns IH]; intros packed rest r B s H R.
  - exists r. split; [reflexivity|]. eauto.
  - inversion H as [|? ? Hn H']; subst. destruct (getbits_bits n _ _ _ _ _ R Hn) as [r1 [E1 R1]].
    destruct (IH _ _ _ _ _ H' R1) as [r2 [E2 R2]]. exists r2. split; [|exact R2].
    cbn [get_fields fields_of]. rewrite E1. cbn [bind]. rewrite E2. reflexivity.
Qed.

(** C06 (bit reader level).  Whatever is read, the values are the fields of the
    packed bytes alone, continued by zero bits, and nothing beyond the packed
    bytes is taken from the archive. *)
Theorem C06_reader_stays_in_packed_data :
  forall (packed : list Z) (rest : list Z) (ns : list Z),
    bytes (packed ++ rest) -> Forall (fun n => 0 <= n <= 16) ns ->
    exists r r', initGetbits (zlen packed) (packed ++ rest) = Ok r /\
      get_fields ns r = Ok (fields_of ns (byte_string_bits packed), r') /\
      exists unread, infile r' = unread ++ rest /\ zlen unread = compsize r'.
Proof.
  intros p rest ns Hb Hn. destruct (initGetbits_bits p rest Hb) as [r [E R]].
  destruct (get_fields_of ns _ _ _ _ _ Hn R) as [r' [E' (B' & s' & R')]].
  exists r, r'. split; [exact E|]. split; [exact E'|]. exact (Rd_in _ _ _ _ _ R').
Qed.

(** The same when the archive is shorter than the packed size it declares: no
    panic, and never more than [packed] bytes are taken. *)
Theorem C06_truncated_archive :
  forall (packed : Z) (inp : list Z) (ns : list Z),
    0 <= packed -> bytes inp -> Forall (fun n => 0 <= n <= 16) ns ->
    exists r xs r', initGetbits packed inp = Ok r /\ get_fields ns r = Ok (xs, r') /\
      exists k, 0 <= k <= packed /\ infile r' = drop k inp.
Proof.
  intros packed inp ns Hp Hb Hn.
  assert (W0 : rwf (RS 0 0 0 packed inp)) by (constructor; simpl; auto; lia).
  destruct (fillbuf_total 16 _ W0 ltac:(lia)) as [r [E [W M]]].
  assert (G : forall r1, rwf r1 -> rmove (RS 0 0 0 packed inp) r1 ->
    exists xs r', get_fields ns r1 = Ok (xs, r') /\ rmove (RS 0 0 0 packed inp) r').
  { clear r E W M. induction ns as [|n ns IH]; intros r1 W1 M1.
    - exists [], r1. auto.
    - inversion Hn as [|? ? H1 H2]; subst. destruct (getbits_total n r1 W1 H1) as (x & r2 & E2 & _ & W2 & M2).
      destruct (IH H2 r2 W2 (rmove_trans _ _ _ M1 M2)) as (xs & r' & E' & M').
      exists (x :: xs), r'. cbn [get_fields]. rewrite E2. cbn [bind]. rewrite E'. auto. }
  destruct (G r W M) as (xs & r' & E' & [M1 M2]). exists r, xs, r'. split; [exact E|]. split; [exact E'|].
  cbn [compsize infile] in *. exists (packed - compsize r'). split; [lia|exact M2].
Qed.

(** Reading 40 bits from a packed area of 3 bytes: the last fields are zero and
    the byte 99 that follows stays. *)
Example C06_example :
  exists r r', initGetbits 3 ([171; 205; 239] ++ [99]) = Ok r /\
    get_fields [12; 12; 16] r = Ok ([2748; 3567; 0], r') /\ infile r' = [99].
Proof. eexists _, _. split; [vm_compute; reflexivity|]. split; vm_compute; reflexivity. Qed.

Print Assumptions C04_bit_stream_round_trip.
Print Assumptions C05_output_bounded.
Print Assumptions C06_reader_stays_in_packed_data.
Print Assumptions C06_truncated_archive.
