(** Properties C05, C06, C13 .. C17 and C30 .. C32: the LZ77 coder and decoder.

    [after cs g] (P_RoundTrip.v) says that [g] is the state of the package
    variables of a process that has made exactly the calls [cs], compressing and
    decompressing arbitrary data, all of which returned.  [first_method cs] is the
    method of the first LZ compression among them.  The meaning of a sequence of
    LZ77 tokens ([lz_expand], [lz_ok]) is defined in S_Lz.v. *)
From Verif Require Import Go GoLemmas M_Crc M_Bitio P_Bitio M_Maketree M_Maketbl M_Huf M_Slide M_Lzhuf P_HufCode P_HufTables P_HufLens P_HufBlock P_HufSend P_HufEnc P_HufOut P_HufStream
  S_Lz P_Lz P_Decode P_Slide P_Encode P_DecAny P_EncKeep P_RoundTrip.

Lemma mpar_cases m : m = 5 \/ m = 6 \/ m = 7 ->
  exists k n pb, mpar m = (k, n, pb) /\ (0 <? m) = true /\ method_params m = Some (k, 256) /\ dec_dicbit m = Some k /\ (k =? 0) = false /\
    13 <= k <= 16 /\ npok n pb /\ (forall h, np (set_np_pbit k h) = n /\ pbit (set_np_pbit k h) = pb) /\ (m < 7 -> k < 16) /\ 2 ^ k <= 65536.
Proof.
  intros [-> | [-> | ->]]; eexists _, _, _; (split; [reflexivity|]); (split; [reflexivity|]); (split; [reflexivity|]); (split; [reflexivity|]);
    (split; [reflexivity|]); (split; [lia|]); (split; [unfold npok; lia|]); (split; [split; reflexivity|]); lia.
Qed.

(** Everything known about a compression that may be called. *)
Lemma encode_lzhuf cs g m size body : after cs g -> room cs m -> m = 5 \/ m = 6 \/ m = 7 -> 0 <= size -> bytes body -> body <> [] ->
  Z.testbit (hd 0 body) 5 = false ->
  exists eo k n pb er toks w, EncodeLzhuf m size body g = Ok eo /\ mpar m = (k, n, pb) /\ enc_post k n pb 256 size body er toks w /\
    eo_crc eo = er_crc er /\ eo_out eo = er_out er /\ eo_original eo = er_original er /\ eo_packed eo = er_packed er /\ eo_method eo = m + 48 /\
    eo_rest eo = er_in er /\ (er_unpackable er = true -> size <= er_packed er) /\ 1 <= er_original er.
Proof.
  intros A R Hm Hs HB Hne H5. destruct (mpar_cases m Hm) as (k & n & pb & E1 & E2 & E3 & E4 & E5 & E6 & E7 & E8 & E9 & E10).
  pose proof (encode_after cs g m size body A R Hm Hs HB Hne H5) as X. rewrite E1 in X. destruct X as [er [toks [w [X1 X2]]]].
  assert (X3 : 1 <= er_original er) by (eapply encode_progress; [| |exact X1|exact Hne]; lia).
  eexists _, k, n, pb, er, toks, w. unfold EncodeLzhuf. rewrite E2, E3. cbv zeta. rewrite X1. cbn [bind].
  destruct (Z.eqb_spec (er_original er) 0) as [Z0|Z0]; [lia|].
  split; [reflexivity|]. cbn [eo_crc eo_out eo_original eo_packed eo_method eo_rest].
  split; [exact E1|]. split; [exact X2|]. do 4 (split; [reflexivity|]). split; [destruct Hm as [-> | [-> | ->]]; reflexivity|]. split; [reflexivity|].
  split; [|exact X3]. intros U. eapply encode_unpackable; eauto.
Qed.

(** ** C16: when compression returns *)

(** Partial: with methods 5, 6 and 7, in every process whose first compression used
    a dictionary at least as large, compressing any non-empty input whose first
    byte has bit 5 clear returns. *)
Theorem C16_compress_returns_partial :
  forall cs g m size body,
    after cs g -> (forall m0, first_method cs = Some m0 -> m <= m0) ->
    m = 5 \/ m = 6 \/ m = 7 -> 0 <= size -> bytes body -> body <> [] ->
    Z.testbit (hd 0 body) 5 = false ->
    exists eo, EncodeLzhuf m size body g = Ok eo.
Proof.
  intros cs g m size body A R Hm Hs HB Hne H5.
  destruct (encode_lzhuf cs g m size body A R Hm Hs HB Hne H5) as (eo & k & n & pb & er & toks & w & X & _). eauto.
Qed.

(** The full claim is false: if bit 5 of the first byte is set (every lower-case
    letter, digit and blank, for instance), compression panics, in every process. *)
Theorem C16_compress_never_panics_refuted :
  forall cs g m size body,
    after cs g -> m = 5 \/ m = 6 \/ m = 7 -> bytes body -> body <> [] ->
    Z.testbit (hd 0 body) 5 = true ->
    EncodeLzhuf m size body g = Panic.
Proof.
  intros cs g m size body A Hm HB Hne H5.
  destruct (first_method cs) as [m0|] eqn:F.
  - destruct (Z_lt_ge_dec m0 m) as [L|L].
    + eapply EncodeLzhuf_panic_window; eauto.
    + eapply EncodeLzhuf_panic_first_byte; eauto. intros m1 X. rewrite F in X. injection X as <-. lia.
  - eapply EncodeLzhuf_panic_first_byte; eauto. intros m1 X. congruence.
Qed.

(** A file of four bytes "abcd" cannot be compressed with any of the methods. *)
Example C16_example : forall cs g, after cs g -> EncodeLzhuf 5 4 [97; 98; 99; 100] g = Panic.
Proof.
  intros cs g A. eapply C16_compress_never_panics_refuted; eauto; [repeat constructor; unfold is_byte; lia|discriminate].
Qed.

(** ** C17: dependence on the history of the process *)

(** The claim is false: after a first compression with a smaller dictionary, every
    compression with a larger one panics. *)
Theorem C17_history_independent_refuted :
  forall cs g m m0 size body,
    after cs g -> first_method cs = Some m0 -> m = 5 \/ m = 6 \/ m = 7 -> m0 < m ->
    EncodeLzhuf m size body g = Panic.
Proof. exact EncodeLzhuf_panic_window. Qed.

(** ... whereas the same call returns in a fresh process. *)
Example C17_example : exists cs g, after cs g /\
  EncodeLzhuf 6 100 (repeat 0 100) g = Panic /\ exists eo, EncodeLzhuf 6 100 (repeat 0 100) glob0 = Ok eo.
Proof.
  assert (B : bytes (repeat 0 100)) by (apply Forall_forall; intros x Hx; apply repeat_spec in Hx; subst; unfold is_byte; lia).
  assert (A0 : after [] glob0) by (split; [constructor|reflexivity]).
  assert (R5 : exists eo, EncodeLzhuf 5 100 (repeat 0 100) glob0 = Ok eo).
  { apply (C16_compress_returns_partial [] glob0); [exact A0|intros ? X; discriminate X|now left|lia|exact B|discriminate|reflexivity]. }
  assert (R6 : exists eo, EncodeLzhuf 6 100 (repeat 0 100) glob0 = Ok eo).
  { apply (C16_compress_returns_partial [] glob0); [exact A0|intros ? X; discriminate X|right; now left|lia|exact B|discriminate|reflexivity]. }
  destruct R5 as [eo E].
  assert (A1 : after [CallEnc 5 100 (repeat 0 100)] (eo_glob eo)).
  { split; [constructor; [split; [lia|exact B]|constructor]|]. cbn [run_calls run_call]. rewrite E. reflexivity. }
  exists [CallEnc 5 100 (repeat 0 100)], (eo_glob eo). split; [exact A1|]. split; [|exact R6].
  apply (C17_history_independent_refuted [CallEnc 5 100 (repeat 0 100)] _ 6 5); [exact A1|reflexivity|right; now left|lia].
Qed.

(** ** C05: the compressed data is never larger than the original *)

Theorem C05_compressed_not_larger :
  forall cs g m size body eo,
    after cs g -> m = 5 \/ m = 6 \/ m = 7 -> 0 <= size -> bytes body -> body <> [] ->
    EncodeLzhuf m size body g = Ok eo ->
    zlen (eo_out eo) = eo_packed eo /\ 0 <= eo_packed eo <= size /\ bytes (eo_out eo).
Proof.
  intros cs g m size body eo A Hm Hs HB Hne E.
  destruct (Z.testbit (hd 0 body) 5) eqn:H5. { rewrite (C16_compress_never_panics_refuted cs g m size body) in E; auto. discriminate. }
  assert (R : room cs m).
  { intros m0 F. destruct (Z_lt_ge_dec m0 m) as [L|L]; [|lia]. rewrite (EncodeLzhuf_panic_window cs g m m0 size body) in E; auto. discriminate. }
  destruct (encode_lzhuf cs g m size body A R Hm Hs HB Hne H5) as (eo' & k & n & pb & er & toks & w & X1 & X2 & X3 & X4 & X5 & X6 & X7 & _).
  rewrite E in X1. injection X1 as <-. destruct X3. rewrite X5, X7, ep_out, ep_packed. destruct ep_w. destruct ep_rel as [O _]. cbn [initPutbits worigsize] in O.
  split; [rewrite wwf_size; unfold zlen; now rewrite rev_length|]. split; [lia|]. apply Forall_rev. exact wwf_bytes.
Qed.

(** ** C13: the tokens *)

(** The packed data consists of tokens that the decoder reads back one by one;
    every copy reaches back less than the dictionary size; together they expand to
    exactly the input. *)
Theorem C13_tokens_cover_input :
  forall cs g cs' g' m body eo rest,
    after cs g -> after cs' g' -> m = 5 \/ m = 6 \/ m = 7 -> bytes body -> body <> [] -> bytes rest ->
    EncodeLzhuf m (zlen body) body g = Ok eo -> eo_packed eo < eo_original eo ->
    exists k toks r h' r', method_params m = Some (k, 256) /\
      initGetbits (eo_packed eo) (eo_out eo ++ rest) = Ok r /\
      dec_run (decodeStartSt1 k (g_huf g')) r toks h' r' /\ compsize r' = 0 /\ infile r' = rest /\
      Forall (fun t => lz_ok (2 ^ k - 1) 256 (tokz t)) toks /\
      lz_expand (map tokz toks) = body.
Proof.
  intros cs g cs' g' m body eo rest A A' Hm HB Hne HR E Hp.
  destruct (Z.testbit (hd 0 body) 5) eqn:H5. { rewrite (C16_compress_never_panics_refuted cs g m (zlen body) body) in E; auto. discriminate. }
  assert (R : room cs m).
  { intros m0 F. destruct (Z_lt_ge_dec m0 m) as [L|L]; [|lia]. rewrite (EncodeLzhuf_panic_window cs g m m0 (zlen body) body) in E; auto. discriminate. }
  destruct (encode_lzhuf cs g m (zlen body) body A R Hm (zlen_nonneg _) HB Hne H5) as (eo' & k & n & pb & er & toks & w & X1 & X2 & X3 & X4 & X5 & X6 & X7 & X8 & X9 & X10 & X11).
  rewrite E in X1. injection X1 as <-. destruct (mpar_cases m Hm) as (k' & n' & pb' & E1 & E2 & E3 & E4 & E5 & E6 & E7 & E8 & E9 & E10).
  rewrite X2 in E1. injection E1 as <- <- <-. destruct X3.
  assert (U : er_unpackable er = false). { destruct (er_unpackable er); [|reflexivity]. specialize (X10 eq_refl). lia. }
  destruct (ep_good U) as [Y1 [Y2 [Y3 [bits [Y4 Y5]]]]]. rewrite ep_u in U.
  pose proof (after_inv _ _ A') as [[[D _ _] _ _ _ _ _ _ _] _]. set (h0 := decodeStartSt1 k (g_huf g')).
  assert (D0 : dsz h0).
  { unfold h0, decodeStartSt1, set_np_pbit. destruct D. destruct (k =? 12), (k =? 13), (k =? 15), (k =? 16); constructor; auto. }
  destruct (stream_decode k n pb (zlen body) w toks bits rest h0 E7) as [r [h' [r' [S1 [S2 [S3 [S4 S5]]]]]]]; auto; try lia.
  { apply E8. } { apply E8. }
  exists k, toks, r, h', r'. rewrite X5, X7, ep_out, ep_packed. split; [exact E3|]. split; [exact S1|]. split; [exact S2|]. split; [exact S4|]. split; [exact S5|].
  split; [exact ep_tok|exact Y1].
Qed.

(** ** C14, C15: round trip *)

Lemma round_trip cs g cs' g' m body eo rest : after cs g -> after cs' g' -> m = 5 \/ m = 6 \/ m = 7 -> bytes body -> body <> [] -> bytes rest ->
  EncodeLzhuf m (zlen body) body g = Ok eo -> eo_packed eo < eo_original eo -> m < 7 \/ zlen body < 65536 ->
  exists g2, eo_original eo = zlen body /\ eo_crc eo = calcCrc 0 body /\ eo_method eo = m + 48 /\ eo_rest eo = eo_rest eo /\
    DecodeLzhuf m false (eo_original eo) (eo_packed eo) (eo_out eo ++ rest) g' = Ok (g2, eo_crc eo, body, eo_packed eo, rest).
Proof.
  intros A A' Hm HB Hne HR E Hp Hsz.
  destruct (Z.testbit (hd 0 body) 5) eqn:H5. { rewrite (C16_compress_never_panics_refuted cs g m (zlen body) body) in E; auto. discriminate. }
  assert (R : room cs m).
  { intros m0 F. destruct (Z_lt_ge_dec m0 m) as [L|L]; [|lia]. rewrite (EncodeLzhuf_panic_window cs g m m0 (zlen body) body) in E; auto. discriminate. }
  destruct (encode_lzhuf cs g m (zlen body) body A R Hm (zlen_nonneg _) HB Hne H5) as (eo' & k & n & pb & er & toks & w & X1 & X2 & X3 & X4 & X5 & X6 & X7 & X8 & X9 & X10 & X11).
  rewrite E in X1. injection X1 as <-. destruct (mpar_cases m Hm) as (k' & n' & pb' & E1 & E2 & E3 & E4 & E5 & E6 & E7 & E8 & E9 & E10).
  rewrite X2 in E1. injection E1 as <- <- <-.
  assert (U : er_unpackable er = false).
  { destruct (er_unpackable er); [|reflexivity]. specialize (X10 eq_refl). destruct X3. lia. }
  destruct (ep_good _ _ _ _ _ _ _ _ _ X3 U) as [Y1 [Y2 [Y3 _]]].
  destruct (decode_after cs' g' k n pb (zlen body) body er toks w rest false A' X3 E6 E7 (zlen_nonneg _) HR E8 U) as [h2 D]; [|reflexivity|].
  { destruct Hsz as [L|L]; [left|now right]. change 65536 with (2 ^ 16). apply Z.pow_lt_mono_r; lia. }
  eexists. split; [congruence|]. split; [congruence|]. split; [exact X8|]. split; [reflexivity|].
  unfold DecodeLzhuf. rewrite E4, E5. rewrite X6, Y2, X7, X5, D. cbn [bind dr_huf dr_crc dr_out dr_readSize dr_in]. rewrite X4, Y3. reflexivity.
Qed.

(** Whatever the compressing process and the decompressing process did before:
    when a compression with -lh5- or -lh6- returns and saves at least one byte, the
    entry it makes (method, original size, packed size, CRC, data) is decompressed
    to exactly the input, with the same CRC, and exactly the packed bytes are
    taken from the archive. *)
Theorem C14_round_trip_lh5_lh6 :
  forall cs g cs' g' m body eo rest,
    after cs g -> after cs' g' -> m = 5 \/ m = 6 -> bytes body -> body <> [] -> bytes rest ->
    EncodeLzhuf m (zlen body) body g = Ok eo -> eo_packed eo < eo_original eo ->
    eo_method eo = m + 48 /\ eo_original eo = zlen body /\ eo_crc eo = calcCrc 0 body /\ zlen (eo_out eo) = eo_packed eo /\
    exists g2, DecodeLzhuf m false (eo_original eo) (eo_packed eo) (eo_out eo ++ rest) g'
               = Ok (g2, eo_crc eo, body, eo_packed eo, rest).
Proof.
  intros cs g cs' g' m body eo rest A A' Hm HB Hne HR E Hp.
  destruct (round_trip cs g cs' g' m body eo rest) as (g2 & X1 & X2 & X3 & _ & X4); auto; try lia.
  destruct (C05_compressed_not_larger cs g m (zlen body) body eo) as [Y _]; auto; try lia; [apply zlen_nonneg|].
  eauto 10.
Qed.

(** A hundred zero bytes are such an input. *)
Example C14_example : exists eo, EncodeLzhuf 5 100 (repeat 0 100) glob0 = Ok eo /\ eo_packed eo = 9 /\ eo_original eo = 100.
Proof.
  assert (X : match EncodeLzhuf 5 100 (repeat 0 100) glob0 with Ok eo => (eo_packed eo =? 9) && (eo_original eo =? 100) | _ => false end = true) by (vm_compute; reflexivity).
  destruct (EncodeLzhuf 5 100 (repeat 0 100) glob0) as [eo| |]; try discriminate. exists eo. split; [reflexivity|].
  apply andb_prop in X. destruct X as [X1 X2]. apply Z.eqb_eq in X1, X2. auto.
Qed.

(** Partial: the same for -lh7- when the input is shorter than the 64 KiB window. *)
Theorem C15_round_trip_lh7_partial :
  forall cs g cs' g' body eo rest,
    after cs g -> after cs' g' -> bytes body -> body <> [] -> bytes rest -> zlen body < 65536 ->
    EncodeLzhuf 7 (zlen body) body g = Ok eo -> eo_packed eo < eo_original eo ->
    eo_original eo = zlen body /\ eo_crc eo = calcCrc 0 body /\ zlen (eo_out eo) = eo_packed eo /\
    exists g2, DecodeLzhuf 7 false (eo_original eo) (eo_packed eo) (eo_out eo ++ rest) g'
               = Ok (g2, eo_crc eo, body, eo_packed eo, rest).
Proof.
  intros cs g cs' g' body eo rest A A' HB Hne HR Hsz E Hp.
  destruct (round_trip cs g cs' g' 7 body eo rest) as (g2 & X1 & X2 & X3 & _ & X4); auto.
  destruct (C05_compressed_not_larger cs g 7 (zlen body) body eo) as [Y _]; auto; [apply zlen_nonneg|].
  eauto 10.
Qed.

(** C14 and C15 together: what the theorems about archives use. *)
Lemma round_trip_567 cs g cs' g' m body eo rest :
  after cs g -> after cs' g' -> m = 5 \/ m = 6 \/ m = 7 /\ zlen body < 65536 -> bytes body -> body <> [] -> bytes rest ->
  EncodeLzhuf m (zlen body) body g = Ok eo -> eo_packed eo < eo_original eo ->
  eo_method eo = m + 48 /\ eo_original eo = zlen body /\ eo_crc eo = calcCrc 0 body /\ zlen (eo_out eo) = eo_packed eo /\
  exists g2, DecodeLzhuf m false (eo_original eo) (eo_packed eo) (eo_out eo ++ rest) g' = Ok (g2, eo_crc eo, body, eo_packed eo, rest).
Proof.
  intros A A' Hm B NE R H Hlt. destruct (round_trip cs g cs' g' m body eo rest) as (g2 & X1 & X2 & X3 & _ & X4); auto; try lia.
  destruct (C05_compressed_not_larger cs g m (zlen body) body eo) as [Y _]; auto; try lia; [apply zlen_nonneg|].
  eauto 10.
Qed.

(** The full claim is false: decompression with -lh7- never returns 65536 bytes or
    more, so no input of that size survives, whatever the packed data are. *)
Theorem C15_round_trip_lh7_refuted :
  forall cs g body original packed inp g2 crc out n rest,
    after cs g -> 0 <= original -> 0 <= packed -> bytes inp -> 65536 <= zlen body ->
    DecodeLzhuf 7 false original packed inp g = Ok (g2, crc, out, n, rest) ->
    out <> body.
Proof.
  intros cs g body original packed inp g2 crc out n rest A Ho Hp HB L E.
  unfold DecodeLzhuf in E. change (dec_dicbit 7) with (Some 16) in E. cbv iota in E. change (16 =? 0) with false in E. cbv iota in E.
  apply bind_ok in E. destruct E as [x [E1 E2]]. injection E2 as _ _ <- _ _.
  pose proof (after_inv _ _ A) as [I _].
  apply decode_any in E1; auto; try lia; [|apply (hi_d _ I)|apply (hi_pb _ (hinv_np 16 _ I))].
  destruct E1 as [_ [_ [_ [_ [X _]]]]]. specialize (X eq_refl). intros Y. rewrite Y in X. lia.
Qed.

(** ** C30: size of the decompressed data; C06: what is read *)

Lemma decode_any_lzhuf cs g m broken original packed inp g2 crc out n rest :
  after cs g -> 4 <= m <= 7 -> 0 <= original -> 0 <= packed -> bytes inp ->
  DecodeLzhuf m broken original packed inp g = Ok (g2, crc, out, n, rest) ->
  0 <= n <= packed /\ rest = drop n inp /\ (m < 7 -> original <= zlen out < original + 256) /\ crc = calcCrc 0 out.
Proof.
  intros A Hm Ho Hp HB E. unfold DecodeLzhuf in E.
  assert (K : exists k, dec_dicbit m = Some k /\ (k =? 0) = false /\ 0 <= k <= 16 /\ (m < 7 -> k < 16)).
  { assert (m = 4 \/ m = 5 \/ m = 6 \/ m = 7) as [-> | [-> | [-> | ->]]] by lia; eexists; (split; [reflexivity|]); (split; [reflexivity|]); lia. }
  destruct K as [k [K1 [K2 [K3 K4]]]]. rewrite K1, K2 in E. apply bind_ok in E. destruct E as [x [E1 E2]]. injection E2 as _ <- <- <- <-.
  pose proof (after_inv _ _ A) as [I _].
  apply decode_any in E1; auto; [|apply (hi_d _ I)|apply (hi_pb _ (hinv_np k _ I))].
  destruct E1 as [_ [_ [[j [J1 [J2 J3]]] [X1 [_ X2]]]]]. rewrite J2. split; [exact J1|]. split; [exact J3|]. split; [intros L; apply X1; now apply K4|exact X2].
Qed.

(** Whatever the data: if decompression returns, at least the declared number of
    bytes is produced, and less than one maximum match more. *)
Theorem C30_decompressed_size :
  forall cs g m broken original packed inp g2 crc out n rest,
    after cs g -> 4 <= m <= 6 -> 0 <= original -> 0 <= packed -> bytes inp ->
    DecodeLzhuf m broken original packed inp g = Ok (g2, crc, out, n, rest) ->
    original <= zlen out < original + 256.
Proof.
  intros cs g m broken original packed inp g2 crc out n rest A Hm Ho Hp HB E.
  destruct (decode_any_lzhuf cs g m broken original packed inp g2 crc out n rest) as [_ [_ [X _]]]; auto; try lia.
Qed.

(** The size is not always the declared one: here 58 bytes are declared and 60
    come out. *)
Example C30_example : exists inp g2 crc out n rest,
  DecodeLzhuf 5 false 58 10 inp glob0 = Ok (g2, crc, out, n, rest) /\ zlen out = 60.
Proof.
  exists [0; 4; 42; 9; 51; 120; 113; 224; 16; 216].
  assert (X : match DecodeLzhuf 5 false 58 10 [0; 4; 42; 9; 51; 120; 113; 224; 16; 216] glob0 with
    Ok (g2, crc, out, n, rest) => zlen out =? 60 | _ => false end = true) by (vm_compute; reflexivity).
  destruct (DecodeLzhuf 5 false 58 10 _ glob0) as [[[[[g2 crc] out] n] rest]| |]; try discriminate.
  exists g2, crc, out, n, rest. split; [reflexivity|]. now apply Z.eqb_eq in X.
Qed.

(** Whatever the data, decompression takes at most the packed bytes from the
    archive, says how many, and the CRC it returns is that of the bytes it wrote. *)
Theorem C06_decompression_stays_in_entry :
  forall cs g m broken original packed inp g2 crc out n rest,
    after cs g -> 4 <= m <= 7 -> 0 <= original -> 0 <= packed -> bytes inp ->
    DecodeLzhuf m broken original packed inp g = Ok (g2, crc, out, n, rest) ->
    0 <= n <= packed /\ rest = drop n inp /\ crc = calcCrc 0 out.
Proof.
  intros cs g m broken original packed inp g2 crc out n rest A Hm Ho Hp HB E.
  destruct (decode_any_lzhuf cs g m broken original packed inp g2 crc out n rest) as [X1 [X2 [_ X3]]]; auto.
Qed.

(** ** C31: malformed data *)

(** The claim is false: five bytes make decompression index out of range. *)
Theorem C31_malformed_never_panics_refuted :
  exists packed inp, bytes inp /\ zlen inp = packed /\ forall original, 0 < original ->
    DecodeLzhuf 5 false original packed inp glob0 = Panic.
Proof.
  exists 5, [0; 1; 33; 36; 32]. split; [repeat constructor; unfold is_byte; lia|]. split; [reflexivity|]. intros original H.
  unfold DecodeLzhuf. change (dec_dicbit 5) with (Some 13). cbv iota. change (13 =? 0) with false. cbv iota.
  unfold decode. cbv zeta. 
  destruct (initGetbits 5 [0; 1; 33; 36; 32]) as [r| |] eqn:ER; [|vm_compute in ER; discriminate|vm_compute in ER; discriminate].
  cbn [bind].
  assert (S : forall t, decode_step (Z.shiftl 1 13) original (DST (decodeStartSt1 13 (g_huf glob0)) r t 0 0 [] 0) = Panic).
  { intros t. unfold decode_step. cbn [d_count d_huf d_r]. destruct (Z.ltb_spec 0 original); [|lia].
    assert (P : decodeCSt1 (decodeStartSt1 13 (g_huf glob0)) r = Panic) by (vm_compute in ER; injection ER as <-; vm_compute; reflexivity).
    rewrite P. reflexivity. }
  rewrite loop_unfold_panic; [reflexivity|lia|apply S].
Qed.

(** ** C32: -lh4- *)

(** The claim is false: the same -lh4- entry decompresses differently in a fresh
    process and in one that has decompressed an -lh5- entry. *)
Theorem C32_lh4_history_independent_refuted :
  exists cs g original packed inp g1 crc1 out1 n1 rest1 g2 crc2 out2 n2 rest2,
    after cs g /\ bytes inp /\
    DecodeLzhuf 4 false original packed inp glob0 = Ok (g1, crc1, out1, n1, rest1) /\
    DecodeLzhuf 4 false original packed inp g = Ok (g2, crc2, out2, n2, rest2) /\
    out1 <> out2.
Proof.
  set (inp := [0; 4; 42; 9; 51; 120; 113; 224; 16; 216]).
  assert (HB : bytes inp) by (repeat constructor; unfold is_byte; lia).
  assert (X : match DecodeLzhuf 5 false 60 10 inp glob0 with
    | Ok (g, _, _, _, _) =>
        match DecodeLzhuf 4 false 60 10 inp glob0, DecodeLzhuf 4 false 60 10 inp g with
        | Ok (_, _, out1, _, _), Ok (_, _, out2, _, _) => (hd 0 out1 =? 2) && (hd 0 out2 =? 1)
        | _, _ => false end
    | _ => false end = true) by (vm_compute; reflexivity).
  destruct (DecodeLzhuf 5 false 60 10 inp glob0) as [[[[[g crc] out] n] rest]| |] eqn:E; [|discriminate X|discriminate X].
  destruct (DecodeLzhuf 4 false 60 10 inp glob0) as [[[[[g1 crc1] out1] n1] rest1]| |] eqn:E1; [|discriminate X|discriminate X].
  destruct (DecodeLzhuf 4 false 60 10 inp g) as [[[[[g2 crc2] out2] n2] rest2]| |] eqn:E2; [|discriminate X|discriminate X].
  exists [CallDec 5 false 60 10 inp], g, 60, 10, inp, g1, crc1, out1, n1, rest1, g2, crc2, out2, n2, rest2.
  split.
  { split; [repeat constructor; auto; lia|]. cbn [run_calls run_call]. rewrite E. reflexivity. }
  split; [exact HB|]. split; [exact E1|]. split; [exact E2|]. apply andb_prop in X. destruct X as [X1 X2]. apply Z.eqb_eq in X1, X2. intros ->. congruence.
Qed.

Print Assumptions C05_compressed_not_larger.
Print Assumptions C06_decompression_stays_in_entry.
Print Assumptions C13_tokens_cover_input.
Print Assumptions C14_round_trip_lh5_lh6.
Print Assumptions C15_round_trip_lh7_partial.
Print Assumptions C15_round_trip_lh7_refuted.
Print Assumptions C16_compress_returns_partial.
Print Assumptions C16_compress_never_panics_refuted.
Print Assumptions C17_history_independent_refuted.
Print Assumptions C30_decompressed_size.
Print Assumptions C31_malformed_never_panics_refuted.
Print Assumptions C32_lh4_history_independent_refuted.
