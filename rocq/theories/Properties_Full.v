(** Property C113: compressing onto a disk that fills up.  [disk room] (S_Writer.v) is
    a file for which there is room for [room] bytes; [EncodeLzhufF] (M_Full.v) is EncodeLzhuf
    with such an output. *)
From Verif Require Import Go GoLemmas M_Crc M_Bitio M_Maketree M_Maketbl M_Huf M_Slide M_Decode M_Lzhuf S_Lz P_Encode P_RoundTrip P_EncKeep Properties_Slide
  S_Writer M_Writer P_Writer M_Full P_Full.

Lemma lzhuf_disk m p size body g eo room : 0 <= room -> (0 <? m) = true -> method_params m = Some p -> EncodeLzhuf m size body g = Ok eo ->
  eo_packed eo < size \/ eo_packed eo <= room ->
  EncodeLzhufF (disk room) m size body g =
    Ok (EO (eo_glob eo) (eo_crc eo) (take room (eo_out eo)) (eo_original eo) (Z.min room (eo_packed eo)) (eo_method eo) (eo_rest eo)).
Proof.
  intros R M0 M E U. unfold EncodeLzhuf in E. unfold EncodeLzhufF. rewrite M0, M in *. destruct p as [k mx]. cbv zeta in *.
  apply bind_ok in E. destruct E as (er & E1 & E2). destruct (er_original er =? 0) eqn:O; [discriminate E2|]. injection E2 as <-. cbn [eo_packed] in U.
  destruct (encode_disk room _ _ _ _ _ _ R E1) as [u X].
  - destruct U as [U|U]; [|right; exact U]. destruct (er_unpackable er) eqn:UN; [|left; reflexivity]. pose proof (encode_unpackable _ _ _ _ _ _ E1 UN). lia.
  - rewrite X. cbn [bind er_original er_glob er_crc er_out er_packed er_in]. rewrite O. reflexivity.
Qed.

(** What a compression that saves something returns. *)
Lemma shorter cs g m body eo : after cs g -> m = 5 \/ m = 6 \/ m = 7 -> bytes body -> body <> [] ->
  EncodeLzhuf m (zlen body) body g = Ok eo -> eo_packed eo < eo_original eo ->
  eo_original eo = zlen body /\ eo_crc eo = calcCrc 0 body /\ eo_method eo = m + 48.
Proof.
  intros A Hm HB Hne E Hp.
  destruct (Z.testbit (hd 0 body) 5) eqn:H5. { rewrite (C16_compress_never_panics_refuted cs g m (zlen body) body) in E; auto. discriminate. }
  assert (R : room cs m).
  { intros m0 F. destruct (Z_lt_ge_dec m0 m) as [L|L]; [|lia]. rewrite (EncodeLzhuf_panic_window cs g m m0 (zlen body) body) in E; auto. discriminate. }
  destruct (encode_lzhuf cs g m (zlen body) body A R Hm (zlen_nonneg _) HB Hne H5) as (eo' & k & n & pb & er & toks & w & X1 & X2 & X3 & X4 & X5 & X6 & X7 & X8 & X9 & X10 & X11).
  rewrite E in X1. injection X1 as <-.
  assert (U : er_unpackable er = false).
  { destruct (er_unpackable er); [|reflexivity]. specialize (X10 eq_refl). destruct X3. lia. }
  destruct (ep_good _ _ _ _ _ _ _ _ _ X3 U) as [Y1 [Y2 [Y3 _]]]. split; [congruence|]. split; congruence.
Qed.

(** Refuted.  Whatever the process did before: a file that compression makes shorter is
    compressed onto a disk with too little room for it.  EncodeLzhuf returns no error; the
    CRC, the original size and the method it returns are those of the whole file; the packed
    size it returns is the number of bytes for which there was room; the file on the disk
    ends after them. *)
Theorem C113_full_disk_noticed_refuted :
  forall cs g m body eo room,
    after cs g -> m = 5 \/ m = 6 \/ m = 7 -> bytes body -> body <> [] ->
    EncodeLzhuf m (zlen body) body g = Ok eo -> eo_packed eo < eo_original eo ->
    0 <= room < eo_packed eo ->
    exists eo', EncodeLzhufF (disk room) m (zlen body) body g = Ok eo' /\
      eo_crc eo' = calcCrc 0 body /\ eo_original eo' = zlen body /\ eo_method eo' = m + 48 /\
      eo_packed eo' = room /\
      eo_out eo' = take room (eo_out eo) /\ zlen (eo_out eo') < zlen (eo_out eo).
Proof.
  intros cs g m body eo room A Hm B NE E P R.
  destruct (C05_compressed_not_larger cs g m (zlen body) body eo A Hm (zlen_nonneg _) B NE E) as (Z1 & Z2 & _).
  destruct (mpar_cases m Hm) as (k & n & pb & _ & M0 & M & _).
  destruct (shorter cs g m body eo A Hm B NE E P) as (O & C & T).
  eexists. split; [eapply lzhuf_disk; eauto; lia|]. cbn [eo_crc eo_original eo_method eo_packed eo_out].
  rewrite Z.min_l by lia. repeat split; auto. unfold take, zlen in *. rewrite firstn_length. lia.
Qed.

(** What is true, for every compressing method, every input and any package variables: if
    EncodeLzhuf returns when the output does not fail, and the data got shorter or there
    is room for all of it, then it returns on the disk; the file on the disk has the first
    bytes of the data, as many as there is room for; the packed size returned is the length
    of the file; everything else, the package variables included, is as without the disk. *)
Theorem C113_full_disk_noticed_partial :
  forall m p size body g eo room,
    0 <= room -> 0 < m -> method_params m = Some p -> EncodeLzhuf m size body g = Ok eo ->
    eo_packed eo < size \/ eo_packed eo <= room ->
    EncodeLzhufF (disk room) m size body g =
      Ok (EO (eo_glob eo) (eo_crc eo) (take room (eo_out eo)) (eo_original eo) (Z.min room (eo_packed eo)) (eo_method eo) (eo_rest eo)).
Proof. intros m p size body g eo room R M0 M E U. apply Z.ltb_lt in M0. eapply lzhuf_disk; eauto. Qed.

(** Nothing is lost when there is room: the results are those of EncodeLzhuf. *)
Theorem C113_enough_room_partial :
  forall cs g m body eo room,
    after cs g -> m = 5 \/ m = 6 \/ m = 7 -> bytes body -> body <> [] ->
    EncodeLzhuf m (zlen body) body g = Ok eo -> zlen (eo_out eo) <= room ->
    EncodeLzhufF (disk room) m (zlen body) body g = Ok eo.
Proof.
  intros cs g m body eo room A Hm B NE E R.
  destruct (C05_compressed_not_larger cs g m (zlen body) body eo A Hm (zlen_nonneg _) B NE E) as (Z1 & Z2 & _).
  destruct (mpar_cases m Hm) as (k & n & pb & _ & M0 & M & _).
  rewrite (lzhuf_disk m _ (zlen body) body g eo room ltac:(lia) M0 M E ltac:(right; lia)).
  rewrite Z.min_r by lia. unfold take. rewrite firstn_all2 by (unfold zlen in *; lia). destruct eo. reflexivity.
Qed.

(** A hundred zero bytes, which become nine, on a disk with room for five. *)
Example C113_example : exists eo eo', EncodeLzhuf 5 100 (repeat 0 100) glob0 = Ok eo /\ eo_packed eo = 9 /\
  EncodeLzhufF (disk 5) 5 100 (repeat 0 100) glob0 = Ok eo' /\ eo_crc eo' = calcCrc 0 (repeat 0 100) /\ eo_original eo' = 100 /\
  zlen (eo_out eo') = 5.
Proof.
  destruct C14_example as (eo & E & P & O). exists eo.
  assert (A : after [] glob0) by (split; [constructor|reflexivity]).
  assert (B : bytes (repeat 0 100)) by (repeat constructor; unfold is_byte; lia).
  assert (N : repeat 0 100 <> []) by discriminate.
  assert (L : zlen (repeat 0 100) = 100) by reflexivity.
  set (body := repeat 0 100) in *. clearbody body.
  assert (H5 : 5 = 5 \/ 5 = 6 \/ 5 = 7) by (left; reflexivity).
  rewrite <- L in E at 1.
  destruct (C113_full_disk_noticed_refuted [] glob0 5 body eo 5 A H5 B N E) as (eo' & X1 & X2 & X3 & X4 & X5 & X6 & X7); [lia|lia|].
  exists eo'. rewrite L in X1, X3. split; [rewrite <- L; exact E|]. split; [exact P|]. split; [exact X1|]. split; [exact X2|]. split; [exact X3|].
  destruct (C05_compressed_not_larger [] glob0 5 (zlen body) body eo A H5 (zlen_nonneg _) B N E) as (Z1 & _).
  rewrite X6. unfold take, zlen in *. rewrite firstn_length. lia.
Qed.

Print Assumptions C113_full_disk_noticed_refuted.
Print Assumptions C113_full_disk_noticed_partial.
Print Assumptions C113_enough_room_partial.
