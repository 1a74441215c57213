(** Two objects that compress at the same time. *)
From Verif Require Import Go GoLemmas S_Bits P_Bits S_Huff M_Crc P_Crc M_Bitio P_Bitio P_Huff
  M_Maketree M_Maketbl P_Maketree P_Maketbl M_Huf P_HufCode P_HufTables P_HufLens P_HufBlock P_HufSend
  P_HufEnc P_HufOut P_HufStream M_Slide M_Decode M_Lzhuf S_Lz P_Lz P_Decode P_Slide P_Encode P_DecAny P_EncKeep S_History P_RoundTrip Properties_Slide M_ConcEnc P_ConcEnc.

(** A block without tokens and the padding: seven zero bytes. *)
Lemma end_none dicbit n pb h size : npok n pb -> pb = 4 \/ pb = 5 -> hcur dicbit n pb h [] -> 7 <= size ->
  exists h' w', encodeEndSt1 h (initPutbits size) = Ok (h', w') /\ rev (wout w') = repeat 0 7 /\ wcompsize w' = 7.
Proof.
  intros [Hn [Hpb Hfit]] PB [H EP EN EM] SZ. pose proof (he_sz _ _ _ _ _ H) as HZ. destruct HZ as [Z1 Z2 Z3 Z4 Z5 Z6 Z7 Z8 Z9 Z10].
  destruct (initPutbits_Wr size ltac:(lia)) as [W0 L0].
  unfold encodeEndSt1. cbn [initPutbits unpackable]. change (WS 0 8 0 size [] false) with (initPutbits size). unfold sendBlock, sendHead.
  destruct (makeTree_none Nc (cFreq h) (cLen h) (cCode h) (left h) (right h)) as (bl & cd & E1 & A1 & A2); [unfold Nc; lia|rewrite Z5; unfold Nc; lia|rewrite Z8; unfold Nc; lia|rewrite Z3; unfold Nc; lia| |].
  { intros c Hc. rewrite (he_cf _ _ _ _ _ H) by exact Hc. reflexivity. }
  rewrite E1. cbn [bind r_root r_freq r_bitlen r_code r_left r_right]. cbv zeta. cbn [cFreq set_cFreq set_cLen set_cCode set_left set_right].
  rewrite aget_ok by (rewrite Z5; lia). cbn [bind]. rewrite (he_cf _ _ _ _ _ H) by (unfold Nc; lia). change (countZ (map csym []) 0) with 0.
  destruct (putbits_emits 16 0 _ W0 ltac:(lia)) as (w1 & F1 & M1). rewrite F1. cbn [bind]. change (Nc <=? 0) with false. cbv iota.
  destruct (putbits_emits tbit 0 _ (em_wf _ _ _ M1) ltac:(unfold tbit; lia)) as (w2 & F2 & M2). rewrite F2. cbn [bind].
  destruct (putbits_emits tbit 0 _ (em_wf _ _ _ M2) ltac:(unfold tbit; lia)) as (w3 & F3 & M3). rewrite F3. cbn [bind].
  destruct (putbits_emits cbit 0 _ (em_wf _ _ _ M3) ltac:(unfold cbit; lia)) as (w4 & F4 & M4). rewrite F4. cbn [bind].
  destruct (putbits_emits cbit 0 _ (em_wf _ _ _ M4) ltac:(unfold cbit; lia)) as (w5 & F5 & M5). rewrite F5. cbn [bind].
  cbn [np pFreq ptLen ptCode left right pbit set_cFreq set_cLen set_cCode set_left set_right set_pFreq set_ptLen set_ptCode]. rewrite (he_np _ _ _ _ _ H), (he_pb _ _ _ _ _ H).
  destruct (makeTree_none n (pFreq h) (ptLen h) (ptCode h) (left h) (right h)) as (bl2 & cd2 & E2 & A3 & A4); [lia|rewrite Z6; lia|rewrite Z9; unfold Npt; lia|rewrite Z4; unfold Npt; lia| |].
  { intros c Hc. rewrite (he_pf _ _ _ _ _ H) by lia. reflexivity. }
  rewrite E2. cbn [bind r_root r_freq r_bitlen r_code r_left r_right]. cbn [np pFreq ptLen ptCode left right pbit set_cFreq set_cLen set_cCode set_left set_right set_pFreq set_ptLen set_ptCode].
  rewrite ?(he_np _ _ _ _ _ H), ?(he_pb _ _ _ _ _ H). destruct (Z.leb_spec n 0); [lia|].
  destruct (putbits_emits pb 0 _ (em_wf _ _ _ M5) ltac:(lia)) as (w6 & F6 & M6). rewrite F6. cbn [bind].
  destruct (putbits_emits pb 0 _ (em_wf _ _ _ M6) ltac:(lia)) as (w7 & F7 & M7). rewrite F7. cbn [bind]. change (Z.to_nat 0) with O. cbn [for_ctl bind].
  cbn [cFreq np pFreq set_cFreq set_cLen set_cCode set_left set_right set_pFreq set_ptLen set_ptCode]. rewrite ?(he_np _ _ _ _ _ H).
  destruct (fill_ok 0 Nc 0 (cFreq h)) as (cf & G1 & _); [lia|rewrite Z5; unfold Nc; lia|]. rewrite G1. cbn [bind].
  destruct (fill_ok 0 n 0 (pFreq h)) as (pf & G2 & _); [lia|rewrite Z6; lia|]. rewrite G2. cbn [bind].
  destruct (putbits_emits 7 0 _ (em_wf _ _ _ M7) ltac:(lia)) as (w8 & F8 & M8). rewrite F8. cbn [bind].
  eexists _, w8. split; [reflexivity|].
  pose proof (emits_app _ _ _ _ _ M1 (emits_app _ _ _ _ _ M2 (emits_app _ _ _ _ _ M3 (emits_app _ _ _ _ _ M4 (emits_app _ _ _ _ _ M5 (emits_app _ _ _ _ _ M6 (emits_app _ _ _ _ _ M7 M8))))))) as M.
  rewrite !zeros_bits, <- !repeat_app in M. set (T := (_ + _)%nat) in M.
  assert (TT : Z.of_nat T / 8 = 7) by (unfold T; destruct PB as [-> | ->]; reflexivity). clearbody T. destruct M as [MW MR MB MC].
  specialize (MC 0 (initPutbits_count size)). rewrite repeat_length in MC. destruct (wcount_unpackable _ _ MW MC) as [U1 U2].
  rewrite Z.add_0_l, TT in U1, U2.
  assert (OR : worigsize w8 = size) by (destruct MR as [O _]; exact O).
  assert (UP : unpackable w8 = false). { destruct (unpackable w8); [|reflexivity]. assert (worigsize w8 < 7) by (apply U1; reflexivity). lia. }
  specialize (U2 UP). split; [|exact U2]. destruct (MB [] L0 UP) as [_ _ (p & _ & _ & BS)]. cbn [app] in BS. symmetry in BS.
  pose proof (zero_bytes (wbytes w8) p _ ltac:(unfold wbytes, bytes; apply Forall_rev; exact (wwf_bytes _ MW)) BS) as ZB. unfold wbytes in ZB.
  rewrite ZB. f_equal. rewrite rev_length. pose proof (wwf_size _ MW) as X. unfold zlen in X. lia.
Qed.

Lemma alloc_gok cs g m k : after cs g -> room cs m -> m = 5 \/ m = 6 \/ m = 7 -> method_params m = Some (k, 256) -> 0 <= k ->
  gok (2 * 2 ^ k + 256) (encodeAlloc (2 * Z.shiftl 1 k + 256) g) /\ bytearr (buf (g_huf (encodeAlloc (2 * Z.shiftl 1 k + 256) g))).
Proof.
  intros A R Hm E2 K0'. pose proof (after_inv _ _ A) as I0. pose proof (alloc_inv _ _ _ _ _ E2 I0) as J. set (g1 := encodeAlloc (2 * Z.shiftl 1 k + 256) g) in *.
  destruct J as [[[[] JB1 JB2] ? ? ? ? ? JB3 ?] J2].
  assert (W : 2 * 2 ^ k + 256 + 1 <= alen (g_text g1) /\ alen (buf (g_huf g1)) = 65535 /\ alen (g_hpos g1) = hshsiz /\ alen (g_hflag g1) = hshsiz /\ alen (g_prevs g1) = maxDicsiz).
  { destruct (first_method cs) as [m0|] eqn:FM.
    - destruct J2 as [K0 [K1 [K2 [K3 [K4 K5]]]]]. split; [|auto]. rewrite K5. pose proof (window_mono m m0 Hm (R m0 FM) K0) as WM.
      unfold window at 1 in WM. rewrite E2 in WM. lia.
    - destruct J2 as [K0 [K1 [K2 [K3 [K4 K5]]]]]. split; [|auto]. rewrite K5. unfold window. rewrite E2. lia. }
  destruct W as [W1 [W2 [W3 [W4 W5]]]]. split; [|exact JB3]. constructor; auto.
  - constructor; auto.
  - split; [intros i Hi; apply JB3; lia|]. intros i t X. destruct (Z.to_nat i); discriminate X.
Qed.

Lemma lzhuf_encode m k size body g eo : (0 <? m) = true -> method_params m = Some (k, 256) -> EncodeLzhuf m size body g = Ok eo ->
  exists er, encode k 256 size body (encodeAlloc (2 * Z.shiftl 1 k + 256) g) = Ok er /\ er_original er <> 0 /\
    er_glob er = eo_glob eo /\ er_crc er = eo_crc eo /\ er_out er = eo_out eo /\ er_original er = eo_original eo /\ er_packed er = eo_packed eo.
Proof.
  intros M0 M E. unfold EncodeLzhuf in E. rewrite M0, M in E. cbv zeta in E. apply bind_ok in E. destruct E as (er & E1 & E2). exists er. split; [exact E1|].
  destruct (Z.eqb_spec (er_original er) 0); [discriminate E2|]. injection E2 as <-. cbn [eo_glob eo_crc eo_out eo_original eo_packed]. auto 10.
Qed.

Lemma call_room cs g m size body eo : after cs g -> m = 5 \/ m = 6 \/ m = 7 -> bytes body -> body <> [] -> EncodeLzhuf m size body g = Ok eo ->
  room cs m /\ Z.testbit (hd 0 body) 5 = false.
Proof.
  intros A Hm HB Hne E. assert (R : room cs m).
  { intros m0 F. destruct (Z_lt_ge_dec m0 m) as [L|L]; [|lia]. rewrite (EncodeLzhuf_panic_window cs g m m0 size body) in E; auto. discriminate. }
  split; [exact R|]. destruct (Z.testbit (hd 0 body) 5) eqn:H5; [|reflexivity]. rewrite (EncodeLzhuf_panic_first_byte cs g m size body) in E; auto. discriminate.
Qed.

Lemma start_bytearr k h h' : encodeStartSt1 k h = Ok h' -> bytearr (buf h) -> bytearr (buf h').
Proof.
  unfold encodeStartSt1. cbv zeta. intros E B. apply bind_ok in E. destruct E as (cf & _ & E). apply bind_ok in E. destruct E as (pf & _ & E). apply bind_ok in E. destruct E as (b & E1 & E).
  injection E as <-. cbn [buf set_cFreq set_pFreq set_outputPos set_outputMask set_buf]. apply aset_inv in E1. destruct E1 as [_ ->]. apply bytearr_upd; [|lia|unfold is_byte; lia].
  unfold set_np_pbit. destruct (k =? 12), (k =? 13), (k =? 15), (k =? 16); exact B.
Qed.

(** ** C112 *)

(** When the second goroutine starts after the first one has finished, both get what they
    get without the other. *)
Theorem C112_one_after_the_other_partial :
  forall m1 m2 k1 k2 size1 size2 body1 body2 g P eo1 eo2,
    0 < m1 -> 0 < m2 -> method_params m1 = Some (k1, 256) -> method_params m2 = Some (k2, 256) -> body1 <> [] -> body2 <> [] ->
    EncodeLzhuf m1 size1 body1 g = Ok eo1 -> EncodeLzhuf m2 size2 body2 (eo_glob eo1) = Ok eo2 ->
    exists i0 j0 s', forall i j, (i0 <= i)%nat -> (j0 <= j)%nat ->
      enc_run (repeat true i ++ repeat false j) (ESH g P) (EWaiting k1 256 size1 body1) (EWaiting k2 256 size2 body2)
      = Ok (s', EDone (eo_crc eo1) (eo_out eo1) (eo_original eo1) (eo_packed eo1), EDone (eo_crc eo2) (eo_out eo2) (eo_original eo2) (eo_packed eo2)).
Proof.
  intros m1 m2 k1 k2 size1 size2 body1 body2 g P eo1 eo2 P1 P2 M1 M2 N1 N2 E1 E2.
  destruct (lzhuf_encode m1 k1 _ _ _ _ ltac:(apply Z.ltb_lt; exact P1) M1 E1) as (r1 & X1 & Z1 & G1 & <- & <- & <- & <-).
  destruct (lzhuf_encode m2 k2 _ _ _ _ ltac:(apply Z.ltb_lt; exact P2) M2 E2) as (r2 & X2 & Z2 & G2 & <- & <- & <- & <-).
  destruct (encode_esteps k1 256 size1 body1 (ESH g P) r1 N1 X1 Z1) as (i0 & s1 & H1 & K1). rewrite <- G1, <- H1 in X2.
  destruct (encode_esteps k2 256 size2 body2 s1 r2 N2 X2 Z2) as (j0 & s2 & H2 & K2).
  exists i0, j0, s2. intros i j Hi Hj. rewrite enc_run_app, enc_first, (K1 i Hi). cbn [bind]. rewrite enc_second, (K2 j Hj). reflexivity.
Qed.

(** The claim is false.  Whatever the first file is (of 7 to 16000 bytes, one that gets
    shorter), there is an interleaving with any second call in which its compressed data are seven zero
    bytes: the data are lost, while the CRC and the size of the file are reported as they
    should be. *)
Theorem C112_concurrent_compression_refuted :
  forall cs g m k body1 body2 eo1 eo2 P,
    after cs g -> m = 5 \/ m = 6 -> method_params m = Some (k, 256) ->
    bytes body1 -> 7 <= zlen body1 <= 16000 -> bytes body2 -> body2 <> [] ->
    EncodeLzhuf m (zlen body1) body1 g = Ok eo1 -> eo_packed eo1 < eo_original eo1 ->
    EncodeLzhuf m (zlen body2) body2 g = Ok eo2 ->
    exists sched s' t2,
      enc_run sched (ESH g P) (EWaiting k 256 (zlen body1) body1) (EWaiting k 256 (zlen body2) body2)
      = Ok (s', EDone (calcCrc 0 body1) (repeat 0 7) (zlen body1) 7, t2).
Proof.
  intros cs g m k body1 body2 eo1 eo2 P A Hm M B1 L1 B2 N2 E1 SH E2.
  assert (N1 : body1 <> []) by (intros ->; change (zlen (@nil Z)) with 0 in L1; lia).
  assert (Hm' : m = 5 \/ m = 6 \/ m = 7) by tauto.
  destruct (call_room cs g m _ body1 eo1 A Hm' B1 N1 E1) as [R _]. destruct (call_room cs g m _ body2 eo2 A Hm' B2 N2 E2) as [_ H5].
  destruct (C14_round_trip_lh5_lh6 cs g cs g m body1 eo1 [] A A Hm B1 N1 ltac:(constructor) E1 SH) as (_ & O1 & C1 & _).
  destruct (mpar_cases m Hm') as (k' & n & pb & MP & _ & MK & _ & _ & K1 & NP & NS & _).
  rewrite M in MK. injection MK as <-.
  assert (PB : (pb = 4 \/ pb = 5) /\ k < n /\ 12 < n) by (destruct Hm as [-> | ->]; injection MP as <- <- <-; lia). destruct PB as (PB & KN & N12).
  pose proof (alloc_gok cs g m k A R Hm' M ltac:(lia)) as [G BG]. set (ga := encodeAlloc (2 * Z.shiftl 1 k + 256) g) in *.
  destruct (lzhuf_encode m k _ _ _ _ ltac:(apply Z.ltb_lt; lia) M E1) as (r1 & X1 & Z1 & G1 & Cr & _ & Or & _). fold ga in X1.
  pose proof (encode_keep _ _ _ _ _ _ X1) as GS.
  destruct (encode_parts k 256 (zlen body1) body1 (ESH g P) r1 N1 X1) as (e0 & e & h & w & S1 & H0 & W0 & C0 & LP & _ & Er). cbn [es_glob] in *. fold ga in S1, H0, Er.
  rewrite Er in GS, Or, Cr. cbn [er_original er_crc er_glob] in GS, Or, Cr.
  (* the first goroutine up to the end of its loop *)
  destruct (loop_loopN_stop _ _ _ _ LP) as (n0 & LN). destruct (loop_esteps ga _ _ _ _ LN) as (j & K & U).
  destruct (encodeStartSt1_ok k n pb (g_huf ga) (gk_h _ _ G) (gk_buf _ _ G)) as (h0 & H0' & HC); [destruct NP; lia|apply NS|apply NS|].
  rewrite H0 in H0'. injection H0' as <-.
  assert (SI0 : silent (initPutbits (zlen body1)) e0). { right. split; [exact W0|]. rewrite C0, (hq_pos _ _ _ _ _ HC), plen_nil. lia. }
  pose proof (loop_silent _ _ _ _ _ SI0 LP) as [SI1|(EW & _)]; [lia|].
  destruct (loop_esame _ _ _ _ LP) as [_ HS].
  (* the second one begins *)
  set (s1 := fst (apart ga (prm_of k 256) e)) in *.
  assert (GA : encodeAlloc (2 * Z.shiftl 1 k + 256) (es_glob s1) = es_glob s1).
  { unfold encodeAlloc. cbn [s1 apart fst es_glob g_hpos]. destruct GS as [_ GS1 _ _ _]. cbn [g_hpos] in GS1. rewrite GS1, (gk_hpos _ _ G). reflexivity. }
  assert (HL : hsz (e_huf e) /\ lay (buf (e_huf e)) []).
  { destruct (hcur_hst _ _ _ _ _ HC) as (HZ & _ & _ & LB). destruct HZ, HS. split.
    - constructor; try congruence; [destruct hs_cl|destruct hs_pl|destruct hs_buf]; congruence.
    - destruct hs_buf as [HA HB]. split; [|intros i t X; destruct (Z.to_nat i); discriminate X].
      intros i Hi. apply (HB (start_bytearr _ _ _ H0 BG)). lia. }
  destruct HL as [HZ LB]. destruct GS as [_ GS1 GS2 GS3 GS4]. cbn [g_hpos g_hflag g_prevs g_text] in GS1, GS2, GS3, GS4. destruct G as [_ _ G3 G4 G5 G6].
  assert (G' : gok (2 * 2 ^ k + 256) (es_glob s1)). { constructor; cbn [s1 apart fst es_glob g_huf g_hpos g_hflag g_prevs g_text]; try congruence; try assumption; lia. }
  destruct (encode_ok k 256 n pb (zlen body2) body2 (es_glob s1)) as (r2 & _ & _ & X2 & _); try assumption; try lia; [apply NS|apply NS|apply zlen_nonneg|].
  rewrite <- GA in X2.
  destruct (encode_parts k 256 (zlen body2) body2 s1 r2 N2 X2) as (e2 & _ & _ & _ & S2 & H2 & _). rewrite GA in S2, H2.
  destruct (encodeStartSt1_ok k n pb (g_huf (es_glob s1)) HZ LB) as (h2 & H2' & HC2); [destruct NP; lia|apply NS|apply NS|].
  rewrite H2 in H2'. injection H2' as <-.
  (* the first one ends *)
  destruct (end_none k n pb (e_huf e2) (zlen body1) NP PB HC2 ltac:(lia)) as (h3 & w3 & EE & WO & WC).
  exists ((true :: repeat true j) ++ [false; true]). eexists _, _. rewrite enc_run_app. cbn [enc_run enc_step]. rewrite S1. cbn [bind].
  destruct (apart ga (prm_of k 256) e0) as [sa ta]. cbn [fst snd] in K. rewrite enc_first, K. cbn [bind].
  change (apart ga (prm_of k 256) e) with (s1, snd (apart ga (prm_of k 256) e)). cbn [bind enc_run enc_step]. rewrite S2. cbn [bind].
  destruct (apart (es_glob s1) (prm_of k 256) e2) as [s2 t2] eqn:EA. injection EA as <- <-. cbn [bind enc_run snd apart enc_step es_glob g_huf]. unfold unfinished in U. rewrite U. cbv iota. rewrite EW, EE. cbn [bind].
  destruct (Z.eqb_spec (e_count e) 0); [lia|]. cbn [bind enc_run]. rewrite WO, WC, Cr, C1, Or, O1. reflexivity.
Qed.

(** Two such calls: a hundred zero bytes, twice. *)
Example C112_example : exists eo, EncodeLzhuf 5 100 (repeat 0 100) glob0 = Ok eo /\ eo_packed eo < eo_original eo /\ after [] glob0 /\ method_params 5 = Some (13, 256).
Proof.
  destruct C14_example as (eo & E & P & O). exists eo. split; [exact E|]. split; [lia|]. split; [|reflexivity]. split; [constructor|reflexivity].
Qed.

Print Assumptions C112_one_after_the_other_partial.
Print Assumptions C112_concurrent_compression_refuted.
