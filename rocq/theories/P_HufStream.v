(** The Huffman stage as a whole: a sequence of tokens is cut into blocks, the
    blocks are written, and the decoder reads the same tokens back. *)
From Verif Require Import Go GoLemmas M_Bitio M_Maketree M_Maketbl M_Huf S_Bits P_Bits P_Bitio S_Huff P_Huff P_Maketree P_Maketbl
  P_HufCode P_HufTables P_HufLens P_HufBlock P_HufSend P_HufEnc P_HufOut.

Lemma plen_nil : plen [] = 0. Proof. reflexivity. Qed.

Lemma lay_set0 b l q : lay b l -> alen b = 65535 -> plen l <= q -> q < 65535 -> lay (upd b q 0) l.
Proof.
  intros [LB LL] A P Q. assert (0 <= plen l) by apply plen_nonneg. split.
  - intros i Hi. rewrite alen_upd in Hi. rewrite at_upd by lia. destruct (i =? q); [lia|]. apply LB. lia.
  - intros i t E Hi. destruct (LL i t E Hi) as [L1 L2].
    pose proof (tpos_bound l i t Hi E) as TB.
    assert (F : 0 <= fpos l i < q).
    { split; [apply plen_nonneg|]. assert (i < zlen l). { assert (X : nth_error l (Z.to_nat i) <> None) by congruence. apply nth_error_Some in X. unfold zlen. lia. }
      pose proof (fpos_le_tpos l i ltac:(lia)). destruct t; cbn [tsz] in *; lia. }
    rewrite at_upd_ne by lia. split; auto.
    destruct t; cbn [tok_at tsz] in *; rewrite ?at_upd_ne by (destruct F; lia); auto.
Qed.

(** What survives a block that did not fit. *)
Definition hst (n pb : Z) (h : huf) : Prop := hsz h /\ np h = n /\ pbit h = pb /\ lay (buf h) [].

Lemma lay_weak b l : lay b l -> lay b [].
Proof. intros [A _]. split; auto. intros i t E. destruct (Z.to_nat i); discriminate. Qed.

Lemma hcur_hst dicbit n pb h l : hcur dicbit n pb h l -> hst n pb h.
Proof.
  intros [H _ _ _]. split; [apply (he_sz _ _ _ _ _ H)|]. split; [apply (he_np _ _ _ _ _ H)|]. split; [apply (he_pb _ _ _ _ _ H)|].
  eapply lay_weak, (he_lay _ _ _ _ _ H).
Qed.

(** A new group of eight tokens is opened at the end of the buffer. *)
Lemma open_group dicbit n pb h l t w : 0 <= dicbit <= 16 -> dicbit < n <= 17 -> henc dicbit n pb h l -> tok_ok dicbit t ->
  zlen l mod 8 = 0 -> outputPos h = plen l -> outputMask h = 128 -> plen l < 65504 ->
  exists h', (b <- aset (buf h) (outputPos h) 0 ;;
     out_tail (tokc t) (tokp t) (set_buf b (set_cpos (outputPos h) (set_outputPos (u16 (outputPos h + 1)) h))) w) = Ok (h', w) /\
    hcur dicbit n pb h' (l ++ [t]).
Proof.
  intros Hd Hdn H Ot M0 EP OM PL. pose proof (plen_nonneg l) as P0.
  pose proof (he_sz _ _ _ _ _ H) as HZ. pose proof (hz_buf _ HZ) as BZ.
  rewrite EP. rewrite aset_ok by lia. cbn [bind]. rewrite u16_id by lia.
  assert (K : Z.to_nat (zlen l) = length l) by (unfold zlen; lia).
  assert (TP : tpos l (zlen l) = plen l + 1).
  { unfold tpos. rewrite M0, K, firstn_all. reflexivity. }
  assert (FP : fpos l (zlen l) = plen l).
  { unfold fpos. pose proof (Z.div_mod (zlen l) 8 ltac:(lia)). replace (8 * (zlen l / 8)) with (zlen l) by lia. rewrite K, firstn_all. reflexivity. }
  apply (place_ok dicbit n pb); [exact Hd|exact Hdn| |exact Ot| | | | |].
  - destruct H as [A1 A2 A3 A4 A5 A6 A7 A8]. constructor; auto.
    + destruct A1. constructor; auto.
    + cbn [buf set_buf]. apply lay_set0; auto; lia.
  - rewrite TP. reflexivity.
  - rewrite M0. exact OM.
  - rewrite FP. reflexivity.
  - rewrite TP, M0. destruct t; cbn [tsz]; lia.
  - cbn [buf set_buf cpos set_cpos]. rewrite at_upd_eq by lia. intros. apply Z.testbit_0_l.
Qed.

(** One token through outputSt1. *)
Theorem outputSt1_ok dicbit n pb h l t w : 0 <= dicbit <= 16 -> dicbit < n -> npok n pb ->
  hcur dicbit n pb h l -> tok_ok dicbit t -> wwf w ->
  exists h' w', outputSt1 (tokc t) (tokp t) h w = Ok (h', w') /\ hst n pb h' /\ wwf w' /\ wrel w w' /\
    ((w' = w /\ hcur dicbit n pb h' (l ++ [t])) \/
     unpackable w' = true \/
     (exists bits, emits w w' bits /\ BLK dicbit n pb l bits /\ hcur dicbit n pb h' [t])).
Proof.
  intros Hd Hdn NP [H EP EN EM] Ot W. unfold outputSt1.
  pose proof NP as [Hn _]. pose proof (he_sz _ _ _ _ _ H) as HZ. pose proof (hz_buf _ HZ) as BZ.
  pose proof (zlen_nonneg l) as ZN. pose proof (plen_nonneg l) as PN.
  assert (MK : (zlen l mod 8 = 0 /\ Z.shiftr (outputMask h) 1 = 0) \/
               (zlen l mod 8 <> 0 /\ l <> [] /\ Z.shiftr (outputMask h) 1 = 2 ^ (7 - zlen l mod 8))).
  { destruct l as [|a l'] eqn:El.
    - left. rewrite EN by reflexivity. split; reflexivity.
    - rewrite <- El in *. assert (Hne : l <> []) by congruence. destruct (EM Hne) as [E1 _]. rewrite E1.
      assert (1 <= zlen l) by (rewrite El, zlen_cons; pose proof (zlen_nonneg l'); lia).
      unfold lastbit. pose proof (Z.div_mod (zlen l) 8 ltac:(lia)) as D. pose proof (Z.mod_pos_bound (zlen l) 8 ltac:(lia)) as B.
      destruct (Z.eq_dec (zlen l mod 8) 0) as [Z0|Z0].
      + left. split; auto. replace ((zlen l - 1) mod 8) with 7; [reflexivity|].
        apply (Z.mod_unique _ 8 (zlen l / 8 - 1)); lia.
      + right. split; auto. split; auto. replace ((zlen l - 1) mod 8) with (zlen l mod 8 - 1) by (apply (Z.mod_unique _ 8 (zlen l / 8)); lia).
        rewrite shiftr_div by lia. replace (7 - (zlen l mod 8 - 1)) with (7 - zlen l mod 8 + 1) by lia.
        rewrite Z.pow_add_r by lia. rewrite Z.div_mul by lia. reflexivity. }
  destruct MK as [[M0 ->]|[M0 [Hne EM']]].
  - cbn [Z.eqb]. cbv zeta. cbn [outputPos set_outputMask]. change block_threshold with 65504.
    destruct (Z.leb_spec 65504 (outputPos h)) as [Big|Small].
    + (* the buffer is full *)
      assert (Hne : l <> []). { intros ->. rewrite plen_nil in EP. lia. }
      assert (1 <= zlen l) by (destruct l; [congruence|]; rewrite zlen_cons; pose proof (zlen_nonneg l); lia).
      assert (H' : henc dicbit n pb (set_outputMask 128 h) l).
      { destruct H. constructor; auto. destruct he_sz. constructor; auto. }
      destruct (sendBlock_ok dicbit n pb _ l w Hd Hdn NP H' H0 W) as [h1 [w1 [E1 [S1 [N1 [P1 [L1 [_ [OM1 [W1 [R1 G1]]]]]]]]]]].
      rewrite E1. cbn [bind]. destruct (unpackable w1) eqn:U1; cbn [bind].
      * exists h1, w1. split; [reflexivity|]. split; [exact (conj S1 (conj N1 (conj P1 L1)))|]. split; [exact W1|]. split; [exact R1|]. right; left; exact U1.
      * destruct (G1 eq_refl) as [H1 [bits [Em Bk]]].
        assert (H1' : henc dicbit n pb (set_outputPos 0 h1) []).
        { destruct H1. constructor; auto. destruct he_sz. constructor; auto. }
        destruct (open_group dicbit n pb _ [] t w1 Hd ltac:(lia) H1' Ot eq_refl eq_refl OM1 ltac:(rewrite plen_nil; lia)) as [h2 [E2 C2]].
        cbn [outputPos set_outputPos buf] in E2 |- *.
        exists h2, w1. split; [|split; [eapply hcur_hst; eauto|split; [exact W1|split; [exact R1|right; right; exists bits; auto]]]].
        rewrite <- E2. destruct (aset (buf h1) 0 0); cbn [bind]; try reflexivity.
    + cbn [bind].
      assert (H' : henc dicbit n pb (set_outputMask 128 h) l).
      { destruct H. constructor; auto. destruct he_sz. constructor; auto. }
      destruct (open_group dicbit n pb (set_outputMask 128 h) l t w Hd ltac:(lia) H' Ot M0 EP eq_refl ltac:(lia)) as [h2 [E2 C2]].
      cbn [outputPos buf set_outputMask] in E2 |- *.
      exists h2, w. split; [|split; [eapply hcur_hst; eauto|split; [exact W|split; [apply wrel_refl|left; auto]]]].
      rewrite <- E2. destruct (aset (buf h) (outputPos h) 0); cbn [bind]; try reflexivity.
  - assert (B8 : 0 <= zlen l mod 8 < 8) by (apply Z.mod_pos_bound; lia).
    rewrite EM'. destruct (Z.eqb_spec (2 ^ (7 - zlen l mod 8)) 0) as [X|_].
    { exfalso. assert (0 < 2 ^ (7 - zlen l mod 8)) by (apply Z.pow_pos_nonneg; lia). lia. }
    cbn [bind]. destruct (EM Hne) as [E1 [E2 [E3 E4]]].
    assert (MM : (zlen l - 1) mod 8 = zlen l mod 8 - 1).
    { pose proof (Z.div_mod (zlen l) 8 ltac:(lia)) as D. symmetry. apply (Z.mod_unique _ 8 (zlen l / 8)); lia. }
    assert (DD : (zlen l - 1) / 8 = zlen l / 8).
    { pose proof (Z.div_mod (zlen l) 8 ltac:(lia)) as D. symmetry. apply (Z.div_unique _ 8 _ (zlen l mod 8 - 1)); lia. }
    unfold lastbit in *. rewrite MM in *.
    assert (TP : tpos l (zlen l) = plen l).
    { unfold tpos. destruct (Z.eqb_spec (zlen l mod 8) 0); [lia|]. unfold zlen at 1. rewrite Nat2Z.id, firstn_all. lia. }
    change (set_outputMask (2 ^ (7 - zlen l mod 8)) h) with (set_outputMask (2 ^ (7 - zlen l mod 8)) h).
    destruct (place_ok dicbit n pb (set_outputMask (2 ^ (7 - zlen l mod 8)) h) l t w) as [h2 [F2 C2]]; auto; try lia.
    + destruct H. constructor; auto. destruct he_sz. constructor; auto.
    + rewrite TP. exact EP.
    + cbn [cpos set_outputMask]. rewrite E2. apply fpos_div. exact DD.
    + rewrite TP. destruct t; cbn [tsz]; lia.
    + cbn [cpos buf set_outputMask]. intros e He. apply E4. lia.
    + exists h2, w. split; [exact F2|]. split; [eapply hcur_hst; eauto|]. split; [exact W|]. split; [apply wrel_refl|]. left; auto.
Qed.

(** ** Starting and ending a stream *)

Theorem encodeStartSt1_ok dicbit n pb h : hsz h -> lay (buf h) [] -> 12 < n <= 17 ->
  np (set_np_pbit dicbit h) = n -> pbit (set_np_pbit dicbit h) = pb ->
  exists h', encodeStartSt1 dicbit h = Ok h' /\ hcur dicbit n pb h' [].
Proof.
  intros HZ L Hn EN EP. unfold encodeStartSt1. set (h0 := set_np_pbit dicbit h) in *.
  assert (X : left h0 = left h /\ right h0 = right h /\ cCode h0 = cCode h /\ ptCode h0 = ptCode h /\ cFreq h0 = cFreq h /\
    pFreq h0 = pFreq h /\ tFreq h0 = tFreq h /\ cLen h0 = cLen h /\ ptLen h0 = ptLen h /\ buf h0 = buf h).
  { unfold h0, set_np_pbit. destruct (dicbit =? 12), (dicbit =? 13), (dicbit =? 15), (dicbit =? 16); repeat split. }
  clearbody h0. destruct X as [X1 [X2 [X3 [X4 [X5 [X6 [X7 [X8 [X9 X10]]]]]]]]]. rewrite X5, X6, X10.
  destruct HZ as [Z1 Z2 Z3 Z4 Z5 Z6 Z7 Z8 Z9 Z10].
  destruct (fill_ok 0 Nc 0 (cFreq h)) as [cf [E1 [A1 B1]]]; [lia|rewrite Z5; unfold Nc; lia|].
  destruct (fill_ok 0 Np 0 (pFreq h)) as [pf [E2 [A2 B2]]]; [lia|rewrite Z6; unfold Np; lia|].
  rewrite E1. cbn [bind]. rewrite E2. cbn [bind]. rewrite aset_ok by lia. cbn [bind].
  eexists. split; [reflexivity|]. constructor.
  - constructor.
    + constructor; cbn [left right cCode ptCode cFreq pFreq tFreq cLen ptLen buf set_cFreq set_pFreq set_outputPos set_outputMask set_buf]; rewrite ?alen_upd; congruence.
    + exact EN.
    + exact EP.
    + constructor.
    + cbn [cFreq set_cFreq]. intros c Hc. rewrite B1 by lia. replace (_ && _) with true; [reflexivity|]. symmetry. apply andb_true_intro. split; [apply Z.leb_le|apply Z.ltb_lt]; lia.
    + cbn [pFreq set_cFreq set_pFreq]. intros c Hc. rewrite B2 by lia. replace (_ && _) with true; [reflexivity|]. symmetry. apply andb_true_intro. unfold Np. split; [apply Z.leb_le|apply Z.ltb_lt]; lia.
    + rewrite plen_nil. lia.
    + apply lay_set0; auto; [rewrite plen_nil|]; lia.
  - reflexivity.
  - reflexivity.
  - congruence.
Qed.

(** Blocks one after the other. *)
Inductive BLKS (dicbit n pb : Z) : list tok -> list bool -> Prop :=
| BS_nil : BLKS dicbit n pb [] []
| BS_snoc a x b y : BLKS dicbit n pb a x -> BLK dicbit n pb b y -> BLKS dicbit n pb (a ++ b) (x ++ y).

Theorem decode_blocks dicbit n pb l bits : npok n pb -> 0 <= dicbit <= 16 -> BLKS dicbit n pb l bits ->
  forall packed rest h r B t, dsz h -> np h = n -> pbit h = pb -> blocksize h = 0 -> Rd packed rest r B (bits ++ t) ->
  exists h' r', dec_run h r l h' r' /\ dsz h' /\ np h' = n /\ pbit h' = pb /\ blocksize h' = 0 /\
    Rd packed rest r' (B + Z.of_nat (length bits)) t.
Proof.
  intros NP Hd H. induction H as [|a x b y Ha IH Hb]; intros packed rest h r B t D EN EP EB R.
  - exists h, r. split; [constructor|]. split; [auto|]. split; [auto|]. split; [auto|]. split; [auto|].
    replace (B + Z.of_nat (length [])) with B by (cbn [length]; lia). exact R.
  - rewrite <- app_assoc in R. destruct (IH _ _ _ _ _ _ D EN EP EB R) as [h1 [r1 [R1 [D1 [N1 [P1 [B1 Q1]]]]]]].
    destruct (block_decode dicbit n pb b y _ _ _ _ _ _ NP Hd Hb D1 N1 P1 B1 Q1) as [h2 [r2 [R2 [D2 [N2 [P2 [B2 Q2]]]]]]].
    exists h2, r2. split; [eapply dec_run_app; eauto|]. split; [auto|]. split; [auto|]. split; [auto|]. split; [auto|].
    rewrite app_length, Nat2Z.inj_add, Z.add_assoc. exact Q2.
Qed.

(** The encoder after the tokens [toks], when everything so far did fit. *)
Definition strm (dicbit n pb : Z) (w0 : wst) (h : huf) (w : wst) (toks : list tok) : Prop :=
  exists td l bits, toks = td ++ l /\ (l = [] -> td = []) /\ BLKS dicbit n pb td bits /\ emits w0 w bits /\ hcur dicbit n pb h l.

Lemma strm_start dicbit n pb w0 h : wwf w0 -> hcur dicbit n pb h [] -> strm dicbit n pb w0 h w0 [].
Proof. intros W H. exists [], [], []. split; [reflexivity|]. split; [auto|]. split; [constructor|]. split; [now apply emits_nil|exact H]. Qed.

Theorem strm_step dicbit n pb w0 h w toks t : 0 <= dicbit <= 16 -> dicbit < n -> npok n pb ->
  strm dicbit n pb w0 h w toks -> tok_ok dicbit t ->
  exists h' w', outputSt1 (tokc t) (tokp t) h w = Ok (h', w') /\ hst n pb h' /\ wwf w' /\ wrel w w' /\
    (unpackable w' = false -> strm dicbit n pb w0 h' w' (toks ++ [t])).
Proof.
  intros Hd Hdn NP [td [l [bits [-> [Hl [Bk [Em C]]]]]]] Ot.
  destruct (outputSt1_ok dicbit n pb h l t w Hd Hdn NP C Ot (em_wf _ _ _ Em)) as [h' [w' [E [S [W [R D]]]]]].
  exists h', w'. split; [exact E|]. split; [exact S|]. split; [exact W|]. split; [exact R|]. intros U.
  destruct D as [[-> D]|[D|[b2 [Em2 [Bk2 C2]]]]].
  - exists td, (l ++ [t]), bits. rewrite app_assoc. split; [reflexivity|]. split; [|auto].
    intros X. apply app_eq_nil in X. destruct X. discriminate.
  - congruence.
  - exists (td ++ l), [t], (bits ++ b2). split; [reflexivity|]. split; [discriminate|]. split; [constructor; auto|]. split; [|exact C2].
    eapply emits_app; eauto.
Qed.

Theorem strm_end dicbit n pb w0 h w toks : 0 <= dicbit <= 16 -> dicbit < n -> npok n pb ->
  strm dicbit n pb w0 h w toks -> toks <> [] ->
  exists h' w', encodeEndSt1 h w = Ok (h', w') /\ hst n pb h' /\ wwf w' /\ wrel w w' /\
    (unpackable w' = false -> exists bits, BLKS dicbit n pb toks bits /\ emits w0 w' (bits ++ repeat false 7)).
Proof.
  intros Hd Hdn NP [td [l [bits [-> [Hl [Bk [Em C]]]]]]] Ne.
  assert (L1 : 1 <= zlen l). { destruct l; [rewrite Hl in Ne by auto; now contradiction Ne|]. rewrite zlen_cons. pose proof (zlen_nonneg l). lia. }
  pose proof (em_wf _ _ _ Em) as W. unfold encodeEndSt1. destruct (unpackable w) eqn:U.
  { exists h, w. split; [reflexivity|]. split; [eapply hcur_hst; eauto|]. split; [exact W|]. split; [apply wrel_refl|congruence]. }
  destruct (sendBlock_ok dicbit n pb h l w Hd Hdn NP (hq_enc _ _ _ _ _ C) L1 W) as [h1 [w1 [E1 [S1 [N1 [P1 [Y1 [_ [_ [W1 [R1 G1]]]]]]]]]]].
  rewrite E1. cbn [bind]. destruct (putbits_emits 7 0 w1 W1 ltac:(lia)) as [w2 [E2 Em2]].
  rewrite E2. cbn [bind]. exists h1, w2. split; [reflexivity|]. split; [exact (conj S1 (conj N1 (conj P1 Y1)))|].
  split; [apply (em_wf _ _ _ Em2)|]. split; [eapply wrel_trans; [exact R1|apply (em_rel _ _ _ Em2)]|].
  intros U2. assert (U1 : unpackable w1 = false).
  { destruct (unpackable w1) eqn:Q; auto. destruct (em_rel _ _ _ Em2) as [_ [K _]]. rewrite K in U2; auto. }
  destruct (G1 U1) as [_ [b [Em1 Bk1]]]. exists (bits ++ b). split; [constructor; auto|].
  change (repeat false 7) with (to_bits (Z.to_nat 7) 0). eapply emits_app; [eapply emits_app; eauto|exact Em2].
Qed.

(** Reading back what a complete stream wrote. *)
Theorem stream_decode dicbit n pb o w toks bits rest h : npok n pb -> 0 <= dicbit <= 16 -> 0 <= o -> bytes rest ->
  BLKS dicbit n pb toks bits -> emits (initPutbits o) w (bits ++ repeat false 7) -> unpackable w = false ->
  dsz h -> np h = n -> pbit h = pb -> blocksize h = 0 ->
  exists r h' r', initGetbits (wcompsize w) (rev (wout w) ++ rest) = Ok r /\ dec_run h r toks h' r' /\
    dsz h' /\ compsize r' = 0 /\ infile r' = rest.
Proof.
  intros NP Hd Ho Hrest Bk Em U D EN EP EB. destruct (initPutbits_Wr o Ho) as [W0 L0].
  pose proof (em_bits _ _ _ Em [] L0 U) as Wr1. cbn [app] in Wr1. pose proof (em_wf _ _ _ Em) as W.
  destruct (Wr_flush _ _ Wr1) as [S [Le _]].
  assert (Hz : wcompsize w = zlen (wbytes w)) by (rewrite (wwf_size _ W); unfold wbytes, zlen; now rewrite rev_length).
  change (rev (wout w)) with (wbytes w). rewrite Hz.
  destruct (initGetbits_bits (wbytes w) rest) as [r [Er Rr]].
  { unfold bytes. apply Forall_app. split; auto. apply Forall_rev. apply (wwf_bytes _ W). }
  eapply Rd_seq in Rr; [|exact S]. rewrite <- (app_nil_r bits) in Rr.
  destruct (decode_blocks dicbit n pb toks bits NP Hd Bk _ _ _ _ _ _ D EN EP EB Rr) as [h' [r' [R1 [D1 [_ [_ [_ Q]]]]]]].
  exists r, h', r'. split; [exact Er|]. split; [exact R1|]. split; [exact D1|].
  eapply Rd_end; [exact Q|]. lia.
Qed.
