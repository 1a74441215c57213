(** Sending blocks, and the stream of blocks an encoding produces. *)
From Verif Require Import Go GoLemmas S_Bits P_Bits S_Huff M_Bitio P_Bitio P_Huff
  M_Maketree M_Maketbl P_Maketree P_Maketbl M_Huf P_HufCode P_HufTables P_HufLens P_HufBlock P_HufSend.

Record keep (h h' : huf) : Prop := {
  kp_cl : cLen h' = cLen h;
  kp_cc : cCode h' = cCode h;
  kp_cf : cFreq h' = cFreq h;
  kp_pf : pFreq h' = pFreq h;
  kp_buf : buf h' = buf h;
  kp_np : np h' = np h;
  kp_pb : pbit h' = pbit h;
  kp_op : outputPos h' = outputPos h;
  kp_om : outputMask h' = outputMask h;
  kp_cp : cpos h' = cpos h }.

Lemma zlen_map {A B} (f : A -> B) l : zlen (map f l) = zlen l.
Proof. unfold zlen. now rewrite map_length. Qed.

Lemma csyms_range dicbit l : Forall (tok_ok dicbit) l -> forall c, In c (map csym l) -> 0 <= c < Nc.
Proof.
  intros O c Hc. apply in_map_iff in Hc. destruct Hc as [t [<- Ht]].
  pose proof (proj1 (Forall_forall _ _) O t Ht) as X. destruct t; cbn [tok_ok csym] in *; unfold Nc in *; lia.
Qed.

Lemma root_size dicbit n pb h l r : henc dicbit n pb h l -> 1 <= zlen l ->
  tree_spec Nc (cFreq h) (cLen h) (cCode h) (left h) (right h) r ->
  at_ (r_freq r) (r_root r) = zlen l /\ 0 <= r_root r < 1019.
Proof.
  intros H L T. pose proof (csyms_range _ _ (he_ok _ _ _ _ _ H)) as CR.
  assert (SU : sumf (at_ (cFreq h)) (used Nc (cFreq h)) = zlen l).
  { rewrite (sumf_ext _ (countZ (map csym l))).
    - rewrite sumf_countZ, zlen_map; [reflexivity|apply NoDup_used|].
      intros c Hc. apply used_In. split; [auto|]. rewrite (he_cf _ _ _ _ _ H) by auto. pose proof (countZ_pos _ _ Hc). lia.
    - intros c Hc. apply used_In in Hc. apply (he_cf _ _ _ _ _ H). lia. }
  destruct (Z_lt_ge_dec (zlen (used Nc (cFreq h))) 2) as [S|B].
  - destruct (ts_small _ _ _ _ _ _ _ T S) as [R0 [Z0 [R1 C0]]].
    destruct l as [|t l]; [change (zlen (@nil tok)) with 0 in L; lia|].
    pose proof (henc_cused _ _ _ _ _ H) as U. inversion U as [|? ? U1 U2]; subst.
    pose proof (small_used Nc (cFreq h) S (csym t) U1) as E. rewrite (R1 _ E) in *.
    rewrite (ts_freq _ _ _ _ _ _ _ T) by lia. rewrite <- SU, E. cbn [sumf fold_right]. unfold Nc in R0. lia.
  - destruct (ts_big _ _ _ _ _ _ _ T ltac:(lia)) as [R0 [F _]]. rewrite F, SU.
    pose proof (plen_zlen l). pose proof (he_plen _ _ _ _ _ H). pose proof (zlen_nonneg l). rewrite u16_id by lia. unfold Nc in R0. lia.
Qed.

(** Code length code and character code lengths. *)
Lemma write_lens h r h1 w : hsz h ->
  tree_spec Nc (cFreq h) (cLen h) (cCode h) (left h) (right h) r ->
  hsz h1 -> cLen h1 = r_bitlen r -> wwf w ->
  exists h2 w2 bt bc tl Ut,
    (if Nc <=? r_root r then
       t <- countTFreq (cLen h1) (tFreq h1) ;;
       r <- makeTree Nt t (ptLen h1) (ptCode h1) (left h1) (right h1) ;;
       let h := set_tFreq (r_freq r) (set_ptLen (r_bitlen r) (set_ptCode (r_code r)
                  (set_left (r_left r) (set_right (r_right r) h1)))) in
       w <- (if Nt <=? r_root r then writePtLen (ptLen h) Nt tbit 3 w
             else w <- putbits tbit 0 w ;; putbits tbit (r_root r) w) ;;
       w <- writeCLen (cLen h) (ptLen h) (ptCode h) w ;;
       Ok (h, w)
     else
       w <- putbits tbit 0 w ;;
       w <- putbits tbit 0 w ;;
       w <- putbits cbit 0 w ;;
       w <- putbits cbit (r_root r) w ;;
       Ok (h1, w)) = Ok (h2, w2) /\
    emits w w2 (bt ++ bc) /\ PTB Nt tbit 3 tl Ut bt /\ CLB tl Ut (at_ (r_bitlen r)) (Ufreq Nc (cFreq h)) bc /\
    hsz h2 /\ keep h1 h2.
Proof.
  intros HZ T Z1 EL W.
  pose proof (tree_len_ok Nc _ _ _ _ _ _ T) as LO.
  assert (HCL : alen (r_bitlen r) = Nc) by (rewrite (ts_bitl _ _ _ _ _ _ _ T); apply (hz_cl _ HZ)).
  destruct (Z.leb_spec Nc (r_root r)) as [B|S].
  - pose proof (tree_big Nc _ _ _ _ _ _ T B) as BG. destruct (ts_big _ _ _ _ _ _ _ T BG) as [_ [_ [A [K C]]]].
    rewrite EL.
    destruct (countTFreq_ok (r_bitlen r) (tFreq h1)) as (n' & t & E1 & R1 & Z0 & NZ & E2 & A2 & F2 & S2).
    + lia.
    + rewrite (hz_tf _ Z1). lia.
    + exact LO.
    + rewrite E2. cbn [bind].
      destruct (makeTree_ok Nt t (ptLen h1) (ptCode h1) (left h1) (right h1)) as [rt [E3 T3]].
      * unfold Nt; lia.
      * rewrite (hz_pl _ Z1). unfold Nt, Npt. lia.
      * rewrite (hz_pc _ Z1). unfold Nt, Npt. lia.
      * rewrite A2, (hz_tf _ Z1). unfold Nt. lia.
      * rewrite (hz_left _ Z1). unfold Nt. lia.
      * rewrite (hz_right _ Z1). unfold Nt. lia.
      * exact F2.
      * rewrite E3. cbn [bind]. cbv zeta. cbn [ptLen ptCode cLen set_tFreq set_ptLen set_ptCode set_left set_right].
        destruct (write_ptb Nt t (ptLen h1) (ptCode h1) (left h1) (right h1) rt ltac:(unfold Nt; lia) ltac:(rewrite (hz_pl _ Z1); unfold Nt, Npt; lia) T3 tbit 3 w) as (bt & w1 & E4 & M4 & P4).
        -- rewrite (hz_pl _ Z1). unfold Npt. lia.
        -- now left.
        -- unfold tbit. lia.
        -- exact W.
        -- rewrite E4. cbn [bind].
           pose proof (tree_hcode Nt t (ptLen h1) (ptCode h1) (left h1) (right h1) rt ltac:(unfold Nt; lia)
              ltac:(rewrite (hz_pl _ Z1); unfold Nt, Npt; lia) ltac:(rewrite (hz_pc _ Z1); unfold Nt, Npt; lia) T3) as HT.
           destruct (CL_exists (at_ (r_bitlen r)) n' (codeword Nt (at_ (r_bitlen rt))) 0 ltac:(lia)) as [ss [b CLD]].
           unfold writeCLen. rewrite EL, E1. cbn [bind].
           destruct (putbits_emits cbit n' w1 (em_wf _ _ _ M4) ltac:(unfold cbit; lia)) as [w2 [E5 M5]]. rewrite E5. cbn [bind].
           assert (HU : forall c, In c ss -> Ufreq Nt t c) by (intros c Hc; apply (S2 _ _ _ CLD c Hc)).
           destruct (writeCLen_loop (r_bitlen r) (r_bitlen rt) (r_code rt) (Ufreq Nt t) n' 0 ss b CLD HT ltac:(lia) ltac:(unfold Nc in *; lia) ltac:(lia) HU
              (n' + 1) w2 (em_wf _ _ _ M5) ltac:(lia)) as [w3 [E6 M6]].
           match goal with |- context [loop (n' + 1) ?f _] => change f with (wcl_step (r_bitlen r) (r_bitlen rt) (r_code rt) n') end.
           rewrite E6. cbn [bind].
           eexists _, w3, bt, _, (at_ (r_bitlen rt)), (Ufreq Nt t). split; [reflexivity|].
           split; [eapply emits_app; [exact M4|eapply emits_app; [exact M5|exact M6]]|].
           split; [exact P4|]. split; [|split].
           ++ split; [exact LO|]. split; [intros c [X _]; exact X|]. left. exists n', b.
              split; [split; [exact (kraft_nonzero_n' Nc r n' ltac:(lia) K Z0)|lia]|].
              split; auto. split; [apply (CL_CLG _ _ _ _ _ ss); auto; unfold Nc in *; lia|]. split; auto. split; [|reflexivity].
              intros c [X1 X2]. destruct (A c X1) as [A1 _]. specialize (A1 X2). lia.
           ++ destruct Z1. constructor; cbn; auto.
              ** rewrite (ts_leftl _ _ _ _ _ _ _ T3). auto.
              ** rewrite (ts_rightl _ _ _ _ _ _ _ T3). auto.
              ** rewrite (ts_codel _ _ _ _ _ _ _ T3). auto.
              ** rewrite (ts_freql _ _ _ _ _ _ _ T3). congruence.
              ** rewrite (ts_bitl _ _ _ _ _ _ _ T3). auto.
           ++ constructor; reflexivity.
  - pose proof (tree_small Nc _ _ _ _ _ _ T S) as SM. destruct (ts_small _ _ _ _ _ _ _ T SM) as [R0 [Z0 [R1 C0]]].
    destruct (putbits_emits tbit 0 w W ltac:(unfold tbit; lia)) as [w1 [E1 M1]]. rewrite E1. cbn [bind].
    destruct (putbits_emits tbit 0 w1 (em_wf _ _ _ M1) ltac:(unfold tbit; lia)) as [w2 [E2 M2]]. rewrite E2. cbn [bind].
    destruct (putbits_emits cbit 0 w2 (em_wf _ _ _ M2) ltac:(unfold cbit; lia)) as [w3 [E3 M3]]. rewrite E3. cbn [bind].
    destruct (putbits_emits cbit (r_root r) w3 (em_wf _ _ _ M3) ltac:(unfold cbit; lia)) as [w4 [E4 M4]]. rewrite E4. cbn [bind].
    eexists h1, w4, _, _, (fun _ => 0), (fun _ => False). split; [reflexivity|].
    split; [eapply emits_app; [eapply emits_app; [exact M1|exact M2]|eapply emits_app; [exact M3|exact M4]]|].
    split; [|split; [|split; [exact Z1|constructor; reflexivity]]].
    + split; [intros c Hc; lia|]. split; [intros c []|]. right. exists 0. unfold Nt. split; [lia|]. split; [intros c []|]. split; auto.
    + split; [exact LO|]. split; [intros c [X _]; exact X|]. right. exists (r_root r). split; [lia|]. split; [|split; auto].
      intros c U. symmetry. apply R1. apply (small_used Nc (cFreq h) SM c U).
Qed.

Lemma lay_nil b : (forall i, 0 <= i < alen b -> 0 <= at_ b i < 256) -> lay b [].
Proof. intros H. split; auto. intros i t E. destruct (Z.to_nat i); discriminate. Qed.

Lemma root_range freq bl code lf rt r : tree_spec Nc freq bl code lf rt r ->
  (forall c, 0 <= c < Nc -> 0 <= at_ freq c < 65536) ->
  0 <= r_root r < 1019 /\ 0 <= at_ (r_freq r) (r_root r) < 65536.
Proof.
  intros T F. destruct (Z_lt_ge_dec (zlen (used Nc freq)) 2) as [S|B].
  - destruct (ts_small _ _ _ _ _ _ _ T S) as [R0 _]. rewrite (ts_freq _ _ _ _ _ _ _ T) by lia. split; [unfold Nc in R0; lia|apply F; lia].
  - destruct (ts_big _ _ _ _ _ _ _ T ltac:(lia)) as [R0 [E _]]. rewrite E. split; [unfold Nc in R0; lia|apply Z.mod_pos_bound; lia].
Qed.

(** The head of a block, for any frequencies. *)
Theorem sendHead_ok n pb h w : npok n pb -> hsz h -> np h = n -> pbit h = pb ->
  (forall c, 0 <= c < Nc -> 0 <= at_ (cFreq h) c < 65536) ->
  (forall c, 0 <= c < n -> 0 <= at_ (pFreq h) c < 65536) -> wwf w ->
  exists h' w' size r pl pc lf rg rp hb, sendHead h w = Ok (h', w', size) /\
    hsz h' /\ np h' = n /\ pbit h' = pb /\ buf h' = buf h /\ outputPos h' = outputPos h /\ outputMask h' = outputMask h /\
    tree_spec Nc (cFreq h) (cLen h) (cCode h) (left h) (right h) r /\ size = at_ (r_freq r) (r_root r) /\
    cLen h' = r_bitlen r /\ cCode h' = r_code r /\
    alen pl = Npt /\ alen pc = Npt /\
    tree_spec n (pFreq h) pl pc lf rg rp /\ ptLen h' = r_bitlen rp /\ ptCode h' = r_code rp /\
    emits w w' hb /\ HB n pb (at_ (cLen h')) (at_ (ptLen h')) (Ufreq Nc (cFreq h)) (Ufreq n (pFreq h)) size hb.
Proof.
  intros [Hn [Hpb Hfit]] HZ HN HP FC FP W. unfold sendHead.
  destruct (makeTree_ok Nc (cFreq h) (cLen h) (cCode h) (left h) (right h)) as [r [E1 T1]].
  { unfold Nc; lia. } { rewrite (hz_cl _ HZ); lia. } { rewrite (hz_cc _ HZ); lia. } { rewrite (hz_cf _ HZ). unfold Nc; lia. }
  { rewrite (hz_left _ HZ). unfold Nc; lia. } { rewrite (hz_right _ HZ). unfold Nc; lia. }
  { exact FC. }
  rewrite E1. cbn [bind]. cbv zeta.
  destruct (root_range _ _ _ _ _ _ T1 FC) as [RR SR].
  set (h1 := set_cFreq _ _). change (cFreq h1) with (r_freq r).
  rewrite aget_ok by (rewrite (ts_freql _ _ _ _ _ _ _ T1), (hz_cf _ HZ); lia). cbn [bind].
  set (size := at_ (r_freq r) (r_root r)) in *.
  destruct (putbits_emits 16 size w W ltac:(lia)) as [w1 [E2 M2]]. rewrite E2. cbn [bind].
  assert (Z1 : hsz h1).
  { destruct HZ. constructor; cbn; auto.
    - rewrite (ts_leftl _ _ _ _ _ _ _ T1). auto.
    - rewrite (ts_rightl _ _ _ _ _ _ _ T1). auto.
    - rewrite (ts_codel _ _ _ _ _ _ _ T1). auto.
    - rewrite (ts_freql _ _ _ _ _ _ _ T1). auto.
    - rewrite (ts_bitl _ _ _ _ _ _ _ T1). auto. }
  destruct (write_lens h r h1 w1 HZ T1 Z1 eq_refl (em_wf _ _ _ M2)) as (h2 & w2 & bt & bc & tl & Ut & E3 & M3 & P3 & C3 & Z2 & K2).
  cbv zeta in E3. rewrite E3. cbn [bind]. clear E3.
  assert (N2 : np h2 = n) by (rewrite (kp_np _ _ K2); exact HN).
  assert (PB2 : pbit h2 = pb) by (rewrite (kp_pb _ _ K2); exact HP).
  assert (PF2 : pFreq h2 = pFreq h) by (rewrite (kp_pf _ _ K2); reflexivity).
  rewrite N2.
  destruct (makeTree_ok n (pFreq h2) (ptLen h2) (ptCode h2) (left h2) (right h2)) as [rp [E4 T4]].
  { lia. } { rewrite (hz_pl _ Z2); unfold Npt; lia. } { rewrite (hz_pc _ Z2); unfold Npt; lia. } { rewrite (hz_pf _ Z2). lia. }
  { rewrite (hz_left _ Z2). lia. } { rewrite (hz_right _ Z2). lia. }
  { rewrite PF2. exact FP. }
  rewrite E4. cbn [bind]. cbv zeta. set (h3 := set_pFreq _ _).
  assert (Z3 : hsz h3).
  { destruct Z2. constructor; cbn; auto.
    - rewrite (ts_leftl _ _ _ _ _ _ _ T4). auto.
    - rewrite (ts_rightl _ _ _ _ _ _ _ T4). auto.
    - rewrite (ts_codel _ _ _ _ _ _ _ T4). auto.
    - rewrite (ts_freql _ _ _ _ _ _ _ T4). auto.
    - rewrite (ts_bitl _ _ _ _ _ _ _ T4). auto. }
  change (np h3) with (np h2). change (pbit h3) with (pbit h2). change (ptLen h3) with (r_bitlen rp). rewrite N2, PB2.
  destruct (write_ptb n (pFreq h2) (ptLen h2) (ptCode h2) (left h2) (right h2) rp ltac:(lia) ltac:(rewrite (hz_pl _ Z2); unfold Npt; lia) T4 pb (-1) w2) as (bp & w3 & E5 & M5 & P5).
  { rewrite (hz_pl _ Z2). unfold Npt. lia. } { now right. } { lia. } { exact (em_wf _ _ _ M3). }
  rewrite E5. cbn [bind].
  assert (CL3 : cLen h3 = r_bitlen r) by (change (cLen h3) with (cLen h2); rewrite (kp_cl _ _ K2); reflexivity).
  assert (CC3 : cCode h3 = r_code r) by (change (cCode h3) with (cCode h2); rewrite (kp_cc _ _ K2); reflexivity).
  exists h3, w3, size, r, (ptLen h2), (ptCode h2), (left h2), (right h2), rp, (to_bits 16 size ++ (bt ++ bc) ++ bp).
  split; [reflexivity|]. split; [exact Z3|]. split; [exact N2|]. split; [exact PB2|].
  split; [change (buf h3) with (buf h2); rewrite (kp_buf _ _ K2); reflexivity|].
  split; [change (outputPos h3) with (outputPos h2); rewrite (kp_op _ _ K2); reflexivity|].
  split; [change (outputMask h3) with (outputMask h2); rewrite (kp_om _ _ K2); reflexivity|].
  split; [exact T1|]. split; [reflexivity|]. split; [exact CL3|]. split; [exact CC3|].
  split; [exact (hz_pl _ Z2)|]. split; [exact (hz_pc _ Z2)|].
  split; [rewrite <- PF2; exact T4|]. split; [reflexivity|]. split; [reflexivity|].
  split; [eapply emits_app; [exact M2|]; eapply emits_app; [exact M3|exact M5]|].
  split; [lia|]. exists tl, Ut, bt, bc, bp. split; auto. rewrite CL3. split; auto.
  split; [rewrite <- PF2; exact P5|]. rewrite <- !app_assoc. reflexivity.
Qed.

Theorem sendBlock_ok dicbit n pb h l w : 0 <= dicbit <= 16 -> dicbit < n -> npok n pb ->
  henc dicbit n pb h l -> 1 <= zlen l -> wwf w ->
  exists h' w', sendBlock h w = Ok (h', w') /\ hsz h' /\ np h' = n /\ pbit h' = pb /\ lay (buf h') [] /\
    outputPos h' = outputPos h /\ outputMask h' = outputMask h /\ wwf w' /\ wrel w w' /\
    (unpackable w' = false -> henc dicbit n pb h' [] /\ exists bits, emits w w' bits /\ BLK dicbit n pb l bits).
Proof.
  intros Hd Hdn NP H L W. pose proof (he_sz _ _ _ _ _ H) as HZ. unfold sendBlock.
  pose proof (plen_zlen l) as PZ. pose proof (he_plen _ _ _ _ _ H) as PB. pose proof NP as [Hn _].
  destruct (sendHead_ok n pb h w NP HZ (he_np _ _ _ _ _ H) (he_pb _ _ _ _ _ H)) as
    (h3 & w3 & size & r & pl & pc & lf & rg & rp & hb & E & Z3 & N2 & PB2 & B3 & OP & OM & T1 & SZ & CL3 & CC3 & AL & AC & T4 & PL3 & PC3 & M35 & HH).
  { intros c Hc. rewrite (he_cf _ _ _ _ _ H) by exact Hc. pose proof (countZ_nonneg (map csym l) c). pose proof (countZ_le (map csym l) c). rewrite zlen_map in *. lia. }
  { intros c Hc. rewrite (he_pf _ _ _ _ _ H) by lia. pose proof (countZ_nonneg (psyms l) c). pose proof (countZ_le (psyms l) c). pose proof (psyms_len l). lia. }
  { exact W. }
  rewrite E. cbn [bind]. destruct (root_size dicbit n pb h l r H L T1) as [RS _]. rewrite RS in SZ. subst size.
  destruct (send_loop_ok dicbit n h3 l (Ufreq Nc (cFreq h)) (Ufreq n (pFreq h)) Hd (he_ok _ _ _ _ _ H)
     (henc_used _ _ _ _ _ Hdn ltac:(lia) H) PB) with (w := w3) as [c [E6 Q6]].
  { rewrite B3. exact (he_lay _ _ _ _ _ H). }
  { exact (hz_buf _ Z3). }
  { rewrite CL3, CC3. apply (tree_hcode Nc _ (cLen h) (cCode h) (left h) (right h)); auto.
    - unfold Nc; lia. - rewrite (hz_cl _ HZ); lia. - rewrite (hz_cc _ HZ); lia. }
  { rewrite PL3, PC3. apply (tree_hcode n _ pl pc lf rg); auto.
    - lia. - rewrite AL; unfold Npt; lia. - rewrite AC; unfold Npt; lia. }
  { exact (em_wf _ _ _ M35). }
  rewrite E6. cbn [bind].
  assert (LN : lay (buf h3) []) by (apply lay_nil; rewrite B3; exact (proj1 (he_lay _ _ _ _ _ H))).
  destruct c as [[[fl ps] w4]|w4].
  - destruct (fill_ok 0 Nc 0 (cFreq h3) ltac:(lia) ltac:(rewrite (hz_cf _ Z3); unfold Nc; lia)) as [cf [E7 [A7 V7]]].
    rewrite E7. cbn [bind]. rewrite ?N2.
    destruct (fill_ok 0 n 0 (pFreq h3) ltac:(lia) ltac:(rewrite (hz_pf _ Z3); lia)) as [pf [E8 [A8 V8]]].
    rewrite E8. cbn [bind]. eexists _, w4. split; [reflexivity|].
    assert (ZZ : hsz (set_cFreq cf (set_pFreq pf h3))).
    { destruct Z3. constructor; auto; cbn [cFreq pFreq set_cFreq set_pFreq]; congruence. }
    split; [exact ZZ|]. split; [exact N2|]. split; [exact PB2|]. split; [exact LN|]. split; [exact OP|]. split; [exact OM|].
    split; [exact (em_wf _ _ _ Q6)|]. split; [eapply wrel_trans; [exact (em_rel _ _ _ M35)|exact (em_rel _ _ _ Q6)]|].
    intros _. split.
    + constructor; auto.
      * intros c Hc. cbn [cFreq set_cFreq]. rewrite V7 by lia. destruct (Z.leb_spec 0 c), (Z.ltb_spec c Nc); cbn [andb]; auto; lia.
      * intros k Hk. cbn [pFreq set_cFreq set_pFreq]. rewrite V8 by lia. destruct (Z.leb_spec 0 k), (Z.ltb_spec k n); cbn [andb]; auto; lia.
      * unfold plen, zlen. cbn [length sumsz fold_right]. change ((Z.of_nat 0 + 7) / 8) with 0. lia.
    + eexists. split; [eapply emits_app; [exact M35|exact Q6]|]. split; [lia|]. split; [exact (he_ok _ _ _ _ _ H)|].
      exists (at_ (cLen h3)), (at_ (ptLen h3)), (Ufreq Nc (cFreq h)), (Ufreq n (pFreq h)), hb.
      split; [exact HH|]. split; [exact (henc_used _ _ _ _ _ Hdn ltac:(lia) H)|]. reflexivity.
  - destruct Q6 as [Q1 [Q2 Q3]]. eexists _, w4. split; [reflexivity|].
    split; [exact Z3|]. split; [exact N2|]. split; [exact PB2|]. split; [exact LN|]. split; [exact OP|]. split; [exact OM|].
    split; [exact Q1|]. split; [eapply wrel_trans; [exact (em_rel _ _ _ M35)|exact Q2]|].
    intros X. congruence.
Qed.
