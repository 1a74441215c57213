(** Decoding of any bytes as -lzs- and -lz5- data. *)
From Verif Require Import Go GoLemmas S_Bits P_Bits S_Lz S_Larc M_Crc M_Bitio P_Bitio M_Maketree M_Maketbl M_Huf M_Dhuf M_Shuf M_Larc M_Pm2 M_Slide M_Decode M_Lzhuf
  P_HufCode P_HufTables P_Lz P_Decode P_DecAny P_DecOld P_Larc.

Lemma decodeCLzs_total m r : rwf r -> exists c m' r', decodeCLzs m r = Ok (c, m', r') /\ 0 <= c < 272 /\ rwf r' /\ rmove r r'.
Proof.
  intros W. unfold decodeCLzs. destruct (getbits_total 1 r W ltac:(lia)) as (b & r1 & E1 & _ & W1 & M1). rewrite E1. cbn [bind].
  destruct (b =? 0).
  - destruct (getbits_total 11 r1 W1 ltac:(lia)) as (p & r2 & E2 & P2 & W2 & M2). rewrite E2. cbn [bind].
    destruct (getbits_total 4 r2 W2 ltac:(lia)) as (n & r3 & E3 & P3 & W3 & M3). rewrite E3. cbn [bind]. change (2 ^ 4) with 16 in P3.
    exists (u16 (n + 256)), p, r3. split; [reflexivity|]. rewrite u16_id by lia. split; [lia|]. split; [exact W3|]. eapply rmove_trans; [exact M1|]. eapply rmove_trans; eauto.
  - destruct (getbits_total 8 r1 W1 ltac:(lia)) as (c & r2 & E2 & P2 & W2 & M2). rewrite E2. cbn [bind]. change (2 ^ 8) with 256 in P2.
    exists c, m, r2. split; [reflexivity|]. split; [lia|]. split; [exact W2|]. eapply rmove_trans; eauto.
Qed.

Lemma any_place k shift mp : 0 <= k -> mp mod 2 ^ k = ((mp - shift) + shift) mod 2 ^ k.
Proof. intros _. f_equal. lia. Qed.

Lemma lzs_total size : forall k s x m r0,
  RI 2048 17 s m -> d_count s = zlen (r_out m) -> rwf (d_r s) -> rmove r0 (d_r s) ->
  zlen (r_out m) < size + 17 -> Z.max 0 (size - zlen (r_out m)) < Z.of_nat k ->
  exists s' x' m', loopN k (old_step 8 2048 size) (s, x) = Ok (Stop (s', x')) /\ RI 2048 17 s' m' /\ size <= zlen (r_out m') < size + 17 /\ rmove r0 (d_r s').
Proof.
  induction k as [|k IH]; intros s x m r0 I Ec R M Hb Hk; [lia|]. cbn [loopN].
  unfold old_step at 1. destruct (Z.ltb_spec (d_count s) size) as [L|L]; [|cbn [bind]; exists s, x, m; split; [reflexivity|]; split; [exact I|]; split; [lia|exact M]].
  unfold decodeMethodC. change ((8 =? 1) || (8 =? 2)) with false. change (8 =? 3) with false. change (8 =? 8) with true. cbv iota.
  destruct (decodeCLzs_total (x_pos x) (d_r s) R) as (c & p & r1 & E1 & C & R1 & M1). rewrite E1. cbn [bind].
  destruct (Z.ltb_spec c 256).
  - destruct (dput_ring 2048 17 c (with_r r1 s) m) as [s1 [P1 [P2 [P3 [P4 P5]]]]]; [lia|now apply RI_r|unfold is_byte; lia|].
    rewrite P1. cbn [bind]. cbn [with_r with_hr d_huf d_r d_count] in P3, P4, P5.
    assert (ZL : zlen (r_out (ring_put 2048 m c)) = zlen (r_out m) + 1) by (cbn [ring_put r_out]; rewrite zlen_app; reflexivity).
    apply (IH _ _ (ring_put 2048 m c) r0); cbn [d_count d_huf d_r].
    + now apply RI_r.
    + rewrite ZL, P5, Ec. reflexivity.
    + now rewrite P4.
    + rewrite P4. eapply rmove_trans; eauto.
    + rewrite ZL. lia.
    + rewrite ZL. lia.
  - cbv zeta. unfold decodeMethodP. change ((8 =? 1) || (8 =? 3)) with false. change (8 =? 2) with false. change (8 =? 8) with true. cbv iota. cbn [bind]. change (adjust 8) with 254.
    cbn [with_r with_hr d_huf d_r d_text d_loc d_crc d_out d_count x_pos]. set (mp := Z.land _ _).
    destruct (dcopy_ring 11 17 (c - 254) (mp - 17) mp (DST (d_huf s) r1 (d_text s) (d_loc s) (d_crc s) (d_out s) (d_count s + (c - 254))) m) as [s1 [P1 [P2 [P3 [P4 P5]]]]];
      [lia|now apply RI_r|lia|apply any_place; lia|].
    change (2 ^ 11) with 2048 in P1, P2. rewrite P1. cbn [bind]. cbn [d_huf d_r d_count] in P3, P4, P5.
    assert (ZL : zlen (r_out (ring_copy 2048 (Z.to_nat (c - 254)) (mp - 17) m)) = zlen (r_out m) + (c - 254)) by (rewrite ring_copy_len; lia).
    apply (IH _ _ (ring_copy 2048 (Z.to_nat (c - 254)) (mp - 17) m) r0).
    + exact P2.
    + rewrite ZL, P5, Ec. reflexivity.
    + now rewrite P4.
    + rewrite P4. eapply rmove_trans; eauto.
    + rewrite ZL. lia.
    + rewrite ZL. lia.
Qed.

Theorem lzs_any g size packed inp : 0 <= size -> 0 <= packed -> bytes inp ->
  exists g2 crc out n rest, DecodeLzhuf 8 false size packed inp g = Ok (g2, crc, out, n, rest) /\ size <= zlen out < size + 17 /\ 0 <= n <= packed /\ rest = drop n inp /\ crc = calcCrc 0 out.
Proof.
  intros Hs Hp HB.
  assert (W0 : rwf (RS 0 0 0 packed inp)) by (constructor; cbn; auto; lia).
  destruct (fillbuf_total 16 (RS 0 0 0 packed inp) W0 ltac:(lia)) as (r & E & W & M).
  unfold DecodeLzhuf. change (dec_dicbit 8) with (@None Z). cbv iota. change (old_dicbit 8) with 11. unfold decode_old. change (Z.shiftl 1 11) with 2048. cbv zeta.
  unfold decodeMethodStart. change (8 =? 1) with false. change (8 =? 2) with false. change (8 =? 3) with false. change (8 =? 8) with true. cbv iota.
  change (initGetbits packed inp) with (fillbuf 16 (RS 0 0 0 packed inp)). rewrite E. cbn [bind].
  destruct (lzs_total size (Z.to_nat (size + 2)) (DST (g_huf g) r (afill 2048 32) 0 0 [] 0) (EXT (g_dh g) (g_pm g) 0 0 0) (RING (fun _ => 32) ((0 - 17) mod 2048) []) (RS 0 0 0 packed inp))
    as (s' & x' & m' & L1 & L2 & L3 & [L4 L5]); cbn [r_out]; change (zlen (@nil Z)) with 0; auto; try lia.
  { apply RI_blank. lia. }
  rewrite loop_loopN by lia. rewrite L1. cbn [bind]. destruct (ri_final _ _ _ _ L2) as [D1 [D2 [D3 D4]]]. cbv zeta in D1, D2, D3, D4. cbn [compsize infile] in L4, L5.
  cbn [dr_crc dr_out dr_readSize dr_in]. rewrite D1, D2, D4. eexists _, _, _, _, _. split; [reflexivity|]. split; [exact L3|]. split; [lia|]. split; [exact L5|reflexivity].
Qed.

(** -lz5-: nothing is counted. *)
Lemma bytes_drop k l : bytes l -> bytes (drop k l).
Proof. intros B. unfold bytes, drop in *. rewrite <- (firstn_skipn (Z.to_nat k) l) in B. apply Forall_app in B. apply B. Qed.

Lemma decodeCLz5_cnt s : 0 <= z_cnt s -> 0 <= z_cnt (snd (decodeCLz5 s)).
Proof.
  intros H. unfold decodeCLz5. destruct (Z.eqb_spec (z_cnt s) 0).
  - destruct (read1 (z_in s)) as [[b|] i]; [|cbn; lia]. cbv zeta. cbn [z_in z_cnt z_flag].
    destruct (read1 i) as [[c|] i2]; destruct (Z.land b 1 =? 0); try (destruct (read1 i2) as [[v|] i3]); cbn [snd z_cnt]; lia.
  - cbv zeta. destruct (read1 (z_in s)) as [[c|] i2]; cbn [z_flag z_cnt]; destruct (Z.land (z_flag s) 1 =? 0); try (destruct (read1 i2) as [[v|] i3]); cbn [snd z_cnt]; lia.
Qed.

Lemma lz5_total size packed inp : forall k s x m,
  RI 4096 18 s m -> d_count s = zlen (r_out m) -> 0 <= x_cnt x -> bytes (infile (d_r s)) -> compsize (d_r s) = packed -> (exists j, 0 <= j /\ infile (d_r s) = drop j inp) ->
  zlen (r_out m) < size + 18 -> Z.max 0 (size - zlen (r_out m)) < Z.of_nat k ->
  exists s' x' m', loopN k (old_step 9 4096 size) (s, x) = Ok (Stop (s', x')) /\ RI 4096 18 s' m' /\ size <= zlen (r_out m') < size + 18 /\
    compsize (d_r s') = packed /\ exists j, 0 <= j /\ infile (d_r s') = drop j inp.
Proof.
  induction k as [|k IH]; intros s x m I Ec CN B CZ M Hb Hk; [lia|]. cbn [loopN].
  unfold old_step at 1. destruct (Z.ltb_spec (d_count s) size) as [L|L]; [|cbn [bind]; exists s, x, m; split; [reflexivity|]; split; [exact I|]; split; [lia|]; split; assumption].
  unfold decodeMethodC. change ((9 =? 1) || (9 =? 2)) with false. change (9 =? 3) with false. change (9 =? 8) with false. change (9 =? 9) with true. cbv iota zeta.
  set (z0 := LZ5 (x_cnt x) (x_flag x) (x_pos x) (infile (d_r s))).
  pose proof (decodeCLz5_range z0 CN B) as C. destruct (decodeCLz5_any z0) as (j & J & DJ). pose proof (decodeCLz5_cnt z0 CN) as CN'.
  destruct (decodeCLz5 z0) as [c z]. cbn [fst snd] in C, DJ, CN'. cbn [z0 z_in] in DJ. cbn [bind].
  set (r1 := RS _ _ _ _ _). set (x1 := EXT _ _ _ _ _).
  assert (B1 : bytes (infile r1)) by (cbn [r1 infile]; rewrite DJ; now apply bytes_drop).
  assert (M1 : exists j, 0 <= j /\ infile r1 = drop j inp).
  { destruct M as (j0 & J0 & E0). exists (j0 + j). split; [lia|]. cbn [r1 infile]. rewrite DJ, E0. rewrite P_Bitio.drop_drop by lia. reflexivity. }
  destruct (Z.ltb_spec c 256).
  - destruct (dput_ring 4096 18 c (with_r r1 s) m) as [s1 [P1 [P2 [P3 [P4 P5]]]]]; [lia|now apply RI_r|unfold is_byte; lia|].
    rewrite P1. cbn [bind]. cbn [with_r with_hr d_huf d_r d_count] in P3, P4, P5.
    assert (ZL : zlen (r_out (ring_put 4096 m c)) = zlen (r_out m) + 1) by (cbn [ring_put r_out]; rewrite zlen_app; reflexivity).
    apply (IH _ _ (ring_put 4096 m c)); cbn [d_count d_huf d_r]; rewrite ?P4; auto.
    + now apply RI_r.
    + rewrite ZL, P5, Ec. reflexivity.
    + rewrite ZL. lia.
    + rewrite ZL. lia.
  - cbv zeta. unfold decodeMethodP. change ((9 =? 1) || (9 =? 3)) with false. change (9 =? 2) with false. change (9 =? 8) with false. change (9 =? 9) with true. cbv iota. cbn [bind]. change (adjust 9) with 253.
    cbn [with_r with_hr d_huf d_r d_text d_loc d_crc d_out d_count x_pos]. set (mp := Z.land _ _).
    destruct (dcopy_ring 12 18 (c - 253) (mp - 18) mp (DST (d_huf s) r1 (d_text s) (d_loc s) (d_crc s) (d_out s) (d_count s + (c - 253))) m) as [s1 [P1 [P2 [P3 [P4 P5]]]]];
      [lia|now apply RI_r|lia|apply any_place; lia|].
    change (2 ^ 12) with 4096 in P1, P2. rewrite P1. cbn [bind]. cbn [d_huf d_r d_count] in P3, P4, P5.
    assert (ZL : zlen (r_out (ring_copy 4096 (Z.to_nat (c - 253)) (mp - 18) m)) = zlen (r_out m) + (c - 253)) by (rewrite ring_copy_len; lia).
    apply (IH _ _ (ring_copy 4096 (Z.to_nat (c - 253)) (mp - 18) m)); rewrite ?P4; auto.
    + rewrite ZL, P5, Ec. reflexivity.
    + rewrite ZL. lia.
    + rewrite ZL. lia.
Qed.

Theorem lz5_any g size packed inp : 0 <= size -> bytes inp ->
  exists g2 crc out j, DecodeLzhuf 9 false size packed inp g = Ok (g2, crc, out, 0, drop j inp) /\ size <= zlen out < size + 18 /\ 0 <= j /\ crc = calcCrc 0 out.
Proof.
  intros Hs HB. unfold DecodeLzhuf. change (dec_dicbit 9) with (@None Z). cbv iota. change (old_dicbit 9) with 12. unfold decode_old. change (Z.shiftl 1 12) with 4096. cbv zeta.
  unfold decodeMethodStart. change (9 =? 1) with false. change (9 =? 2) with false. change (9 =? 3) with false. change (9 =? 8) with false. change (9 =? 9) with true. cbv iota.
  destruct lz5_window as [t [E [A V]]]. rewrite E. cbn [bind x_dh x_pm x_flag x_pos].
  destruct (lz5_total size packed inp (Z.to_nat (size + 2)) (DST (g_huf g) (RS 0 0 0 packed inp) t 0 0 [] 0) (EXT (g_dh g) (g_pm g) 0 0 0) (RING lz5_init 4078 []))
    as (s' & x' & m' & L1 & L2 & L3 & L4 & j & J & L5); cbn [r_out x_cnt d_r infile compsize]; change (zlen (@nil Z)) with 0; auto; try lia.
  { constructor; cbn [d_text d_loc d_out d_crc r_out r_pos r_at]; try reflexivity; try lia; auto. intros q Hq. now apply lz5_init_byte. }
  { exists 0. split; [lia|reflexivity]. }
  rewrite loop_loopN by lia. rewrite L1. cbn [bind]. destruct (ri_final _ _ _ _ L2) as [D1 [D2 [D3 D4]]]. cbv zeta in D1, D2, D3, D4.
  cbn [dr_crc dr_out dr_readSize dr_in]. rewrite D1, D2, D4, L4, L5, Z.sub_diag. eexists _, _, _, j. split; [reflexivity|]. auto.
Qed.
