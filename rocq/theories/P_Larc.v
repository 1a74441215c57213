(** Decoding of -lzs- and -lz5-. *)
From Verif Require Import Go GoLemmas S_Bits P_Bits S_Lz S_Larc M_Crc M_Bitio P_Bitio M_Maketree M_Maketbl M_Huf M_Dhuf M_Shuf M_Larc M_Pm2 M_Slide M_Decode M_Lzhuf
  P_HufCode P_HufTables P_Lz P_Decode P_DecAny P_DecOld.

(** The window is the ring, turned by [shift]. *)
Record RI (d shift : Z) (s : dst) (m : ring) : Prop := {
  ri_len : alen (d_text s) = d;
  ri_loc : 0 <= d_loc s < d;
  ri_out : concat (rev (d_out s)) ++ slice_list (d_text s) 0 (Z.to_nat (d_loc s)) = r_out m;
  ri_crc : d_crc s = calcCrc 0 (concat (rev (d_out s)));
  ri_pos : r_pos m = (d_loc s - shift) mod d;
  ri_win : forall q, 0 <= q < d -> at_ (d_text s) ((q + shift) mod d) = r_at m q;
  ri_byte : forall q, 0 <= q < d -> is_byte (r_at m q)
}.

Lemma mod_shift_inj d a b c : 0 < d -> 0 <= a < d -> 0 <= b < d -> (a + c) mod d = (b + c) mod d -> a = b.
Proof.
  intros D A B E. rewrite <- (Z.mod_small a d), <- (Z.mod_small b d) by lia.
  replace a with (a + c - c) by lia. replace b with (b + c - c) by lia. now rewrite (Zminus_mod (a + c)), (Zminus_mod (b + c)), E.
Qed.

Lemma dput_ring d shift c s m : 1 <= d < 65536 -> RI d shift s m -> is_byte c ->
  exists s', dput d c s = Ok s' /\ RI d shift s' (ring_put d m c) /\ d_huf s' = d_huf s /\ d_r s' = d_r s /\ d_count s' = d_count s.
Proof.
  intros Hd [A B C D P W BY] Hc. unfold dput. rewrite aset_ok by lia. cbn [bind]. pose proof Hc as Hc'. unfold is_byte in Hc'. rewrite u8_id by lia. rewrite u16_id by lia.
  assert (SN : slice_list (upd (d_text s) (d_loc s) c) 0 (Z.to_nat (d_loc s + 1)) = slice_list (d_text s) 0 (Z.to_nat (d_loc s)) ++ [c]).
  { replace (Z.to_nat (d_loc s + 1)) with (S (Z.to_nat (d_loc s))) by lia. rewrite slice_list_snoc. f_equal.
    - apply slice_list_ext. intros k Hk. apply at_upd_ne; lia.
    - rewrite Z.add_0_l, Z2Nat.id by lia. now rewrite at_upd_eq. }
  assert (PB : 0 <= r_pos m < d) by (rewrite P; apply Z.mod_pos_bound; lia).
  assert (PL : (r_pos m + shift) mod d = d_loc s).
  { rewrite P, Zplus_mod_idemp_l. replace (d_loc s - shift + shift) with (d_loc s) by lia. apply Z.mod_small. lia. }
  assert (WN : forall q, 0 <= q < d -> at_ (upd (d_text s) (d_loc s) c) ((q + shift) mod d) = r_at (ring_put d m c) q).
  { intros q Hq. cbn [ring_put r_at]. destruct (Z.eqb_spec q (r_pos m)) as [->|N].
    - rewrite PL. now rewrite at_upd_eq.
    - rewrite at_upd_ne; [now apply W|lia|apply Z.mod_pos_bound; lia|]. intros X. apply N. apply (mod_shift_inj d q (r_pos m) shift); lia. }
  assert (BN : forall q, 0 <= q < d -> is_byte (r_at (ring_put d m c) q)).
  { intros q Hq. cbn [ring_put r_at]. destruct (q =? r_pos m); auto. }
  assert (PN : (r_pos m + 1) mod d = (d_loc s + 1 - shift) mod d) by (rewrite P, Zplus_mod_idemp_l; f_equal; lia).
  cbv zeta. destruct (Z.eqb_spec (d_loc s + 1) d) as [Full|NF].
  - eexists. split; [reflexivity|]. unfold fwriteCrc. cbn [d_huf d_r d_text d_loc d_crc d_out d_count].
    split; [|auto]. constructor; cbn [d_huf d_r d_text d_loc d_crc d_out d_count].
    + rewrite alen_upd. lia.
    + lia.
    + cbn [rev]. rewrite concat_snoc. change (Z.to_nat 0) with O. cbn [slice_list]. rewrite app_nil_r. rewrite <- Full, SN.
      rewrite app_assoc, C. reflexivity.
    + cbn [rev]. rewrite concat_snoc, calcCrc_app, D. reflexivity.
    + cbn [ring_put r_pos]. rewrite PN, Full. replace (d - shift) with (0 - shift + 1 * d) by lia. now rewrite Z.mod_add by lia.
    + exact WN.
    + exact BN.
  - eexists. split; [reflexivity|]. cbn [d_huf d_r d_text d_loc d_crc d_out d_count]. split; [|auto].
    constructor; cbn [d_huf d_r d_text d_loc d_crc d_out d_count].
    + rewrite alen_upd. lia.
    + lia.
    + rewrite SN, app_assoc, C. reflexivity.
    + exact D.
    + exact PN.
    + exact WN.
    + exact BN.
Qed.

Lemma ring_copy_S size n : forall pos m, ring_copy size (S n) pos m = let m1 := ring_copy size n pos m in ring_put size m1 (r_at m1 ((pos + Z.of_nat n) mod size)).
Proof.
  induction n; intros pos m.
  - cbn [ring_copy]. cbv zeta. now rewrite Z.add_0_r.
  - change (ring_copy size (S (S n)) pos m) with (ring_copy size (S n) (pos + 1) (ring_put size m (r_at m (pos mod size)))). rewrite IHn.
    cbv zeta. change (ring_copy size (S n) pos m) with (ring_copy size n (pos + 1) (ring_put size m (r_at m (pos mod size)))).
    do 2 f_equal. f_equal. lia.
Qed.

Lemma dcopy_ring k shift len pos matchpos s m : 0 <= k < 16 -> RI (2 ^ k) shift s m -> 0 <= len -> 
  matchpos mod 2 ^ k = (pos + shift) mod 2 ^ k ->
  exists s', dcopy (2 ^ k) len matchpos s = Ok s' /\ RI (2 ^ k) shift s' (ring_copy (2 ^ k) (Z.to_nat len) pos m) /\
    d_huf s' = d_huf s /\ d_r s' = d_r s /\ d_count s' = d_count s.
Proof.
  intros Hk I Hl Hm. unfold dcopy.
  assert (P2 : 1 <= 2 ^ k < 65536). { change 65536 with (2 ^ 16). assert (0 < 2 ^ k) by (apply Z.pow_pos_nonneg; lia). split; [lia|apply Z.pow_lt_mono_r; lia]. }
  set (d := 2 ^ k) in *.
  destruct (forZ_inv (fun i s' => RI d shift s' (ring_copy d (Z.to_nat i) pos m) /\
      d_huf s' = d_huf s /\ d_r s' = d_r s /\ d_count s' = d_count s)
    (fun i s => c <- aget (d_text s) (Z.land (matchpos + i) (d - 1)) ;; dput d c s) 0 len s) as [s' [E [I' [H1 [H2 H3]]]]].
  - lia.
  - intros i x Hi [Ix [X1 [X2 X3]]]. unfold d at 1. rewrite land_mask by lia. fold d.
    assert (EP : (matchpos + i) mod d = ((pos + i) mod d + shift) mod d).
    { rewrite <- Zplus_mod_idemp_l, Hm, !Zplus_mod_idemp_l. f_equal. lia. }
    rewrite EP. pose proof (Z.mod_pos_bound (pos + i) d ltac:(lia)) as MB. pose proof (Z.mod_pos_bound ((pos + i) mod d + shift) d ltac:(lia)) as MB2.
    rewrite aget_ok by (rewrite (ri_len _ _ _ _ Ix); lia). cbn [bind]. rewrite (ri_win _ _ _ _ Ix) by lia.
    destruct (dput_ring d shift (r_at (ring_copy d (Z.to_nat i) pos m) ((pos + i) mod d)) x _ P2 Ix) as [y [Ey [Iy [Y1 [Y2 Y3]]]]].
    + apply (ri_byte _ _ _ _ Ix). lia.
    + exists y. split; [exact Ey|]. replace (Z.to_nat (i + 1)) with (S (Z.to_nat i)) by lia. rewrite ring_copy_S. cbv zeta. rewrite Z2Nat.id by lia.
      split; [exact Iy|]. split; [congruence|split; congruence].
  - split; [exact I|auto].
  - exists s'. auto.
Qed.

Lemma ri_final d shift s m : RI d shift s m ->
  let s' := if d_loc s =? 0 then s else fwriteCrc (d_loc s) s in
  d_crc s' = calcCrc 0 (r_out m) /\ concat (rev (d_out s')) = r_out m /\ d_huf s' = d_huf s /\ d_r s' = d_r s.
Proof.
  intros [A B C D P W BY]. cbv zeta. destruct (Z.eqb_spec (d_loc s) 0) as [Z0|NZ].
  - rewrite Z0 in C. change (Z.to_nat 0) with O in C. cbn [slice_list] in C. rewrite app_nil_r in C. rewrite D, C. auto.
  - unfold fwriteCrc. cbn [d_crc d_out d_huf d_r rev]. rewrite concat_snoc, D, <- calcCrc_app, C. auto.
Qed.

Lemma RI_r d shift s m h r c : RI d shift s m -> RI d shift (DST h r (d_text s) (d_loc s) (d_crc s) (d_out s) c) m.
Proof. intros []. constructor; auto. Qed.

Lemma ring_copy_len size n : forall pos m, zlen (r_out (ring_copy size n pos m)) = zlen (r_out m) + Z.of_nat n.
Proof. induction n; intros pos m; cbn [ring_copy]; [lia|]. rewrite IHn. cbn [ring_put r_out]. rewrite zlen_app. unfold zlen at 2. cbn [length]. lia. Qed.

Definition tlen (t : rtok) : Z := match t with RByte _ => 1 | RCopy _ len => len end.

Lemma ring_step_len size m t : (forall p l, t = RCopy p l -> 0 <= l) -> zlen (r_out (ring_step size m t)) = zlen (r_out m) + tlen t.
Proof.
  intros H. destruct t as [b|p l]; cbn [ring_step tlen].
  - cbn [ring_put r_out]. rewrite zlen_app. reflexivity.
  - rewrite ring_copy_len. specialize (H p l eq_refl). lia.
Qed.

Lemma ring_run_len size ts : forall m, Forall (fun t => 1 <= tlen t) ts -> zlen (r_out m) + zlen ts <= zlen (r_out (fold_left (ring_step size) ts m)).
Proof.
  induction ts as [|t ts IH]; intros m F; cbn [fold_left]; [rewrite zlen_nil; lia|]. inversion F as [|? ? F1 F2]; subst.
  specialize (IH (ring_step size m t) F2). rewrite ring_step_len in IH; [rewrite zlen_cons; lia|]. intros p l ->. cbn [tlen] in F1. lia.
Qed.

(** ** -lzs- *)

Lemma lzs_match_pos loc p : 0 <= loc < 2048 -> 0 <= p < 2048 ->
  Z.land (u64 (loc - (decodePLzs loc p + 1))) (2048 - 1) mod 2 ^ 11 = (p + 17) mod 2 ^ 11.
Proof.
  intros L P. unfold decodePLzs. change 2048 with (2 ^ 11) at 1. rewrite land_mask by lia. rewrite Z.mod_mod by lia. rewrite u64_mod by lia.
  change 2047 with (2 ^ 11 - 1). rewrite land_mask by lia.
  assert (U : forall x, u16 x mod 2 ^ 11 = x mod 2 ^ 11).
  { intros x. unfold u16. change 65536 with (2 ^ 5 * 2 ^ 11). rewrite (Z.mul_comm (2 ^ 5)). rewrite Z.rem_mul_r by lia. rewrite (Z.mul_comm (2 ^ 11)). rewrite Z.mod_add by lia. apply Z.mod_mod. lia. }
  rewrite (u16_id p) by lia. rewrite U. rewrite (Zminus_mod (u16 (loc - p))), U, <- Zminus_mod.
  replace (loc - ((loc - p - 18) mod 2 ^ 11 + 1)) with (loc - 1 - (loc - p - 18) mod 2 ^ 11) by lia. rewrite Zminus_mod_idemp_r. f_equal. lia.
Qed.

Lemma lzs_loop size packed rest h x : forall ts n s m r B tail,
  RI 2048 17 s m -> d_huf s = h -> d_r s = r -> d_count s = zlen (r_out m) -> Rd packed rest r B (flat_map lzs_bits ts ++ tail) ->
  Forall lzs_ok ts -> size = zlen (r_out (fold_left (ring_step 2048) ts m)) -> (length ts < n)%nat ->
  exists s' x', loopN n (old_step 8 2048 size) (s, x) = Ok (Stop (s', x')) /\ RI 2048 17 s' (fold_left (ring_step 2048) ts m) /\ d_huf s' = h /\
    x_dh x' = x_dh x /\ x_pm x' = x_pm x /\
    Rd packed rest (d_r s') (B + Z.of_nat (length (flat_map lzs_bits ts))) tail.
Proof.
  intros ts. revert x. induction ts as [|t ts IH]; intros x n s m r B tail I Eh Er Ec R F Es Hn.
  - destruct n; [cbn [length] in Hn; lia|]. cbn [loopN]. unfold old_step. cbn [fold_left] in *. destruct (Z.ltb_spec (d_count s) size); [lia|]. cbn [bind].
    exists s, x. split; [reflexivity|]. split; [exact I|]. split; [exact Eh|]. split; [reflexivity|]. split; [reflexivity|]. cbn [flat_map length app] in *. rewrite Z.add_0_r, Er. exact R.
  - destruct n; [lia|]. pose proof (Forall_inv F) as F1. pose proof (Forall_inv_tail F) as F2. cbn [loopN fold_left flat_map] in *. rewrite <- app_assoc in R.
    assert (F3 : Forall (fun t => 1 <= tlen t) ts) by (eapply Forall_impl; [|exact F2]; intros [b|p l]; cbn; lia).
    pose proof (ring_run_len 2048 ts (ring_step 2048 m t) F3) as RL. rewrite ring_step_len in RL by (intros p l ->; cbn in F1; lia).
    pose proof (zlen_nonneg ts) as ZN. assert (T1 : 1 <= tlen t) by (destruct t; cbn in *; lia).
    unfold old_step at 1. destruct (Z.ltb_spec (d_count s) size); [|lia].
    unfold decodeMethodC. change ((8 =? 1) || (8 =? 2)) with false. change (8 =? 3) with false. change (8 =? 8) with true. cbv iota.
    unfold decodeCLzs. rewrite Er. destruct t as [b|p l]; cbn [lzs_bits] in R; cbn in F1.
    + destruct (getbits_field 1 1 packed rest r B (to_bits 8 b ++ flat_map lzs_bits ts ++ tail)) as [r1 [G1 R1]]; [exact R|lia|lia|]. rewrite G1. cbn [bind].
      change (1 =? 0) with false. cbv iota.
      destruct (getbits_field 8 b packed rest r1 (B + 1) (flat_map lzs_bits ts ++ tail)) as [r2 [G2 R2]]; [exact R1|lia|change (2 ^ 8) with 256; lia|]. rewrite G2. cbn [bind].
      destruct (Z.ltb_spec b 256); [|lia].
      destruct (dput_ring 2048 17 b (with_r r2 s) m) as [s1 [E1 [I1 [X1 [X2 X3]]]]]; [lia|destruct I; constructor; assumption|unfold is_byte; lia|].
      rewrite E1. cbn [bind]. cbn [with_r with_hr d_huf d_r d_count] in X1, X2, X3.
      destruct (IH (EXT (x_dh x) (x_pm x) (x_cnt x) (x_flag x) (x_pos x)) n (DST (d_huf s1) (d_r s1) (d_text s1) (d_loc s1) (d_crc s1) (d_out s1) (d_count s1 + 1)) (ring_put 2048 m b) r2 (B + 1 + 8) tail) as [s' [x' [E' [I' [H1 [H2 [H3 H4]]]]]]]; auto.
      * now apply RI_r.
      * cbn [d_huf]. congruence.
      * cbn [d_count]. rewrite X3, Ec. cbn [ring_put r_out]. rewrite zlen_app. reflexivity.
      * cbn [length] in Hn. lia.
      * exists s', x'. split; [exact E'|]. split; [exact I'|]. split; [exact H1|]. split; [exact H2|]. split; [exact H3|].
        rewrite app_length. cbn [lzs_bits length]. rewrite to_bits_length. match goal with |- Rd _ _ _ ?b _ => replace b with (B + 1 + 8 + Z.of_nat (length (flat_map lzs_bits ts))) by lia end. exact H4.
    + destruct (getbits_field 1 0 packed rest r B ((to_bits 11 p ++ to_bits 4 (l - 2)) ++ flat_map lzs_bits ts ++ tail)) as [r1 [G1 R1]]; [exact R|lia|lia|]. rewrite G1. cbn [bind].
      change (0 =? 0) with true. cbv iota. rewrite <- app_assoc in R1.
      destruct (getbits_field 11 p packed rest r1 (B + 1) (to_bits 4 (l - 2) ++ flat_map lzs_bits ts ++ tail)) as [r2 [G2 R2]]; [exact R1|lia|change (2 ^ 11) with 2048; lia|]. rewrite G2. cbn [bind].
      destruct (getbits_field 4 (l - 2) packed rest r2 (B + 1 + 11) (flat_map lzs_bits ts ++ tail)) as [r3 [G3 R3]]; [exact R2|lia|change (2 ^ 4) with 16; lia|]. rewrite G3. cbn [bind].
      rewrite u16_id by lia. destruct (Z.ltb_spec (l - 2 + 256) 256); [lia|]. cbv zeta.
      unfold decodeMethodP. change ((8 =? 1) || (8 =? 3)) with false. change (8 =? 2) with false. change (8 =? 8) with true. cbv iota. cbn [bind x_pos].
      change (adjust 8) with 254. replace (l - 2 + 256 - 254) with l by lia. cbn [with_r with_hr d_huf d_r d_text d_loc d_crc d_out d_count].
      pose proof (ri_loc _ _ _ _ I) as DL.
      destruct (dcopy_ring 11 17 l p (Z.land (u64 (d_loc s - (decodePLzs (d_loc s) p + 1))) (2048 - 1)) (DST (d_huf s) r3 (d_text s) (d_loc s) (d_crc s) (d_out s) (d_count s + l)) m) as [s1 [E1 [I1 [X1 [X2 X3]]]]];
        [lia|now apply RI_r|lia|apply lzs_match_pos; lia|].
      change (2 ^ 11) with 2048 in E1, I1. rewrite E1. cbn [bind]. cbn [d_huf d_r d_count] in X1, X2, X3.
      destruct (IH (EXT (x_dh x) (x_pm x) (x_cnt x) (x_flag x) p) n s1 (ring_copy 2048 (Z.to_nat l) p m) r3 (B + 1 + 11 + 4) tail) as [s' [x' [E' [I' [H1 [H2 [H3 H4]]]]]]]; auto.
      * congruence.
      * rewrite X3, Ec, ring_copy_len. lia.
      * cbn [length] in Hn. lia.
      * exists s', x'. split; [exact E'|]. split; [exact I'|]. split; [exact H1|]. split; [exact H2|]. split; [exact H3|].
        rewrite app_length. cbn [lzs_bits length]. rewrite app_length, !to_bits_length. match goal with |- Rd _ _ _ ?b _ => replace b with (B + 1 + 11 + 4 + Z.of_nat (length (flat_map lzs_bits ts))) by lia end. exact H4.
Qed.

Lemma RI_blank d shift h r c : 1 <= d -> RI d shift (DST h r (afill d 32) 0 0 [] c) (RING (fun _ => 32) ((0 - shift) mod d) []).
Proof.
  intros Hd. constructor; cbn [d_text d_loc d_out d_crc r_out r_pos r_at]; try reflexivity; try lia.
  - intros q _. apply at_afill.
  - intros q _. unfold is_byte. lia.
Qed.

Theorem lzs_decodes ts data rest pad g : Forall lzs_ok ts -> bytes (data ++ rest) ->
  byte_string_bits data = flat_map lzs_bits ts ++ pad -> (length pad < 16)%nat ->
  DecodeLzhuf 8 false (zlen (lzs_data ts)) (zlen data) (data ++ rest) g = Ok (g, calcCrc 0 (lzs_data ts), lzs_data ts, zlen data, rest).
Proof.
  intros F HB EB HP. unfold DecodeLzhuf. change (dec_dicbit 8) with (@None Z). cbv iota. change (old_dicbit 8) with 11. unfold decode_old. change (Z.shiftl 1 11) with 2048. cbv zeta.
  destruct (initGetbits_bits data rest HB) as [r [E R]]. unfold decodeMethodStart. change (8 =? 1) with false. change (8 =? 2) with false. change (8 =? 3) with false. change (8 =? 8) with true. cbv iota.
  rewrite E. cbn [bind]. rewrite EB in R.
  assert (F3 : Forall (fun t => 1 <= tlen t) ts) by (eapply Forall_impl; [|exact F]; intros [b|p l]; cbn; lia).
  pose proof (ring_run_len 2048 ts (RING (fun _ => 32) 2031 []) F3) as RL. cbn [r_out] in RL. rewrite zlen_nil in RL. fold (ring_run 2048 2031 (fun _ => 32) ts) in RL. fold (lzs_data ts) in RL.
  pose proof (zlen_nonneg ts) as ZN.
  destruct (lzs_loop (zlen (lzs_data ts)) (zlen data) rest (g_huf g) (EXT (g_dh g) (g_pm g) 0 0 0) ts (Z.to_nat (zlen (lzs_data ts) + 2))
    (DST (g_huf g) r (afill 2048 32) 0 0 [] 0) (RING (fun _ => 32) 2031 []) r 0 pad) as [s' [x' [E' [I' [H1 [H2 [H3 H4]]]]]]]; auto.
  { exact (RI_blank 2048 17 (g_huf g) r 0 ltac:(lia)). }
  { unfold zlen in *. lia. }
  rewrite loop_loopN by lia. rewrite E'. cbn [bind]. destruct (ri_final _ _ _ _ I') as [D1 [D2 [D3 D4]]]. cbv zeta in D1, D2, D3, D4.
  cbn [dr_crc dr_out dr_readSize dr_in]. rewrite D1, D2, D3, D4, H1, H2, H3. cbn [x_dh x_pm].
  destruct (Rd_end _ _ _ _ _ H4) as [Z1 Z2].
  { assert (L : length (byte_string_bits data) = (length (flat_map lzs_bits ts) + length pad)%nat) by (rewrite EB, app_length; reflexivity).
    rewrite byte_string_bits_length in L. unfold zlen. lia. }
  rewrite Z1, Z2. rewrite Z.sub_0_r. destruct g; reflexivity.
Qed.

(** ** -lz5- *)

(** The initial window. *)
Lemma fill_fun base n f t : 0 <= base -> 0 <= n -> base + n <= alen t ->
  exists t', forZ 0 n (fun j t => aset t (base + j) (f j)) t = Ok t' /\ alen t' = alen t /\
    forall k, 0 <= k -> at_ t' k = if (base <=? k) && (k <? base + n) then f (k - base) else at_ t k.
Proof.
  intros Hb Hn Ha.
  destruct (forZ_inv (fun i t' => alen t' = alen t /\ forall k, 0 <= k -> at_ t' k = if (base <=? k) && (k <? base + i) then f (k - base) else at_ t k)
    (fun j t => aset t (base + j) (f j)) 0 n t) as [t' [E [A B]]].
  - lia.
  - intros i x Hi [X1 X2]. rewrite aset_ok by lia. eexists. split; [reflexivity|]. split; [rewrite alen_upd; exact X1|].
    intros k Hk. destruct (Z.eq_dec k (base + i)) as [->|N].
    + rewrite at_upd_eq by lia. destruct (Z.leb_spec base (base + i)); [|lia]. destruct (Z.ltb_spec (base + i) (base + (i + 1))); [|lia]. cbn [andb]. f_equal. lia.
    + rewrite at_upd_ne by lia. rewrite X2 by lia.
      destruct (Z.leb_spec base k), (Z.ltb_spec k (base + i)), (Z.ltb_spec k (base + (i + 1))); cbn [andb]; try lia; reflexivity.
  - split; [reflexivity|]. intros k Hk. destruct (Z.leb_spec base k), (Z.ltb_spec k (base + 0)); cbn [andb]; try lia; reflexivity.
  - exists t'. auto.
Qed.

Lemma forZ_ext {S} (f g : Z -> S -> res S) lo hi s : (forall i x, f i x = g i x) -> forZ lo hi f s = forZ lo hi g s.
Proof.
  intros H. unfold forZ. generalize (Z.to_nat (hi - lo)) as n. intros n. revert lo s. induction n; intros lo s; [reflexivity|]. cbn [for_up].
  rewrite H. destruct (g lo s); cbn [bind]; auto.
Qed.

Lemma lz5_window : exists t, decodeStartLz5 (afill 4096 32) = Ok t /\ alen t = 4096 /\
  forall q, 0 <= q < 4096 -> at_ t ((q + 18) mod 4096) = lz5_init q.
Proof.
  unfold decodeStartLz5.
  destruct (forZ_inv (fun i t => alen t = 4096 /\ forall k, 0 <= k -> at_ t k = if (18 <=? k) && (k <? 18 + 13 * i) then (k - 18) / 13 else 32)
    (fun i t => forZ 0 13 (fun j t => aset t (i * 13 + 18 + j) (u8 i)) t) 0 256 (afill 4096 32)) as [t1 [E1 [A1 B1]]].
  { lia. }
  { intros i x Hi [X1 X2]. destruct (fill_fun (i * 13 + 18) 13 (fun _ => u8 i) x ltac:(lia) ltac:(lia) ltac:(lia)) as [t' [E [A B]]].
    exists t'. split; [exact E|]. split; [congruence|]. intros k Hk. rewrite B by lia. rewrite u8_id by lia. rewrite X2 by lia.
    destruct (Z.leb_spec (i * 13 + 18) k); destruct (Z.ltb_spec k (i * 13 + 18 + 13)); destruct (Z.leb_spec 18 k); destruct (Z.ltb_spec k (18 + 13 * (i + 1))); destruct (Z.ltb_spec k (18 + 13 * i)); cbn [andb]; try lia; try reflexivity.
    apply (Z.div_unique _ _ _ (k - 18 - 13 * i)); lia. }
  { split; [reflexivity|]. intros k Hk. rewrite at_afill. destruct (Z.leb_spec 18 k), (Z.ltb_spec k (18 + 13 * 0)); cbn [andb]; try lia; reflexivity. }
  rewrite E1. cbn [bind].
  destruct (fill_fun (256 * 13 + 18) 256 u8 t1 ltac:(lia) ltac:(lia) ltac:(lia)) as [t2 [E2 [A2 B2]]].
  rewrite E2. cbn [bind].
  destruct (fill_fun (256 * 13 + 256 + 18) 256 (fun i => u8 (255 - i)) t2 ltac:(lia) ltac:(lia) ltac:(lia)) as [t3 [E3 [A3 B3]]]. rewrite E3. cbn [bind].
  destruct (fill_fun (256 * 13 + 512 + 18) 128 (fun _ => 0) t3 ltac:(lia) ltac:(lia) ltac:(lia)) as [t4 [E4 [A4 B4]]]. rewrite E4. cbn [bind].
  assert (V4 : forall k, 0 <= k < 4096 -> at_ t4 k = lz5_init ((k - 18) mod 4096)).
  { intros k Hk. rewrite B4, B3, B2, B1 by lia.
    assert (M : (k - 18) mod 4096 = if k <? 18 then k + 4078 else k - 18).
    { destruct (Z.ltb_spec k 18); [symmetry; apply (Z.mod_unique _ _ (-1)); lia|apply Z.mod_small; lia]. }
    rewrite M. unfold lz5_init.
    destruct (Z.ltb_spec k 18) as [K0|K0].
    { destruct (Z.leb_spec (256 * 13 + 512 + 18) k); [lia|]. destruct (Z.leb_spec (256 * 13 + 256 + 18) k); [lia|]. destruct (Z.leb_spec (256 * 13 + 18) k); [lia|]. destruct (Z.leb_spec 18 k); [lia|]. cbn [andb].
      destruct (Z.ltb_spec (k + 4078) 3328); [lia|]. destruct (Z.ltb_spec (k + 4078) 3584); [lia|]. destruct (Z.ltb_spec (k + 4078) 3840); [lia|]. destruct (Z.ltb_spec (k + 4078) 3968); [lia|]. reflexivity. }
    destruct (Z.leb_spec (256 * 13 + 512 + 18) k); destruct (Z.ltb_spec k (256 * 13 + 512 + 18 + 128)); destruct (Z.leb_spec (256 * 13 + 256 + 18) k); destruct (Z.ltb_spec k (256 * 13 + 256 + 18 + 256)); destruct (Z.leb_spec (256 * 13 + 18) k); destruct (Z.ltb_spec k (256 * 13 + 18 + 256)); destruct (Z.leb_spec 18 k); destruct (Z.ltb_spec k (18 + 13 * 256)); cbn [andb]; try lia;
    destruct (Z.ltb_spec (k - 18) 3328); try lia; destruct (Z.ltb_spec (k - 18) 3584); try lia; destruct (Z.ltb_spec (k - 18) 3840); try lia; destruct (Z.ltb_spec (k - 18) 3968); try lia; try reflexivity; rewrite u8_id by lia; lia. }
  destruct (forZ_inv (fun i t => alen t = 4096 /\ forall k, 0 <= k < 4096 -> at_ t k = lz5_init ((k - 18) mod 4096))
    (fun j t => aset t (256 * 13 + 512 + 128 + 18) 32) 0 (128 - 18) t4) as [t5 [E5 [A5 B5]]].
  { lia. }
  { intros i x Hi [X1 X2]. rewrite aset_ok by lia. eexists. split; [reflexivity|]. split; [rewrite alen_upd; exact X1|].
    intros k Hk. destruct (Z.eq_dec k (256 * 13 + 512 + 128 + 18)) as [->|N]; [rewrite at_upd_eq by lia; reflexivity|]. rewrite at_upd_ne by lia. apply X2. lia. }
  { split; [congruence|exact V4]. }
  exists t5. split; [exact E5|]. split; [exact A5|]. intros q Hq. pose proof (Z.mod_pos_bound (q + 18) 4096 ltac:(lia)).
  rewrite B5 by lia. rewrite Zminus_mod_idemp_l. replace (q + 18 - 18) with q by lia. now rewrite Z.mod_small by lia.
Qed.

Lemma lz5_init_byte q : 0 <= q < 4096 -> is_byte (lz5_init q).
Proof.
  intros H. unfold lz5_init, is_byte. destruct (Z.ltb_spec q 3328).
  { split; [apply Z.div_pos; lia|]. apply Z.div_lt_upper_bound; lia. }
  destruct (Z.ltb_spec q 3584); [lia|]. destruct (Z.ltb_spec q 3840); [lia|]. destruct (Z.ltb_spec q 3968); lia.
Qed.

Lemma lz5_match_pos loc p : 0 <= loc < 4096 -> 0 <= p < 4096 ->
  Z.land (u64 (loc - (decodePLz5 loc p + 1))) (4096 - 1) mod 2 ^ 12 = (p + 18) mod 2 ^ 12.
Proof.
  intros L P. unfold decodePLz5. change 4096 with (2 ^ 12) at 1. rewrite land_mask by lia. rewrite Z.mod_mod by lia. rewrite u64_mod by lia.
  change 4095 with (2 ^ 12 - 1). rewrite land_mask by lia.
  assert (U : forall x, u16 x mod 2 ^ 12 = x mod 2 ^ 12).
  { intros x. unfold u16. change 65536 with (2 ^ 4 * 2 ^ 12). rewrite (Z.mul_comm (2 ^ 4)). rewrite Z.rem_mul_r by lia. rewrite (Z.mul_comm (2 ^ 12)). rewrite Z.mod_add by lia. apply Z.mod_mod. lia. }
  rewrite (u16_id p) by lia. rewrite U. rewrite (Zminus_mod (u16 (loc - p))), U, <- Zminus_mod.
  replace (loc - ((loc - p - 19) mod 2 ^ 12 + 1)) with (loc - 1 - (loc - p - 19) mod 2 ^ 12) by lia. rewrite Zminus_mod_idemp_r. f_equal. lia.
Qed.

Lemma nibbles a b : 0 <= a < 16 -> 0 <= b < 16 -> Z.land (16 * a + b) 15 = b /\ Z.shiftl (Z.land (16 * a + b) 240) 4 = 256 * a.
Proof.
  intros A B.
  assert (K : forallb (fun i => forallb (fun j => (Z.land (16 * Z.of_nat i + Z.of_nat j) 15 =? Z.of_nat j) && (Z.shiftl (Z.land (16 * Z.of_nat i + Z.of_nat j) 240) 4 =? 256 * Z.of_nat i)) (List.seq 0 16)) (List.seq 0 16) = true) by reflexivity.
  rewrite forallb_forall in K. specialize (K (Z.to_nat a)). rewrite in_seq in K. specialize (K ltac:(lia)). cbv beta in K. rewrite forallb_forall in K.
  specialize (K (Z.to_nat b)). rewrite in_seq in K. specialize (K ltac:(lia)). cbv beta in K. rewrite !Z2Nat.id in K by lia. apply andb_true_iff in K. rewrite !Z.eqb_eq in K. exact K.
Qed.

Lemma land1 f : (Z.land f 1 =? 0) = negb (Z.testbit f 0).
Proof.
  change 1 with (2 ^ 1 - 1). rewrite land_mask by lia. change (2 ^ 1) with 2. rewrite Z.bit0_odd, Zodd_mod. pose proof (Z.mod_pos_bound f 2 ltac:(lia)).
  destruct (Z.eqb_spec (f mod 2) 0) as [->|N]; [reflexivity|]. assert (f mod 2 = 1) as -> by lia. reflexivity.
Qed.

Lemma c5 cnt fl pos t tail : 1 <= cnt -> Z.testbit fl 0 = is_rbyte t -> lz5_ok t ->
  decodeCLz5 (LZ5 cnt fl pos (lz5_item t ++ tail)) =
  match t with
  | RByte b => (b, LZ5 (cnt - 1) (Z.shiftr fl 1) pos tail)
  | RCopy p l => (l - 3 + 256, LZ5 (cnt - 1) (Z.shiftr fl 1) p tail)
  end.
Proof.
  intros C FL OK. unfold decodeCLz5. cbn [z_cnt z_in z_flag z_pos]. destruct (Z.eqb_spec cnt 0); [lia|]. cbn [z_cnt z_in z_flag z_pos].
  destruct t as [b|p l]; cbn [lz5_item app read1 is_rbyte] in *; cbn in OK; cbn [z_cnt z_in z_flag z_pos]; rewrite land1, FL; cbn [negb]; [reflexivity|].
  assert (PD : 0 <= p / 256 < 16) by (split; [apply Z.div_pos; lia|apply Z.div_lt_upper_bound; lia]).
  destruct (nibbles (p / 256) (l - 3) PD ltac:(lia)) as [N1 N2]. rewrite N1, N2.
  replace (p mod 256 + 256 * (p / 256)) with p by (pose proof (Z.div_mod p 256 ltac:(lia)); lia). reflexivity.
Qed.

Lemma lz5_step size s x m t tail : RI 4096 18 s m -> 1 <= x_cnt x -> Z.testbit (x_flag x) 0 = is_rbyte t -> lz5_ok t ->
  infile (d_r s) = lz5_item t ++ tail -> d_count s < size ->
  exists s1 x1, old_step 9 4096 size (s, x) = Ok (Go (s1, x1)) /\ RI 4096 18 s1 (ring_step 4096 m t) /\ d_huf s1 = d_huf s /\
    d_count s1 = d_count s + tlen t /\ infile (d_r s1) = tail /\ compsize (d_r s1) = compsize (d_r s) /\
    x_cnt x1 = x_cnt x - 1 /\ x_flag x1 = Z.shiftr (x_flag x) 1 /\ x_dh x1 = x_dh x /\ x_pm x1 = x_pm x.
Proof.
  intros I C FL OK IN SZ. unfold old_step. destruct (Z.ltb_spec (d_count s) size); [|lia].
  unfold decodeMethodC. change ((9 =? 1) || (9 =? 2)) with false. change (9 =? 3) with false. change (9 =? 8) with false. change (9 =? 9) with true. cbv iota zeta.
  rewrite IN, c5 by assumption. destruct t as [b|p l]; cbn in OK; cbn [z_cnt z_in z_flag z_pos bind].
  - destruct (Z.ltb_spec b 256); [|lia].
    set (r1 := RS _ _ _ _ _). destruct (dput_ring 4096 18 b (with_r r1 s) m) as [s1 [E1 [I1 [X1 [X2 X3]]]]]; [lia|destruct I; constructor; assumption|unfold is_byte; lia|].
    rewrite E1. cbn [bind]. eexists _, _. split; [reflexivity|]. cbn [d_huf d_r d_count x_cnt x_flag x_dh x_pm tlen ring_step].
    split; [now apply RI_r|]. cbn [with_r with_hr d_huf d_r d_count] in X1, X2, X3. rewrite X1, X2, X3. repeat split; reflexivity.
  - destruct (Z.ltb_spec (l - 3 + 256) 256); [lia|]. unfold decodeMethodP. change ((9 =? 1) || (9 =? 3)) with false. change (9 =? 2) with false. change (9 =? 8) with false. change (9 =? 9) with true. cbv iota. cbn [bind x_pos].
    change (adjust 9) with 253. replace (l - 3 + 256 - 253) with l by lia. cbn [with_r with_hr d_huf d_r d_text d_loc d_crc d_out d_count].
    set (r1 := RS _ _ _ _ _). pose proof (ri_loc _ _ _ _ I) as DL.
    destruct (dcopy_ring 12 18 l p (Z.land (u64 (d_loc s - (decodePLz5 (d_loc s) p + 1))) (4096 - 1)) (DST (d_huf s) r1 (d_text s) (d_loc s) (d_crc s) (d_out s) (d_count s + l)) m) as [s1 [E1 [I1 [X1 [X2 X3]]]]];
        [lia|now apply RI_r|lia|apply lz5_match_pos; lia|].
    change (2 ^ 12) with 4096 in E1, I1. rewrite E1. cbn [bind]. cbn [d_huf d_r d_count] in X1, X2, X3.
    eexists _, _. split; [reflexivity|]. cbn [x_cnt x_flag x_dh x_pm tlen ring_step]. split; [exact I1|]. rewrite X1, X2, X3. repeat split; reflexivity.
Qed.

Lemma lz5_refill size s x f c tail : x_cnt x = 0 -> infile (d_r s) = f :: c :: tail ->
  old_step 9 4096 size (s, x) =
  old_step 9 4096 size (with_r (RS (bitbuf (d_r s)) (subbitbuf (d_r s)) (bitcount (d_r s)) (compsize (d_r s)) (c :: tail)) s, EXT (x_dh x) (x_pm x) 8 f (x_pos x)) \/ size <= d_count s.
Proof.
  intros C IN. unfold old_step. cbn [with_r with_hr d_count]. destruct (Z.ltb_spec (d_count s) size); [left|now right].
  assert (E : decodeMethodC 9 s x = decodeMethodC 9 (with_r (RS (bitbuf (d_r s)) (subbitbuf (d_r s)) (bitcount (d_r s)) (compsize (d_r s)) (c :: tail)) s) (EXT (x_dh x) (x_pm x) 8 f (x_pos x))).
  { unfold decodeMethodC. change ((9 =? 1) || (9 =? 2)) with false. change (9 =? 3) with false. change (9 =? 8) with false. change (9 =? 9) with true. cbv iota zeta.
    rewrite C, IN. unfold decodeCLz5. cbn [z_cnt z_in z_flag z_pos with_r with_hr d_r x_cnt x_flag x_pos infile read1]. change (0 =? 0) with true. change (8 =? 0) with false. cbv iota. cbn [z_cnt z_in z_flag z_pos].
    destruct (Z.land f 1 =? 0); reflexivity. }
  rewrite E. reflexivity.
Qed.

Lemma lz5_item_ne t : exists c l, lz5_item t = c :: l.
Proof. destruct t; cbn; eauto. Qed.

Lemma lz5_stream_nil data : lz5_stream [] data -> data = [].
Proof. intros H. inversion H as [|f g L|f g ts d L]; subst; auto; [cbn in L; lia|]. destruct g; [discriminate|discriminate]. Qed.

Lemma lz5_ok_len l : Forall lz5_ok l -> Forall (fun t => 1 <= tlen t) l.
Proof. intros F. eapply Forall_impl; [|exact F]. intros [b|p q]; cbn; lia. Qed.

Lemma lz5_grows t l m : Forall lz5_ok (t :: l) -> zlen (r_out m) < zlen (r_out (fold_left (ring_step 4096) (t :: l) m)).
Proof.
  intros F. pose proof (ring_run_len 4096 (t :: l) m (lz5_ok_len _ F)) as X. rewrite zlen_cons in X. pose proof (zlen_nonneg l). lia.
Qed.

(** Where the decoder is: [g] is what is left of the group, [ts] the items of the groups behind it. *)
Definition at5 (size : Z) (rest : list Z) (s : dst) (x : ext) (m : ring) (g ts : list rtok) (data : list Z) : Prop :=
  RI 4096 18 s m /\ d_count s = zlen (r_out m) /\ infile (d_r s) = flat_map lz5_item g ++ data ++ rest /\ lz5_stream ts data /\ Forall lz5_ok (g ++ ts) /\
  (forall i t, nth_error g i = Some t -> Z.testbit (x_flag x) (Z.of_nat i) = is_rbyte t) /\
  (Z.of_nat (length g) = x_cnt x \/ (Z.of_nat (length g) <= x_cnt x /\ ts = [])) /\
  size = zlen (r_out (fold_left (ring_step 4096) (g ++ ts) m)).

Lemma at5_step size rest s x m t g ts data : at5 size rest s x m (t :: g) ts data ->
  exists s1 x1, old_step 9 4096 size (s, x) = Ok (Go (s1, x1)) /\ at5 size rest s1 x1 (ring_step 4096 m t) g ts data /\ d_huf s1 = d_huf s /\
    compsize (d_r s1) = compsize (d_r s) /\ x_dh x1 = x_dh x /\ x_pm x1 = x_pm x.
Proof.
  intros (I & EC & IN & ST & OK & FL & CNT & ES). cbn [flat_map] in IN. rewrite <- app_assoc in IN. cbn [app] in *.
  pose proof (lz5_grows t (g ++ ts) m OK) as SZ.
  destruct (lz5_step size s x m t (flat_map lz5_item g ++ data ++ rest)) as (s1 & x1 & E1 & I1 & H1 & C1 & N1 & K1 & X1 & X2 & X3 & X4); auto.
  { cbn [length] in CNT. lia. } { exact (FL 0%nat t eq_refl). } { exact (Forall_inv OK). } { lia. }
  exists s1, x1. split; [exact E1|]. split; [|auto].
  split; [exact I1|]. split; [|split; [exact N1|split; [exact ST|split; [exact (Forall_inv_tail OK)|split; [|split; [|exact ES]]]]]].
  - rewrite C1, EC. rewrite ring_step_len; [reflexivity|]. intros p l ->. pose proof (Forall_inv OK) as Y. cbn in Y. lia.
  - intros i t0 Hi. rewrite X2, Z.shiftr_spec by lia. replace (Z.of_nat i + 1) with (Z.of_nat (S i)) by lia. apply FL. exact Hi.
  - rewrite X1. cbn [length] in CNT. destruct CNT as [U|[U1 U2]]; [left; lia|right; split; [lia|exact U2]].
Qed.

Lemma at5_refill size rest s x m t ts data : at5 size rest s x m [] (t :: ts) data ->
  exists s1 x1 g ts1 data1, old_step 9 4096 size (s, x) = old_step 9 4096 size (s1, x1) /\ t :: ts = (t :: g) ++ ts1 /\ at5 size rest s1 x1 m (t :: g) ts1 data1 /\ d_huf s1 = d_huf s /\
    compsize (d_r s1) = compsize (d_r s) /\ x_dh x1 = x_dh x /\ x_pm x1 = x_pm x.
Proof.
  intros (I & EC & IN & ST & OK & FL & CNT & ES). cbn [app flat_map] in *.
  assert (C0 : x_cnt x = 0) by (destruct CNT as [C|[_ C]]; [cbn in C; lia|discriminate]).
  pose proof (lz5_grows t ts m OK) as SZ.
  assert (K : exists f g ts1 data1, data = f :: flat_map lz5_item g ++ data1 /\ t :: ts = g ++ ts1 /\ (1 <= length g <= 8)%nat /\ (length g = 8%nat \/ ts1 = []) /\ lz5_flags f g /\ lz5_stream ts1 data1).
  { inversion ST as [|f g L FG E1 E2|f g ts1 d1 L FG ST1 E1 E2].
    - exists f, (t :: ts), [], []. rewrite !app_nil_r. split; [reflexivity|]. split; [reflexivity|]. split; [exact L|]. split; [now right|]. split; [exact FG|constructor].
    - exists f, g, ts1, d1. split; [reflexivity|]. split; [reflexivity|]. split; [lia|]. split; [now left|]. split; [exact FG|exact ST1]. }
  destruct K as (f & g & ts1 & data1 & ED & EG & L & LL & [_ FG] & ST1).
  destruct g as [|t' g]; [cbn in L; lia|]. assert (t' = t) by (cbn in EG; congruence). subst t'.
  destruct (lz5_item_ne t) as [c [l Hc]]. rewrite ED in IN. cbn [flat_map] in IN. rewrite Hc in IN. cbn [app] in IN.
  destruct (lz5_refill size s x f c (((l ++ flat_map lz5_item g) ++ data1) ++ rest) C0 IN) as [RF|RF]; [|lia].
  eexists _, _, g, ts1, data1. split; [exact RF|]. split; [exact EG|].
  split; [|cbn [with_r with_hr d_huf d_r compsize x_dh x_pm]; auto].
  cbn [app] in EG. split; [now apply RI_r|]. cbn [with_r with_hr d_huf d_r d_count infile x_flag x_cnt]. split; [exact EC|].
  split; [cbn [flat_map]; rewrite Hc; cbn [app]; now rewrite <- !app_assoc|]. split; [exact ST1|]. cbn [app]. rewrite <- EG. split; [exact OK|]. split; [exact FG|]. split; [|exact ES].
  destruct LL as [LL|LL]; [left; lia|right; split; [lia|exact LL]].
Qed.

Lemma lz5_loop size rest : forall n s x m g ts data, at5 size rest s x m g ts data -> (length (g ++ ts) < n)%nat ->
  exists s' x', loopN n (old_step 9 4096 size) (s, x) = Ok (Stop (s', x')) /\ RI 4096 18 s' (fold_left (ring_step 4096) (g ++ ts) m) /\ d_huf s' = d_huf s /\
    x_dh x' = x_dh x /\ x_pm x' = x_pm x /\ infile (d_r s') = rest /\ compsize (d_r s') = compsize (d_r s).
Proof.
  induction n; intros s x m g ts data A LN; [lia|].
  assert (GO : forall s x t g ts data, at5 size rest s x m (t :: g) ts data -> (length ((t :: g) ++ ts) < S n)%nat ->
    exists s' x', loopN (S n) (old_step 9 4096 size) (s, x) = Ok (Stop (s', x')) /\ RI 4096 18 s' (fold_left (ring_step 4096) ((t :: g) ++ ts) m) /\ d_huf s' = d_huf s /\
      x_dh x' = x_dh x /\ x_pm x' = x_pm x /\ infile (d_r s') = rest /\ compsize (d_r s') = compsize (d_r s)).
  { clear g s x ts data A LN. intros s x t g ts data A LN. destruct (at5_step _ _ _ _ _ _ _ _ _ A) as (s1 & x1 & E1 & A1 & X1 & X2 & X3 & X4).
    cbn [loopN]. rewrite E1. cbn [bind].
    destruct (IHn s1 x1 _ g ts data A1) as (s' & x' & Q1 & Q2 & Q3 & Q4 & Q5 & Q6 & Q7); [cbn [app length] in LN; lia|].
    exists s', x'. split; [exact Q1|]. split; [exact Q2|]. repeat split; congruence. }
  destruct g as [|t g]; [|eapply GO; eauto].
  destruct ts as [|t ts].
  - destruct A as (I & EC & IN & ST & OK & FL & CNT & ES). apply lz5_stream_nil in ST. subst data. cbn [flat_map app fold_left] in *. cbn [loopN]. unfold old_step.
    destruct (Z.ltb_spec (d_count s) size); [lia|]. cbn [bind]. exists s, x. split; [reflexivity|]. split; [exact I|]. auto.
  - destruct (at5_refill _ _ _ _ _ _ _ _ A) as (s1 & x1 & g & ts1 & data1 & E1 & EG & A1 & X1 & X2 & X3 & X4).
    cbn [app] in LN |- *. rewrite EG in LN |- *. destruct (GO s1 x1 t g ts1 data1 A1 LN) as (s' & x' & Q1 & Q2 & Q3 & Q4 & Q5 & Q6 & Q7).
    exists s', x'. split; [cbn [loopN] in Q1 |- *; rewrite E1; exact Q1|]. split; [exact Q2|]. repeat split; congruence.
Qed.

Theorem lz5_decodes ts data rest packed g : Forall lz5_ok ts -> lz5_stream ts data ->
  DecodeLzhuf 9 false (zlen (lz5_data ts)) packed (data ++ rest) g = Ok (g, calcCrc 0 (lz5_data ts), lz5_data ts, 0, rest).
Proof.
  intros F ST. unfold DecodeLzhuf. change (dec_dicbit 9) with (@None Z). cbv iota. change (old_dicbit 9) with 12. unfold decode_old. change (Z.shiftl 1 12) with 4096. cbv zeta.
  unfold decodeMethodStart. change (9 =? 1) with false. change (9 =? 2) with false. change (9 =? 3) with false. change (9 =? 8) with false. change (9 =? 9) with true. cbv iota.
  destruct lz5_window as [t [E [A V]]]. rewrite E. cbn [bind x_dh x_pm x_flag x_pos].
  pose proof (ring_run_len 4096 ts (RING lz5_init 4078 []) (lz5_ok_len _ F)) as RL. cbn [r_out] in RL. rewrite zlen_nil in RL. fold (ring_run 4096 4078 lz5_init ts) in RL. fold (lz5_data ts) in RL.
  pose proof (zlen_nonneg ts) as ZN.
  destruct (lz5_loop (zlen (lz5_data ts)) rest (Z.to_nat (zlen (lz5_data ts) + 2)) (DST (g_huf g) (RS 0 0 0 packed (data ++ rest)) t 0 0 [] 0) (EXT (g_dh g) (g_pm g) 0 0 0)
    (RING lz5_init 4078 []) [] ts data) as (s' & x' & E' & I' & H1 & H2 & H3 & H4 & H5).
  { split; [|split; [reflexivity|split; [reflexivity|split; [exact ST|split; [exact F|split; [intros [|i]; discriminate|split; [left; reflexivity|reflexivity]]]]]]].
    constructor; cbn [d_text d_loc d_out d_crc r_out r_pos r_at]; try reflexivity; try lia; auto. intros q Hq. now apply lz5_init_byte. }
  { cbn [app]. unfold zlen in *. lia. }
  rewrite loop_loopN by lia. rewrite E'. cbn [bind app] in *. destruct (ri_final _ _ _ _ I') as [D1 [D2 [D3 D4]]]. cbv zeta in D1, D2, D3, D4.
  cbn [dr_crc dr_out dr_readSize dr_in]. rewrite D1, D2, D3, D4, H1, H2, H3, H4, H5. cbn [x_dh x_pm d_huf d_r compsize]. rewrite Z.sub_diag. destruct g; reflexivity.
Qed.
