(** The window of the decoder holds the last bytes written. *)
From Verif Require Import Go GoLemmas S_Bits P_Bits S_Huff M_Crc P_Crc M_Bitio P_Bitio P_Huff
  M_Maketree M_Maketbl P_Maketree P_Maketbl M_Huf P_HufCode P_HufTables P_HufLens P_HufBlock M_Slide S_Lz P_Lz.

Record DI (d : Z) (s : dst) (out : list Z) : Prop := {
  di_len : alen (d_text s) = d;
  di_loc : 0 <= d_loc s < d;
  di_out : concat (rev (d_out s)) ++ slice_list (d_text s) 0 (Z.to_nat (d_loc s)) = out;
  di_crc : d_crc s = calcCrc 0 (concat (rev (d_out s)));
  di_win : forall k, 1 <= k <= d -> at_ (d_text s) ((d_loc s - k) mod d) = back out k
}.

Lemma slice_list_snoc a n : forall i, slice_list a i (S n) = slice_list a i n ++ [at_ a (i + Z.of_nat n)].
Proof.
  induction n; intros i.
  - cbn [slice_list app]. do 2 f_equal. lia.
  - change (slice_list a i (S (S n))) with (at_ a i :: slice_list a (i + 1) (S n)). rewrite IHn. cbn [slice_list app].
    do 4 f_equal. lia.
Qed.

Lemma slice_list_ext a b n : forall i, (forall k, i <= k < i + Z.of_nat n -> at_ a k = at_ b k) -> slice_list a i n = slice_list b i n.
Proof.
  induction n; intros i H; [reflexivity|]. cbn [slice_list]. f_equal; [apply H; lia|]. apply IHn. intros; apply H; lia.
Qed.

Lemma calcCrc_app c a b : calcCrc c (a ++ b) = calcCrc (calcCrc c a) b.
Proof. apply fold_left_app. Qed.

Lemma concat_snoc {A} (l : list (list A)) x : concat (l ++ [x]) = concat l ++ x.
Proof. rewrite concat_app. cbn [concat]. now rewrite app_nil_r. Qed.

Lemma DI_loc_le d s out : DI d s out -> d_loc s <= zlen out.
Proof.
  intros [A B C _ _]. rewrite <- C, zlen_app. unfold zlen at 2. rewrite slice_list_length. pose proof (zlen_nonneg (concat (rev (d_out s)))). lia.
Qed.

Lemma dput_ok d c s out : 1 <= d <= 65536 -> DI d s out -> is_byte c -> d < 65536 \/ zlen out + 1 < 65536 ->
  exists s', dput d c s = Ok s' /\ DI d s' (out ++ [c]) /\ d_huf s' = d_huf s /\ d_r s' = d_r s /\ d_count s' = d_count s.
Proof.
  intros Hd I Hc Hs. pose proof (DI_loc_le _ _ _ I) as LL. destruct I as [A B C D W]. unfold dput. rewrite aset_ok by lia. cbn [bind].
  unfold is_byte in Hc. rewrite u8_id by lia. rewrite u16_id by lia.
  assert (SN : slice_list (upd (d_text s) (d_loc s) c) 0 (Z.to_nat (d_loc s + 1)) = slice_list (d_text s) 0 (Z.to_nat (d_loc s)) ++ [c]).
  { replace (Z.to_nat (d_loc s + 1)) with (S (Z.to_nat (d_loc s))) by lia. rewrite slice_list_snoc. f_equal.
    - apply slice_list_ext. intros k Hk. apply at_upd_ne; lia.
    - rewrite Z.add_0_l, Z2Nat.id by lia. now rewrite at_upd_eq. }
  assert (WN : forall k, 1 <= k <= d -> at_ (upd (d_text s) (d_loc s) c) ((d_loc s + 1 - k) mod d) = back (out ++ [c]) k).
  { intros k Hk. destruct (Z.eq_dec k 1) as [->|Hk1].
    - replace (d_loc s + 1 - 1) with (d_loc s) by lia. rewrite Z.mod_small by lia. now rewrite at_upd_eq, back_one.
    - replace k with (k - 1 + 1) at 2 by lia. rewrite back_snoc by lia. rewrite <- W by lia.
      replace (d_loc s + 1 - k) with (d_loc s - (k - 1)) by lia.
      apply at_upd_ne; [lia|apply Z.mod_pos_bound; lia|].
      intros X. destruct (Z_lt_ge_dec (d_loc s - (k - 1)) 0) as [Neg|Pos].
      + rewrite <- (Z.mod_unique (d_loc s - (k - 1)) d (-1) (d_loc s - (k - 1) + d)) in X by lia. lia.
      + rewrite Z.mod_small in X by lia. lia. }
  cbv zeta. destruct (Z.eqb_spec (d_loc s + 1) d) as [Full|NF].
  - eexists. split; [reflexivity|]. unfold fwriteCrc. cbn [d_huf d_r d_text d_loc d_crc d_out d_count].
    split; [|auto]. constructor; cbn [d_huf d_r d_text d_loc d_crc d_out d_count].
    + rewrite alen_upd. lia.
    + lia.
    + cbn [rev]. rewrite concat_snoc. change (Z.to_nat 0) with O. cbn [slice_list]. rewrite app_nil_r. rewrite <- Full, SN.
      rewrite app_assoc, C. reflexivity.
    + cbn [rev]. rewrite concat_snoc, calcCrc_app, D. reflexivity.
    + intros k Hk. rewrite <- WN by lia. f_equal. rewrite Full.
      replace (0 - k) with (d - k + (-1) * d) by lia. rewrite Z.mod_add by lia. reflexivity.
  - eexists. split; [reflexivity|]. cbn [d_huf d_r d_text d_loc d_crc d_out d_count]. split; [|auto].
    constructor; cbn [d_huf d_r d_text d_loc d_crc d_out d_count].
    + rewrite alen_upd. lia.
    + lia.
    + rewrite SN, app_assoc, C. reflexivity.
    + exact D.
    + exact WN.
Qed.

Lemma land_mask x k : 0 <= k -> Z.land x (2 ^ k - 1) = x mod 2 ^ k.
Proof. intros. rewrite <- Z.land_ones by lia. rewrite Z.ones_equiv. f_equal; lia. Qed.

Lemma u64_mod x k : 0 <= k <= 64 -> u64 x mod 2 ^ k = x mod 2 ^ k.
Proof.
  intros H. unfold u64. change 18446744073709551616 with (2 ^ 64). symmetry.
  rewrite (Z.mod_eq x (2 ^ 64)) by lia. replace (2 ^ 64) with (2 ^ (64 - k) * 2 ^ k) at 1.
  - rewrite <- (Z.mod_add x (- (x / 2 ^ 64) * 2 ^ (64 - k)) (2 ^ k)) by lia. f_equal. lia.
  - rewrite <- Z.pow_add_r by lia. f_equal. lia.
Qed.

Lemma dcopy_ok k len dist matchpos s out : 0 <= k <= 16 -> DI (2 ^ k) s out -> bytes out -> 1 <= dist <= 2 ^ k -> 0 <= len ->
  2 ^ k < 65536 \/ zlen out + len < 65536 -> matchpos mod 2 ^ k = (d_loc s - dist) mod 2 ^ k ->
  exists s', dcopy (2 ^ k) len matchpos s = Ok s' /\ DI (2 ^ k) s' (lz_copy (Z.to_nat len) dist out) /\
    d_huf s' = d_huf s /\ d_r s' = d_r s /\ d_count s' = d_count s.
Proof.
  intros Hk I Hb Hd Hl Hs Hm. unfold dcopy.
  assert (P2 : 1 <= 2 ^ k <= 65536). { change 65536 with (2 ^ 16). split; [|apply Z.pow_le_mono_r; lia]. assert (0 < 2 ^ k) by (apply Z.pow_pos_nonneg; lia). lia. }
  set (d := 2 ^ k) in *.
  destruct (forZ_inv (fun i s' => DI d s' (lz_copy (Z.to_nat i) dist out) /\ (d_loc s' - i) mod d = d_loc s mod d /\
      d_huf s' = d_huf s /\ d_r s' = d_r s /\ d_count s' = d_count s)
    (fun i s => c <- aget (d_text s) (Z.land (matchpos + i) (d - 1)) ;; dput d c s) 0 len s) as [s' [E [I' [_ [H1 [H2 H3]]]]]].
  - lia.
  - intros i x Hi [Ix [Ex [X1 [X2 X3]]]]. unfold d at 1. rewrite land_mask by lia. fold d.
    assert (EP : (matchpos + i) mod d = (d_loc x - dist) mod d).
    { rewrite <- Zplus_mod_idemp_l, Hm, Zplus_mod_idemp_l. replace (d_loc s - dist + i) with (d_loc s + (i - dist)) by lia.
      rewrite <- Zplus_mod_idemp_l, <- Ex, Zplus_mod_idemp_l. f_equal. lia. }
    rewrite EP. pose proof (Z.mod_pos_bound (d_loc x - dist) d ltac:(lia)) as MB.
    rewrite aget_ok by (rewrite (di_len _ _ _ Ix); lia). cbn [bind]. rewrite (di_win _ _ _ Ix) by lia.
    destruct (dput_ok d (back (lz_copy (Z.to_nat i) dist out) dist) x _ P2 Ix) as [y [Ey [Iy [Y1 [Y2 Y3]]]]].
    + apply back_byte. now apply lz_copy_bytes.
    + destruct Hs; [now left|right]. rewrite lz_copy_zlen. lia.
    + exists y. split; [exact Ey|]. replace (Z.to_nat (i + 1)) with (S (Z.to_nat i)) by lia. rewrite lz_copy_snoc. split; [exact Iy|].
      split; [|split; [congruence|split; congruence]].
      unfold dput in Ey. rewrite aset_ok in Ey by (rewrite (di_len _ _ _ Ix); apply (di_loc _ _ _ Ix)). cbn [bind] in Ey.
      pose proof (DI_loc_le _ _ _ Ix) as LL. rewrite lz_copy_zlen in LL. pose proof (di_loc _ _ _ Ix) as DL.
      rewrite u16_id in Ey by lia. cbv zeta in Ey. destruct (Z.eqb_spec (d_loc x + 1) d) as [F|F]; injection Ey as <-; cbn [d_loc].
      * rewrite <- Ex. replace (d_loc x - i) with (0 - (i + 1) + 1 * d) by lia. rewrite Z.mod_add by lia. reflexivity.
      * rewrite <- Ex. f_equal. lia.
  - split; [exact I|]. split; [f_equal; lia|auto].
  - exists s'. auto.
Qed.

(** ** Running the decoder along a token sequence *)

(** The meaning of the coder's tokens. *)
Definition tokz (t : tok) : lztok := match t with Lit b => LzByte b | Mat c p => LzCopy (c - 253) (p + 1) end.

Definition expand (l : list tok) : list Z := lz_expand (map tokz l).

Lemma expand_snoc l t : expand (l ++ [t]) = lz_step (expand l) (tokz t).
Proof. unfold expand. rewrite map_app. cbn [map]. apply lz_expand_snoc. Qed.

Definition runtoks (out : list Z) (l : list tok) : list Z := fold_left lz_step (map tokz l) out.

Lemma runtoks_len l : forall out, (forall c p, In (Mat c p) l -> 256 <= c) -> zlen out + zlen l <= zlen (runtoks out l).
Proof.
  induction l as [|t l IH]; intros out H; [unfold runtoks; cbn [map fold_left]; rewrite zlen_nil; lia|].
  unfold runtoks. cbn [map fold_left]. fold (runtoks (lz_step out (tokz t)) l).
  specialize (IH (lz_step out (tokz t)) (fun c p X => H c p (or_intror X))). rewrite zlen_cons.
  assert (zlen out + 1 <= zlen (lz_step out (tokz t))); [|lia].
  destruct t as [b|c p]; cbn [tokz lz_step]; [rewrite zlen_app; unfold zlen; cbn [length]; lia|].
  specialize (H c p (or_introl eq_refl)). rewrite lz_copy_zlen. lia.
Qed.

Lemma dec_run_decode k size h r toks h' r' : 0 <= k <= 16 -> dec_run h r toks h' r' ->
  forall n s out, (forall c p, In (Mat c p) toks -> p < 2 ^ k) -> (forall b, In (Lit b) toks -> is_byte b) ->
  DI (2 ^ k) s out -> bytes out -> d_huf s = h -> d_r s = r -> d_count s = zlen out ->
  size = zlen (runtoks out toks) -> 2 ^ k < 65536 \/ size < 65536 -> (length toks < n)%nat ->
  exists s', loopN n (decode_step (2 ^ k) size) s = Ok (Stop s') /\ DI (2 ^ k) s' (runtoks out toks) /\ d_huf s' = h' /\ d_r s' = r'.
Proof.
  intros Hk R. induction R as [h r|h r b h1 r1 l h' r' E Hb R IH|h r c p h1 r1 r2 l h' r' E Hc E2 Hp R IH];
    intros n s out HP HB I Bo Eh Er Ec Es Hsz Hn.
  - destruct n; [cbn [length] in Hn; lia|]. cbn [loopN]. unfold decode_step. unfold runtoks in Es. cbn [map fold_left] in Es.
    destruct (Z.ltb_spec (d_count s) size); [lia|]. cbn [bind]. exists s. auto.
  - destruct n; [lia|]. cbn [loopN]. unfold decode_step at 1.
    assert (RL : forall o, zlen o <= zlen (runtoks o l)).
    { intros o. assert (G : forall l o, zlen o <= zlen (runtoks o l)); [|apply G].
      clear. induction l as [|t l IH]; intros o; unfold runtoks; cbn [map fold_left]; [lia|]. fold (runtoks (lz_step o (tokz t)) l).
      specialize (IH (lz_step o (tokz t))). assert (zlen o <= zlen (lz_step o (tokz t))); [|lia].
      destruct t; cbn [tokz lz_step]; [rewrite zlen_app; pose proof (zlen_nonneg [b]); lia|rewrite lz_copy_zlen; lia]. }
    assert (Es' : size = zlen (runtoks (out ++ [b]) l)) by (rewrite Es; reflexivity).
    pose proof (RL (out ++ [b])) as G. rewrite zlen_app in G. unfold zlen at 2 in G. cbn [length] in G.
    destruct (Z.ltb_spec (d_count s) size); [|lia]. rewrite Eh, Er, E. cbn [bind].
    destruct (Z.ltb_spec b 256); [|lia].
    destruct (dput_ok (2 ^ k) b (DST h1 r1 (d_text s) (d_loc s) (d_crc s) (d_out s) (d_count s)) out) as [s1 [E1 [I1 [F1 [F2 F3]]]]].
    + split; [assert (0 < 2 ^ k) by (apply Z.pow_pos_nonneg; lia); lia|change 65536 with (2 ^ 16); apply Z.pow_le_mono_r; lia].
    + destruct I; constructor; assumption.
    + exact Hb.
    + destruct Hsz; [now left|right; lia].
    + rewrite E1. cbn [bind]. cbn [d_huf d_r d_count] in F1, F2, F3. rewrite F1, F2, F3.
      destruct (IH n (DST h1 r1 (d_text s1) (d_loc s1) (d_crc s1) (d_out s1) (d_count s + 1)) (out ++ [b])) as [s' [E' [I' X]]]; auto.
      * intros c q X. apply (HP c q). now right.
      * intros x X. apply HB. now right.
      * destruct I1; constructor; assumption.
      * apply bytes_snoc; auto.
      * cbn [d_count]. rewrite zlen_app. unfold zlen at 2. cbn [length]. lia.
      * cbn [length] in Hn. lia.
      * exists s'. split; [exact E'|]. split; [exact I'|exact X].
  - destruct n; [lia|]. cbn [loopN]. unfold decode_step at 1.
    assert (RL : forall o, zlen o <= zlen (runtoks o l)).
    { intros o. assert (G : forall l o, zlen o <= zlen (runtoks o l)); [|apply G].
      clear. induction l as [|t l IH]; intros o; unfold runtoks; cbn [map fold_left]; [lia|]. fold (runtoks (lz_step o (tokz t)) l).
      specialize (IH (lz_step o (tokz t))). assert (zlen o <= zlen (lz_step o (tokz t))); [|lia].
      destruct t; cbn [tokz lz_step]; [rewrite zlen_app; pose proof (zlen_nonneg [b]); lia|rewrite lz_copy_zlen; lia]. }
    assert (Es' : size = zlen (runtoks (lz_copy (Z.to_nat (c - 253)) (p + 1) out) l)) by (rewrite Es; reflexivity).
    pose proof (RL (lz_copy (Z.to_nat (c - 253)) (p + 1) out)) as G. rewrite lz_copy_zlen in G.
    destruct (Z.ltb_spec (d_count s) size); [|lia]. rewrite Eh, Er, E. cbn [bind].
    destruct (Z.ltb_spec c 256); [lia|]. rewrite E2. cbn [bind]. cbv zeta. cbn [d_text d_loc d_crc d_out d_count].
    replace (c - (256 - threshold)) with (c - 253) by (unfold threshold; lia).
    assert (P2 : 0 < 2 ^ k) by (apply Z.pow_pos_nonneg; lia).
    destruct (dcopy_ok k (c - 253) (p + 1) (Z.land (u64 (d_loc s - (p + 1))) (2 ^ k - 1))
      (DST h1 r2 (d_text s) (d_loc s) (d_crc s) (d_out s) (d_count s + (c - 253))) out) as [s1 [E1 [I1 [F1 [F2 F3]]]]]; auto.
    + destruct I; constructor; assumption.
    + specialize (HP c p (or_introl eq_refl)). lia.
    + lia.
    + destruct Hsz; [now left|right; lia].
    + rewrite land_mask by lia. cbn [d_loc]. rewrite Z.mod_mod by lia. apply u64_mod. lia.
    + rewrite E1. cbn [bind].
      destruct (IH n s1 (lz_copy (Z.to_nat (c - 253)) (p + 1) out)) as [s' [E' [I' X]]]; auto.
      * intros c' q X. apply (HP c' q). now right.
      * intros x X. apply HB. now right.
      * now apply lz_copy_bytes.
      * rewrite F3, lz_copy_zlen. cbn [d_count]. lia.
      * cbn [length] in Hn. lia.
      * exists s'. split; [exact E'|]. split; [exact I'|exact X].
Qed.

Lemma dst_final d s out : DI d s out ->
  let s' := if d_loc s =? 0 then s else fwriteCrc (d_loc s) s in
  d_crc s' = calcCrc 0 out /\ concat (rev (d_out s')) = out /\ d_huf s' = d_huf s /\ d_r s' = d_r s.
Proof.
  intros [A B C D W]. cbv zeta. destruct (Z.eqb_spec (d_loc s) 0) as [Z0|NZ].
  - rewrite Z0 in C. change (Z.to_nat 0) with O in C. cbn [slice_list] in C. rewrite app_nil_r in C. rewrite D, C. auto.
  - unfold fwriteCrc. cbn [d_crc d_out d_huf d_r rev]. rewrite concat_snoc, D, <- calcCrc_app, C. auto.
Qed.

(** Decoding a complete token stream. *)
Theorem decode_run dicbit size packed inp h r toks h' r' : 0 <= dicbit <= 16 ->
  initGetbits packed inp = Ok r -> dec_run (decodeStartSt1 dicbit h) r toks h' r' ->
  (forall t, In t toks -> tok_ok dicbit t) ->
  size = zlen (expand toks) -> 2 ^ dicbit < 65536 \/ size < 65536 ->
  decode dicbit false size packed inp h =
    Ok (DR h' (calcCrc 0 (expand toks)) (expand toks) (packed - compsize r') (infile r')).
Proof.
  intros Hk Ei R T Es Hs. unfold decode. cbv zeta. rewrite Ei. cbn [bind]. rewrite Z.shiftl_1_l.
  assert (P2 : 0 < 2 ^ dicbit) by (apply Z.pow_pos_nonneg; lia).
  assert (TL : zlen toks <= size).
  { rewrite Es. pose proof (runtoks_len toks []) as X. rewrite zlen_nil in X. apply X. intros c p Hin. specialize (T _ Hin). cbn [tok_ok] in T. lia. }
  pose proof (zlen_nonneg toks) as TN.
  destruct (dec_run_decode dicbit size _ _ _ _ _ Hk R (Z.to_nat (size + 2)) (DST (decodeStartSt1 dicbit h) r (afill (2 ^ dicbit) 32) 0 0 [] 0) []) as [s [E [I [F1 F2]]]]; auto.
  - intros c p X. apply T in X. cbn [tok_ok] in X. lia.
  - intros b X. apply T in X. cbn [tok_ok] in X. exact X.
  - constructor; cbn [d_text d_loc d_out d_crc].
    + reflexivity.
    + lia.
    + reflexivity.
    + reflexivity.
    + intros k Hk'. rewrite at_afill. unfold back. cbn [length]. destruct (Z.leb_spec k (Z.of_nat 0)); [lia|reflexivity].
  - constructor.
  - unfold zlen in *. lia.
  - rewrite loop_loopN by lia. rewrite E. cbn [bind]. destruct (dst_final _ _ _ I) as [D1 [D2 [D3 D4]]]. cbv zeta in D1, D2, D3, D4.
    rewrite D1, D2, D3, D4, F1, F2. reflexivity.
Qed.
