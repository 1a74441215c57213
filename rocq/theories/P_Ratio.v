(** The ratio that a listing shows.  The numbers of IEEE 754 are those of SpecFloat in
    Coq's standard library; what is known about them is taken from Flocq. *)
From Coq Require Import String.
From Coq Require Import Reals Lra Psatz.
From Flocq Require Import Core Relative BinarySingleNaN.
From Verif Require Import Go S_Text M_List.

Local Instance prec_pos : FLX.Prec_gt_0 53 := eq_refl _.
Local Instance prec_emax : Prec_lt_emax 53 1024 := eq_refl _.
Notation bin := (binary_float 53 1024).
Notation rnd := (round radix2 (SpecFloat.fexp 53 1024) ZnearestE).

Lemma rne_equiv s m l : SpecFloat.round_nearest_even m l = choice_mode mode_NE s m l.
Proof. destruct l as [|[]]; try reflexivity. cbn. unfold Round.cond_incr. now destruct (Z.even m). Qed.

Lemma round_aux_equiv sx mx ex lx : SpecFloat.binary_round_aux 53 1024 sx mx ex lx = binary_round_aux 53 1024 mode_NE sx mx ex lx.
Proof.
  unfold SpecFloat.binary_round_aux, binary_round_aux. destruct (SpecFloat.shr_fexp _ _ _ _ _) as [mrs' e']. now rewrite (rne_equiv sx).
Qed.

Lemma f64_equiv n : f64 n = B2SF (binary_normalize 53 1024 prec_pos prec_emax mode_NE n 0 false).
Proof.
  assert (X : forall s m, SpecFloat.binary_round 53 1024 s m 0 = binary_round 53 1024 mode_NE s m 0).
  { intros s m. unfold SpecFloat.binary_round, binary_round, shl_align_fexp. destruct (SpecFloat.shl_align _ _ _) as [mz ez]. apply round_aux_equiv. }
  unfold f64. destruct n as [|p|p]; [reflexivity| |]; cbn [SpecFloat.binary_normalize binary_normalize]; rewrite B2SF_SF2B; apply X.
Qed.

Lemma mul_equiv (x y : bin) : SpecFloat.SFmul 53 1024 (B2SF x) (B2SF y) = B2SF (Bmult mode_NE x y).
Proof. destruct x, y; try reflexivity. cbn [B2SF SpecFloat.SFmul Bmult]. rewrite B2SF_SF2B. apply round_aux_equiv. Qed.

Lemma div_equiv (x y : bin) : SpecFloat.SFdiv 53 1024 (B2SF x) (B2SF y) = B2SF (Bdiv mode_NE x y).
Proof.
  destruct x, y; try reflexivity. cbn [B2SF SpecFloat.SFdiv Bdiv]. rewrite B2SF_SF2B. destruct (SpecFloat.SFdiv_core_binary _ _ _ _ _ _) as [[mz ez] lz]. apply round_aux_equiv.
Qed.

(** Whole numbers below 2^53 are represented exactly. *)
Lemma int_exact n : (Z.abs n < 2 ^ 53)%Z -> rnd (IZR n) = IZR n.
Proof.
  intros H. apply round_generic; [apply valid_rnd_N|].
  replace (IZR n) with (F2R (Float radix2 n 0)) by (unfold F2R; cbn; ring).
  apply generic_format_FLT. exists (Float radix2 n 0); [reflexivity|exact H|]. cbn. unfold SpecFloat.emin. lia.
Qed.

Lemma int_small n : (Z.abs n < 2 ^ 53)%Z -> (Rabs (IZR n) < bpow radix2 1024)%R.
Proof.
  intros H. rewrite <- abs_IZR. apply Rlt_trans with (bpow radix2 53); [|apply bpow_lt; lia]. change (bpow radix2 53) with (IZR (2 ^ 53)). now apply IZR_lt.
Qed.

Lemma f64_value n : (0 <= n < 2 ^ 53)%Z -> exists x : bin, f64 n = B2SF x /\ B2R x = IZR n /\ is_finite x = true /\ Bsign x = false.
Proof.
  intros H. exists (binary_normalize 53 1024 prec_pos prec_emax mode_NE n 0 false). split; [apply f64_equiv|].
  pose proof (binary_normalize_correct 53 1024 prec_pos prec_emax mode_NE n 0 false) as X. cbv zeta in X. replace (F2R (Float radix2 n 0)) with (IZR n) in X by (unfold F2R; cbn; ring).
  cbn [round_mode] in X. rewrite (int_exact n), Rlt_bool_true in X by (try apply int_small; lia). destruct X as (X1 & X2 & X3). split; [exact X1|]. split; [exact X2|]. rewrite X3. assert (G : (0 <= IZR n)%R) by (apply IZR_le; lia). destruct (Rcompare_spec (IZR n) 0); [lra|reflexivity|reflexivity].
Qed.

(** The nearest tenth. *)
Lemma tenths_near m e : (Rabs (IZR (tenths m e) - 10 * F2R (Float radix2 (Zpos m) e)) <= / 2)%R /\ (0 <= tenths m e)%Z.
Proof.
  unfold tenths. destruct (Z.leb_spec 0 e) as [H|H].
  - split; [|assert (0 < 2 ^ e)%Z by (apply Z.pow_pos_nonneg; lia); nia]. unfold F2R. cbn [Fnum Fexp]. rewrite !mult_IZR, <- (IZR_Zpower radix2 e H). change (Z.pow (radix_val radix2) e) with (2 ^ e)%Z.
    replace (_ - _)%R with 0%R by ring. rewrite Rabs_R0. lra.
  - set (d := (2 ^ (- e))%Z). assert (D : (0 < d)%Z) by (unfold d; apply Z.pow_pos_nonneg; lia).
    assert (F : F2R (Float radix2 (Zpos m) e) = (IZR (Zpos m) / IZR d)%R).
    { unfold F2R, Rdiv. cbn [Fnum Fexp]. f_equal. unfold d. replace e with (- (- e))%Z at 1 by lia. rewrite bpow_opp. f_equal. symmetry. apply (IZR_Zpower radix2). lia. }
    rewrite F. set (q := (10 * Z.pos m / d)%Z). set (r := (10 * Z.pos m mod d)%Z).
    pose proof (Z.div_mod (10 * Z.pos m) d ltac:(lia)) as DM. fold q r in DM. pose proof (Z.mod_pos_bound (10 * Z.pos m) d D) as RB. fold r in RB.
    assert (Q : (0 <= q)%Z) by (apply Z.div_pos; lia).
    assert (D' : (0 < IZR d)%R) by (now apply IZR_lt).
    assert (X : forall k : Z, (2 * Z.abs (k * d - 10 * Z.pos m) <= d)%Z -> (Rabs (IZR k - 10 * (IZR (Z.pos m) / IZR d)) <= / 2)%R).
    { intros k K. replace (IZR k - 10 * (IZR (Z.pos m) / IZR d))%R with (IZR (k * d - 10 * Z.pos m) / IZR d)%R by (rewrite minus_IZR, !mult_IZR; field; lra).
      unfold Rdiv. rewrite Rabs_mult, <- abs_IZR, (Rabs_pos_eq (/ IZR d)) by (left; now apply Rinv_0_lt_compat).
      apply Rmult_le_reg_r with (IZR d); [exact D'|]. rewrite Rmult_assoc, Rinv_l, Rmult_1_r by lra. apply IZR_le in K. rewrite mult_IZR in K. lra. }
    cbv zeta. destruct (Z.ltb_spec (2 * r) d); [split; [apply X; lia|lia]|]. destruct (Z.ltb_spec d (2 * r)); [split; [apply X; lia|lia]|].
    destruct (Z.even q); (split; [apply X; lia|lia]).
Qed.

(** What printSize shows is the ratio in percent rounded to one decimal. *)
Lemma ratio_near p o : (0 <= p < 2 ^ 46)%Z -> (0 < o < 2 ^ 46)%Z ->
  exists q, (0 <= q)%Z /\
    fmt_5_1f (SpecFloat.SFdiv 53 1024 (SpecFloat.SFmul 53 1024 (f64 p) (f64 100)) (f64 o)) = right_of 5 (decimal (q / 10) ++ text "." ++ decimal (q mod 10)) /\
    (2 ^ 54 * Z.abs (q * o - 1000 * p) <= 2 ^ 53 * o + 2000 * p)%Z.
Proof.
  intros Hp Ho.
  destruct (f64_value p ltac:(lia)) as (x & Ex & Rx & Fx & Sx). destruct (f64_value 100 ltac:(lia)) as (y & Ey & Ry & Fy & Sy). destruct (f64_value o ltac:(lia)) as (z & Ez & Rz & Fz & Sz).
  rewrite Ex, Ey, Ez, mul_equiv.
  pose proof (Bmult_correct 53 1024 prec_pos prec_emax mode_NE x y) as M. rewrite Rx, Ry, <- mult_IZR in M. cbn [round_mode] in M.
  rewrite int_exact, Rlt_bool_true in M by (try apply int_small; lia). destruct M as (RM & FM & SM). rewrite Fx, Fy in FM.
  rewrite div_equiv. set (xy := Bmult mode_NE x y) in *.
  assert (Oz : (0 < IZR o)%R) by (apply IZR_lt; lia).
  pose proof (Bdiv_correct 53 1024 prec_pos prec_emax mode_NE xy z) as D. rewrite RM, Rz in D. specialize (D ltac:(lra)). cbn [round_mode] in D.
  assert (T : (0 <= IZR (p * 100) / IZR o <= IZR (2 ^ 53))%R).
  { split; [apply Rmult_le_pos; [apply IZR_le; lia|left; now apply Rinv_0_lt_compat]|]. apply Rmult_le_reg_r with (IZR o); [exact Oz|]. unfold Rdiv. rewrite Rmult_assoc, Rinv_l, Rmult_1_r by lra. rewrite <- mult_IZR. apply IZR_le. nia. }
  set (t := (IZR (p * 100) / IZR o)%R) in *.
  assert (RT : (0 <= rnd t <= IZR (2 ^ 53))%R).
  { split.
    - rewrite <- (round_0 radix2 (SpecFloat.fexp 53 1024) ZnearestE). apply round_le; [apply fexp_correct; exact prec_pos|apply valid_rnd_N|apply T].
    - assert (G : rnd (IZR (2 ^ 53)) = IZR (2 ^ 53)).
      { apply round_generic; [apply valid_rnd_N|]. replace (IZR (2 ^ 53)) with (F2R (Float radix2 1 53)) by (unfold F2R; cbn; ring). apply generic_format_FLT. exists (Float radix2 1 53); [reflexivity|reflexivity|]. cbn. unfold SpecFloat.emin. lia. }
      rewrite <- G. apply round_le; [apply fexp_correct; exact prec_pos|apply valid_rnd_N|apply T]. }
  rewrite Rlt_bool_true in D.
  2:{ rewrite Rabs_pos_eq by apply RT. eapply Rle_lt_trans; [apply RT|]. change (IZR (2 ^ 53)) with (bpow radix2 53). apply bpow_lt. lia. }
  destruct D as (RD & FD & SD). rewrite FM in FD. set (w := Bdiv mode_NE xy z) in *.
  assert (ER : (Rabs (rnd t - t) <= / IZR (2 ^ 53) * t)%R).
  { destruct (Req_dec t 0) as [-> |NT]; [rewrite round_0 by apply valid_rnd_N; rewrite Rminus_0_r, Rabs_R0; lra|].
    assert (P1 : (1 <= p)%Z). { destruct (Z.eq_dec p 0) as [-> |]; [|lia]. exfalso. apply NT. unfold t. change (0 * 100)%Z with 0%Z. lra. }
    pose proof (relative_error_N_FLT radix2 (SpecFloat.emin 53 1024) 53 ltac:(lia) (fun x => negb (Z.even x)) t) as X.
    rewrite (Rabs_pos_eq t) in X by apply T. change (FLT_exp (SpecFloat.emin 53 1024) 53) with (SpecFloat.fexp 53 1024) in X.
    replace (/ IZR (2 ^ 53))%R with (/ 2 * bpow radix2 (- (53) + 1))%R.
    2:{ change (- (53) + 1)%Z with (- (52))%Z. rewrite bpow_opp. change (bpow radix2 52) with (IZR (2 ^ 52)). change (2 ^ 53)%Z with (2 * 2 ^ 52)%Z. rewrite mult_IZR. field. apply not_0_IZR. lia. }
    apply X. apply Rle_trans with (bpow radix2 (- (46))); [apply bpow_le; unfold SpecFloat.emin; lia|].
    rewrite bpow_opp. change (bpow radix2 46) with (IZR (2 ^ 46)). unfold t. apply Rmult_le_reg_r with (IZR o); [exact Oz|]. unfold Rdiv. rewrite (Rmult_assoc (IZR (p * 100))), Rinv_l, Rmult_1_r by lra.
    apply Rmult_le_reg_l with (IZR (2 ^ 46)); [apply IZR_lt; lia|]. rewrite <- Rmult_assoc, Rinv_r, Rmult_1_l by (apply not_0_IZR; lia). rewrite <- mult_IZR. apply IZR_le. nia. }
  assert (FIN : forall q, (0 <= q)%Z -> (Rabs (IZR q - 10 * rnd t) <= / 2)%R -> (2 ^ 54 * Z.abs (q * o - 1000 * p) <= 2 ^ 53 * o + 2000 * p)%Z).
  { intros q Q N. apply le_IZR. rewrite plus_IZR, !mult_IZR, abs_IZR, minus_IZR, !mult_IZR.
    assert (TO : (t * IZR o = 100 * IZR p)%R) by (unfold t; rewrite mult_IZR; field; lra).
    assert (N2 : (Rabs (IZR q - 10 * t) <= / 2 + 10 * (/ IZR (2 ^ 53) * t))%R).
    { replace (IZR q - 10 * t)%R with ((IZR q - 10 * rnd t) + 10 * (rnd t - t))%R by ring. eapply Rle_trans; [apply Rabs_triang|]. rewrite (Rabs_mult 10), (Rabs_pos_eq 10) by lra. apply Rplus_le_compat; [exact N|]. apply Rmult_le_compat_l; [lra|exact ER]. }
    replace (IZR q * IZR o - 1000 * IZR p)%R with ((IZR q - 10 * t) * IZR o)%R by (rewrite Rmult_minus_distr_r, Rmult_assoc, TO; ring).
    rewrite Rabs_mult, (Rabs_pos_eq (IZR o)) by lra.
    apply Rle_trans with (IZR (2 ^ 54) * ((/ 2 + 10 * (/ IZR (2 ^ 53) * t)) * IZR o))%R.
    - apply Rmult_le_compat_l; [apply IZR_le; lia|]. apply Rmult_le_compat_r; [lra|exact N2].
    - change (2 ^ 54)%Z with (2 * 2 ^ 53)%Z. rewrite mult_IZR. set (k := IZR (2 ^ 53)). assert (K : (0 < k)%R) by (apply IZR_lt; lia).
      apply Req_le. transitivity (k * IZR o + 20 * (t * IZR o))%R; [field; lra|]. rewrite TO. ring. }
  destruct w as [s|s| |s m e B]; try discriminate FD.
  - cbn [B2R] in RD. cbn [B2SF fmt_5_1f]. exists 0%Z. split; [lia|].
    assert (SG : s = false).
    { specialize (SD eq_refl). rewrite Sz, SM in SD; [rewrite Sx, Sy in SD; exact SD|]. unfold xy. destruct (Bmult mode_NE x y); [reflexivity|reflexivity|discriminate FM|reflexivity]. }
    subst s. split; [reflexivity|]. apply FIN; [lia|]. rewrite <- RD, Rmult_0_r, Rminus_0_r, Rabs_R0. lra.
  - cbn [B2R] in RD. destruct s.
    { exfalso. assert (X : (F2R (Float radix2 (cond_Zopp true (Z.pos m)) e) < 0)%R) by (apply F2R_lt_0; cbn; lia). rewrite RD in X. lra. }
    cbn [cond_Zopp] in RD. destruct (tenths_near m e) as [T1 T2]. rewrite RD in T1. cbn [B2SF fmt_5_1f]. exists (tenths m e). split; [exact T2|]. split; [reflexivity|]. now apply FIN.
Qed.
