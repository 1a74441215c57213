(** Lemmas about bit strings. *)
From Verif Require Import Go GoLemmas S_Bits.

Lemma to_bits_length n x : length (to_bits n x) = n.
Proof. induction n; simpl; auto. Qed.

Lemma of_bits_acc_eq l : forall acc, of_bits_acc acc l = acc * 2 ^ Z.of_nat (length l) + of_bits l.
Proof.
  unfold of_bits. induction l as [|b l IH]; intros acc; cbn [of_bits_acc length].
  - change (2 ^ Z.of_nat 0) with 1. lia.
  - rewrite IH, (IH (2 * 0 + Z.b2z b)).
    rewrite Nat2Z.inj_succ, Z.pow_succ_r by lia. ring.
Qed.

Lemma of_bits_nil : of_bits [] = 0.
Proof. reflexivity. Qed.

Lemma of_bits_cons b l : of_bits (b :: l) = Z.b2z b * 2 ^ Z.of_nat (length l) + of_bits l.
Proof.
  unfold of_bits at 1. cbn [of_bits_acc]. rewrite of_bits_acc_eq. f_equal; f_equal; lia.
Qed.

Lemma of_bits_app a b : of_bits (a ++ b) = of_bits a * 2 ^ Z.of_nat (length b) + of_bits b.
Proof.
  induction a as [|x a IH]; cbn [app].
  - rewrite of_bits_nil. lia.
  - rewrite !of_bits_cons, IH, app_length, Nat2Z.inj_add, Z.pow_add_r by lia. ring.
Qed.

Lemma of_bits_range l : 0 <= of_bits l < 2 ^ Z.of_nat (length l).
Proof.
  induction l as [|b l IH]; [rewrite of_bits_nil; cbn; lia|].
  rewrite of_bits_cons. cbn [length]. rewrite Nat2Z.inj_succ, Z.pow_succ_r by lia.
  destruct b; simpl Z.b2z; lia.
Qed.

Lemma b2z_testbit x n : 0 <= n -> Z.b2z (Z.testbit x n) = (x / 2 ^ n) mod 2.
Proof. intros. apply Z.testbit_spec'. assumption. Qed.

Lemma of_bits_to_bits n x : of_bits (to_bits n x) = x mod 2 ^ Z.of_nat n.
Proof.
  induction n; cbn [to_bits].
  - rewrite of_bits_nil. change (2 ^ Z.of_nat 0) with 1. now rewrite Z.mod_1_r.
  - rewrite of_bits_cons, IHn, to_bits_length, b2z_testbit by lia.
    rewrite Nat2Z.inj_succ, Z.pow_succ_r by lia.
    set (p := 2 ^ Z.of_nat n). assert (Hp : 0 < p) by (apply Z.pow_pos_nonneg; lia).
    rewrite (Z.mul_comm 2 p). rewrite Z.rem_mul_r by lia. ring.
Qed.

Lemma of_bits_inj a : forall b, length a = length b -> of_bits a = of_bits b -> a = b.
Proof.
  induction a as [|x a IH]; intros [|y b] L E; try discriminate L; auto.
  injection L as L. rewrite !of_bits_cons, L in E.
  pose proof (of_bits_range a) as Ra. pose proof (of_bits_range b) as Rb. rewrite L in Ra.
  set (p := 2 ^ Z.of_nat (length b)) in *.
  assert (x = y) by (destruct x, y; simpl Z.b2z in E; auto; lia). subst y.
  f_equal. apply IH; auto. lia.
Qed.

Lemma to_bits_of_bits l : to_bits (length l) (of_bits l) = l.
Proof.
  apply of_bits_inj; [apply to_bits_length|].
  rewrite of_bits_to_bits. apply Z.mod_small, of_bits_range.
Qed.

Lemma to_bits_eq n x y : x mod 2 ^ Z.of_nat n = y mod 2 ^ Z.of_nat n -> to_bits n x = to_bits n y.
Proof.
  intros H. apply of_bits_inj; [now rewrite !to_bits_length|].
  now rewrite !of_bits_to_bits.
Qed.

Lemma to_bits_mod n m x : (n <= m)%nat -> to_bits n (x mod 2 ^ Z.of_nat m) = to_bits n x.
Proof.
  intros H. apply to_bits_eq.
  replace (Z.of_nat m) with (Z.of_nat n + Z.of_nat (m - n)) by lia.
  rewrite Z.pow_add_r by lia.
  rewrite Z.rem_mul_r by (try apply Z.pow_nonzero; try apply Z.pow_pos_nonneg; lia).
  set (q := 2 ^ Z.of_nat n). assert (q <> 0) by (apply Z.pow_nonzero; lia).
  rewrite (Z.mul_comm q), Z.mod_add by assumption. now apply Z.mod_mod.
Qed.

Lemma to_bits_app n m x : to_bits (n + m) x = to_bits n (x / 2 ^ Z.of_nat m) ++ to_bits m x.
Proof.
  induction n; cbn [plus to_bits app]; auto.
  rewrite IHn. f_equal. rewrite Z.div_pow2_bits by lia. f_equal; lia.
Qed.

Lemma to_bits_small n x : 0 <= x < 2 ^ Z.of_nat n -> of_bits (to_bits n x) = x.
Proof. intros. rewrite of_bits_to_bits. now apply Z.mod_small. Qed.

Lemma to_bits_0 n : to_bits n 0 = repeat false n.
Proof. induction n; simpl; auto. rewrite Z.bits_0, IHn. reflexivity. Qed.

Lemma skipn_to_bits m n x : (m <= n)%nat -> skipn m (to_bits n x) = to_bits (n - m) x.
Proof.
  intros H. replace n with (m + (n - m))%nat at 1 by lia.
  rewrite to_bits_app, skipn_app, to_bits_length.
  rewrite skipn_all2 by (rewrite to_bits_length; lia).
  replace (m - m)%nat with 0%nat by lia. reflexivity.
Qed.

Lemma firstn_to_bits m n x : (m <= n)%nat ->
  firstn m (to_bits n x) = to_bits m (x / 2 ^ Z.of_nat (n - m)).
Proof.
  intros H. replace n with (m + (n - m))%nat at 1 by lia.
  rewrite to_bits_app, firstn_app, to_bits_length.
  rewrite firstn_all2 by (rewrite to_bits_length; lia).
  replace (m - m)%nat with 0%nat by lia. cbn [firstn]. now rewrite app_nil_r.
Qed.

Lemma byte_string_bits_app a b :
  byte_string_bits (a ++ b) = byte_string_bits a ++ byte_string_bits b.
Proof. apply flat_map_app. Qed.

Lemma byte_string_bits_length l : length (byte_string_bits l) = (8 * length l)%nat.
Proof.
  induction l; [reflexivity|]. cbn [byte_string_bits flat_map].
  rewrite app_length, to_bits_length. fold (byte_string_bits l). rewrite IHl. simpl; lia.
Qed.

Lemma shiftl_mul x n : 0 <= n -> Z.shiftl x n = x * 2 ^ n.
Proof. intros. now apply Z.shiftl_mul_pow2. Qed.
Lemma shiftr_div x n : 0 <= n -> Z.shiftr x n = x / 2 ^ n.
Proof. intros. now apply Z.shiftr_div_pow2. Qed.

(** [(x << m) mod 2^n] keeps the low bits. *)
Lemma shl_mod x m n : 0 <= m <= n -> (x * 2 ^ m) mod 2 ^ n = (x mod 2 ^ (n - m)) * 2 ^ m.
Proof.
  intros. replace n with ((n - m) + m) at 1 by lia.
  rewrite Z.pow_add_r by lia.
  rewrite Z.mul_mod_distr_r by (apply Z.pow_nonzero; lia). reflexivity.
Qed.

(** Shifting [m] new bits into an [n]-bit register. *)
Lemma shift_in n m b v : (m <= n)%nat -> 0 <= v < 2 ^ Z.of_nat m ->
  to_bits n ((b * 2 ^ Z.of_nat m) mod 2 ^ Z.of_nat n + v) =
  skipn m (to_bits n b ++ to_bits m v).
Proof.
  intros Hm Hv. rewrite skipn_app, to_bits_length.
  replace (m - n)%nat with 0%nat by lia. cbn [skipn].
  rewrite skipn_to_bits by assumption.
  apply of_bits_inj.
  - rewrite app_length, !to_bits_length. lia.
  - rewrite of_bits_app, !of_bits_to_bits, to_bits_length.
    rewrite (Z.mod_small v) by assumption.
    rewrite shl_mod by lia.
    replace (Z.of_nat n - Z.of_nat m) with (Z.of_nat (n - m)) by lia.
    apply Z.mod_small.
    assert (0 <= b mod 2 ^ Z.of_nat (n - m) < 2 ^ Z.of_nat (n - m))
      by (apply Z.mod_pos_bound, Z.pow_pos_nonneg; lia).
    assert (2 ^ Z.of_nat n = 2 ^ Z.of_nat (n - m) * 2 ^ Z.of_nat m)
      by (rewrite <- Z.pow_add_r by lia; f_equal; lia).
    rewrite H0. nia.
Qed.
