(** Proofs about the checksum model. *)
From Verif Require Import Go GoLemmas M_Crc S_Crc.

Fixpoint iter (n : nat) (f : Z -> Z) (x : Z) : Z :=
  match n with O => x | S n' => iter n' f (f x) end.

(** ** The shift register step *)

Lemma crc_shift_lin a b : crc_shift (Z.lxor a b) = Z.lxor (crc_shift a) (crc_shift b).
Proof.
  unfold crc_shift. rewrite Z.lxor_spec, Z.shiftr_lxor.
  destruct (Z.testbit a 0), (Z.testbit b 0); simpl;
    apply Z.bits_inj'; intros n Hn; rewrite !Z.lxor_spec;
    repeat match goal with |- context[Z.testbit ?x n] => generalize (Z.testbit x n) end;
    intros; repeat match goal with b : bool |- _ => destruct b end; reflexivity.
Qed.

Lemma crc_shift_even w : crc_shift (2 * w) = w.
Proof.
  unfold crc_shift. rewrite Z.testbit_even_0. 
  rewrite Z.shiftr_div_pow2 by lia. change (2^1) with 2.
  rewrite Z.mul_comm. now rewrite Z.div_mul.
Qed.

Lemma crc_shift_range s : 0 <= s < 2^16 -> 0 <= crc_shift s < 2^16.
Proof.
  intros H. unfold crc_shift.
  assert (H1 : 0 <= Z.shiftr s 1 < 2^15).
  { rewrite Z.shiftr_div_pow2 by lia. change (2^1) with 2.
    split; [apply Z.div_pos; lia|apply Z.div_lt_upper_bound; lia]. }
  destruct (Z.testbit s 0); [|lia].
  assert (H0 : 0 <= Z.lxor (Z.shiftr s 1) 40961) by (apply Z.lxor_nonneg; lia).
  split; [assumption|].
  destruct (Z.eq_dec (Z.lxor (Z.shiftr s 1) 40961) 0) as [E|E]; [rewrite E; lia|].
  apply Z.log2_lt_pow2; [lia|].
  eapply Z.le_lt_trans; [apply Z.log2_lxor; lia|].
  apply Z.max_lub_lt; [|reflexivity].
  destruct (Z.eq_dec (Z.shiftr s 1) 0) as [E2|E2]; [rewrite E2; reflexivity|].
  apply Z.log2_lt_pow2; lia.
Qed.

Lemma testbit_high s n : 0 <= s < 2^16 -> 16 <= n -> Z.testbit s n = false.
Proof.
  intros H Hn. destruct (Z.eq_dec s 0) as [->|E]; [apply Z.bits_0|].
  apply Z.bits_above_log2; [lia|].
  apply Z.lt_le_trans with 16; [|lia]. apply Z.log2_lt_pow2; lia.
Qed.

Lemma crc_shift_inj_0 s : 0 <= s < 2^16 -> crc_shift s = 0 -> s = 0.
Proof.
  intros H E. unfold crc_shift in E.
  destruct (Z.testbit s 0) eqn:B.
  - exfalso. assert (T : Z.testbit (Z.lxor (Z.shiftr s 1) 40961) 15 = true).
    { rewrite Z.lxor_spec, Z.shiftr_spec by lia. rewrite testbit_high by lia. reflexivity. }
    rewrite E in T. discriminate T.
  - apply Z.bits_inj'. intros n Hn. rewrite Z.bits_0.
    destruct (Z.eq_dec n 0) as [->|N]; [assumption|].
    assert (T : Z.testbit (Z.shiftr s 1) (n - 1) = Z.testbit s n).
    { rewrite Z.shiftr_spec by lia. f_equal; lia. }
    rewrite E, Z.bits_0 in T. auto.
Qed.

Lemma iter_lin n a b : iter n crc_shift (Z.lxor a b) =
  Z.lxor (iter n crc_shift a) (iter n crc_shift b).
Proof. revert a b; induction n; intros; simpl; auto. now rewrite crc_shift_lin, IHn. Qed.

Lemma iter_range n s : 0 <= s < 2^16 -> 0 <= iter n crc_shift s < 2^16.
Proof. revert s; induction n; intros; simpl; auto using crc_shift_range. Qed.

Lemma iter_inj_0 n s : 0 <= s < 2^16 -> iter n crc_shift s = 0 -> s = 0.
Proof.
  revert s; induction n; simpl; intros; auto.
  apply crc_shift_inj_0; auto. apply IHn; auto using crc_shift_range.
Qed.

Lemma iter_pow2 n w : iter n crc_shift (2 ^ Z.of_nat n * w) = w.
Proof.
  revert w; induction n; intros.
  - simpl. change (2 ^ Z.of_nat 0) with 1. lia.
  - cbn [iter]. replace (2 ^ Z.of_nat (S n) * w) with (2 * (2 ^ Z.of_nat n * w)).
    + now rewrite crc_shift_even.
    + rewrite Nat2Z.inj_succ, Z.pow_succ_r by lia. ring.
Qed.

Lemma iter_add n m f x : iter (n + m) f x = iter m f (iter n f x).
Proof. revert x; induction n; intros; simpl; auto. Qed.

(** ** The bit-serial form *)

Definition crc_bit (s : Z) (b : bool) : Z := crc_shift (Z.lxor s (Z.b2z b)).
Definition crc_bits (s : Z) (bs : list bool) : Z := fold_left crc_bit bs s.

Lemma b2z_range b : 0 <= Z.b2z b < 2^16.
Proof. destruct b; simpl; lia. Qed.

Lemma lxor_range16 a b : 0 <= a < 2^16 -> 0 <= b < 2^16 -> 0 <= Z.lxor a b < 2^16.
Proof.
  intros Ha Hb.
  assert (H0 : 0 <= Z.lxor a b) by (apply Z.lxor_nonneg; lia).
  split; auto.
  destruct (Z.eq_dec (Z.lxor a b) 0) as [E|E]; [rewrite E; lia|].
  apply Z.log2_lt_pow2; [lia|].
  eapply Z.le_lt_trans; [apply Z.log2_lxor; lia|].
  apply Z.max_lub_lt.
  - destruct (Z.eq_dec a 0) as [->|]; [reflexivity|apply Z.log2_lt_pow2; lia].
  - destruct (Z.eq_dec b 0) as [->|]; [reflexivity|apply Z.log2_lt_pow2; lia].
Qed.

Lemma crc_bit_range s b : 0 <= s < 2^16 -> 0 <= crc_bit s b < 2^16.
Proof. intros. apply crc_shift_range, lxor_range16; auto using b2z_range. Qed.

Lemma crc_bits_range bs : forall s, 0 <= s < 2^16 -> 0 <= crc_bits s bs < 2^16.
Proof.
  induction bs; simpl; intros; auto. apply IHbs. now apply crc_bit_range.
Qed.

(** The value of a list of bits, first bit least significant. *)
Fixpoint bits_val (bs : list bool) : Z :=
  match bs with [] => 0 | b :: r => Z.b2z b + 2 * bits_val r end.

Lemma b2z_xor_even b w : Z.lxor (Z.b2z b) (2 * w) = Z.b2z b + 2 * w.
Proof.
  apply Z.bits_inj'. intros n Hn. rewrite Z.lxor_spec.
  replace (Z.b2z b + 2 * w) with (2 * w + Z.b2z b) by lia.
  destruct (Z.eq_dec n 0) as [->|N].
  - rewrite Z.testbit_0_r, Z.testbit_even_0. destruct b; reflexivity.
  - replace n with (Z.succ (n - 1)) by lia.
    rewrite Z.testbit_succ_r by lia. rewrite Z.testbit_even_succ by lia.
    assert (Z.testbit (Z.b2z b) (Z.succ (n - 1)) = false).
    { destruct b; simpl; [|apply Z.bits_0]. change 1 with (2^0). apply Z.pow2_bits_false. lia. }
    rewrite H. now destruct (Z.testbit w (n - 1)).
Qed.

Lemma crc_bits_iter bs : forall s,
  crc_bits s bs = iter (length bs) crc_shift (Z.lxor s (bits_val bs)).
Proof.
  induction bs as [|b bs IH]; intros s; simpl.
  - now rewrite Z.lxor_0_r.
  - rewrite IH. f_equal. unfold crc_bit.
    rewrite <- b2z_xor_even, <- Z.lxor_assoc, (crc_shift_lin (Z.lxor s (Z.b2z b))).
    now rewrite crc_shift_even.
Qed.

(** ** The table *)

Lemma crctable_ok i : 0 <= i < 256 -> at_ crctable i = iter 8 crc_shift i.
Proof.
  intros H.
  assert (A : forallb (fun k => at_ crctable (Z.of_nat k) =? iter 8 crc_shift (Z.of_nat k))
                (seq 0 256) = true) by (vm_compute; reflexivity).
  rewrite forallb_forall in A.
  specialize (A (Z.to_nat i)). rewrite in_seq in A.
  rewrite Z2Nat.id in A by lia. apply Z.eqb_eq, A. lia.
Qed.

Lemma make_crc_table_eq : make_crc_table = Ok crctable.
Proof. vm_compute. reflexivity. Qed.

Lemma split8 x : 0 <= x -> x = Z.lxor (Z.land x 255) (2 ^ 8 * Z.shiftr x 8).
Proof.
  intros Hx. apply Z.bits_inj'. intros n Hn.
  rewrite Z.lxor_spec, Z.land_spec.
  rewrite Z.mul_comm, <- Z.shiftl_mul_pow2 by lia.
  change 255 with (Z.ones 8).
  destruct (Z.ltb_spec n 8).
  - rewrite Z.ones_spec_low by lia. rewrite Z.shiftl_spec_low by lia.
    now rewrite andb_true_r, xorb_false_r.
  - rewrite Z.ones_spec_high by lia. rewrite Z.shiftl_spec_high by lia.
    rewrite Z.shiftr_spec by lia. rewrite andb_false_r, xorb_false_l. f_equal; lia.
Qed.

Lemma shiftr8_byte c : 0 <= c < 256 -> Z.shiftr c 8 = 0.
Proof. intros. rewrite Z.shiftr_div_pow2 by lia. apply Z.div_small. change (2^8) with 256. lia. Qed.

Lemma updateCrc_iter crc c : 0 <= crc < 2^16 -> 0 <= c < 256 ->
  updateCrc crc c = iter 8 crc_shift (Z.lxor crc c).
Proof.
  intros H Hc. unfold updateCrc.
  set (x := Z.lxor crc c).
  assert (Hx : 0 <= x < 2^16) by (apply lxor_range16; lia).
  assert (L : 0 <= Z.land x 255 < 256).
  { change 255 with (Z.ones 8). rewrite Z.land_ones by lia. apply Z.mod_pos_bound. reflexivity. }
  rewrite crctable_ok by assumption.
  rewrite (split8 x) at 2 by lia. rewrite iter_lin.
  pose proof (iter_pow2 8 (Z.shiftr x 8)) as I8. change (Z.of_nat 8) with 8 in I8. rewrite I8.
  f_equal. unfold x. rewrite Z.shiftr_lxor, (shiftr8_byte c) by assumption.
  now rewrite Z.lxor_0_r.
Qed.

Lemma bits_val_byte c : 0 <= c < 256 -> bits_val (byte_bits c) = c.
Proof.
  intros H.
  assert (A : forallb (fun k => bits_val (byte_bits (Z.of_nat k)) =? Z.of_nat k)
                (seq 0 256) = true) by (vm_compute; reflexivity).
  rewrite forallb_forall in A. specialize (A (Z.to_nat c)). rewrite in_seq in A.
  rewrite Z2Nat.id in A by lia. apply Z.eqb_eq, A. lia.
Qed.

Lemma updateCrc_bits crc c : 0 <= crc < 2^16 -> 0 <= c < 256 ->
  updateCrc crc c = crc_bits crc (byte_bits c).
Proof.
  intros. rewrite updateCrc_iter by assumption.
  rewrite crc_bits_iter, bits_val_byte by assumption. reflexivity.
Qed.

Lemma crc_bits_app s a b : crc_bits s (a ++ b) = crc_bits (crc_bits s a) b.
Proof. apply fold_left_app. Qed.

Lemma calcCrc_bits p : forall crc, 0 <= crc < 2^16 -> bytes p ->
  calcCrc crc p = crc_bits crc (msg_bits p).
Proof.
  induction p as [|c p IH]; intros crc H Hp; [reflexivity|].
  inversion Hp; subst. change (calcCrc crc (c :: p)) with (calcCrc (updateCrc crc c) p).
  change (msg_bits (c :: p)) with (byte_bits c ++ msg_bits p).
  rewrite crc_bits_app. rewrite updateCrc_bits by assumption.
  apply IH; [now apply crc_bits_range|assumption].
Qed.

Lemma calcCrc_range p crc : 0 <= crc < 2^16 -> bytes p -> 0 <= calcCrc crc p < 2^16.
Proof. intros. rewrite calcCrc_bits by assumption. now apply crc_bits_range. Qed.

Lemma calcCrc_app crc a b : calcCrc crc (a ++ b) = calcCrc (calcCrc crc a) b.
Proof. apply fold_left_app. Qed.

Lemma calcCrc_concat chunks : forall crc,
  fold_left calcCrc chunks crc = calcCrc crc (concat chunks).
Proof.
  induction chunks; intros; simpl; auto. now rewrite IHchunks, calcCrc_app.
Qed.

(** ** Agreement with the polynomial definition *)

Lemma bits_val_testbit bs : forall n, 0 <= n ->
  Z.testbit (bits_val bs) n = nth (Z.to_nat n) bs false.
Proof.
  induction bs as [|b bs IH]; intros n Hn; cbn [bits_val].
  - rewrite Z.bits_0. now destruct (Z.to_nat n).
  - rewrite Z.add_comm. destruct (Z.eq_dec n 0) as [->|N].
    + rewrite Z.testbit_0_r. reflexivity.
    + replace n with (Z.succ (n - 1)) at 1 by lia. rewrite Z.testbit_succ_r by lia.
      rewrite IH by lia. replace (Z.to_nat n) with (S (Z.to_nat (n - 1))) by lia. reflexivity.
Qed.

Lemma msg_poly_snoc bs b : msg_poly (bs ++ [b]) = 2 * msg_poly bs + Z.b2z b.
Proof. unfold msg_poly. now rewrite fold_left_app. Qed.

Lemma msg_poly_val bs : msg_poly bs = bits_val (rev bs).
Proof.
  induction bs as [|b bs IH] using rev_ind; [reflexivity|].
  rewrite msg_poly_snoc, rev_app_distr. cbn [rev app bits_val]. rewrite IH. lia.
Qed.

Definition ix16 : list Z := [0; 1; 2; 3; 4; 5; 6; 7; 8; 9; 10; 11; 12; 13; 14; 15].

Lemma reflect16_poly r : reflect16 r = msg_poly (map (Z.testbit r) ix16).
Proof.
  unfold reflect16, msg_poly. fold ix16.
  generalize 0 as z. induction ix16 as [|i l IH]; intros z; [reflexivity|].
  cbn [map fold_left]. apply IH.
Qed.

Lemma case16 n : 0 <= n < 16 -> In n ix16.
Proof. intros. unfold ix16. simpl. lia. Qed.

Lemma reflect16_spec r n : 0 <= n ->
  Z.testbit (reflect16 r) n = if n <? 16 then Z.testbit r (15 - n) else false.
Proof.
  intros Hn. rewrite reflect16_poly, msg_poly_val, bits_val_testbit by assumption.
  destruct (Z.ltb_spec n 16).
  - assert (C := case16 n (conj Hn H)). unfold ix16 in C. cbn [In] in C.
    repeat (destruct C as [<-|C]; [reflexivity|]). contradiction.
  - apply nth_overflow. rewrite rev_length, map_length. change (length ix16) with 16%nat. lia.
Qed.

Lemma lxor_cancel a b c : Z.lxor a c = Z.lxor b c -> a = b.
Proof.
  intros H. rewrite <- (Z.lxor_0_r a), <- (Z.lxor_nilpotent c), <- Z.lxor_assoc, H.
  now rewrite Z.lxor_assoc, Z.lxor_nilpotent, Z.lxor_0_r.
Qed.

Lemma testbit_b2z b n : 0 < n -> Z.testbit (Z.b2z b) n = false.
Proof.
  intros. destruct b; simpl; [|apply Z.bits_0]. change 1 with (2^0).
  apply Z.pow2_bits_false. lia.
Qed.

Lemma reflect_step s b : 0 <= s < 2^16 ->
  reflect16 (crc_bit s b) =
  Z.lxor (Z.lxor (2 * reflect16 s) (Z.b2z b * 2 ^ 16))
         (if xorb (Z.testbit s 0) b then G16 else 0).
Proof.
  intros Hs. apply Z.bits_inj'. intros n Hn.
  rewrite reflect16_spec by assumption.
  rewrite !Z.lxor_spec.
  assert (B : Z.testbit (Z.b2z b * 2 ^ 16) n = if n =? 16 then b else false).
  { rewrite <- Z.shiftl_mul_pow2 by lia. rewrite Z.shiftl_spec by lia.
    destruct (Z.eqb_spec n 16) as [->|N].
    - change (16 - 16) with 0. destruct b; reflexivity.
    - destruct (Z.ltb_spec n 16); [apply Z.testbit_neg_r; lia|]. apply testbit_b2z. lia. }
  rewrite B.
  assert (R : Z.testbit (2 * reflect16 s) n =
     if n =? 0 then false else if n <? 17 then Z.testbit s (16 - n) else false).
  { destruct (Z.eqb_spec n 0) as [->|N]; [apply Z.testbit_even_0|].
    replace n with (Z.succ (n - 1)) at 1 by lia. rewrite Z.testbit_even_succ by lia.
    rewrite reflect16_spec by lia.
    destruct (Z.ltb_spec (n - 1) 16), (Z.ltb_spec n 17); try lia; auto.
    f_equal; lia. }
  rewrite R.
  assert (C : forall k, 0 <= k -> Z.testbit (crc_bit s b) k =
     xorb (Z.testbit s (k + 1))
          (if xorb (Z.testbit s 0) b then Z.testbit 40961 k else false)).
  { intros k Hk. unfold crc_bit, crc_shift.
    rewrite Z.lxor_spec. replace (Z.testbit (Z.b2z b) 0) with b by (destruct b; reflexivity).
    destruct (xorb (Z.testbit s 0) b).
    - rewrite Z.lxor_spec, Z.shiftr_spec, Z.lxor_spec by lia.
      rewrite testbit_b2z by lia. now rewrite xorb_false_r.
    - rewrite Z.shiftr_spec, Z.lxor_spec by lia.
      rewrite testbit_b2z by lia. now rewrite !xorb_false_r. }
  destruct (Z.ltb_spec n 16).
  - rewrite C by lia. replace (15 - n + 1) with (16 - n) by lia.
    assert (K := case16 n (conj Hn H)). unfold ix16 in K. cbn [In] in K.
    repeat (destruct K as [<-|K]; [
      destruct (xorb (Z.testbit s 0) b);
      repeat match goal with |- context[Z.testbit s ?k] =>
        let e := eval vm_compute in k in progress change k with e end;
      [ try rewrite (testbit_high s 16) by lia | try rewrite (testbit_high s 16) by lia];
      repeat match goal with |- context[Z.testbit s ?k] => destruct (Z.testbit s k) end;
      reflexivity |]); contradiction.
  - destruct (Z.eq_dec n 16) as [->|N].
    + change (16 =? 0) with false. change (16 =? 16) with true. change (16 <? 17) with true.
      cbv iota. change (16 - 16) with 0.
      destruct (Z.testbit s 0), b; reflexivity.
    + destruct (Z.eqb_spec n 0); [lia|]. destruct (Z.ltb_spec n 17); [lia|].
      destruct (Z.eqb_spec n 16); [lia|].
      assert (HG : Z.testbit G16 n = false).
      { apply Z.bits_above_log2; [vm_compute; discriminate|].
        change (Z.log2 G16) with 16. lia. }
      destruct (xorb (Z.testbit s 0) b); [rewrite HG|rewrite Z.bits_0]; reflexivity.
Qed.

Lemma pmul_double q : 0 <= q -> pmul (2 * q) G16 = 2 * pmul q G16.
Proof. intros. destruct q; try lia; reflexivity. Qed.
Lemma pmul_double1 q : 0 <= q -> pmul (2 * q + 1) G16 = Z.lxor (2 * pmul q G16) G16.
Proof. intros. destruct q; try lia; reflexivity. Qed.

Lemma double_lxor a b : 2 * Z.lxor a b = Z.lxor (2 * a) (2 * b).
Proof.
  rewrite (Z.mul_comm 2 (Z.lxor a b)), (Z.mul_comm 2 a), (Z.mul_comm 2 b).
  change 2 with (2^1). rewrite <- !Z.shiftl_mul_pow2 by lia. apply Z.shiftl_lxor.
Qed.

Lemma crc_bits_poly bs :
  exists q, 0 <= q /\
    Z.lxor (msg_poly bs * 2^16) (reflect16 (crc_bits 0 bs)) = pmul q G16.
Proof.
  induction bs as [|b bs IH] using rev_ind.
  - exists 0. split; [lia|reflexivity].
  - destruct IH as [q [Hq E]].
    rewrite crc_bits_app. cbn [crc_bits fold_left]. fold (crc_bits 0 bs).
    set (s := crc_bits 0 bs) in *.
    assert (Hs : 0 <= s < 2^16) by (apply crc_bits_range; lia).
    rewrite reflect_step by assumption. rewrite msg_poly_snoc.
    set (f := xorb (Z.testbit s 0) b).
    exists (2 * q + Z.b2z f). split; [destruct f; simpl; lia|].
    assert (M : (2 * msg_poly bs + Z.b2z b) * 2 ^ 16 =
                Z.lxor (2 * (msg_poly bs * 2^16)) (Z.b2z b * 2 ^ 16)).
    { rewrite Z.mul_add_distr_r. rewrite Z.add_comm.
      rewrite <- (b2z_xor_even b (msg_poly bs)) at 1 || idtac.
      replace (Z.b2z b * 2 ^ 16 + 2 * msg_poly bs * 2 ^ 16)
        with ((Z.b2z b + 2 * msg_poly bs) * 2 ^ 16) by ring.
      rewrite <- b2z_xor_even.
      rewrite <- !Z.shiftl_mul_pow2 by lia. rewrite Z.shiftl_lxor.
      rewrite Z.lxor_comm. f_equal. }
    rewrite M.
    assert (X : pmul (2 * q + Z.b2z f) G16 = Z.lxor (2 * pmul q G16) (if f then G16 else 0)).
    { destruct f; simpl Z.b2z.
      - apply pmul_double1; assumption.
      - rewrite Z.add_0_r, Z.lxor_0_r. apply pmul_double; assumption. }
    rewrite X, <- E, double_lxor.
    generalize (2 * (msg_poly bs * 2 ^ 16)) (Z.b2z b * 2 ^ 16) (2 * reflect16 s) (if f then G16 else 0).
    intros x y z t. apply Z.bits_inj'. intros n _. rewrite !Z.lxor_spec.
    destruct (Z.testbit x n), (Z.testbit y n), (Z.testbit z n), (Z.testbit t n); reflexivity.
Qed.

Lemma calcCrc_is_crc16 p : bytes p -> is_crc16 p (calcCrc 0 p).
Proof.
  intros H. rewrite calcCrc_bits by (auto; lia). split.
  - apply crc_bits_range; lia.
  - apply crc_bits_poly.
Qed.

(** The definition determines the value: a nonzero multiple of G has degree at
    least 16. *)
Lemma pmul_log2 q : 0 < q -> Z.log2 (pmul q G16) = Z.log2 q + 16 /\ 0 < pmul q G16.
Proof.
  intros Hq. destruct q as [|p|p]; try lia. clear Hq. cbn [pmul].
  induction p as [p IH|p IH|].
  - destruct IH as [L P0]. cbn [pmul_pos].
    set (m := pmul_pos p G16) in *.
    assert (L2 : Z.log2 (2 * m) = Z.log2 (Z.pos p) + 17) by (rewrite Z.log2_double by lia; lia).
    assert (LG : Z.log2 G16 = 16) by reflexivity.
    assert (Hlp := Z.log2_nonneg (Z.pos p)).
    assert (T : Z.testbit (Z.lxor (2 * m) G16) (Z.log2 (Z.pos p) + 17) = true).
    { assert (BG : Z.testbit G16 (Z.log2 (Z.pos p) + 17) = false).
      { apply Z.bits_above_log2; [vm_compute; discriminate|rewrite LG; lia]. }
      rewrite Z.lxor_spec, BG, <- L2. rewrite Z.bit_log2 by lia. reflexivity. }
    assert (NN : 0 <= Z.lxor (2 * m) G16) by (apply Z.lxor_nonneg; unfold G16; lia).
    assert (NZ : Z.lxor (2 * m) G16 <> 0) by (intro E; rewrite E, Z.bits_0 in T; discriminate).
    split; [|lia].
    replace (Z.log2 (Z.pos p~1)) with (Z.log2 (Z.pos p) + 1)
      by (change (Z.pos p~1) with (2 * Z.pos p + 1); rewrite Z.log2_succ_double by lia; lia).
    apply Z.le_antisymm.
    + eapply Z.le_trans; [apply Z.log2_lxor; unfold G16; lia|]. apply Z.max_lub; lia.
    + destruct (Z_lt_le_dec (Z.log2 (Z.lxor (2 * m) G16)) (Z.log2 (Z.pos p) + 17)); [|lia].
      rewrite Z.bits_above_log2 in T by lia. discriminate.
  - destruct IH as [L P0]. cbn [pmul_pos]. split; [|lia].
    rewrite Z.log2_double by lia. rewrite L.
    change (Z.pos p~0) with (2 * Z.pos p). rewrite Z.log2_double by lia. lia.
  - split; reflexivity.
Qed.

Lemma pmul_lxor a b : 0 <= a -> 0 <= b ->
  exists q, 0 <= q /\ Z.lxor (pmul a G16) (pmul b G16) = pmul q G16.
Proof.
  intros Ha Hb. revert b Hb.
  assert (W : forall n a b, 0 <= a -> 0 <= b -> a < Z.of_nat n ->
     exists q, 0 <= q /\ Z.lxor (pmul a G16) (pmul b G16) = pmul q G16).
  { induction n; intros x y Hx Hy Hn; [lia|].
    destruct (Z.eq_dec x 0) as [->|Nx].
    { exists y. split; auto. }
    destruct (IHn (Z.div2 x) (Z.div2 y)) as [q [Hq E]].
    - apply Z.div2_nonneg; auto.
    - apply Z.div2_nonneg; auto.
    - pose proof (Z.div2_odd x). assert (0 <= Z.b2z (Z.odd x)) by (destruct (Z.odd x); simpl; lia). lia.
    - exists (2 * q + Z.b2z (xorb (Z.odd x) (Z.odd y))).
      split; [destruct (xorb _ _); simpl; lia|].
      assert (D : forall z, 0 <= z -> pmul z G16 =
         Z.lxor (2 * pmul (Z.div2 z) G16) (if Z.odd z then G16 else 0)).
      { intros z Hz. rewrite (Z.div2_odd z) at 1.
        assert (0 <= Z.div2 z) by (apply Z.div2_nonneg; auto).
        destruct (Z.odd z); simpl Z.b2z.
        - rewrite pmul_double1 by assumption. reflexivity.
        - rewrite Z.add_0_r, pmul_double by assumption. now rewrite Z.lxor_0_r. }
      rewrite (D x), (D y) by assumption.
      rewrite (D (2 * q + Z.b2z (xorb (Z.odd x) (Z.odd y))))
        by (destruct (xorb _ _); simpl; lia).
      replace (Z.div2 (2 * q + Z.b2z (xorb (Z.odd x) (Z.odd y)))) with q
        by (rewrite Z.div2_div, Z.add_comm, Z.add_b2z_double_div2; reflexivity).
      replace (Z.odd (2 * q + Z.b2z (xorb (Z.odd x) (Z.odd y)))) with (xorb (Z.odd x) (Z.odd y)).
      2:{ rewrite Z.odd_add, Z.odd_mul. destruct (xorb (Z.odd x) (Z.odd y)); reflexivity. }
      rewrite <- E, double_lxor.
      apply Z.bits_inj'. intros k _.
      destruct (Z.odd x), (Z.odd y); cbn [xorb]; rewrite !Z.lxor_spec, ?Z.bits_0;
      repeat match goal with |- context[Z.testbit ?u k] => destruct (Z.testbit u k) end; reflexivity. }
  intros b Hb. apply (W (S (Z.to_nat a))); lia.
Qed.

Lemma reflect16_inv c : 0 <= c < 2^16 -> reflect16 (reflect16 c) = c.
Proof.
  intros H. apply Z.bits_inj'. intros n Hn. rewrite reflect16_spec by lia.
  destruct (Z.ltb_spec n 16).
  - rewrite reflect16_spec by lia. destruct (Z.ltb_spec (15 - n) 16); [|lia]. f_equal; lia.
  - rewrite testbit_high; auto.
Qed.

Lemma is_crc16_unique msg c d : is_crc16 msg c -> is_crc16 msg d -> c = d.
Proof.
  intros [Hc [q [Hq E]]] [Hd [r [Hr F]]].
  destruct (pmul_lxor q r Hq Hr) as [t [Ht X]].
  rewrite <- E, <- F in X.
  assert (Y : Z.lxor (reflect16 c) (reflect16 d) = pmul t G16).
  { rewrite <- X. apply Z.bits_inj'. intros k _. rewrite !Z.lxor_spec.
    repeat match goal with |- context[Z.testbit ?u k] => destruct (Z.testbit u k) end; reflexivity. }
  assert (R : forall x, 0 <= reflect16 x < 2^16).
  { intros x. rewrite reflect16_poly, msg_poly_val.
    assert (V : forall l, 0 <= bits_val l < 2 ^ Z.of_nat (length l)).
    { induction l as [|b l IH]; [cbn; lia|]. cbn [bits_val length].
      rewrite Nat2Z.inj_succ, Z.pow_succ_r by lia. destruct b; simpl Z.b2z; lia. }
    specialize (V (rev (map (Z.testbit x) ix16))).
    rewrite rev_length, map_length in V. exact V. }
  assert (Zt : t = 0).
  { destruct (Z.eq_dec t 0) as [|N]; auto. exfalso.
    destruct (pmul_log2 t) as [L P0]; [lia|].
    assert (B := lxor_range16 _ _ (R c) (R d)). rewrite Y in B.
    assert (Z.log2 (pmul t G16) < 16) by (apply Z.log2_lt_pow2; lia).
    pose proof (Z.log2_nonneg t). lia. }
  subst t. change (pmul 0 G16) with 0 in Y. apply Z.lxor_eq in Y.
  rewrite <- (reflect16_inv c), <- (reflect16_inv d), Y by assumption. reflexivity.
Qed.

(** ** Error detection *)

Lemma crc_bits_lin a : forall b s t, length a = length b ->
  Z.lxor (crc_bits s a) (crc_bits t b) =
  crc_bits (Z.lxor s t) (map (fun p => xorb (fst p) (snd p)) (combine a b)).
Proof.
  induction a as [|x a IH]; intros [|y b] s t L; try discriminate L; [reflexivity|].
  cbn [combine map crc_bits fold_left fst snd].
  change (fold_left crc_bit ?l ?z) with (crc_bits z l).
  rewrite IH by (simpl in L; lia). f_equal. unfold crc_bit.
  rewrite <- crc_shift_lin. f_equal.
  assert (Z.b2z (xorb x y) = Z.lxor (Z.b2z x) (Z.b2z y)) by (destruct x, y; reflexivity).
  rewrite H. apply Z.bits_inj'. intros k _. rewrite !Z.lxor_spec.
  repeat match goal with |- context[Z.testbit ?u k] => destruct (Z.testbit u k) end; reflexivity.
Qed.

Lemma crc_bits_zeros n s : crc_bits s (repeat false n) = iter n crc_shift s.
Proof.
  rewrite crc_bits_iter, repeat_length. f_equal.
  assert (bits_val (repeat false n) = 0) by (induction n; simpl; lia).
  rewrite H. apply Z.lxor_0_r.
Qed.

Lemma bits_val_range l : 0 <= bits_val l < 2 ^ Z.of_nat (length l).
Proof.
  induction l as [|b l IH]; [cbn; lia|]. cbn [bits_val length].
  rewrite Nat2Z.inj_succ, Z.pow_succ_r by lia. destruct b; simpl Z.b2z; lia.
Qed.

Lemma bits_val_0 l : bits_val l = 0 -> l = repeat false (length l).
Proof.
  induction l as [|b l IH]; cbn [bits_val length repeat]; intros H; auto.
  pose proof (bits_val_range l). destruct b; simpl Z.b2z in H; [lia|].
  f_equal. apply IH. lia.
Qed.

Lemma crc_bits_0_zeros i e : (forall k, (k < i)%nat -> nth k e false = false) ->
  crc_bits 0 e = crc_bits 0 (skipn i e).
Proof.
  revert e. induction i; intros e H; [reflexivity|].
  destruct e as [|b e]; [reflexivity|].
  assert (b = false) by (apply (H 0%nat); lia). subst b.
  cbn [skipn]. rewrite <- IHi.
  - reflexivity.
  - intros k Hk. apply (H (S k)). lia.
Qed.

Lemma zeros_nth (l : list bool) : (forall k, nth k l false = false) -> l = repeat false (length l).
Proof.
  induction l as [|b l IH]; intros H; simpl; auto.
  f_equal; [apply (H 0%nat)|]. apply IH. intros k. apply (H (S k)).
Qed.

(** A nonzero error pattern confined to 16 consecutive bits changes the CRC. *)
Lemma burst_nonzero e i :
  (exists k, nth k e false = true) ->
  (forall k, nth k e false = true -> (i <= k < i + 16)%nat) ->
  crc_bits 0 e <> 0.
Proof.
  intros [k0 Hk0] H E.
  assert (Z1 : forall k, (k < i)%nat -> nth k e false = false).
  { intros k Hk. destruct (nth k e false) eqn:B; auto. apply H in B. lia. }
  rewrite (crc_bits_0_zeros i) in E by assumption.
  set (e1 := skipn i e) in *.
  assert (N1 : forall k, nth k e1 false = nth (i + k) e false).
  { intros k. unfold e1. apply nth_skipn. }
  rewrite <- (firstn_skipn 16 e1) in E.
  rewrite crc_bits_app in E.
  assert (T : skipn 16 e1 = repeat false (length (skipn 16 e1))).
  { apply zeros_nth. intros k.
    rewrite nth_skipn, N1. destruct (nth (i + (16 + k)) e false) eqn:B; auto.
    apply H in B. lia. }
  rewrite T, crc_bits_zeros in E. clear T.
  apply iter_inj_0 in E; [|apply crc_bits_range; lia].
  rewrite crc_bits_iter in E. rewrite Z.lxor_0_l in E.
  pose proof (bits_val_range (firstn 16 e1)) as V.
  pose proof (firstn_le_length 16 e1) as FL.
  apply iter_inj_0 in E.
  2:{ split; [lia|]. eapply Z.lt_le_trans; [apply V|]. apply Z.pow_le_mono_r; lia. }
  apply bits_val_0 in E.
  assert (B := H _ Hk0).
  assert (nth (k0 - i) (firstn 16 e1) false = true).
  { rewrite <- (firstn_skipn 16 e1) in N1.
    specialize (N1 (k0 - i)%nat).
    replace (i + (k0 - i))%nat with k0 in N1 by lia. rewrite Hk0 in N1.
    destruct (Nat.ltb_spec (k0 - i) (length (firstn 16 e1))).
    - rewrite app_nth1 in N1 by assumption. assumption.
    - rewrite firstn_length in H0.
      assert (length e1 <= k0 - i)%nat by lia.
      rewrite nth_overflow in N1; [discriminate|]. rewrite firstn_skipn. lia. }
  rewrite E in H0. rewrite nth_repeat in H0. discriminate.
Qed.

Lemma nth_xor a : forall b k, length a = length b ->
  nth k (map (fun p : bool * bool => xorb (fst p) (snd p)) (combine a b)) false =
  xorb (nth k a false) (nth k b false).
Proof.
  induction a as [|x a IH]; intros [|y b] k L; try discriminate L.
  - destruct k; reflexivity.
  - destruct k; simpl; auto.
Qed.

Lemma msg_bits_length a : length (msg_bits a) = (8 * length a)%nat.
Proof. induction a; [reflexivity|]. cbn [msg_bits flat_map]. rewrite app_length.
  fold (msg_bits a0). rewrite IHa. cbn. lia. Qed.

Lemma nth_neq (a b : list bool) : length a = length b -> a <> b ->
  exists k, nth k a false <> nth k b false.
Proof.
  revert b. induction a as [|x a IH]; intros [|y b] L N; try discriminate L; [congruence|].
  destruct (Bool.bool_dec x y) as [->|D].
  - destruct (IH b) as [k K]; [simpl in L; lia|congruence|]. exists (S k). exact K.
  - exists 0%nat. exact D.
Qed.

Lemma calcCrc_burst crc a b : 0 <= crc < 2^16 -> bytes a -> bytes b -> burst16 a b ->
  calcCrc crc a <> calcCrc crc b.
Proof.
  intros Hc Ha Hb [L [N [i B]]] E.
  rewrite !calcCrc_bits in E by assumption.
  assert (LB : length (msg_bits a) = length (msg_bits b)) by (rewrite !msg_bits_length; lia).
  pose proof (crc_bits_lin (msg_bits a) (msg_bits b) crc crc LB) as X.
  rewrite E, !Z.lxor_nilpotent in X.
  symmetry in X. revert X. apply (burst_nonzero _ i).
  - destruct (nth_neq _ _ LB N) as [k K]. exists k. rewrite nth_xor by assumption.
    destruct (nth k (msg_bits a) false), (nth k (msg_bits b) false); auto; congruence.
  - intros k K. apply B. rewrite nth_xor in K by assumption.
    destruct (nth k (msg_bits a) false), (nth k (msg_bits b) false); discriminate || congruence.
Qed.

(** ** Odd numbers of errors *)

Definition parity16 (s : Z) : bool := fold_right xorb false (map (Z.testbit s) ix16).

Lemma parity16_lxor a b : parity16 (Z.lxor a b) = xorb (parity16 a) (parity16 b).
Proof.
  unfold parity16. induction ix16; simpl; [reflexivity|].
  rewrite IHl, Z.lxor_spec.
  destruct (Z.testbit a a0), (Z.testbit b a0), (fold_right xorb false (map (Z.testbit a) l)),
    (fold_right xorb false (map (Z.testbit b) l)); reflexivity.
Qed.

Lemma parity16_bit s b : 0 <= s < 2^16 ->
  parity16 (crc_bit s b) = xorb (parity16 s) b.
Proof.
  intros H. unfold crc_bit.
  assert (S1 : forall x, 0 <= x < 2^16 -> parity16 (crc_shift x) = parity16 x).
  { intros x Hx.
    assert (P : parity16 (Z.shiftr x 1) = xorb (Z.testbit x 0) (parity16 x)).
    { unfold parity16, ix16. cbn [map fold_right].
      rewrite !Z.shiftr_spec by lia.
      repeat match goal with |- context[Z.testbit x ?k] =>
        let e := eval vm_compute in k in progress change k with e end.
      rewrite (testbit_high x 16) by lia.
      rewrite <- (xorb_assoc (Z.testbit x 0) (Z.testbit x 0)), (xorb_nilpotent (Z.testbit x 0)), !xorb_false_l.
      reflexivity. }
    unfold crc_shift. destruct (Z.testbit x 0).
    - rewrite parity16_lxor, P. change (parity16 40961) with true.
      destruct (parity16 x); reflexivity.
    - rewrite P. destruct (parity16 x); reflexivity. }
  rewrite S1 by (apply lxor_range16; auto using b2z_range).
  rewrite parity16_lxor. f_equal. destruct b; reflexivity.
Qed.

Lemma parity16_bits bs : forall s, 0 <= s < 2^16 ->
  parity16 (crc_bits s bs) = fold_left xorb bs (parity16 s).
Proof.
  induction bs as [|b bs IH]; intros s H; [reflexivity|].
  cbn [crc_bits fold_left]. change (fold_left crc_bit bs ?z) with (crc_bits z bs).
  rewrite IH by (now apply crc_bit_range). now rewrite parity16_bit.
Qed.

Lemma fold_xorb bs : forall x, fold_left xorb bs x = xorb x (fold_left xorb bs false).
Proof.
  induction bs as [|b bs IH]; intros x; cbn [fold_left]; [now rewrite xorb_false_r|].
  rewrite IH, (IH (xorb false b)), xorb_false_l. apply xorb_assoc.
Qed.

Lemma distance_parity a : forall b, length a = length b ->
  Nat.odd (distance a b) = xorb (fold_left xorb a false) (fold_left xorb b false).
Proof.
  induction a as [|x a IH]; intros [|y b] L; try discriminate L; [reflexivity|].
  cbn [distance fold_left]. rewrite (fold_xorb a (xorb false x)), (fold_xorb b (xorb false y)).
  specialize (IH b ltac:(simpl in L; lia)).
  assert (O : Nat.odd ((if Bool.eqb x y then 0 else 1) + distance a b) =
              xorb (xorb x y) (Nat.odd (distance a b))).
  { destruct x, y; cbn [Bool.eqb xorb]; rewrite ?Nat.add_0_l; try (now destruct (Nat.odd _));
    rewrite Nat.add_1_l, Nat.odd_succ, <- Nat.negb_odd; now destruct (Nat.odd _). }
  rewrite O, IH. destruct x, y, (fold_left xorb a false), (fold_left xorb b false); reflexivity.
Qed.

Lemma calcCrc_odd crc a b : 0 <= crc < 2^16 -> bytes a -> bytes b -> length a = length b ->
  Nat.odd (distance (msg_bits a) (msg_bits b)) = true ->
  calcCrc crc a <> calcCrc crc b.
Proof.
  intros Hc Ha Hb L O E. rewrite !calcCrc_bits in E by assumption.
  apply (f_equal parity16) in E. rewrite !parity16_bits in E by assumption.
  rewrite (fold_xorb (msg_bits a)), (fold_xorb (msg_bits b)) in E.
  rewrite distance_parity in O by (rewrite !msg_bits_length; lia).
  destruct (parity16 crc), (fold_left xorb (msg_bits a) false),
    (fold_left xorb (msg_bits b) false); discriminate.
Qed.
