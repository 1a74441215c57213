(** Facts about token expansion. *)
From Verif Require Import Go GoLemmas S_Lz.

Lemma back_one out c : back (out ++ [c]) 1 = c.
Proof.
  unfold back. rewrite app_length. cbn [length]. destruct (Z.leb_spec 1 (Z.of_nat (length out + 1))); [|lia].
  replace (Z.to_nat (Z.of_nat (length out + 1) - 1)) with (length out) by lia.
  rewrite app_nth2 by lia. now rewrite Nat.sub_diag.
Qed.

Lemma back_snoc out c k : 1 <= k -> back (out ++ [c]) (k + 1) = back out k.
Proof.
  intros H. unfold back. rewrite app_length. cbn [length].
  destruct (Z.leb_spec (k + 1) (Z.of_nat (length out + 1))); destruct (Z.leb_spec k (Z.of_nat (length out))); try lia.
  - replace (Z.to_nat (Z.of_nat (length out + 1) - (k + 1))) with (Z.to_nat (Z.of_nat (length out) - k)) by lia.
    rewrite app_nth1 by lia. reflexivity.
Qed.

Lemma back_byte out k : bytes out -> is_byte (back out k).
Proof.
  intros H. unfold back. destruct (Z.leb_spec k (Z.of_nat (length out))); [|unfold is_byte; lia].
  destruct (Nat.lt_ge_cases (Z.to_nat (Z.of_nat (length out) - k)) (length out)) as [L|L].
  - unfold bytes in H. rewrite Forall_forall in H. apply H. now apply nth_In.
  - rewrite nth_overflow by lia. unfold is_byte; lia.
Qed.

Lemma bytes_snoc out c : bytes out -> is_byte c -> bytes (out ++ [c]).
Proof. intros. apply Forall_app. split; auto. Qed.

Lemma lz_copy_length n : forall dist out, length (lz_copy n dist out) = (length out + n)%nat.
Proof. induction n; intros; cbn [lz_copy]; [lia|]. rewrite IHn, app_length. cbn [length]. lia. Qed.

Lemma lz_copy_zlen n dist out : zlen (lz_copy n dist out) = zlen out + Z.of_nat n.
Proof. unfold zlen. rewrite lz_copy_length. lia. Qed.

Lemma lz_copy_snoc n : forall dist out, lz_copy (S n) dist out = lz_copy n dist out ++ [back (lz_copy n dist out) dist].
Proof.
  induction n; intros dist out; [reflexivity|].
  change (lz_copy (S (S n)) dist out) with (lz_copy (S n) dist (out ++ [back out dist])).
  rewrite IHn. reflexivity.
Qed.

Lemma lz_copy_bytes n : forall dist out, bytes out -> bytes (lz_copy n dist out).
Proof. induction n; intros; cbn [lz_copy]; auto. apply IHn. apply bytes_snoc; auto. now apply back_byte. Qed.

Lemma lz_expand_snoc ts t : lz_expand (ts ++ [t]) = lz_step (lz_expand ts) t.
Proof. unfold lz_expand. now rewrite fold_left_app. Qed.

(** A copy reproduces [len] further bytes of [body] when these equal the bytes
    [dist] before them. *)
Lemma lz_copy_prefix body dist n : forall q, 1 <= dist -> 0 <= q -> q + Z.of_nat n <= zlen body ->
  (forall i, 0 <= i < Z.of_nat n -> nth (Z.to_nat (q + i)) body 0 = back (take (q + i) body) dist) ->
  lz_copy n dist (take q body) = take (q + Z.of_nat n) body.
Proof.
  induction n; intros q Hd Hq Hl H.
  - cbn [lz_copy]. f_equal. lia.
  - cbn [lz_copy]. pose proof (H 0 ltac:(lia)) as H0. rewrite Z.add_0_r in H0. rewrite <- H0.
    assert (E : take q body ++ [nth (Z.to_nat q) body 0] = take (q + 1) body).
    { unfold take. replace (Z.to_nat (q + 1)) with (S (Z.to_nat q)) by lia.
      assert (L : (Z.to_nat q < length body)%nat) by (unfold zlen in Hl; lia).
      clear -L. revert L. generalize (Z.to_nat q). intros k. revert body. induction k; intros body L; destruct body; cbn [length] in L; try lia; [reflexivity|].
      cbn [firstn app nth]. f_equal. apply IHk. lia. }
    rewrite E, IHn; try lia.
    + f_equal. lia.
    + intros i Hi. replace (q + 1 + i) with (q + (i + 1)) by lia. apply H. lia.
Qed.

Lemma take_snoc q body : 0 <= q < zlen body -> take q body ++ [nth (Z.to_nat q) body 0] = take (q + 1) body.
Proof.
  intros H. unfold take. replace (Z.to_nat (q + 1)) with (S (Z.to_nat q)) by lia.
  assert (L : (Z.to_nat q < length body)%nat) by (unfold zlen in H; lia).
  clear -L. revert L. generalize (Z.to_nat q). intros k. revert body. induction k; intros body L; destruct body; cbn [length] in L; try lia; [reflexivity|].
  cbn [firstn app nth]. f_equal. apply IHk. lia.
Qed.

Lemma back_take body q dist : 1 <= dist -> 0 <= q <= zlen body ->
  back (take q body) dist = if q - dist <? 0 then 32 else nth (Z.to_nat (q - dist)) body 0.
Proof.
  intros Hd Hq. unfold back. fold (zlen (take q body)). rewrite zlen_take by lia.
  destruct (Z.leb_spec dist q); destruct (Z.ltb_spec (q - dist) 0); try lia; auto.
  rewrite (nth_indep _ 32 0) by (pose proof (zlen_take q body ltac:(lia)) as X; unfold zlen in X; lia).
  unfold take. rewrite <- (firstn_skipn (Z.to_nat q) body) at 2. rewrite app_nth1; [reflexivity|].
  rewrite firstn_length. unfold zlen in Hq. lia.
Qed.
