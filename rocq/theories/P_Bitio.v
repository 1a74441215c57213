(** Proofs about the bit reader and the bit writer. *)
From Verif Require Import Go GoLemmas S_Bits P_Bits M_Bitio.

(** Unfold the loops last when comparing terms. *)
Strategy 100 [putcode_loop fillbuf_loop].

(** ** Writer *)

(** The bytes written so far, in order. *)
Definition wbytes (w : wst) : list Z := rev (wout w).

(** [Wr w l]: the writer is well formed, has not overflowed, and the bits it was
    given are [l] (flushed bytes followed by the pending bits). *)
Record Wr (w : wst) (l : list bool) : Prop := {
  Wr_bc : 1 <= wbitcount w <= 8;
  Wr_ok : unpackable w = false;
  Wr_pend : exists P, Z.of_nat (length P) = 8 - wbitcount w /\
              wsub w = of_bits P * 2 ^ wbitcount w /\
              l = byte_string_bits (wbytes w) ++ P }.

(** Well-formedness that holds whether or not the output overflowed. *)
Record wwf (w : wst) : Prop := {
  wwf_bc : 1 <= wbitcount w <= 8;
  wwf_size : wcompsize w = zlen (wout w);
  wwf_le : 0 <= wcompsize w <= worigsize w;
  wwf_bytes : bytes (wout w) }.

Definition clean (n x : Z) : Prop := 0 <= x < 65536 /\ (2 ^ (16 - n) | x).

Lemma pow2_pos n : 0 <= n -> 0 < 2 ^ n.
Proof. intros. apply Z.pow_pos_nonneg; lia. Qed.

Lemma wwf_push w c : wwf w -> is_byte c -> wcompsize w < worigsize w ->
  wwf (WS 0 8 (wcompsize w + 1) (worigsize w) (c :: wout w) (unpackable w)).
Proof.
  intros [A B C D] Hc H. constructor; simpl; try lia.
  - rewrite zlen_cons. lia.
  - constructor; auto.
Qed.

(** Facts that hold for every width and every value. *)
Definition wrel (w w' : wst) : Prop :=
  worigsize w' = worigsize w /\
  (unpackable w = true -> unpackable w' = true) /\
  (unpackable w' = false -> exists k, wout w' = k ++ wout w).

Lemma wrel_refl w : wrel w w.
Proof. repeat split; auto. exists []. reflexivity. Qed.

Lemma wrel_trans a b c : wrel a b -> wrel b c -> wrel a c.
Proof.
  intros [A1 [A2 A3]] [B1 [B2 B3]]. repeat split; [congruence|auto|].
  intros H. destruct (B3 H) as [k K].
  destruct A3 as [j J].
  { destruct (unpackable b); auto. rewrite B2 in H by reflexivity. discriminate. }
  exists (k ++ j). rewrite K, J. now rewrite app_assoc.
Qed.

Lemma putcode_loop_total fuel : forall n x w, wwf w -> 0 <= n <= 255 ->
  n < 8 * Z.of_nat fuel + wbitcount w - 8 ->
  exists w', putcode_loop fuel n x w = Ok w' /\ wwf w' /\ wrel w w'.
Proof.
  induction fuel as [|f IH]; intros n x w W Hn Hf.
  { destruct W. lia. }
  cbn [putcode_loop]. pose proof (wwf_bc _ W) as Hb.
  destruct (Z.leb_spec (wbitcount w) n) as [L|L].
  - rewrite (u8_id (n - wbitcount w)) by lia.
    destruct (Z.ltb_spec (wcompsize w) (worigsize w)) as [S|S].
    + edestruct (IH (n - wbitcount w)) as [w' [E [W' R]]];
        [apply wwf_push; [exact W|apply u8_range|exact S]|lia| |].
      2:{ rewrite E. exists w'. split; [reflexivity|]. split; [exact W'|].
          eapply wrel_trans; [|exact R]. unfold wrel; simpl. repeat split; auto.
          intros. eexists [_]. reflexivity. }
      simpl. lia.
    + destruct W as [A B C D].
      destruct (IH (n - wbitcount w) (u16 (Z.shiftl x (wbitcount w)))
                 (WS 0 8 (wcompsize w) (worigsize w) (wout w) true)) as [w' [E [W' R]]].
      { constructor; simpl; auto; lia. }
      { lia. }
      { simpl; lia. }
      rewrite E; exists w'; split; [reflexivity|]; split; [exact W'|].
      destruct R as [R1 [R2 R3]]. simpl in *. repeat split; auto.
  - rewrite (u8_id (wbitcount w - n)) by lia.
    eexists. split; [reflexivity|]. destruct W as [A B C D]. split.
    + constructor; simpl; auto; lia.
    + repeat split; simpl; auto. intros. exists []. reflexivity.
Qed.

Lemma putcode_total n x w : wwf w -> 0 <= n <= 255 ->
  exists w', putcode n x w = Ok w' /\ wwf w' /\ wrel w w'.
Proof.
  intros W H. unfold putcode. apply putcode_loop_total; auto. pose proof (wwf_bc _ W). lia.
Qed.

Lemma putbits_total n x w : wwf w -> 0 <= n <= 255 ->
  exists w', putbits n x w = Ok w' /\ wwf w' /\ wrel w w'.
Proof. intros. unfold putbits. now apply putcode_total. Qed.

Lemma divide_div a b : 0 < a -> (a | b) -> b = (b / a) * a.
Proof. intros. rewrite Z.mul_comm. apply Z_div_exact_full_2; [lia|]. now apply Z.mod_divide; [lia|]. Qed.

(** Splitting the bits to be written at the byte boundary. *)
Lemma to_bits_split_shift n bc x : 0 <= x < 65536 -> 0 <= bc <= n -> n <= 16 ->
  to_bits (Z.to_nat n) (x / 2 ^ (16 - n)) =
  to_bits (Z.to_nat bc) (x / 2 ^ (16 - bc)) ++
  to_bits (Z.to_nat (n - bc)) (u16 (x * 2 ^ bc) / 2 ^ (16 - (n - bc))).
Proof.
  intros Hx Hb Hn.
  replace (Z.to_nat n) with (Z.to_nat bc + Z.to_nat (n - bc))%nat by lia.
  rewrite to_bits_app. f_equal.
  - f_equal. rewrite Z.div_div, <- Z.pow_add_r by (try apply Z.pow_nonzero; try apply pow2_pos; lia).
    f_equal. f_equal. lia.
  - apply to_bits_eq. rewrite Z2Nat.id by lia.
    unfold u16. change 65536 with (2 ^ 16). rewrite shl_mod by lia.
    replace (2 ^ (16 - (n - bc))) with (2 ^ (16 - n) * 2 ^ bc)
      by (rewrite <- Z.pow_add_r by lia; f_equal; lia).
    pose proof (pow2_pos bc) as P1.
    rewrite Z.div_mul_cancel_r by (try apply Z.pow_nonzero; lia).
    rewrite <- (Z.div_mod (x mod 2 ^ (16 - bc)) (2 ^ (16 - n))) at 1 || idtac.
    replace (2 ^ (16 - bc)) with (2 ^ (16 - n) * 2 ^ (n - bc))
      by (rewrite <- Z.pow_add_r by lia; f_equal; lia).
    rewrite Z.rem_mul_r by (try apply Z.pow_nonzero; try apply pow2_pos; lia).
    rewrite (Z.mul_comm (2 ^ (16 - n))), Z.div_add by (apply Z.pow_nonzero; lia).
    rewrite (Z.div_small (x mod _)) by (apply Z.mod_pos_bound, pow2_pos; lia).
    rewrite Z.add_0_l, Z.mod_mod by (apply Z.pow_nonzero; lia). reflexivity.
Qed.

Lemma clean_shift n bc x : clean n x -> 0 <= bc <= n -> n <= 16 ->
  clean (n - bc) (u16 (x * 2 ^ bc)).
Proof.
  intros [Hx [q Hq]] Hb Hn. split; [apply u16_range|].
  unfold u16. change 65536 with (2 ^ 16). rewrite shl_mod by lia.
  replace (2 ^ (16 - (n - bc))) with (2 ^ (16 - n) * 2 ^ bc)
    by (rewrite <- Z.pow_add_r by lia; f_equal; lia).
  apply Z.mul_divide_mono_r.
  replace (2 ^ (16 - bc)) with (2 ^ (16 - n) * 2 ^ (n - bc))
    by (rewrite <- Z.pow_add_r by lia; f_equal; lia).
  subst x. rewrite (Z.mul_comm q), Z.mul_mod_distr_l by (apply Z.pow_nonzero; lia).
  apply Z.divide_factor_l.
Qed.

Lemma div_range x bc : 0 <= x < 65536 -> 0 <= bc <= 16 -> 0 <= x / 2 ^ (16 - bc) < 2 ^ bc.
Proof.
  intros Hx Hb. pose proof (pow2_pos (16 - bc)).
  split; [apply Z.div_pos; lia|].
  apply Z.div_lt_upper_bound; [lia|]. rewrite <- Z.pow_add_r by lia.
  replace (16 - bc + bc) with 16 by lia. lia.
Qed.

Lemma Wr_sub_range w l : Wr w l -> 0 <= wsub w < 256 /\ (2 ^ wbitcount w | wsub w).
Proof.
  intros [A B [P [HP [HS _]]]]. rewrite HS. pose proof (of_bits_range P) as R. rewrite HP in R.
  pose proof (pow2_pos (wbitcount w)).
  assert (256 = 2 ^ (8 - wbitcount w) * 2 ^ wbitcount w)
    by (rewrite <- Z.pow_add_r by lia; replace (8 - wbitcount w + wbitcount w) with 8 by lia; reflexivity).
  split; [nia|apply Z.divide_factor_r].
Qed.

Lemma putcode_loop_bits fuel : forall n x w l, Wr w l -> 0 <= n <= 16 -> clean n x ->
  forall w', putcode_loop fuel n x w = Ok w' -> unpackable w' = false -> wwf w ->
  n < 8 * Z.of_nat fuel + wbitcount w - 8 ->
  Wr w' (l ++ to_bits (Z.to_nat n) (x / 2 ^ (16 - n))).
Proof.
  induction fuel as [|f IH]; intros n x w l W Hn Hc w' E U Hwf Hf.
  { discriminate E. }
  cbn [putcode_loop] in E. pose proof (Wr_bc _ _ W) as Hb.
  assert (Hx : 0 <= x < 65536) by (apply Hc).
  pose proof (div_range x (wbitcount w) Hx ltac:(lia)) as Hd.
  assert (Hd8 : x / 2 ^ (16 - wbitcount w) < 256).
  { eapply Z.lt_le_trans; [apply Hd|]. change 256 with (2 ^ 8). apply Z.pow_le_mono_r; lia. }
  destruct (Wr_sub_range _ _ W) as [Hs _].
  destruct (Wr_pend _ _ W) as [P [HP [HS HL]]].
  assert (HPn : (length P = Z.to_nat (8 - wbitcount w))%nat) by lia.
  pose proof (of_bits_range P) as RP. rewrite HP in RP.
  pose proof (pow2_pos (wbitcount w)) as Pb.
  assert (D256 : 256 = 2 ^ (8 - wbitcount w) * 2 ^ wbitcount w)
    by (rewrite <- Z.pow_add_r by lia; replace (8 - wbitcount w + wbitcount w) with 8 by lia; reflexivity).
  rewrite (u8_id (16 - wbitcount w)) in E by lia.
  rewrite shiftr_div in E by lia.
  rewrite (u8_id (x / _)) in E by lia.
  rewrite (u8_id (wsub w + _)) in E by nia.
  destruct (Z.leb_spec (wbitcount w) n) as [L|L].
  - rewrite (u8_id (n - _)) in E by lia. rewrite shiftl_mul in E by lia.
    destruct (Z.ltb_spec (wcompsize w) (worigsize w)) as [S|S].
    + assert (Hbyte : is_byte (wsub w + x / 2 ^ (16 - wbitcount w))) by (unfold is_byte; nia).
      rewrite (to_bits_split_shift n (wbitcount w) x) by lia.
      rewrite app_assoc.
      eapply IH; [| | |exact E|exact U| |].
      * constructor; simpl; [lia|apply (Wr_ok _ _ W)|].
        exists []. split; [reflexivity|]. split; [rewrite of_bits_nil; lia|].
        unfold wbytes. cbn [wout rev]. rewrite byte_string_bits_app, app_nil_r.
        rewrite HL, <- app_assoc. f_equal.
        unfold byte_string_bits. cbn [flat_map]. rewrite app_nil_r.
        apply of_bits_inj.
        { rewrite app_length, !to_bits_length. lia. }
        rewrite of_bits_app, !of_bits_to_bits, to_bits_length, Z2Nat.id by lia.
        change (2 ^ Z.of_nat 8) with 256. rewrite !Z.mod_small; try lia.
        unfold is_byte in Hbyte. lia.
      * lia.
      * apply clean_shift; auto; lia.
      * apply wwf_push; auto.
      * simpl. lia.
    + exfalso. pose proof (wwf_le _ Hwf).
      edestruct (putcode_loop_total f (n - wbitcount w) (u16 (x * 2 ^ wbitcount w))) as [w2 [E2 [_ [_ [R _]]]]].
      4:{ rewrite E in E2. injection E2 as <-. rewrite R in U by reflexivity. discriminate. }
      * destruct Hwf. constructor; simpl; auto; lia.
      * lia.
      * simpl; lia.
  - rewrite (u8_id (wbitcount w - n)) in E by lia. injection E as <-.
    assert (Hxd : x / 2 ^ (16 - wbitcount w) = x / 2 ^ (16 - n) * 2 ^ (wbitcount w - n)).
    { destruct Hc as [_ [q ->]]. pose proof (pow2_pos (16 - n)).
      rewrite Z.div_mul by lia.
      replace (2 ^ (16 - n)) with (2 ^ (wbitcount w - n) * 2 ^ (16 - wbitcount w))
        by (rewrite <- Z.pow_add_r by lia; f_equal; lia).
      rewrite Z.mul_assoc, Z.div_mul by (apply Z.pow_nonzero; lia). reflexivity. }
    constructor; simpl; [lia|exact U|].
    exists (P ++ to_bits (Z.to_nat n) (x / 2 ^ (16 - n))).
    split; [rewrite app_length, to_bits_length; lia|].
    split.
    + rewrite of_bits_app, of_bits_to_bits, to_bits_length, Z2Nat.id by lia.
      rewrite Z.mod_small by (apply div_range; lia).
      rewrite HS, Hxd. rewrite Z.mul_add_distr_r, <- Z.mul_assoc, <- Z.pow_add_r by lia.
      replace (n + (wbitcount w - n)) with (wbitcount w) by lia. reflexivity.
    + rewrite HL. unfold wbytes. simpl. now rewrite app_assoc.
Qed.

Lemma putcode_bits n x w l w' : wwf w -> Wr w l -> 0 <= n <= 16 -> clean n x ->
  putcode n x w = Ok w' -> unpackable w' = false ->
  Wr w' (l ++ to_bits (Z.to_nat n) (x / 2 ^ (16 - n))).
Proof.
  intros Hw W Hn C E U. unfold putcode in E.
  apply (putcode_loop_bits 40 n x w l W Hn C w' E U Hw). pose proof (wwf_bc _ Hw). lia.
Qed.

Lemma putbits_bits n x w l w' : wwf w -> Wr w l -> 0 <= n <= 16 ->
  putbits n x w = Ok w' -> unpackable w' = false ->
  Wr w' (l ++ to_bits (Z.to_nat n) x).
Proof.
  intros Hw W Hn E U. unfold putbits in E. rewrite (u8_id (16 - n)), shiftl_mul in E by lia.
  assert (C : clean n (u16 (x * 2 ^ (16 - n)))).
  { split; [apply u16_range|]. unfold u16. change 65536 with (2 ^ 16). rewrite shl_mod by lia.
    apply Z.divide_factor_r. }
  pose proof (putcode_bits _ _ _ _ _ Hw W Hn C E U) as R.
  replace (to_bits (Z.to_nat n) x) with (to_bits (Z.to_nat n) (u16 (x * 2 ^ (16 - n)) / 2 ^ (16 - n))); auto.
  unfold u16. change 65536 with (2 ^ 16). rewrite shl_mod by lia.
  rewrite Z.div_mul by (apply Z.pow_nonzero; lia).
  replace (16 - (16 - n)) with (Z.of_nat (Z.to_nat n)) by lia. now apply to_bits_mod.
Qed.

Lemma initPutbits_Wr o : 0 <= o -> wwf (initPutbits o) /\ Wr (initPutbits o) [].
Proof.
  intros. split; constructor; simpl; auto; try lia.
  - constructor.
  - exists []. repeat split. 
Qed.

(** ** Reader *)

Record rwf (r : rst) : Prop := {
  rwf_buf : 0 <= bitbuf r < 65536;
  rwf_sub : 0 <= subbitbuf r < 256;
  rwf_bc : 0 <= bitcount r <= 8;
  rwf_comp : 0 <= compsize r;
  rwf_bytes : bytes (infile r) }.

(** [rmove r r']: the reader only moved forward, by at most [compsize r] bytes. *)
Definition rmove (r r' : rst) : Prop :=
  0 <= compsize r' <= compsize r /\
  infile r' = drop (compsize r - compsize r') (infile r).

Lemma drop_0 l : drop 0 l = l.
Proof. reflexivity. Qed.

Lemma skipn_skipn {A} (n m : nat) (l : list A) : skipn n (skipn m l) = skipn (m + n) l.
Proof.
  revert l; induction m; intros l; [reflexivity|].
  destruct l; simpl; [now rewrite skipn_nil|apply IHm].
Qed.

Lemma drop_drop n m l : 0 <= n -> 0 <= m -> drop n (drop m l) = drop (m + n) l.
Proof.
  intros. unfold drop. rewrite skipn_skipn. f_equal. lia.
Qed.

Lemma drop_nil n : drop n [] = [].
Proof. unfold drop. apply skipn_nil. Qed.

Lemma rmove_refl r : 0 <= compsize r -> rmove r r.
Proof. intros. split; [lia|]. replace (compsize r - compsize r) with 0 by lia. reflexivity. Qed.

Lemma rmove_trans a b c : rmove a b -> rmove b c -> rmove a c.
Proof.
  intros [A1 A2] [B1 B2]. split; [lia|]. rewrite B2, A2, drop_drop by lia. f_equal; lia.
Qed.

Lemma rmove_wf_bytes r r' : rmove r r' -> bytes (infile r) -> bytes (infile r').
Proof.
  intros [_ ->] H. unfold bytes, drop in *.
  rewrite <- (firstn_skipn (Z.to_nat (compsize r - compsize r')) (infile r)) in H.
  now apply Forall_app in H.
Qed.

Lemma fillbuf_loop_total fuel : forall n r, rwf r -> 0 <= n <= 255 ->
  n < 8 * Z.of_nat fuel + bitcount r - 8 ->
  exists r', fillbuf_loop fuel n r = Ok r' /\ rwf r' /\ rmove r r'.
Proof.
  induction fuel as [|f IH]; intros n r W Hn Hf.
  { destruct W. lia. }
  cbn [fillbuf_loop]. destruct W as [W1 W2 W3 W4 W5].
  destruct (Z.ltb_spec (bitcount r) n) as [L|L].
  - rewrite (u8_id (n - bitcount r)) by lia.
    destruct (Z.eqb_spec (compsize r) 0) as [C|C].
    + match goal with |- context[fillbuf_loop f ?n ?s] => destruct (IH n s) as [r' [E [W' M]]] end.
      { constructor; simpl; auto; try lia; apply u16_range. }
      { lia. }
      { simpl; lia. }
      exists r'. split; [exact E|]. split; [exact W'|]. exact M.
    + destruct (infile r) as [|c rest] eqn:EI.
      * eexists. split; [reflexivity|]. split.
        { constructor; simpl; auto; try lia; apply u16_range. }
        split; simpl; [lia|]. rewrite EI, drop_nil. reflexivity.
      * inversion W5 as [|? ? Hc Hr]; subst.
        match goal with |- context[fillbuf_loop f ?n ?s] => destruct (IH n s) as [r' [E [W' M]]] end.
        { constructor; simpl; auto; try lia; apply u16_range. }
        { lia. }
        { simpl; lia. }
        exists r'. split; [exact E|]. split; [exact W'|].
        eapply rmove_trans; [|exact M]. split; simpl; [lia|].
        rewrite EI. replace (compsize r - (compsize r - 1)) with 1 by lia. reflexivity.
  - eexists. split; [reflexivity|]. split.
    { constructor; simpl; auto; try lia; try apply u16_range; try apply u8_range.
      rewrite u8_id; lia. }
    split; simpl; [lia|]. replace (compsize r - compsize r) with 0 by lia. reflexivity.
Qed.

Lemma fillbuf_total n r : rwf r -> 0 <= n <= 255 ->
  exists r', fillbuf n r = Ok r' /\ rwf r' /\ rmove r r'.
Proof. intros W H. unfold fillbuf. apply fillbuf_loop_total; auto. destruct W; lia. Qed.

Lemma getbits_total n r : rwf r -> 0 <= n <= 16 ->
  exists x r', getbits n r = Ok (x, r') /\ 0 <= x < 2 ^ n /\ rwf r' /\ rmove r r'.
Proof.
  intros W H. destruct (fillbuf_total n r W ltac:(lia)) as [r' [E [W' M]]].
  unfold getbits. rewrite E. cbn [bind]. eexists; exists r'. split; [reflexivity|].
  split; [|auto]. rewrite u8_id, shiftr_div by lia. apply div_range; [apply W|lia].
Qed.

(** The bits a reader still has, up to the zeros it supplies at the end. *)
Definition rbits (r : rst) : list bool :=
  to_bits 16 (bitbuf r)
  ++ to_bits (Z.to_nat (bitcount r)) (subbitbuf r / 2 ^ (8 - bitcount r))
  ++ byte_string_bits (take (compsize r) (infile r)).

(** Two bit strings that agree up to trailing zeros. *)
Definition seq (a b : list bool) : Prop := forall k, nth k a false = nth k b false.

Lemma seq_refl a : seq a a. Proof. intros k; reflexivity. Qed.
Lemma seq_sym a b : seq a b -> seq b a. Proof. intros H k; now rewrite H. Qed.
Lemma seq_trans a b c : seq a b -> seq b c -> seq a c.
Proof. intros H1 H2 k. now rewrite H1, H2. Qed.

Lemma seq_skipn n a b : seq a b -> seq (skipn n a) (skipn n b).
Proof. intros H k. rewrite !nth_skipn. apply H. Qed.

Lemma seq_app_zeros a n : seq (a ++ repeat false n) a.
Proof.
  intros k. destruct (Nat.lt_ge_cases k (length a)).
  - now rewrite app_nth1 by assumption.
  - rewrite app_nth2 by assumption. rewrite (nth_overflow a) by assumption.
    destruct (Nat.lt_ge_cases (k - length a) n).
    + apply nth_repeat.
    + apply nth_overflow. now rewrite repeat_length.
Qed.

(** Reader invariant: [s] is the stream ahead, [B] the number of bits consumed
    since the start of a packed area of [packed] bytes, [rest] what follows. *)
Record Rd (packed : Z) (rest : list Z) (r : rst) (B : Z) (s : list bool) : Prop := {
  Rd_buf : 0 <= bitbuf r < 65536;
  Rd_sub : 0 <= subbitbuf r < 256;
  Rd_clean : (2 ^ (8 - bitcount r) | subbitbuf r);
  Rd_bc : 0 <= bitcount r <= 8;
  Rd_comp : 0 <= compsize r;
  Rd_in : exists p, infile r = p ++ rest /\ zlen p = compsize r;
  Rd_bytes : bytes (infile r);
  Rd_stream : seq (rbits r) s;
  Rd_count : compsize r = 0 \/ 8 * (packed - compsize r) = B + 16 + bitcount r }.

Lemma Rd_rwf packed rest r B s : Rd packed rest r B s -> rwf r.
Proof. intros []. constructor; auto. Qed.

Lemma Rd_seq packed rest r B s s' : Rd packed rest r B s -> seq s s' -> Rd packed rest r B s'.
Proof. intros [] H. constructor; auto. eapply seq_trans; eauto. Qed.

Lemma shiftr_sub_lt r n : 0 <= subbitbuf r < 256 -> 0 <= n <= 8 ->
  0 <= subbitbuf r / 2 ^ (8 - n) < 2 ^ n.
Proof.
  intros Hx Hb. pose proof (pow2_pos (8 - n)).
  split; [apply Z.div_pos; lia|].
  apply Z.div_lt_upper_bound; [lia|]. rewrite <- Z.pow_add_r by lia.
  replace (8 - n + n) with 8 by lia. lia.
Qed.

(** Moving [m] bits of the sub-buffer into the 16-bit buffer. *)
Lemma buf_step b v m : 0 <= m <= 16 -> 0 <= b < 65536 -> 0 <= v < 2 ^ m ->
  let bb := u16 (u16 (b * 2 ^ m) + v) in
  0 <= bb < 65536 /\
  to_bits 16 bb = skipn (Z.to_nat m) (to_bits 16 b ++ to_bits (Z.to_nat m) v).
Proof.
  intros Hm Hb Hv bb. split; [apply u16_range|]. unfold bb.
  replace (u16 (u16 (b * 2 ^ m) + v)) with (u16 (b * 2 ^ m) + v).
  - unfold u16. change 65536 with (2 ^ Z.of_nat 16).
    replace m with (Z.of_nat (Z.to_nat m)) at 1 by lia.
    apply shift_in; [lia|]. rewrite Z2Nat.id; lia.
  - symmetry. apply u16_id. unfold u16. change 65536 with (2 ^ 16). rewrite shl_mod by lia.
    assert (0 <= b mod 2 ^ (16 - m) < 2 ^ (16 - m)) by (apply Z.mod_pos_bound, pow2_pos; lia).
    assert (2 ^ 16 = 2 ^ (16 - m) * 2 ^ m) by (rewrite <- Z.pow_add_r by lia; f_equal; lia).
    rewrite H0. nia.
Qed.

Lemma take_0 l : take 0 l = [].
Proof. reflexivity. Qed.

Lemma fillbuf_loop_bits fuel : forall n packed rest r B s, Rd packed rest r B s -> 0 <= n <= 16 ->
  n < 8 * Z.of_nat fuel + bitcount r - 8 ->
  exists r', fillbuf_loop fuel n r = Ok r' /\
    Rd packed rest r' (B + n) (skipn (Z.to_nat n) s).
Proof.
  induction fuel as [|f IH]; intros n packed rest r B s W Hn Hf.
  { destruct W. lia. }
  cbn [fillbuf_loop]. destruct W as [W1 W2 W2' W3 W4 W5 W6 W7 W8].
  pose proof (shiftr_sub_lt r (bitcount r) W2 W3) as Hv.
  destruct (Z.ltb_spec (bitcount r) n) as [L|L].
  - rewrite (u8_id (n - bitcount r)) by lia.
    rewrite (u8_id (8 - bitcount r)) by lia.
    rewrite shiftl_mul, shiftr_div by lia.
    destruct (buf_step (bitbuf r) _ (bitcount r) ltac:(lia) W1 Hv) as [Hb Hbits].
    set (bb := u16 (u16 (bitbuf r * 2 ^ bitcount r) + subbitbuf r / 2 ^ (8 - bitcount r))) in *.
    replace (B + n) with (B + bitcount r + (n - bitcount r)) by lia.
    replace (Z.to_nat n) with (Z.to_nat (bitcount r) + Z.to_nat (n - bitcount r))%nat by lia.
    rewrite <- skipn_skipn.
    assert (Hsplit : forall tl, skipn (Z.to_nat (bitcount r))
        (to_bits 16 (bitbuf r) ++ to_bits (Z.to_nat (bitcount r)) (subbitbuf r / 2 ^ (8 - bitcount r)) ++ tl)
        = to_bits 16 bb ++ tl).
    { intros tl. rewrite Hbits, app_assoc, skipn_app.
      rewrite app_length, !to_bits_length.
      replace (Z.to_nat (bitcount r) - (16 + Z.to_nat (bitcount r)))%nat with 0%nat by lia.
      reflexivity. }
    destruct (Z.eqb_spec (compsize r) 0) as [C|C].
    + apply IH; [|lia|simpl; lia]. constructor; cbn [bitbuf subbitbuf bitcount compsize infile]; auto; try lia.
      * apply Z.divide_0_r.
      * eapply seq_trans; [|apply seq_skipn; exact W7].
        unfold rbits. cbn [bitbuf subbitbuf bitcount compsize infile]. rewrite C, take_0, Hsplit.
        change (byte_string_bits []) with (@nil bool). rewrite !app_nil_r.
        rewrite Z.div_0_l by (apply Z.pow_nonzero; lia). rewrite to_bits_0. apply seq_app_zeros.
    + destruct W5 as [p [Hp Hl]].
      destruct p as [|c p]; [rewrite zlen_nil in Hl; lia|]. rewrite zlen_cons in Hl.
      rewrite Hp. cbn [app]. rewrite Hp in W6. inversion W6 as [|? ? Hc Hr]; subst.
      apply IH; [|lia|simpl; lia]. constructor; cbn [bitbuf subbitbuf bitcount compsize infile]; auto; try lia.
      * change (2 ^ (8 - 8)) with 1. apply Z.divide_1_l.
      * exists p. split; [reflexivity|lia].
      * eapply seq_trans; [|apply seq_skipn; exact W7].
        unfold rbits. cbn [bitbuf subbitbuf bitcount compsize infile]. rewrite Hsplit.
        change (2 ^ (8 - 8)) with 1. rewrite Z.div_1_r.
        replace (take (compsize r) (infile r)) with (c :: take (compsize r - 1) (p ++ rest)).
        { unfold byte_string_bits. cbn [flat_map]. apply seq_refl. }
        rewrite Hp. unfold take. replace (Z.to_nat (compsize r)) with (S (Z.to_nat (compsize r - 1))) by lia.
        reflexivity.
  - rewrite (u8_id (8 - n)) by lia. rewrite (u8_id (bitcount r - n)) by lia.
    rewrite !shiftl_mul, shiftr_div by lia.
    destruct (buf_step (bitbuf r) (subbitbuf r / 2 ^ (8 - n)) n ltac:(lia) W1) as [Hb Hbits].
    { apply shiftr_sub_lt; auto; lia. }
    set (bb := u16 (u16 (bitbuf r * 2 ^ n) + subbitbuf r / 2 ^ (8 - n))) in *.
    eexists. split; [reflexivity|].
    assert (Hu8 : u8 (subbitbuf r * 2 ^ n) = subbitbuf r mod 2 ^ (8 - n) * 2 ^ n).
    { unfold u8. change 256 with (2 ^ 8). apply shl_mod. lia. }
    constructor; cbn [bitbuf subbitbuf bitcount compsize infile]; auto; try lia; try apply u8_range.
    + rewrite Hu8. replace (8 - (bitcount r - n)) with ((8 - bitcount r) + n) by lia.
      rewrite Z.pow_add_r by lia. apply Z.mul_divide_mono_r.
      apply Z.divide_trans with (2 ^ (8 - bitcount r) * 1); [rewrite Z.mul_1_r; apply Z.divide_refl|].
      destruct W2' as [q Hq]. rewrite Hq.
      replace (2 ^ (8 - n)) with (2 ^ (bitcount r - n) * 2 ^ (8 - bitcount r))
        by (rewrite <- Z.pow_add_r by lia; f_equal; lia).
      rewrite Z.mul_mod_distr_r by (apply Z.pow_nonzero; lia). rewrite Z.mul_1_r. apply Z.divide_factor_r.
    + eapply seq_trans; [|apply seq_skipn; exact W7].
      unfold rbits. cbn [bitbuf subbitbuf bitcount compsize infile].
      assert (Hsub : to_bits (Z.to_nat (bitcount r)) (subbitbuf r / 2 ^ (8 - bitcount r)) =
                     to_bits (Z.to_nat n) (subbitbuf r / 2 ^ (8 - n)) ++
                     to_bits (Z.to_nat (bitcount r - n))
                       (u8 (subbitbuf r * 2 ^ n) / 2 ^ (8 - (bitcount r - n)))).
      { replace (Z.to_nat (bitcount r)) with (Z.to_nat n + Z.to_nat (bitcount r - n))%nat by lia.
        rewrite to_bits_app. f_equal.
        - f_equal. rewrite Z.div_div, <- Z.pow_add_r by (try apply Z.pow_nonzero; try apply pow2_pos; lia).
          f_equal. f_equal. lia.
        - apply to_bits_eq. rewrite Hu8.
          replace (8 - (bitcount r - n)) with ((8 - bitcount r) + n) by lia.
          rewrite (Z.pow_add_r 2 _ n) by lia.
          rewrite Z.div_mul_cancel_r by (apply Z.pow_nonzero; lia).
          replace (2 ^ (8 - n)) with (2 ^ (8 - bitcount r) * 2 ^ (bitcount r - n))
            by (rewrite <- Z.pow_add_r by lia; f_equal; lia).
          rewrite Z2Nat.id by lia.
          rewrite Z.rem_mul_r by (try apply Z.pow_nonzero; try apply pow2_pos; lia).
          rewrite (Z.mul_comm (2 ^ (8 - bitcount r))), Z.div_add by (apply Z.pow_nonzero; lia).
          rewrite (Z.div_small (subbitbuf r mod _)) by (apply Z.mod_pos_bound, pow2_pos; lia).
          rewrite Z.add_0_l, Z.mod_mod by (apply Z.pow_nonzero; lia). reflexivity. }
      rewrite Hsub, Hbits. rewrite <- !app_assoc.
      intros k. f_equal. rewrite (app_assoc (to_bits 16 (bitbuf r))), (skipn_app _ (to_bits 16 (bitbuf r) ++ _)).
      rewrite app_length, !to_bits_length.
      replace (Z.to_nat n - (16 + Z.to_nat n))%nat with 0%nat by lia.
      reflexivity.
Qed.

Lemma fillbuf_bits n packed rest r B s : Rd packed rest r B s -> 0 <= n <= 16 ->
  exists r', fillbuf n r = Ok r' /\ Rd packed rest r' (B + n) (skipn (Z.to_nat n) s).
Proof. intros W H. unfold fillbuf. apply fillbuf_loop_bits; auto. destruct W; lia. Qed.

(** The first [n] bits of a stream, as a number. *)
Definition peek (n : Z) (s : list bool) : Z :=
  of_bits (firstn (Z.to_nat n) (s ++ repeat false (Z.to_nat n))).

Lemma list_eq_nth (a b : list bool) : length a = length b ->
  (forall k, (k < length a)%nat -> nth k a false = nth k b false) -> a = b.
Proof. intros L H. eapply nth_ext; eauto. Qed.

Lemma nth_firstn {A} n (l : list A) k d : (k < n)%nat -> nth k (firstn n l) d = nth k l d.
Proof.
  revert l k; induction n; intros l k H; [lia|].
  destruct l; [destruct k; reflexivity|]. destruct k; simpl; auto. apply IHn; lia.
Qed.

Lemma nth_app_zeros (s : list bool) n k : nth k (s ++ repeat false n) false = nth k s false.
Proof. apply seq_app_zeros. Qed.

Lemma peek_length n s : length (firstn (Z.to_nat n) (s ++ repeat false (Z.to_nat n))) = Z.to_nat n.
Proof. rewrite firstn_length, app_length, repeat_length. lia. Qed.

Lemma buf_peek packed rest r B s n : Rd packed rest r B s -> 0 <= n <= 16 ->
  bitbuf r / 2 ^ (16 - n) = peek n s.
Proof.
  intros W Hn. pose proof (Rd_stream _ _ _ _ _ W) as S. pose proof (Rd_buf _ _ _ _ _ W) as Hb.
  unfold peek. rewrite <- (to_bits_small (Z.to_nat n) (bitbuf r / 2 ^ (16 - n)))
    by (rewrite Z2Nat.id by lia; apply div_range; lia).
  f_equal. replace (2 ^ (16 - n)) with (2 ^ Z.of_nat (16 - Z.to_nat n)) by (f_equal; lia).
  rewrite <- firstn_to_bits by lia.
  apply list_eq_nth.
  - rewrite peek_length, firstn_length, to_bits_length. lia.
  - rewrite firstn_length, to_bits_length. intros k Hk.
    rewrite !nth_firstn by lia. rewrite nth_app_zeros, <- S.
    unfold rbits. rewrite app_nth1 by (rewrite to_bits_length; lia). reflexivity.
Qed.

Lemma peekbits_bits packed rest r B s n : Rd packed rest r B s -> 0 <= n <= 16 ->
  peekbits n r = peek n s.
Proof.
  intros W Hn. unfold peekbits. rewrite u16_id, shiftr_div by lia. eapply buf_peek; eauto.
Qed.

Lemma getbits_bits n packed rest r B s : Rd packed rest r B s -> 0 <= n <= 16 ->
  exists r', getbits n r = Ok (peek n s, r') /\ Rd packed rest r' (B + n) (skipn (Z.to_nat n) s).
Proof.
  intros W H. destruct (fillbuf_bits n _ _ _ _ _ W H) as [r' [E W']].
  exists r'. split; auto. unfold getbits. rewrite E. cbn [bind].
  rewrite u8_id, shiftr_div by lia. now rewrite (buf_peek _ _ _ _ _ _ W H).
Qed.

Lemma peek_to_bits n x s : 0 <= n -> 0 <= x < 2 ^ n -> peek n (to_bits (Z.to_nat n) x ++ s) = x.
Proof.
  intros Hn Hx. unfold peek. rewrite <- app_assoc, firstn_app, to_bits_length.
  replace (Z.to_nat n - Z.to_nat n)%nat with 0%nat by lia.
  rewrite firstn_all2 by (rewrite to_bits_length; lia). cbn [firstn]. rewrite app_nil_r.
  apply to_bits_small. rewrite Z2Nat.id by lia. exact Hx.
Qed.

Lemma skipn_to_bits_app n x (s : list bool) : skipn (Z.to_nat n) (to_bits (Z.to_nat n) x ++ s) = s.
Proof.
  rewrite skipn_app, to_bits_length.
  replace (Z.to_nat n - Z.to_nat n)%nat with 0%nat by lia.
  rewrite skipn_all2 by (rewrite to_bits_length; lia). reflexivity.
Qed.

Lemma getbits_field n x packed rest r B s : Rd packed rest r B (to_bits (Z.to_nat n) x ++ s) ->
  0 <= n <= 16 -> 0 <= x < 2 ^ n ->
  exists r', getbits n r = Ok (x, r') /\ Rd packed rest r' (B + n) s.
Proof.
  intros W H Hx. destruct (getbits_bits n _ _ _ _ _ W H) as [r' [E W']].
  rewrite peek_to_bits in E by lia. rewrite skipn_to_bits_app in W'. exists r'. auto.
Qed.

Lemma fillbuf_field n x packed rest r B s : Rd packed rest r B (to_bits (Z.to_nat n) x ++ s) ->
  0 <= n <= 16 -> exists r', fillbuf n r = Ok r' /\ Rd packed rest r' (B + n) s.
Proof.
  intros W H. destruct (fillbuf_bits n _ _ _ _ _ W H) as [r' [E W']].
  rewrite skipn_to_bits_app in W'. eauto.
Qed.

Lemma take_app_exact p rest : take (zlen p) (p ++ rest) = p.
Proof.
  unfold take, zlen. rewrite Nat2Z.id, firstn_app.
  replace (length p - length p)%nat with 0%nat by lia. rewrite firstn_all. cbn. apply app_nil_r.
Qed.

Lemma initGetbits_bits p rest : bytes (p ++ rest) ->
  exists r, initGetbits (zlen p) (p ++ rest) = Ok r /\ Rd (zlen p) rest r 0 (byte_string_bits p).
Proof.
  intros Hb. unfold initGetbits.
  assert (W : Rd (zlen p) rest (RS 0 0 0 (zlen p) (p ++ rest)) (-16)
                (to_bits 16 0 ++ byte_string_bits p)).
  { constructor; cbn [bitbuf subbitbuf bitcount compsize infile]; try lia; auto.
    - apply Z.divide_0_r.
    - apply zlen_nonneg.
    - exists p. auto.
    - unfold rbits. cbn [bitbuf subbitbuf bitcount compsize infile]. rewrite take_app_exact.
      apply seq_refl. }
  change 16%nat with (Z.to_nat 16) in W.
  destruct (fillbuf_field 16 0 _ _ _ _ _ W) as [r [E R]]; [lia|]. exists r. split; auto.
Qed.

(** At the end of a stream that was packed without slack, everything was read. *)
Lemma Rd_end packed rest r B s : Rd packed rest r B s -> 8 * packed <= B + 15 ->
  compsize r = 0 /\ infile r = rest.
Proof.
  intros W H. destruct W as [W1 W2 W2' W3 W4 [p [P1 P2]] W6 W7 W8].
  assert (compsize r = 0) by lia. split; auto.
  rewrite H0 in P2. destruct p; [exact P1|]. rewrite zlen_cons in P2. pose proof (zlen_nonneg p). lia.
Qed.

(** ** Counting the bits written *)

Definition wcount (w : wst) (T : Z) : Prop :=
  if unpackable w then 8 * (worigsize w + 1) <= T
  else 8 * wcompsize w + 8 - wbitcount w = T.

Lemma putcode_loop_count fuel : forall n x w w' T, wwf w -> 0 <= n <= 255 -> wcount w T ->
  putcode_loop fuel n x w = Ok w' -> wcount w' (T + n).
Proof.
  induction fuel as [|f IH]; intros n x w w' T W Hn C E; [discriminate E|].
  cbn [putcode_loop] in E. destruct W as [A B D F].
  destruct (Z.leb_spec (wbitcount w) n) as [L|L].
  - rewrite (u8_id (n - wbitcount w)) in E by lia.
    destruct (Z.ltb_spec (wcompsize w) (worigsize w)) as [S|S].
    + replace (T + n) with (T + wbitcount w + (n - wbitcount w)) by lia.
      eapply IH; [| | |exact E]; [|lia|].
      * apply (wwf_push w); [constructor; auto|apply u8_range|exact S].
      * unfold wcount in *. simpl. destruct (unpackable w); lia.
    + replace (T + n) with (T + wbitcount w + (n - wbitcount w)) by lia.
      eapply IH; [| | |exact E]; [|lia|].
      * constructor; simpl; auto; lia.
      * unfold wcount in *. simpl. destruct (unpackable w); lia.
  - injection E as <-. unfold wcount in *. simpl.
    rewrite u8_id by lia. destruct (unpackable w); lia.
Qed.

Lemma putcode_count n x w w' T : wwf w -> 0 <= n <= 255 -> wcount w T ->
  putcode n x w = Ok w' -> wcount w' (T + n).
Proof. unfold putcode. apply putcode_loop_count. Qed.

Lemma putbits_count n x w w' T : wwf w -> 0 <= n <= 255 -> wcount w T ->
  putbits n x w = Ok w' -> wcount w' (T + n).
Proof. unfold putbits. apply putcode_count. Qed.

Lemma wcount_unpackable w T : wwf w -> wcount w T ->
  (unpackable w = true <-> worigsize w < T / 8) /\ 
  (unpackable w = false -> wcompsize w = T / 8).
Proof.
  intros [A B C D] H. unfold wcount in H.
  pose proof (Z.div_mod T 8 ltac:(lia)). pose proof (Z.mod_pos_bound T 8 ltac:(lia)).
  destruct (unpackable w); split; try split; intros; try lia; try discriminate.
Qed.

(** ** Sequences of fields *)

(** Writing (width, value) fields one after the other. *)
Fixpoint put_fields (fs : list (Z * Z)) (w : wst) : res wst :=
  match fs with
  | [] => Ok w
  | (n, v) :: fs' => w' <- putbits n v w ;; put_fields fs' w'
  end.

(** Reading fields of the given widths. *)
Fixpoint get_fields (ns : list Z) (r : rst) : res (list Z * rst) :=
  match ns with
  | [] => Ok ([], r)
  | n :: ns' =>
      ' (x, r1) <- getbits n r ;;
      ' (xs, r2) <- get_fields ns' r1 ;;
      Ok (x :: xs, r2)
  end.

Definition field_bits (fs : list (Z * Z)) : list bool :=
  flat_map (fun f => to_bits (Z.to_nat (fst f)) (snd f)) fs.

Definition widths (fs : list (Z * Z)) : Z := fold_right Z.add 0 (map fst fs).

Definition width_ok (f : Z * Z) : Prop := 0 <= fst f <= 16.
Definition field_ok (f : Z * Z) : Prop := 0 <= fst f <= 16 /\ 0 <= snd f < 2 ^ fst f.

Lemma put_fields_ok fs : forall w T, Forall width_ok fs -> wwf w -> wcount w T ->
  exists w', put_fields fs w = Ok w' /\ wwf w' /\ wrel w w' /\ wcount w' (T + widths fs) /\
    forall l, Wr w l -> unpackable w' = false -> Wr w' (l ++ field_bits fs).
Proof.
  induction fs as [|[n v] fs IH]; intros w T Hf W C.
  - exists w. cbn [put_fields]. split; [reflexivity|]. split; [exact W|]. split; [apply wrel_refl|].
    split.
    + replace (T + widths []) with T by (cbn; lia). exact C.
    + intros l H _. cbn [field_bits flat_map]. rewrite app_nil_r. exact H.
  - inversion Hf as [|? ? Hn Hf']; subst. unfold width_ok in Hn. cbn [fst] in Hn.
    destruct (putbits_total n v w W ltac:(lia)) as [w1 [E1 [W1 R1]]].
    pose proof (putbits_count n v w w1 T W ltac:(lia) C E1) as C1.
    destruct (IH w1 (T + n) Hf' W1 C1) as [w2 [E2 [W2 [R2 [C2 B2]]]]].
    exists w2. cbn [put_fields]. rewrite E1. cbn [bind]. split; [exact E2|].
    split; [exact W2|]. split; [eapply wrel_trans; eauto|].
    split.
    + replace (T + widths ((n, v) :: fs)) with (T + n + widths fs); [exact C2|].
      unfold widths. cbn [map fold_right fst]. lia.
    + intros l Wl U. unfold field_bits. cbn [flat_map fst snd]. rewrite app_assoc.
      apply B2; [|exact U].
      eapply putbits_bits; [exact W|exact Wl|lia|exact E1|].
      destruct (unpackable w1) eqn:Eu; [|reflexivity].
      destruct R2 as [_ [R2 _]]. rewrite R2 in U by exact Eu. discriminate.
Qed.

Lemma get_fields_ok fs : forall packed rest r B s, Forall field_ok fs ->
  Rd packed rest r B (field_bits fs ++ s) ->
  exists r', get_fields (map fst fs) r = Ok (map snd fs, r') /\ Rd packed rest r' (B + widths fs) s.
Proof.
  induction fs as [|[n v] fs IH]; intros packed rest r B s Hf R.
  - exists r. split; [reflexivity|]. replace (B + widths []) with B by (cbn; lia). exact R.
  - inversion Hf as [|? ? Hn Hf']; subst. unfold field_ok in Hn. cbn [fst snd] in Hn.
    unfold field_bits in R. cbn [flat_map fst snd] in R. rewrite <- app_assoc in R.
    destruct (getbits_field n v _ _ _ _ _ R ltac:(lia) ltac:(lia)) as [r1 [E1 R1]].
    destruct (IH _ _ _ _ _ Hf' R1) as [r2 [E2 R2]].
    exists r2. cbn [map fst snd get_fields]. rewrite E1. cbn [bind]. rewrite E2. cbn [bind].
    split; [reflexivity|]. replace (B + widths ((n, v) :: fs)) with (B + n + widths fs); [exact R2|].
    unfold widths. cbn [map fold_right fst]. lia.
Qed.

(** The bits of the flushed output, up to trailing zeros. *)
Lemma Wr_flush w l : Wr w (l ++ repeat false 7) ->
  seq (byte_string_bits (wbytes w)) l /\ 8 * zlen (wbytes w) <= Z.of_nat (length l) + 7 /\
  Z.of_nat (length l) <= 8 * zlen (wbytes w).
Proof.
  intros [A B [P [HP [_ E]]]].
  assert (L : (length l + 7 = 8 * length (wbytes w) + length P)%nat).
  { apply (f_equal (@length bool)) in E. rewrite !app_length, repeat_length, byte_string_bits_length in E. lia. }
  split; [|unfold zlen; lia].
  eapply seq_trans; [|apply (seq_app_zeros l 7)]. rewrite E.
  intros k. destruct (Nat.lt_ge_cases k (8 * length (wbytes w))) as [H|H].
  - now rewrite app_nth1 by (rewrite byte_string_bits_length; lia).
  - rewrite nth_overflow by (rewrite byte_string_bits_length; lia).
    rewrite <- E. rewrite app_nth2 by lia. destruct (Nat.lt_ge_cases (k - length l) 7).
    + now rewrite nth_repeat.
    + rewrite nth_overflow; [reflexivity|rewrite repeat_length; lia].
Qed.

Lemma initPutbits_count o : wcount (initPutbits o) 0.
Proof. unfold wcount. simpl. lia. Qed.

Lemma fields_roundtrip o fs rest : 0 <= o -> Forall field_ok fs -> bytes rest ->
  exists w w', put_fields fs (initPutbits o) = Ok w /\ putbits 7 0 w = Ok w' /\
    (unpackable w' = true <-> o < (widths fs + 7) / 8) /\
    (unpackable w' = false ->
       exists r r', initGetbits (wcompsize w') (wbytes w' ++ rest) = Ok r /\
         get_fields (map fst fs) r = Ok (map snd fs, r') /\
         compsize r' = 0 /\ infile r' = rest).
Proof.
  intros Ho Hf Hrest. destruct (initPutbits_Wr o Ho) as [W0 L0].
  assert (Hw : Forall width_ok fs).
  { eapply Forall_impl; [|exact Hf]. intros a [H _]. exact H. }
  destruct (put_fields_ok fs _ 0 Hw W0 (initPutbits_count o)) as [w [E [W [R [C B]]]]].
  destruct (putbits_total 7 0 w W ltac:(lia)) as [w' [E' [W' R']]].
  pose proof (putbits_count 7 0 w w' _ W ltac:(lia) C E') as C'. cbn [Z.add] in C'.
  destruct (wcount_unpackable _ _ W' C') as [U1 U2].
  exists w, w'. split; [exact E|]. split; [exact E'|]. split.
  { rewrite U1. destruct R' as [-> _]. destruct R as [-> _]. reflexivity. }
  intros U.
  assert (Uw : unpackable w = false).
  { destruct (unpackable w) eqn:Eu; auto. destruct R' as [_ [R' _]]. rewrite R' in U by exact Eu. discriminate. }
  pose proof (B [] L0 Uw) as L1. cbn [app] in L1.
  pose proof (putbits_bits 7 0 w _ w' W L1 ltac:(lia) E' U) as L2.
  change (Z.to_nat 7) with 7%nat in L2. rewrite to_bits_0 in L2.
  destruct (Wr_flush _ _ L2) as [S [Le _]].
  assert (Hz : wcompsize w' = zlen (wbytes w')).
  { rewrite (wwf_size _ W'). unfold wbytes, zlen. now rewrite rev_length. }
  rewrite Hz. 
  destruct (initGetbits_bits (wbytes w') rest) as [r [Er Rr]].
  { unfold bytes. apply Forall_app. split; auto. apply Forall_rev. apply (wwf_bytes _ W'). }
  eapply Rd_seq in Rr; [|exact S]. rewrite <- (app_nil_r (field_bits fs)) in Rr.
  destruct (get_fields_ok fs _ _ _ _ _ Hf Rr) as [r' [Er' Rr']].
  exists r, r'. split; [exact Er|]. split; [exact Er'|].
  eapply Rd_end; [exact Rr'|].
  assert (Z.of_nat (length (field_bits fs)) = widths fs).
  { clear -Hf. induction fs as [|[n v] fs IH]; [reflexivity|]. inversion Hf as [|? ? Hn Hf']; subst.
    unfold field_ok in Hn. cbn [fst snd] in Hn.
    unfold field_bits. cbn [flat_map]. rewrite app_length, Nat2Z.inj_add. rewrite to_bits_length.
    fold (field_bits fs). rewrite (IH Hf'). unfold widths. cbn [map fold_right fst snd]. lia. }
  lia.
Qed.
