(** Two goroutines that compress: one call seen as a sequence of steps, and the block that
    is sent when the buffers have been cleared under a goroutine. *)
From Verif Require Import Go GoLemmas S_Bits P_Bits S_Huff M_Crc P_Crc M_Bitio P_Bitio P_Huff
  M_Maketree M_Maketbl P_Maketree P_Maketbl M_Huf P_HufCode P_HufTables P_HufLens P_HufBlock P_HufSend
  P_HufEnc P_HufOut P_HufStream M_Slide S_Lz P_Lz P_Decode P_Slide P_Encode P_DecAny P_EncKeep M_ConcEnc.

(** ** One call as a sequence of steps *)

Fixpoint esteps (k : nat) (s : eshared) (t : etask) : res (eshared * etask) :=
  match k with O => Ok (s, t) | S k => '(s, t) <- enc_step s t ;; esteps k s t end.

Lemma enc_run_app s1 : forall s2 s a b, enc_run (s1 ++ s2) s a b = ('(s, a, b) <- enc_run s1 s a b ;; enc_run s2 s a b).
Proof.
  induction s1 as [|[|] s1 IH]; intros s2 s a b; cbn [app enc_run]; [reflexivity| |].
  - destruct (enc_step s a) as [[s' a']| |]; cbn [bind]; auto.
  - destruct (enc_step s b) as [[s' b']| |]; cbn [bind]; auto.
Qed.

Lemma enc_first k : forall s a b, enc_run (repeat true k) s a b = ('(s, a) <- esteps k s a ;; Ok (s, a, b)).
Proof. induction k as [|k IH]; intros s a b; cbn [repeat enc_run esteps]; [reflexivity|]. destruct (enc_step s a) as [[s' a']| |]; cbn [bind]; auto. Qed.

Lemma enc_second k : forall s a b, enc_run (repeat false k) s a b = ('(s, b) <- esteps k s b ;; Ok (s, a, b)).
Proof. induction k as [|k IH]; intros s a b; cbn [repeat enc_run esteps]; [reflexivity|]. destruct (enc_step s b) as [[s' b']| |]; cbn [bind]; auto. Qed.

Lemma esteps_done k : forall s c o n p, esteps k s (EDone c o n p) = Ok (s, EDone c o n p).
Proof. induction k as [|k IH]; intros; cbn [esteps enc_step]; [reflexivity|]. cbn [bind]. apply IH. Qed.

Definition unfinished (e : est) : bool := (0 <? s_rem (e_sl e)) && negb (unpackable (e_w e)).

Lemma apart_step g P e : enc_step (fst (apart g P e)) (snd (apart g P e)) =
  if unfinished e then c <- encode_step P e ;; match c with Go e | Stop e => Ok (apart g P e) end
  else
    '(h, w) <- encodeEndSt1 (e_huf e) (e_w e) ;;
    if e_count e =? 0 then Panic
    else Ok (ESH (GLOB h (s_hpos (e_sl e)) (s_hflag (e_sl e)) (s_prevs (e_sl e)) (s_text (e_sl e)) (g_dh g) (g_pm g)) P,
             EDone (s_crc (e_sl e)) (rev (wout w)) (e_count e) (wcompsize w)).
Proof. destruct e as [[t hp hf pv r i c] h w tk p m n]. reflexivity. Qed.

Lemma step_unfinished P e e' : encode_step P e = Ok (Go e') -> unfinished e = true.
Proof. unfold encode_step, unfinished. destruct (_ && _); [reflexivity|discriminate]. Qed.

Lemma step_finished P e e' : encode_step P e = Ok (Stop e') -> unfinished e = false /\ e' = e.
Proof.
  unfold encode_step, unfinished. cbv zeta. destruct (_ && _); [|intros H; injection H as <-; auto]. intros H. exfalso.
  apply bind_ok in H. destruct H as [[[t p] s] [_ H]]. apply bind_ok in H. destruct H as [[m s1] [_ H]]. apply bind_ok in H. destruct H as [s2 [_ H]].
  destruct (_ || _).
  - apply bind_ok in H. destruct H as [ch [_ H]]. apply bind_ok in H. destruct H as [[h w] [_ H]]. discriminate H.
  - apply bind_ok in H. destruct H as [[h w] [_ H]]. apply bind_ok in H. destruct H as [[[t3 p3] s3] [_ H]]. apply bind_ok in H. destruct H as [[[t4 p4] s4] [_ H]].
    apply bind_ok in H. destruct H as [[m5 s5] [_ H]]. apply bind_ok in H. destruct H as [s6 [_ H]]. discriminate H.
Qed.

Lemma loop_esteps g P n : forall e e', loopN n (encode_step P) e = Ok (Stop e') ->
  exists k, esteps k (fst (apart g P e)) (snd (apart g P e)) = Ok (apart g P e') /\ unfinished e' = false.
Proof.
  induction n as [|n IH]; intros e e' E; [discriminate E|]. cbn [loopN] in E. destruct (encode_step P e) as [c| |] eqn:D; try discriminate E. cbn [bind] in E.
  destruct c as [z|z].
  - destruct (IH z e' E) as (k & K & C). exists (S k). split; [|exact C]. cbn [esteps]. rewrite apart_step, (step_unfinished _ _ _ D), D. cbn [bind]. destruct (apart g P z) as [s t]. exact K.
  - injection E as <-. destruct (step_finished _ _ _ D) as [F ->]. exists O. split; [|exact F]. cbn [esteps]. destruct (apart g P e). reflexivity.
Qed.

(** What a call of encode consists of. *)
Definition prm_of (k mx : Z) : prm := PRM (Z.shiftl 1 k) (2 * Z.shiftl 1 k + mx) mx.

Lemma encode_parts k mx size body s er : body <> [] -> encode k mx size body (encodeAlloc (2 * Z.shiftl 1 k + mx) (es_glob s)) = Ok er ->
  let g := encodeAlloc (2 * Z.shiftl 1 k + mx) (es_glob s) in
  exists e0 e h w,
    enc_start k mx size body s = Ok (apart g (prm_of k mx) e0) /\
    encodeStartSt1 k (g_huf g) = Ok (e_huf e0) /\ e_w e0 = initPutbits size /\ e_count e0 = 0 /\
    loop (zlen body + 2) (encode_step (prm_of k mx)) e0 = Ok e /\ encodeEndSt1 (e_huf e) (e_w e) = Ok (h, w) /\
    er = ER (GLOB h (s_hpos (e_sl e)) (s_hflag (e_sl e)) (s_prevs (e_sl e)) (s_text (e_sl e)) (g_dh g) (g_pm g)) (s_crc (e_sl e))
           (rev (wout w)) (wcompsize w) (e_count e) (unpackable w) false (s_in (e_sl e)).
Proof.
  intros NE E g. unfold encode in E. fold g in E. cbv zeta in E. cbn [p_dicsiz p_txtsiz p_maxmatch] in E.
  unfold enc_start. fold g. cbv zeta. cbn [p_dicsiz p_txtsiz p_maxmatch]. unfold prm_of.
  apply bind_ok in E. destruct E as ([hp hf] & E1 & E). rewrite E1. cbn [bind].
  apply bind_ok in E. destruct E as (h0 & E2 & E). rewrite E2. cbn [bind].
  apply bind_ok in E. destruct E as (t & E3 & E). rewrite E3. cbn [bind].
  destruct body as [|b0 body]; [now destruct NE|].
  apply bind_ok in E. destruct E as ([[[t2 crc] v] inp] & E4 & E). rewrite E4. cbn [bind].
  apply bind_ok in E. destruct E as (tk & E5 & E). rewrite E5. cbn [bind].
  apply bind_ok in E. destruct E as (s1 & E6 & E). rewrite E6. cbn [bind].
  apply bind_ok in E. destruct E as (e & E7 & E). apply bind_ok in E. destruct E as ([h w] & E8 & E). injection E as <-.
  eexists (EST s1 h0 (initPutbits size) tk _ _ 0), e, h, w. split; [reflexivity|]. split; [reflexivity|]. split; [reflexivity|]. split; [reflexivity|]. split; [exact E7|]. split; [exact E8|]. reflexivity.
Qed.

Lemma loop_loopN_stop {S T} n (f : S -> res (ctl S T)) s t : loop n f s = Ok t -> exists k, loopN k f s = Ok (Stop t).
Proof.
  intros E. destruct (Z_lt_le_dec 0 n) as [P|P].
  - rewrite loop_loopN in E by lia. apply bind_ok in E. destruct E as (c & E1 & E2). destruct c; [discriminate E2|]. injection E2 as ->. eauto.
  - exfalso. unfold loop in E. destruct n; try discriminate E. lia.
Qed.

(** A whole call. *)
Lemma encode_esteps k mx size body s er : body <> [] -> encode k mx size body (encodeAlloc (2 * Z.shiftl 1 k + mx) (es_glob s)) = Ok er -> er_original er <> 0 ->
  exists n s', es_glob s' = er_glob er /\
    forall j, (n <= j)%nat -> esteps j s (EWaiting k mx size body) = Ok (s', EDone (er_crc er) (er_out er) (er_original er) (er_packed er)).
Proof.
  intros NE E NZ. destruct (encode_parts k mx size body s er NE E) as (e0 & e & h & w & E1 & _ & _ & _ & E2 & E3 & ->).
  cbn [er_original er_glob er_crc er_out er_packed] in *. set (g := encodeAlloc _ _) in *. destruct (loop_loopN_stop _ _ _ _ E2) as (n0 & E4).
  destruct (loop_esteps g _ _ _ _ E4) as (n & K & U). exists (S (n + 1)). eexists. split; [|].
  2:{ intros j J. destruct j as [|j]; [lia|]. cbn [esteps enc_step]. rewrite E1. cbn [bind]. destruct (apart g (prm_of k mx) e0) as [s1 t1]. cbn [fst snd] in K.
    replace j with (n + (1 + (j - n - 1)))%nat by lia.
    assert (AP : forall a b s t, esteps (a + b) s t = ('(s, t) <- esteps a s t ;; esteps b s t)).
    { induction a as [|a IH]; intros b s2 t2; [reflexivity|]. cbn [esteps Nat.add]. destruct (enc_step s2 t2) as [[s3 t3]| |]; cbn [bind]; auto. }
    rewrite AP, K. cbn [bind]. destruct (apart g (prm_of k mx) e) as [s2 t2] eqn:EA. rewrite AP. cbn [esteps].
    pose proof (apart_step g (prm_of k mx) e) as X. rewrite EA, U, E3 in X. cbn [fst snd bind] in X. destruct (Z.eqb_spec (e_count e) 0); [contradiction|].
    rewrite X. cbn [bind]. apply esteps_done. }
  reflexivity.
Qed.

(** ** Nothing is written before the first block is full *)

Lemma outputSt1_quiet c p h w h' w' : outputSt1 c p h w = Ok (h', w') -> 0 <= outputPos h < 65504 ->
  w' = w /\ 0 <= outputPos h' <= outputPos h + 4.
Proof.
  unfold outputSt1. cbv zeta. intros E B. apply bind_ok in E. destruct E as (x & E1 & E2).
  assert (X : exists h1, x = Go (h1, w) /\ 0 <= outputPos h1 <= outputPos h + 1).
  { destruct (_ =? 0).
    - cbn [outputPos set_outputMask] in E1. change block_threshold with 65504 in E1. destruct (Z.leb_spec 65504 (outputPos h)); [lia|]. cbn [bind] in E1.
      apply bind_ok in E1. destruct E1 as (b & _ & E1). injection E1 as <-. eexists. split; [reflexivity|]. cbn [outputPos set_buf set_cpos set_outputPos set_outputMask].
      rewrite u16_id by lia. lia.
    - injection E1 as <-. eexists. split; [reflexivity|]. cbn [outputPos set_outputMask]. lia. }
  destruct X as (h1 & -> & B1). apply bind_ok in E2. destruct E2 as (b & _ & E2). apply bind_ok in E2. destruct E2 as (f & _ & E2). cbv zeta in E2.
  destruct (256 <=? c).
  - apply bind_ok in E2. destruct E2 as (v & _ & E2). apply bind_ok in E2. destruct E2 as (b2 & _ & E2). apply bind_ok in E2. destruct E2 as (b3 & _ & E2). apply bind_ok in E2. destruct E2 as (b4 & _ & E2).
    apply bind_ok in E2. destruct E2 as (q & _ & E2). apply bind_ok in E2. destruct E2 as (f2 & _ & E2). injection E2 as <- <-. split; [reflexivity|].
    cbn [outputPos set_buf set_cFreq set_pFreq set_outputPos]. rewrite (u16_id (outputPos h1 + 1)) by lia. rewrite u16_id by lia. lia.
  - injection E2 as <- <-. split; [reflexivity|]. cbn [outputPos set_buf set_cFreq set_outputPos]. rewrite u16_id by lia. lia.
Qed.

Definition silent (w0 : wst) (e : est) : Prop :=
  16000 < e_count e \/ (e_w e = w0 /\ 0 <= e_count e /\ 0 <= outputPos (e_huf e) <= 4 * e_count e).

Lemma step_silent P w0 e c : silent w0 e -> encode_step P e = Ok c -> match c with Go e' | Stop e' => silent w0 e' end.
Proof.
  intros S H. unfold encode_step in H. cbv zeta in H. destruct (_ && _); [|injection H as <-; exact S].
  apply bind_ok in H. destruct H as [[[t p] s] [_ H]]. apply bind_ok in H. destruct H as [[m s1] [_ H]]. apply bind_ok in H. destruct H as [s2 [_ H]].
  destruct (_ || _) eqn:B.
  - apply bind_ok in H. destruct H as [ch [_ H]]. apply bind_ok in H. destruct H as [[h w] [E H]]. injection H as <-. unfold silent in *. cbn [e_count e_w e_huf].
    destruct S as [S|(S1 & S2 & S3)]; [left; lia|]. destruct (Z_lt_le_dec 16000 (e_count e + 1)); [now left|]. right.
    destruct (outputSt1_quiet _ _ _ _ _ _ E ltac:(lia)) as [-> O]. split; [exact S1|]. lia.
  - apply orb_false_elim in B. destruct B as [_ B]. apply Z.ltb_ge in B. unfold threshold in B.
    apply bind_ok in H. destruct H as [[h w] [E H]]. apply bind_ok in H. destruct H as [[[t3 p3] s3] [_ H]]. apply bind_ok in H. destruct H as [[[t4 p4] s4] [_ H]].
    apply bind_ok in H. destruct H as [[m5 s5] [_ H]]. apply bind_ok in H. destruct H as [s6 [_ H]]. injection H as <-. unfold silent in *. cbn [e_count e_w e_huf].
    destruct S as [S|(S1 & S2 & S3)]; [left; lia|]. destruct (Z_lt_le_dec 16000 (e_count e + m_len (e_match e))); [now left|]. right.
    destruct (outputSt1_quiet _ _ _ _ _ _ E ltac:(lia)) as [-> O]. split; [exact S1|]. lia.
Qed.

Lemma loop_silent P fuel w0 e0 e : silent w0 e0 -> loop fuel (encode_step P) e0 = Ok e -> silent w0 e.
Proof.
  intros S E. refine (loop_partial (silent w0) (silent w0) fuel (encode_step P) e0 e _ S E).
  intros s c H X. pose proof (step_silent P w0 s c H X) as Y. destruct c; exact Y.
Qed.

Lemma loop_esame P fuel e0 e : loop fuel (encode_step P) e0 = Ok e -> esame e0 e.
Proof.
  intros E. refine (loop_partial (esame e0) (esame e0) fuel (encode_step P) e0 e _ _ E).
  - intros e1 c [K1 K3] X. apply encode_step_keep in X. destruct c; destruct X as [X1 X2]; (split; [eapply ssame_trans|eapply hsame_trans]); eauto.
  - split; [apply ssame_refl|apply hsame_refl].
Qed.

(** ** The block that stands for nothing *)

Lemma makeTree_none nchar freq bitlen code lf rg : 1 <= nchar <= 510 -> nchar <= alen freq -> nchar <= alen bitlen -> nchar <= alen code ->
  (forall c, 0 <= c < nchar -> at_ freq c = 0) ->
  exists bl cd, makeTree nchar freq bitlen code lf rg = Ok (MTR 0 freq bl cd lf rg) /\ alen bl = alen bitlen /\ alen cd = alen code.
Proof.
  intros Hn Hf Hb Hc Z0. unfold makeTree.
  assert (U : used nchar freq = []).
  { destruct (used nchar freq) as [|c l] eqn:E; [reflexivity|]. exfalso. assert (I0 : In c (used nchar freq)) by (rewrite E; now left).
    apply used_In in I0. destruct I0 as [I1 I2]. apply I2, Z0, I1. }
  destruct (mt_collect_ok nchar freq bitlen ltac:(lia) Hf Hb) as (heap & bl & E & A1 & _ & A3 & A4 & _). rewrite U in E, A3. change (zlen (@nil Z)) with 0 in E, A3.
  rewrite E. cbn [bind]. change (0 <? 2) with true. cbv iota. rewrite aget_ok by lia. cbn [bind]. rewrite (A3 eq_refl). rewrite aset_ok by lia. cbn [bind].
  eexists _, _. split; [reflexivity|]. split; [exact A4|]. apply alen_upd.
Qed.

Lemma zeros_bits n : to_bits n 0 = repeat false n.
Proof. induction n as [|n IH]; [reflexivity|]. cbn [to_bits repeat]. rewrite IH, Z.testbit_0_l. reflexivity. Qed.

Lemma app_same {A} (a : list A) : forall b c d, length a = length b -> a ++ c = b ++ d -> a = b /\ c = d.
Proof.
  induction a as [|x a IH]; intros [|y b] c d L E; try discriminate L; [auto|]. cbn [app] in E. injection E as -> E. injection L as L.
  destruct (IH b c d L E) as [-> ->]. auto.
Qed.

Lemma zero_bytes : forall l p n, bytes l -> byte_string_bits l ++ p = repeat false n -> l = repeat 0 (length l).
Proof.
  induction l as [|b l IH]; intros p n B E; [reflexivity|]. inversion B as [|? ? Hb Hl]; subst. cbn [length repeat].
  cbn [byte_string_bits flat_map] in E. fold (byte_string_bits l) in E. rewrite <- app_assoc in E.
  assert (L : (8 <= n)%nat). { apply (f_equal (@length bool)) in E. rewrite repeat_length, app_length, to_bits_length in E. lia. }
  replace n with (8 + (n - 8))%nat in E by lia. rewrite repeat_app in E.
  assert (X : to_bits 8 b = repeat false 8 /\ byte_string_bits l ++ p = repeat false (n - 8)).
  { apply app_same; [|exact E]. rewrite to_bits_length, repeat_length. reflexivity. }
  destruct X as [X Y]. f_equal; [|exact (IH p _ Hl Y)].
  rewrite <- zeros_bits in X. apply (f_equal of_bits) in X. rewrite !of_bits_to_bits in X. unfold is_byte in Hb. rewrite !Z.mod_small in X by (cbn; lia). exact X.
Qed.
