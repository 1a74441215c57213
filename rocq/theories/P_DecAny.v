(** What the decoder guarantees on any input, well formed or not: if it returns,
    it kept the sizes of its tables, took no byte beyond the packed size, and
    produced at least the requested number of bytes. *)
From Verif Require Import Go GoLemmas M_Crc M_Bitio P_Bitio M_Maketree M_Maketbl M_Huf P_HufLens M_Slide P_Decode.

Definition bytearr (a : arr) : Prop := forall i, 0 <= i -> is_byte (at_ a i).

Lemma bytearr_upd a i v : bytearr a -> 0 <= i -> is_byte v -> bytearr (upd a i v).
Proof. intros A Hi V j Hj. rewrite at_upd by lia. destruct (j =? i); auto. Qed.

Lemma bytearr_amake n : bytearr (amake n).
Proof. intros i _. rewrite at_amake. unfold is_byte; lia. Qed.

Lemma u8_byte x : is_byte (u8 x).
Proof. apply u8_range. Qed.

(** A loop over [for_up] keeps what its body keeps. *)
Lemma for_up_keep {S} (I : S -> Prop) (body : Z -> S -> res S) : (forall i s s', I s -> body i s = Ok s' -> I s') ->
  forall n lo s s', I s -> for_up n lo body s = Ok s' -> I s'.
Proof.
  intros H. induction n; intros lo s s' Hs E; cbn [for_up] in E; [now injection E as <-|].
  apply bind_ok in E. destruct E as [s1 [E1 E2]]. eapply IHn; [|exact E2]. eapply H; eauto.
Qed.

Lemma forZ_keep {S} (I : S -> Prop) (body : Z -> S -> res S) lo hi s s' : (forall i s s', I s -> body i s = Ok s' -> I s') ->
  I s -> forZ lo hi body s = Ok s' -> I s'.
Proof. intros H. unfold forZ. apply for_up_keep. exact H. Qed.

Lemma for_ctl_keep {S T} (I : S -> Prop) (Q : T -> Prop) (body : Z -> S -> res (ctl S T)) :
  (forall i s c, I s -> body i s = Ok c -> match c with Go s' => I s' | Stop t => Q t end) ->
  forall n lo s c, I s -> for_ctl n lo body s = Ok c -> match c with Go s' => I s' | Stop t => Q t end.
Proof.
  intros H. induction n; intros lo s c Hs E; cbn [for_ctl] in E; [now injection E as <-|].
  apply bind_ok in E. destruct E as [c1 [E1 E2]]. pose proof (H _ _ _ Hs E1) as X. destruct c1.
  - eapply IHn; eauto.
  - injection E2 as <-. exact X.
Qed.

Lemma fill_keep lo hi v a a' : 0 <= lo -> forZ lo hi (fun i t => aset t i v) a = Ok a' ->
  alen a' = alen a /\ (bytearr a -> is_byte v -> bytearr a').
Proof.
  intros Hlo E.
  apply (forZ_keep (fun t => alen t = alen a /\ (bytearr a -> is_byte v -> bytearr t))) in E; auto.
  intros i s s' [A B] X. apply aset_inv in X. destruct X as [X ->]. rewrite alen_upd. split; [auto|].
  intros Ha Hv. apply bytearr_upd; auto; lia.
Qed.

(** ** makeTable *)

Definition same_sizes (s s' : tbl) : Prop :=
  alen (t_table s') = alen (t_table s) /\ alen (t_left s') = alen (t_left s) /\ alen (t_right s') = alen (t_right s).

Lemma same_sizes_refl s : same_sizes s s.
Proof. repeat split. Qed.
Lemma same_sizes_trans a b c : same_sizes a b -> same_sizes b c -> same_sizes a c.
Proof. intros [A1 [A2 A3]] [B1 [B2 B3]]. repeat split; congruence. Qed.

Lemma store_keep w p v s s' : store w p v s = Ok s' -> same_sizes s s'.
Proof.
  unfold store. destruct w; intros E; apply bind_ok in E; destruct E as [t [E1 E2]]; apply aset_inv in E1; destruct E1 as [_ ->];
    injection E2 as <-; repeat split.
Qed.

Lemma ins_step_keep w p pv i s w' p' pv' i' s' : ins_step (w, p, pv, i, s) = Ok (w', p', pv', i', s') -> same_sizes s s'.
Proof.
  unfold ins_step. intros E. apply bind_ok in E. destruct E as [[pv1 s1] [E1 E2]].
  assert (K : same_sizes s s1).
  { destruct (pv =? 0).
    - apply bind_ok in E1. destruct E1 as [l [El E1]]. apply bind_ok in E1. destruct E1 as [r [Er E1]].
      apply bind_ok in E1. destruct E1 as [s2 [Es E1]]. injection E1 as _ <-.
      apply aset_inv in El. apply aset_inv in Er. destruct El as [_ ->], Er as [_ ->]. apply store_keep in Es.
      destruct Es as [K1 [K2 K3]]. cbn [t_table t_left t_right] in *. repeat split; cbn [t_table t_left t_right]; rewrite ?K1, ?K2, ?K3; apply alen_upd || reflexivity.
    - injection E1 as _ <-. apply same_sizes_refl. }
  destruct (Z.testbit i 15); apply bind_ok in E2; destruct E2 as [v [_ E2]]; injection E2 as _ _ _ _ <-; exact K.
Qed.

Lemma insert_long_keep m tb k sk j s s' : insert_long m tb k sk j s = Ok s' -> same_sizes s s'.
Proof.
  unfold insert_long. intros E. apply bind_ok in E. destruct E as [pv [_ E]]. apply bind_ok in E. destruct E as [[[[[w p] x] y] s1] [E1 E2]].
  apply store_keep in E2. eapply same_sizes_trans; [|exact E2].
  apply (forZ_keep (fun st => same_sizes s (snd st))) in E1; [exact E1| |apply same_sizes_refl].
  intros i [[[[w1 p1] x1] y1] s2] [[[[w2 p2] x2] y2] s3] K X. cbn [snd] in *. apply ins_step_keep in X. eapply same_sizes_trans; eauto.
Qed.

Lemma makeTable_keep nchar bl tb table lf rg b s : makeTable nchar bl tb table lf rg = Ok (b, s) ->
  same_sizes (TB table lf rg nchar) s.
Proof.
  unfold makeTable. cbv zeta. intros E. apply bind_ok in E. destruct E as [c [_ E]]. destruct c as [count|].
  2:{ injection E as _ <-. apply same_sizes_refl. }
  apply bind_ok in E. destruct E as [[[start weight] total] [_ E]].
  destruct (_ || _). { injection E as _ <-. apply same_sizes_refl. }
  apply bind_ok in E. destruct E as [[start2 weight2] [_ E]]. apply bind_ok in E. destruct E as [s0 [_ E]].
  apply bind_ok in E. destruct E as [table2 [E2 E]]. apply bind_ok in E. destruct E as [c [E3 E]].
  assert (K2 : alen table2 = alen table).
  { destruct (_ =? 0); [now injection E2 as <-|]. 
    apply (forZ_keep (fun t => alen t = alen table)) in E2; auto. intros i x x' K X. apply aset_inv in X. destruct X as [_ ->]. exact K. }
  apply (for_ctl_keep (fun st => same_sizes (TB table lf rg nchar) (snd st)) (fun s => same_sizes (TB table lf rg nchar) s)) in E3.
  - destruct c as [[x s1]|s1]; cbn [snd] in E3; injection E as _ <-; exact E3.
  - intros i [st s1] c1 K X. cbn [snd] in K. unfold tbl_step in X. apply bind_ok in X. destruct X as [k [_ X]].
    destruct (k =? 0); [injection X as <-; exact K|]. apply bind_ok in X. destruct X as [sk [_ X]]. apply bind_ok in X. destruct X as [wk [_ X]].
    cbv zeta in X. destruct (k <=? tb).
    + apply bind_ok in X. destruct X as [t [X1 X]]. apply bind_ok in X. destruct X as [st2 [_ X]]. injection X as <-. cbn [snd].
      apply (forZ_keep (fun t => alen t = alen (t_table s1))) in X1; auto.
      * destruct K as [K1 [K3 K4]]. cbn [t_table t_left t_right] in *. split; [|split]; cbn [t_table t_left t_right]; congruence.
      * intros a x x' K' Y. apply aset_inv in Y. destruct Y as [_ ->]. exact K'.
    + destruct (4096 <? _); [injection X as <-; exact K|].
      apply bind_ok in X. destruct X as [s2 [X1 X]]. apply bind_ok in X. destruct X as [st2 [_ X]]. injection X as <-. cbn [snd].
      apply insert_long_keep in X1. eapply same_sizes_trans; eauto.
  - cbn [snd]. repeat split; cbn [t_table t_left t_right]; auto.
Qed.

(** ** Reading *)

Definition moved (r r' : rst) : Prop := rwf r' /\ rmove r r'.

Lemma moved_trans a b c : moved a b -> moved b c -> moved a c.
Proof. intros [_ A] [W B]. split; [exact W|]. eapply rmove_trans; eauto. Qed.

Lemma fillbuf_moved n r r' : rwf r -> is_byte n -> fillbuf n r = Ok r' -> moved r r'.
Proof.
  intros W H E. destruct (fillbuf_total n r W) as [r1 [E1 X]]; [unfold is_byte in H; lia|]. rewrite E in E1. injection E1 as <-. exact X.
Qed.

Lemma getbits_moved n r x r' : rwf r -> is_byte n -> getbits n r = Ok (x, r') -> moved r r'.
Proof.
  intros W H E. unfold getbits in E. apply bind_ok in E. destruct E as [r1 [E1 E2]]. injection E2 as _ <-. eapply fillbuf_moved; eauto.
Qed.

Lemma getbits_value n r x r' : rwf r -> 0 <= n <= 16 -> getbits n r = Ok (x, r') -> 0 <= x < 2 ^ n.
Proof.
  intros W H E. destruct (getbits_total n r W H) as [x1 [r1 [E1 [X _]]]]. rewrite E in E1. injection E1 as <- _. exact X.
Qed.

(** The decoder's tables have their sizes and the code lengths are bytes. *)
Record dinv (h : huf) : Prop := {
  dv_sz : dsz h;
  dv_cl : bytearr (cLen h);
  dv_pl : bytearr (ptLen h)
}.

(** What decoding leaves alone. *)
Record dframe (h h' : huf) : Prop := {
  df_cc : cCode h' = cCode h;
  df_pc : ptCode h' = ptCode h;
  df_cf : cFreq h' = cFreq h;
  df_pf : pFreq h' = pFreq h;
  df_tf : tFreq h' = tFreq h;
  df_buf : buf h' = buf h;
  df_np : np h' = np h;
  df_pb : pbit h' = pbit h
}.

Lemma dframe_refl h : dframe h h.
Proof. constructor; reflexivity. Qed.
Lemma dframe_trans a b c : dframe a b -> dframe b c -> dframe a c.
Proof. intros [] []. constructor; congruence. Qed.

Lemma read_ptlen1_moved r c r' : rwf r -> read_ptlen1 r = Ok (c, r') -> moved r r'.
Proof.
  intros W E. unfold read_ptlen1 in E. cbv zeta in E. destruct (_ =? 7).
  - apply bind_ok in E. destruct E as [c1 [_ E]]. apply bind_ok in E. destruct E as [r1 [E1 E]]. injection E as _ <-.
    eapply fillbuf_moved; eauto. apply u8_byte.
  - apply bind_ok in E. destruct E as [r1 [E1 E]]. injection E as _ <-. eapply fillbuf_moved; eauto. unfold is_byte; lia.
Qed.

Lemma moved_refl r : rwf r -> moved r r.
Proof. intros W. split; [exact W|]. apply rmove_refl. apply (rwf_comp _ W). Qed.

Lemma readPtLen_any nn nbit isp h r h' r' : is_byte nbit -> rwf r -> dinv h -> readPtLen nn nbit isp h r = Ok (h', r') ->
  dinv h' /\ dframe h h' /\ moved r r'.
Proof.
  intros Hnb W [D1 D2 D3] E. unfold readPtLen in E. apply bind_ok in E. destruct E as [[n r1] [E1 E]]. apply getbits_moved in E1; auto.
  destruct E1 as [W1 M1]. destruct (n =? 0).
  - apply bind_ok in E. destruct E as [[c r2] [E2 E]]. apply getbits_moved in E2; auto.
    apply bind_ok in E. destruct E as [len [E3 E]]. apply fill_keep in E3; [|lia]. destruct E3 as [A3 B3].
    apply bind_ok in E. destruct E as [tab [E4 E]]. apply fill_keep in E4; [|lia]. destruct E4 as [A4 _].
    injection E as <- <-. split; [|split; [constructor; reflexivity|eapply moved_trans; [split; eauto|exact E2]]].
    constructor; [destruct D1; constructor; cbn; congruence|exact D2|cbn; apply B3; auto; unfold is_byte; lia].
  - apply bind_ok in E. destruct E as [[[i len] r2] [E2 E]].
    assert (K : 0 <= i /\ alen len = alen (ptLen h) /\ bytearr len /\ moved r r2).
    { eapply (loop_partial (fun '(i, len, r2) => 0 <= i /\ alen len = alen (ptLen h) /\ bytearr len /\ moved r r2)
        (fun '(i, len, r2) => 0 <= i /\ alen len = alen (ptLen h) /\ bytearr len /\ moved r r2)) in E2; [exact E2| |].
      - intros [[i1 l1] r3] c [I0 [I1 [I2 I3]]] X. destruct (_ <? _); [|injection X as <-; auto].
        apply bind_ok in X. destruct X as [[c1 r4] [X1 X]]. apply read_ptlen1_moved in X1; [|apply I3].
        apply bind_ok in X. destruct X as [l2 [X2 X]]. apply aset_inv in X2. destruct X2 as [X2 ->].
        assert (B2 : bytearr (upd l1 i1 (u8 c1))) by (apply bytearr_upd; auto; apply u8_byte).
        destruct (_ =? isp).
        + apply bind_ok in X. destruct X as [[c2 r5] [X3 X]]. apply getbits_moved in X3; [|apply X1|unfold is_byte; lia].
          apply bind_ok in X. destruct X as [[i2 l2] [X4 X]]. injection X as <-.
          assert (K2 : 0 <= i2 /\ alen l2 = alen l1 /\ bytearr l2).
          { eapply (loop_partial (fun '(c, i, l) => 0 <= i /\ alen l = alen l1 /\ bytearr l) (fun '(i, l) => 0 <= i /\ alen l = alen l1 /\ bytearr l)) in X4; [exact X4| |].
            - intros [[c3 i3] l3] c4 [J0 [J1 J2]] Y. destruct (_ && _).
              + apply bind_ok in Y. destruct Y as [l4 [Y1 Y]]. apply aset_inv in Y1. destruct Y1 as [_ ->]. injection Y as <-.
                split; [lia|]. split; [exact J1|]. apply bytearr_upd; auto. unfold is_byte; lia.
              + injection Y as <-. auto.
            - split; [lia|]. split; [apply alen_upd|exact B2]. }
          destruct K2 as [K20 [K21 K22]]. split; [exact K20|]. split; [congruence|]. split; [exact K22|].
          eapply moved_trans; [exact I3|]. eapply moved_trans; [exact X1|exact X3].
        + injection X as <-. split; [lia|]. split; [exact I1|]. split; [exact B2|]. eapply moved_trans; [exact I3|exact X1].
      - split; [lia|]. split; [reflexivity|]. split; [exact D3|]. split; auto. }
    destruct K as [K0 [K1 [K2 K3]]].
    apply bind_ok in E. destruct E as [len2 [E3 E]]. apply fill_keep in E3; [|exact K0]. destruct E3 as [A3 B3].
    apply bind_ok in E. destruct E as [[b s] [E4 E]]. apply makeTable_keep in E4. destruct E4 as [S1 [S2 S3]]. cbn [t_table t_left t_right] in *.
    injection E as <- <-. split; [|split; [constructor; reflexivity|exact K3]].
    constructor; [destruct D1; constructor; cbn; congruence|exact D2|cbn; apply B3; auto; unfold is_byte; lia].
Qed.

Lemma readCLen_any h r h' r' : rwf r -> dinv h -> readCLen h r = Ok (h', r') -> dinv h' /\ dframe h h' /\ moved r r'.
Proof.
  intros W [D1 D2 D3] E. unfold readCLen in E. apply bind_ok in E. destruct E as [[n r1] [E1 E]].
  assert (C9 : is_byte cbit) by (unfold is_byte, cbit; lia). apply getbits_moved in E1; auto.
  destruct E1 as [W1 M1]. destruct (n =? 0).
  - apply bind_ok in E. destruct E as [[c r2] [E2 E]]. apply getbits_moved in E2; auto.
    apply bind_ok in E. destruct E as [len [E3 E]]. apply fill_keep in E3; [|lia]. destruct E3 as [A3 B3].
    apply bind_ok in E. destruct E as [tab [E4 E]]. apply fill_keep in E4; [|lia]. destruct E4 as [A4 _].
    injection E as <- <-. split; [|split; [constructor; reflexivity|eapply moved_trans; [split; eauto|exact E2]]].
    constructor; [destruct D1; constructor; cbn; congruence|cbn; apply B3; auto; unfold is_byte; lia|exact D3].
  - apply bind_ok in E. destruct E as [[[i len] r2] [E2 E]].
    assert (K : 0 <= i /\ alen len = alen (cLen h) /\ bytearr len /\ moved r r2).
    { eapply (loop_partial (fun '(i, len, r2) => 0 <= i /\ alen len = alen (cLen h) /\ bytearr len /\ moved r r2)
        (fun '(i, len, r2) => 0 <= i /\ alen len = alen (cLen h) /\ bytearr len /\ moved r r2)) in E2; [exact E2| |].
      - intros [[i1 l1] r3] c [I0 [I1 [I2 I3]]] X. destruct (_ <? _); [|injection X as <-; auto].
        apply bind_ok in X. destruct X as [c1 [_ X]]. apply bind_ok in X. destruct X as [c2 [_ X]].
        apply bind_ok in X. destruct X as [l [X1 X]]. apply aget_inv in X1. destruct X1 as [X1 ->].
        apply bind_ok in X. destruct X as [r4 [X2 X]]. apply fillbuf_moved in X2; [|apply I3|apply D3; lia].
        assert (I4 : moved r r4) by (eapply moved_trans; [exact I3|exact X2]).
        destruct (c2 <=? 2).
        + apply bind_ok in X. destruct X as [[c3 r5] [X3 X]].
          assert (K3 : 0 <= c3 /\ moved r4 r5).
          { destruct (c2 =? 0); [injection X3 as <- <-; split; [lia|apply moved_refl; apply I4]|].
            destruct (c2 =? 1); apply bind_ok in X3; destruct X3 as [[x r6] [Y1 Y2]]; injection Y2 as <- <-;
              (split; [|eapply getbits_moved; [apply I4| |exact Y1]; unfold is_byte, cbit; lia]).
            - apply getbits_value in Y1; [lia|apply I4|lia].
            - apply getbits_value in Y1; [unfold cbit in *; lia|apply I4|unfold cbit; lia]. }
          destruct K3 as [K30 K3].
          apply bind_ok in X. destruct X as [l2 [X4 X]]. injection X as <-. apply fill_keep in X4; [|exact I0]. destruct X4 as [A4 B4].
          split; [lia|]. split; [congruence|]. split; [apply B4; auto; unfold is_byte; lia|]. eapply moved_trans; eauto.
        + apply bind_ok in X. destruct X as [l2 [X3 X]]. apply aset_inv in X3. destruct X3 as [X3 ->]. injection X as <-.
          split; [lia|]. split; [exact I1|]. split; [apply bytearr_upd; auto; apply u8_byte|exact I4].
      - split; [lia|]. split; [reflexivity|]. split; [exact D2|]. split; auto. }
    destruct K as [K0 [K1 [K2 K3]]].
    apply bind_ok in E. destruct E as [len2 [E3 E]]. apply fill_keep in E3; [|exact K0]. destruct E3 as [A3 B3].
    apply bind_ok in E. destruct E as [[b s] [E4 E]]. apply makeTable_keep in E4. destruct E4 as [S1 [S2 S3]]. cbn [t_table t_left t_right] in *.
    injection E as <- <-. split; [|split; [constructor; reflexivity|exact K3]].
    constructor; [destruct D1; constructor; cbn; congruence|cbn; apply B3; auto; unfold is_byte; lia|exact D3].
Qed.

Lemma dinv_blocksize k h : dinv h -> dinv (set_blocksize k h).
Proof. intros [[] ? ?]. constructor; auto. constructor; auto. Qed.

Lemma decodeCSt1_any h r c h' r' : is_byte (pbit h) -> rwf r -> dinv h -> decodeCSt1 h r = Ok (c, h', r') ->
  dinv h' /\ dframe h h' /\ moved r r' /\ 0 <= c < Nc.
Proof.
  intros Hp W D E. unfold decodeCSt1 in E. apply bind_ok in E. destruct E as [[h1 r1] [E1 E]].
  assert (K : dinv h1 /\ dframe h h1 /\ moved r r1).
  { destruct (blocksize h =? 0); [|injection E1 as <- <-; split; [exact D|split; [apply dframe_refl|now apply moved_refl]]].
    unfold readBlockHead in E1. apply bind_ok in E1. destruct E1 as [[b r2] [E2 E1]]. apply getbits_moved in E2; [|exact W|unfold is_byte; lia].
    cbv zeta in E1. apply bind_ok in E1. destruct E1 as [[h3 r3] [E3 E1]].
    apply readPtLen_any in E3; [|unfold is_byte, tbit; lia|apply E2|now apply dinv_blocksize]. destruct E3 as [D3 [F3 M3]].
    apply bind_ok in E1. destruct E1 as [[h4 r4] [E4 E1]]. apply readCLen_any in E4; [|apply M3|exact D3]. destruct E4 as [D4 [F4 M4]].
    apply readPtLen_any in E1; [|rewrite (df_pb _ _ F4), (df_pb _ _ F3); exact Hp|apply M4|exact D4]. destruct E1 as [D5 [F5 M5]].
    split; [exact D5|]. split.
    - eapply dframe_trans; [|exact F5]. eapply dframe_trans; [|exact F4]. destruct F3. constructor; assumption.
    - eapply moved_trans; [exact E2|]. eapply moved_trans; [exact M3|]. eapply moved_trans; [exact M4|exact M5]. }
  destruct K as [D1 [F1 M1]]. cbv zeta in E. cbn [cTable cLen left right set_blocksize] in E.
  apply bind_ok in E. destruct E as [j [_ E]].
  assert (DS : dinv (set_blocksize (u16 (blocksize h1 - 1)) h1)) by now apply dinv_blocksize.
  assert (FS : dframe h (set_blocksize (u16 (blocksize h1 - 1)) h1)) by (destruct F1; constructor; assumption).
  pose proof (dz_cl _ (dv_sz _ D1)) as ZC.
  destruct (j <? Nc).
  - apply bind_ok in E. destruct E as [l [E2 E]]. apply aget_inv in E2. destruct E2 as [X2 ->].
    apply bind_ok in E. destruct E as [r2 [E3 E]]. apply fillbuf_moved in E3; [|apply M1|apply (dv_cl _ D1); lia].
    injection E as <- <- <-. split; [exact DS|]. split; [exact FS|]. split; [eapply moved_trans; eauto|lia].
  - apply bind_ok in E. destruct E as [r2 [E2 E]]. apply fillbuf_moved in E2; [|apply M1|unfold is_byte; lia].
    apply bind_ok in E. destruct E as [j2 [_ E]].
    apply bind_ok in E. destruct E as [l [E3 E]]. apply aget_inv in E3. destruct E3 as [X3 ->].
    apply bind_ok in E. destruct E as [r3 [E4 E]]. apply fillbuf_moved in E4; [|apply E2|apply u8_byte].
    injection E as <- <- <-. split; [exact DS|]. split; [exact FS|]. split; [|lia].
    eapply moved_trans; [exact M1|]. eapply moved_trans; eauto.
Qed.

Lemma decodePSt1_any h r p r' : rwf r -> dinv h -> decodePSt1 h r = Ok (p, r') -> moved r r'.
Proof.
  intros W D E. unfold decodePSt1 in E. apply bind_ok in E. destruct E as [j [_ E]].
  apply bind_ok in E. destruct E as [[j2 r2] [E2 E]].
  assert (M2 : moved r r2).
  { destruct (j <? np h).
    - apply bind_ok in E2. destruct E2 as [l [E3 E2]]. apply aget_inv in E3. destruct E3 as [X3 ->].
      apply bind_ok in E2. destruct E2 as [r3 [E3 E2]]. injection E2 as _ <-. eapply fillbuf_moved; eauto. apply (dv_pl _ D). lia.
    - apply bind_ok in E2. destruct E2 as [r3 [E3 E2]]. apply fillbuf_moved in E3; [|exact W|unfold is_byte; lia].
      apply bind_ok in E2. destruct E2 as [j3 [_ E2]].
      apply bind_ok in E2. destruct E2 as [l [E4 E2]]. apply bind_ok in E2. destruct E2 as [r4 [E5 E2]]. injection E2 as _ <-.
      apply fillbuf_moved in E5; [|apply E3|apply u8_byte]. eapply moved_trans; eauto. }
  destruct (j2 =? 0); [injection E as _ <-; exact M2|].
  apply bind_ok in E. destruct E as [[x r3] [E3 E]]. injection E as _ <-. apply getbits_moved in E3; [|apply M2|apply u8_byte].
  eapply moved_trans; eauto.
Qed.

(** ** The window *)

(** Bytes produced so far. *)
Definition dtot (s : dst) : Z := zlen (concat (rev (d_out s))) + d_loc s.

Record dany (d : Z) (s : dst) : Prop := {
  da_loc : 0 <= d_loc s < d;
  da_small : d = 65536 -> d_out s = []
}.

Lemma dput_any d c s s' : 1 <= d <= 65536 -> dany d s -> dput d c s = Ok s' ->
  dany d s' /\ d_huf s' = d_huf s /\ d_r s' = d_r s /\ d_count s' = d_count s /\ (d < 65536 -> dtot s' = dtot s + 1).
Proof.
  intros Hd [L S] E. unfold dput in E. apply bind_ok in E. destruct E as [t [E1 E]]. cbv zeta in E.
  destruct (Z_lt_ge_dec (d_loc s + 1) 65536) as [Lt|Ge].
  - rewrite u16_id in E by lia. destruct (Z.eqb_spec (d_loc s + 1) d) as [F|F]; injection E as <-.
    + split; [constructor; cbn [d_loc d_out]; lia|]. cbn [d_huf d_r d_count fwriteCrc]. split; [auto|]. split; [auto|]. split; [auto|].
      intros _. unfold dtot. cbn [d_out d_loc fwriteCrc rev d_text]. rewrite concat_snoc, zlen_app. unfold zlen at 2. rewrite slice_list_length. lia.
    + split; [constructor; cbn [d_loc d_out]; [lia|exact S]|]. cbn [d_huf d_r d_count]. split; [auto|]. split; [auto|]. split; [auto|].
      intros _. unfold dtot. cbn [d_out d_loc]. lia.
  - assert (D : d_loc s + 1 = 65536 /\ d = 65536) by lia. destruct D as [D1 D2]. rewrite D1 in E. change (u16 65536) with 0 in E.
    destruct (Z.eqb_spec 0 d); [lia|]. injection E as <-. cbn [d_huf d_r d_count].
    split; [constructor; cbn [d_loc d_out]; [lia|exact S]|]. split; [auto|]. split; [auto|]. split; [auto|]. lia.
Qed.

Lemma dcopy_any d len mp s s' : 1 <= d <= 65536 -> 0 <= len -> dany d s -> dcopy d len mp s = Ok s' ->
  dany d s' /\ d_huf s' = d_huf s /\ d_r s' = d_r s /\ d_count s' = d_count s /\ (d < 65536 -> dtot s' = dtot s + len).
Proof.
  intros Hd Hl D E. unfold dcopy in E.
  apply (forZ_partial (fun i s' => dany d s' /\ d_huf s' = d_huf s /\ d_r s' = d_r s /\ d_count s' = d_count s /\ (d < 65536 -> dtot s' = dtot s + i))) in E; auto.
  - intros i x y Hi [X1 [X2 [X3 [X4 X5]]]] Y. apply bind_ok in Y. destruct Y as [c [_ Y]]. apply dput_any in Y; auto.
    destruct Y as [Y1 [Y2 [Y3 [Y4 Y5]]]]. split; [exact Y1|]. split; [congruence|]. split; [congruence|]. split; [congruence|].
    intros H. rewrite Y5, X5 by lia. lia.
  - split; [exact D|]. split; [auto|]. split; [auto|]. split; [auto|]. lia.
Qed.

Record dloop (d : Z) (h0 : huf) (r0 : rst) (s : dst) : Prop := {
  dl_any : dany d s;
  dl_inv : dinv (d_huf s);
  dl_frame : dframe h0 (d_huf s);
  dl_moved : moved r0 (d_r s);
  dl_count : d < 65536 -> d_count s = dtot s
}.

Lemma decode_step_any d h0 r0 size s c : 1 <= d <= 65536 -> is_byte (pbit h0) -> dloop d h0 r0 s ->
  d_count s < size + 256 -> decode_step d size s = Ok c ->
  match c with Go s' => dloop d h0 r0 s' /\ d_count s' < size + 256 | Stop s' => dloop d h0 r0 s' /\ size <= d_count s' < size + 256 end.
Proof.
  intros Hd Hp [L I F M C] HC E. unfold decode_step in E. destruct (Z.ltb_spec (d_count s) size).
  2:{ injection E as <-. split; [constructor; auto|lia]. }
  apply bind_ok in E. destruct E as [[[ch h1] r1] [E1 E]].
  apply decodeCSt1_any in E1; [|rewrite (df_pb _ _ F); exact Hp|apply M|exact I]. destruct E1 as [D1 [F1 [M1 R1]]].
  cbv zeta in E. destruct (Z.ltb_spec ch 256).
  - apply bind_ok in E. destruct E as [s1 [E2 E]]. apply dput_any in E2; auto.
    2:{ destruct L. constructor; auto. }
    cbn [d_huf d_r d_count] in E2. destruct E2 as [Y1 [Y2 [Y3 [Y4 Y5]]]]. injection E as <-.
    split; [|cbn [d_count]; lia]. constructor; cbn [d_huf d_r d_count]; rewrite ?Y2, ?Y3, ?Y4; auto.
    + destruct Y1. constructor; auto.
    + eapply dframe_trans; eauto.
    + eapply moved_trans; eauto.
    + intros X. unfold dtot in *. cbn [d_out d_loc] in *. rewrite Y5 by exact X. rewrite C by exact X. reflexivity.
  - apply bind_ok in E. destruct E as [[p r2] [E2 E]]. apply decodePSt1_any in E2; [|apply M1|exact D1].
    apply bind_ok in E. destruct E as [s1 [E3 E]]. apply dcopy_any in E3; auto.
    2:{ unfold threshold. lia. }
    2:{ destruct L. constructor; auto. }
    cbn [d_huf d_r d_count] in E3. destruct E3 as [Y1 [Y2 [Y3 [Y4 Y5]]]]. injection E as <-.
    split; [|rewrite Y4; unfold Nc, threshold in *; lia]. constructor; rewrite ?Y2, ?Y3, ?Y4; auto.
    + eapply dframe_trans; eauto.
    + eapply moved_trans; [exact M|]. eapply moved_trans; eauto.
    + intros X. rewrite Y5 by exact X. rewrite C by exact X. unfold dtot. cbn [d_out d_loc]. lia.
Qed.

(** What a call of decode guarantees when it returns. *)
Theorem decode_any dicbit broken size packed inp h x : 0 <= dicbit <= 16 -> dinv h -> is_byte (pbit (set_np_pbit dicbit h)) ->
  0 <= size -> 0 <= packed -> bytes inp ->
  decode dicbit broken size packed inp h = Ok x ->
  dinv (dr_huf x) /\ dframe (set_np_pbit dicbit h) (dr_huf x) /\
  (exists k, 0 <= k <= packed /\ dr_readSize x = k /\ dr_in x = drop k inp) /\
  (dicbit < 16 -> size <= zlen (dr_out x) < size + 256) /\
  (dicbit = 16 -> zlen (dr_out x) < 65536) /\
  dr_crc x = calcCrc 0 (dr_out x).
Proof.
  intros Hk D Hp Hs Hpk Hb E. unfold decode in E. cbv zeta in E. rewrite Z.shiftl_1_l in E.
  assert (P2 : 1 <= 2 ^ dicbit <= 65536 /\ (dicbit < 16 -> 2 ^ dicbit < 65536) /\ (dicbit = 16 -> 2 ^ dicbit = 65536)).
  { change 65536 with (2 ^ 16). assert (0 < 2 ^ dicbit) by (apply Z.pow_pos_nonneg; lia). split; [split; [lia|apply Z.pow_le_mono_r; lia]|].
    split; [intros; apply Z.pow_lt_mono_r; lia|now intros ->]. }
  destruct P2 as [P2 [P3 P4]].
  apply bind_ok in E. destruct E as [r [E1 E]].
  assert (W0 : rwf (RS 0 0 0 packed inp)) by (constructor; simpl; auto; lia).
  unfold initGetbits in E1. apply fillbuf_moved in E1; [|exact W0|unfold is_byte; lia].
  apply bind_ok in E. destruct E as [s [E2 E]].
  set (h0 := decodeStartSt1 dicbit h) in *.
  assert (D0 : dinv h0).
  { unfold h0, decodeStartSt1. apply dinv_blocksize. destruct D as [[] ? ?].
    unfold set_np_pbit. destruct (dicbit =? 12), (dicbit =? 13), (dicbit =? 15), (dicbit =? 16); constructor; auto; constructor; auto. }
  assert (F0 : dframe (set_np_pbit dicbit h) h0) by (constructor; reflexivity).
  eapply (loop_partial (fun s => (dloop (2 ^ dicbit) h0 (RS 0 0 0 packed inp) s /\ d_count s < size + 256) /\ d_crc s = calcCrc 0 (concat (rev (d_out s))))
     (fun s => (dloop (2 ^ dicbit) h0 (RS 0 0 0 packed inp) s /\ size <= d_count s < size + 256) /\ d_crc s = calcCrc 0 (concat (rev (d_out s))))) in E2.
  - destruct E2 as [[[L I F M C] HC] CR]. injection E as <-. cbn [dr_huf dr_readSize dr_in dr_out dr_crc].
    set (s' := if d_loc s =? 0 then s else fwriteCrc (d_loc s) s).
    assert (S1 : d_huf s' = d_huf s) by (unfold s'; destruct (d_loc s =? 0); reflexivity).
    assert (S2 : d_r s' = d_r s) by (unfold s'; destruct (d_loc s =? 0); reflexivity).
    assert (S3 : zlen (concat (rev (d_out s'))) = dtot s).
    { unfold s', dtot. pose proof (da_loc _ _ L). destruct (Z.eqb_spec (d_loc s) 0) as [Z0|Z0]; [lia|].
      unfold fwriteCrc. cbn [d_out rev]. rewrite concat_snoc, zlen_app. unfold zlen at 2. rewrite slice_list_length. lia. }
    assert (S4 : d_crc s' = calcCrc 0 (concat (rev (d_out s')))).
    { unfold s'. destruct (d_loc s =? 0); [exact CR|]. unfold fwriteCrc. cbn [d_crc d_out rev]. now rewrite concat_snoc, calcCrc_app, CR. }
    rewrite S1, S2, S3. split; [exact I|]. split; [eapply dframe_trans; eauto|]. split; [|split; [|split]].
    + destruct M as [_ [M1 M2]]. cbn [compsize infile] in *. exists (packed - compsize (d_r s)). split; [lia|]. split; [reflexivity|exact M2].
    + intros X. rewrite <- C by (apply P3; exact X). lia.
    + intros X. pose proof (da_small _ _ L (P4 X)) as X2. unfold dtot. rewrite X2. cbn [rev concat]. rewrite zlen_nil. pose proof (da_loc _ _ L). lia.
    + exact S4.
  - intros s1 c [[X1 X2] X3] X4. assert (Hp0 : is_byte (pbit h0)) by exact Hp. pose proof (decode_step_any _ _ _ _ _ _ P2 Hp0 X1 X2 X4) as Y.
    assert (CR : match c with Go s' | Stop s' => d_crc s' = calcCrc 0 (concat (rev (d_out s'))) end).
    { unfold decode_step in X4. destruct (_ <? _); [|injection X4 as <-; exact X3].
      assert (DP : forall s2 ch s3, d_crc s2 = calcCrc 0 (concat (rev (d_out s2))) -> dput (2 ^ dicbit) ch s2 = Ok s3 -> d_crc s3 = calcCrc 0 (concat (rev (d_out s3)))).
      { intros s2 ch s3 Z1 Z2. unfold dput in Z2. apply bind_ok in Z2. destruct Z2 as [t [_ Z2]]. cbv zeta in Z2.
        match type of Z2 with context [if ?b then _ else _] => destruct b end; injection Z2 as <-; cbn [d_crc d_out fwriteCrc rev d_text]; [|exact Z1]. now rewrite concat_snoc, calcCrc_app, Z1. }
      apply bind_ok in X4. destruct X4 as [[[ch h1] r1] [_ X4]]. cbv zeta in X4. destruct (ch <? 256).
      - apply bind_ok in X4. destruct X4 as [s2 [Z X4]]. injection X4 as <-. cbn [d_crc d_out]. eapply DP; [|exact Z]. exact X3.
      - apply bind_ok in X4. destruct X4 as [[p r2] [_ X4]]. apply bind_ok in X4. destruct X4 as [s2 [Z X4]]. injection X4 as <-.
        unfold dcopy in Z. apply (forZ_keep (fun s => d_crc s = calcCrc 0 (concat (rev (d_out s))))) in Z; auto.
        intros i s3 s4 K Z1. apply bind_ok in Z1. destruct Z1 as [c2 [_ Z1]]. eapply DP; eauto. }
    destruct c; destruct Y; auto.
  - split; [|reflexivity]. split; [|cbn [d_count]; lia]. constructor; cbn [d_huf d_r d_count].
    + constructor; cbn [d_loc d_out]; auto. lia.
    + exact D0.
    + apply dframe_refl.
    + exact E1.
    + intros _. reflexivity.
Qed.
