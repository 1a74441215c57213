(** What decoding by the older methods leaves alone, for any data. *)
From Verif Require Import Go GoLemmas M_Crc M_Bitio P_Bitio M_Maketree M_Maketbl M_Huf M_Dhuf M_Shuf M_Larc M_Pm2 M_Slide M_Decode P_HufCode P_HufTables P_Lz P_Decode P_DecAny.

Lemma pair_inj {A B} (a c : A) (b d : B) : (a, b) = (c, d) -> a = c /\ b = d.
Proof. intros H. injection H. auto. Qed.

(** ** Frames *)

(** The tables keep their sizes; code lengths stay bytes. *)
Record oframe (h h' : huf) : Prop := {
  of_cc : cCode h' = cCode h;
  of_pc : alen (ptCode h') = alen (ptCode h);
  of_cf : cFreq h' = cFreq h;
  of_pf : pFreq h' = pFreq h;
  of_tf : tFreq h' = tFreq h;
  of_buf : buf h' = buf h;
  of_pb : pbit h' = pbit h
}.

Lemma oframe_refl h : oframe h h.
Proof. constructor; reflexivity. Qed.
Lemma oframe_trans a b c : oframe a b -> oframe b c -> oframe a c.
Proof. intros [] []. constructor; congruence. Qed.

Definition okeep (h h' : huf) : Prop := dinv h -> dinv h' /\ oframe h h'.
Lemma okeep_refl h : okeep h h.
Proof. split; auto using oframe_refl. Qed.
Lemma okeep_trans a b c : okeep a b -> okeep b c -> okeep a c.
Proof. intros H1 H2 D. destruct (H1 D) as [D1 F1]. destruct (H2 D1) as [D2 F2]. split; [exact D2|eapply oframe_trans; eauto]. Qed.

Lemma okeep_np k h : okeep h (set_np k h).
Proof. intros [[] ? ?]. split; [constructor; auto; constructor; auto|constructor; reflexivity]. Qed.
Lemma okeep_blocksize k h : okeep h (set_blocksize k h).
Proof. intros [[] ? ?]. split; [constructor; auto; constructor; auto|constructor; reflexivity]. Qed.

Lemma okeep_use_pt n h h' : use_pt n h = Ok h' -> okeep h h'.
Proof.
  intros E [[] ? ?]. unfold use_pt in E. apply bind_ok in E. destruct E as [[b s] [E1 E]]. apply makeTable_keep in E1. destruct E1 as [S1 [S2 S3]].
  cbn [t_table t_left t_right] in *. injection E as <-. split; [constructor; auto; constructor; cbn; congruence|constructor; reflexivity].
Qed.
Lemma okeep_use_c n h h' : use_c n h = Ok h' -> okeep h h'.
Proof.
  intros E [[] ? ?]. unfold use_c in E. apply bind_ok in E. destruct E as [[b s] [E1 E]]. apply makeTable_keep in E1. destruct E1 as [S1 [S2 S3]].
  cbn [t_table t_left t_right] in *. injection E as <-. split; [constructor; auto; constructor; cbn; congruence|constructor; reflexivity].
Qed.

Lemma okeep_readyMade m h h' : readyMade m h = Ok h' -> okeep h h'.
Proof.
  intros E. unfold readyMade in E. cbv zeta in E. apply bind_ok in E. destruct E as [[[[[j t] w] c] h1] [E1 E]]. injection E as <-.
  change (okeep h (snd (j, t, w, c, h1))).
  apply (forZ_keep (fun s => okeep h (snd s))) in E1; [exact E1| |apply okeep_refl].
  intros i [[[[j1 t1] w1] c1] h2] s' K X. unfold ready_step in X. apply bind_ok in X. destruct X as [[[j2 t2] w2] [_ X]].
  apply bind_ok in X. destruct X as [a [X1 X]]. apply bind_ok in X. destruct X as [b [X2 X]]. injection X as <-. apply aset_inv in X1, X2. destruct X1 as [B1 ->], X2 as [_ ->].
  cbn [snd] in *. eapply okeep_trans; [exact K|]. intros [[] ? ?]. split; [|constructor; cbn; try reflexivity; apply alen_upd].
  constructor; [constructor; cbn; rewrite ?alen_upd; auto|assumption|]. cbn. apply bytearr_upd; auto; [lia|apply u8_byte].
Qed.

(** ** Readers *)

Lemma okeep_readTreeC n1 h r h' r' : rwf r -> readTreeC n1 h r = Ok (h', r') -> okeep h h' /\ moved r r'.
Proof.
  intros W E. unfold readTreeC in E. apply bind_ok in E. destruct E as [[[c len] r1] [E1 E]].
  eapply (loop_partial (fun '(i, l, r2) => 0 <= i /\ alen l = alen (cLen h) /\ (bytearr (cLen h) -> bytearr l) /\ moved r r2)
    (fun '(c, l, r2) => alen l = alen (cLen h) /\ (bytearr (cLen h) -> bytearr l) /\ moved r r2)) in E1.
  2: { intros [[i l] r2] x [I0 [I1 [I2 I3]]] X. destruct (i <? n1); [|injection X as <-; auto].
    apply bind_ok in X. destruct X as [[b r3] [X1 X]]. apply getbits_moved in X1; [|apply I3|unfold is_byte; lia].
    apply bind_ok in X. destruct X as [[v r4] [X2 X]].
    assert (V : is_byte v /\ moved r r4).
    { assert (M3 : moved r r3) by (eapply moved_trans; eauto). destruct (b =? 0); [injection X2 as <- <-; split; [unfold is_byte; lia|exact M3]|].
      apply bind_ok in X2. destruct X2 as [[y r5] [Y1 Y2]]. injection Y2 as <- <-. apply getbits_moved in Y1; [|apply M3|unfold is_byte; lia]. split; [apply u8_byte|eapply moved_trans; eauto]. }
    destruct V as [V1 V2]. apply bind_ok in X. destruct X as [l2 [X3 X]]. apply aset_inv in X3. destruct X3 as [_ ->]. cbv zeta in X.
    assert (B2 : bytearr (cLen h) -> bytearr (upd l i v)) by (intros B; apply bytearr_upd; auto).
    do 3 (apply bind_ok in X; destruct X as [? [_ X]]).
    match type of X with (if ?b then _ else _) = _ => destruct b end.
    - apply bind_ok in X. destruct X as [[c1 r5] [X4 X]]. apply getbits_moved in X4; [|apply V2|unfold is_byte, cbit; lia].
      apply bind_ok in X. destruct X as [l3 [X5 X]]. injection X as <-. apply fill_keep in X5; [|lia]. destruct X5 as [X5 X6].
      split; [rewrite X5, alen_upd; exact I1|]. split; [intros B; apply X6; auto; unfold is_byte; lia|eapply moved_trans; eauto].
    - injection X as <-. split; [lia|]. split; [rewrite alen_upd; exact I1|]. split; assumption. }
  2: { split; [lia|]. split; [reflexivity|]. split; [auto|now apply moved_refl]. }
  destruct E1 as [K1 [K2 K3]].
  assert (K : okeep h (set_cLen len h)).
  { intros [[] ? ?]. split; [|constructor; reflexivity]. constructor; [constructor; cbn; congruence|cbn; auto|assumption]. }
  cbv zeta in E. destruct c as [c|].
  - apply bind_ok in E. destruct E as [tab [E2 E]]. injection E as <- <-. apply fill_keep in E2; [|lia]. destruct E2 as [A4 _]. split; [|exact K3].
    eapply okeep_trans; [exact K|]. intros [[] ? ?]. split; [|constructor; reflexivity]. constructor; [constructor; cbn in *; congruence|assumption|assumption].
  - apply bind_ok in E. destruct E as [h2 [E2 E]]. injection E as <- <-. split; [|exact K3]. eapply okeep_trans; [exact K|]. eapply okeep_use_c; eauto.
Qed.

Lemma okeep_readTreeP h r h' r' : rwf r -> readTreeP h r = Ok (h', r') -> okeep h h' /\ moved r r'.
Proof.
  intros W E. unfold readTreeP in E. apply bind_ok in E. destruct E as [[[c len] r1] [E1 E]].
  eapply (loop_partial (fun '(i, l, r2) => 0 <= i /\ alen l = alen (ptLen h) /\ (bytearr (ptLen h) -> bytearr l) /\ moved r r2)
    (fun '(c, l, r2) => alen l = alen (ptLen h) /\ (bytearr (ptLen h) -> bytearr l) /\ moved r r2)) in E1.
  2: { intros [[i l] r2] x [I0 [I1 [I2 I3]]] X. destruct (i <? 128); [|injection X as <-; auto].
    apply bind_ok in X. destruct X as [[v r4] [X1 X]]. apply getbits_moved in X1; [|apply I3|unfold is_byte; lia].
    assert (V2 : moved r r4) by (eapply moved_trans; eauto).
    apply bind_ok in X. destruct X as [l2 [X3 X]]. apply aset_inv in X3. destruct X3 as [_ ->]. cbv zeta in X.
    assert (B2 : bytearr (ptLen h) -> bytearr (upd l i (u8 v))) by (intros B; apply bytearr_upd; auto; apply u8_byte).
    do 3 (apply bind_ok in X; destruct X as [? [_ X]]).
    match type of X with (if ?b then _ else _) = _ => destruct b end.
    - apply bind_ok in X. destruct X as [[c1 r5] [X4 X]]. apply getbits_moved in X4; [|apply V2|unfold is_byte; lia].
      apply bind_ok in X. destruct X as [l3 [X5 X]]. injection X as <-. apply fill_keep in X5; [|lia]. destruct X5 as [X5 X6].
      split; [rewrite X5, alen_upd; exact I1|]. split; [intros B; apply X6; auto; unfold is_byte; lia|eapply moved_trans; eauto].
    - injection X as <-. split; [lia|]. split; [rewrite alen_upd; exact I1|]. split; assumption. }
  2: { split; [lia|]. split; [reflexivity|]. split; [auto|now apply moved_refl]. }
  destruct E1 as [K1 [K2 K3]].
  assert (K : okeep h (set_ptLen len h)).
  { intros [[] ? ?]. split; [|constructor; reflexivity]. constructor; [constructor; cbn; congruence|assumption|cbn; auto]. }
  cbv zeta in E. destruct c as [c|].
  - apply bind_ok in E. destruct E as [tab [E2 E]]. injection E as <- <-. apply fill_keep in E2; [|lia]. destruct E2 as [A4 _]. split; [|exact K3].
    eapply okeep_trans; [exact K|]. intros [[] ? ?]. split; [|constructor; reflexivity]. constructor; [constructor; cbn in *; congruence|assumption|assumption].
  - injection E as <- <-. split; [exact K|exact K3].
Qed.

Lemma block_head_any n1 h r h' r' : rwf r -> block_head n1 h r = Ok (h', r') -> okeep h h' /\ moved r r'.
Proof.
  intros W E. unfold block_head in E. apply bind_ok in E. destruct E as [[b r1] [E1 E]]. apply getbits_moved in E1; [|exact W|unfold is_byte; lia].
  apply bind_ok in E. destruct E as [[h2 r2] [E2 E]]. apply okeep_readTreeC in E2; [|apply E1]. destruct E2 as [K2 M2].
  apply bind_ok in E. destruct E as [[x r3] [E3 E]]. apply getbits_moved in E3; [|apply M2|unfold is_byte; lia].
  apply bind_ok in E. destruct E as [[h4 r4] [E4 E]].
  assert (K4 : okeep h2 h4 /\ moved r3 r4).
  { destruct (x =? 0).
    - apply bind_ok in E4. destruct E4 as [h5 [X1 X2]]. injection X2 as <- <-. split; [eapply okeep_readyMade; eauto|apply moved_refl; apply E3].
    - eapply okeep_readTreeP; eauto. apply E3. }
  apply bind_ok in E. destruct E as [h5 [E5 E]]. injection E as <- <-. apply okeep_use_pt in E5. destruct K4 as [K4 M4].
  split.
  - eapply okeep_trans; [apply okeep_blocksize|]. eapply okeep_trans; [exact K2|]. eapply okeep_trans; eauto.
  - eapply moved_trans; [exact E1|]. eapply moved_trans; [exact M2|]. eapply moved_trans; [exact E3|exact M4].
Qed.

Lemma decodeCSt0_any n1 h r c h' r' : rwf r -> dinv h -> decodeCSt0 n1 h r = Ok (c, h', r') -> okeep h h' /\ moved r r' /\ 0 <= c.
Proof.
  intros W D E. unfold decodeCSt0 in E. apply bind_ok in E. destruct E as [[h1 r1] [E1 E]].
  assert (K : okeep h h1 /\ moved r r1).
  { destruct (blocksize h =? 0); [eapply block_head_any; eauto|]. injection E1 as <- <-. split; [apply okeep_refl|now apply moved_refl]. }
  destruct K as [K1 M1]. cbv zeta in E. set (h2 := set_blocksize _ h1) in E.
  assert (K2 : okeep h h2) by (eapply okeep_trans; [exact K1|apply okeep_blocksize]). destruct (K2 D) as [D2 _].
  apply bind_ok in E. destruct E as [j [_ E]]. apply bind_ok in E. destruct E as [[j2 r2] [E2 E]].
  assert (M2 : moved r r2).
  { destruct (j <? n1).
    - apply bind_ok in E2. destruct E2 as [l [E3 E2]]. apply aget_inv in E3. destruct E3 as [X3 ->].
      apply bind_ok in E2. destruct E2 as [r3 [E3 E2]]. injection E2 as _ <-. apply fillbuf_moved in E3; [eapply moved_trans; eauto|apply M1|]. apply (dv_cl _ D2). lia.
    - apply bind_ok in E2. destruct E2 as [r3 [E3 E2]]. apply fillbuf_moved in E3; [|apply M1|unfold is_byte; lia].
      apply bind_ok in E2. destruct E2 as [j3 [_ E2]].
      apply bind_ok in E2. destruct E2 as [l [E4 E2]]. apply bind_ok in E2. destruct E2 as [r4 [E5 E2]]. injection E2 as _ <-.
      apply fillbuf_moved in E5; [|apply E3|apply u8_byte]. eapply moved_trans; [exact M1|]. eapply moved_trans; eauto. }
  destruct (j2 =? n1 - 1).
  - apply bind_ok in E. destruct E as [[x r3] [E3 E]]. injection E as <- <- <-. apply getbits_moved in E3; [|apply M2|unfold is_byte; lia].
    split; [exact K2|]. split; [eapply moved_trans; eauto|]. unfold u16. apply Z.mod_pos_bound. lia.
  - injection E as <- <- <-. split; [exact K2|]. split; [exact M2|]. unfold u16. apply Z.mod_pos_bound. lia.
Qed.

Lemma decodePSt0_any h r p r' : rwf r -> dinv h -> decodePSt0 h r = Ok (p, r') -> moved r r'.
Proof.
  intros W D E. unfold decodePSt0 in E. apply bind_ok in E. destruct E as [j [_ E]].
  apply bind_ok in E. destruct E as [[j2 r2] [E2 E]].
  assert (M2 : moved r r2).
  { destruct (j <? np h).
    - apply bind_ok in E2. destruct E2 as [l [E3 E2]]. apply aget_inv in E3. destruct E3 as [X3 ->].
      apply bind_ok in E2. destruct E2 as [r3 [E3 E2]]. injection E2 as _ <-. eapply fillbuf_moved; eauto. apply (dv_pl _ D). lia.
    - apply bind_ok in E2. destruct E2 as [r3 [E3 E2]]. apply fillbuf_moved in E3; [|exact W|unfold is_byte; lia].
      apply bind_ok in E2. destruct E2 as [j3 [_ E2]].
      apply bind_ok in E2. destruct E2 as [l [E4 E2]]. apply bind_ok in E2. destruct E2 as [r4 [E5 E2]]. injection E2 as _ <-.
      apply fillbuf_moved in E5; [|apply E3|apply u8_byte]. eapply moved_trans; eauto. }
  apply bind_ok in E. destruct E as [[x r3] [E3 E]]. injection E as _ <-. apply getbits_moved in E3; [|apply M2|unfold is_byte; lia].
  eapply moved_trans; eauto.
Qed.

(** ** Adaptive codes *)

Lemma follow_any child first c r c' r' : rwf r -> follow child first c r = Ok (c', r') -> moved r r'.
Proof.
  intros W E. unfold follow in E. apply bind_ok in E. destruct E as [[[c1 cnt] r1] [E1 E]].
  eapply (loop_partial (fun '(f, c, b, cnt, r1) => 0 <= cnt < 16 /\ moved r r1) (fun '(c, cnt, r1) => 0 <= cnt < 16 /\ moved r r1)) in E1.
  - destruct E1 as [C M]. apply bind_ok in E. destruct E as [r2 [E2 E]]. injection E as _ <-. apply fillbuf_moved in E2; [|apply M|unfold is_byte; lia]. eapply moved_trans; eauto.
  - intros [[[[f c2] b] cnt2] r2] x [C M] X. unfold follow_step in X. destruct (f || (0 <? c2)); [|injection X as <-; auto].
    apply bind_ok in X. destruct X as [c3 [_ X]]. cbv zeta in X. destruct (Z.eqb_spec (cnt2 + 1) 16).
    + apply bind_ok in X. destruct X as [r3 [X1 X]]. injection X as <-. apply fillbuf_moved in X1; [|apply M|unfold is_byte; lia]. split; [lia|eapply moved_trans; eauto].
    + injection X as <-. split; [lia|exact M].
  - split; [lia|now apply moved_refl].
Qed.

Lemma decodeCDyn_any d r c d' r' : rwf r -> decodeCDyn d r = Ok (c, d', r') -> moved r r' /\ 0 <= c.
Proof.
  intros W E. unfold decodeCDyn in E. apply bind_ok in E. destruct E as [c0 [_ E]]. apply bind_ok in E. destruct E as [[c1 r1] [E1 E]]. apply follow_any in E1; [|exact W].
  cbv zeta in E. apply bind_ok in E. destruct E as [d1 [_ E]]. destruct (_ =? _).
  - apply bind_ok in E. destruct E as [[x r2] [E2 E]]. injection E as <- _ <-. apply getbits_moved in E2; [|apply E1|unfold is_byte; lia].
    split; [eapply moved_trans; eauto|]. unfold u16. apply Z.mod_pos_bound. lia.
  - injection E as <- _ <-. split; [exact E1|]. unfold u16. apply Z.mod_pos_bound. lia.
Qed.

Lemma decodePDyn_any n d r c d' r' : rwf r -> decodePDyn n d r = Ok (c, d', r') -> moved r r'.
Proof.
  intros W E. unfold decodePDyn in E. apply bind_ok in E. destruct E as [d0 [_ E]]. apply bind_ok in E. destruct E as [c0 [_ E]].
  apply bind_ok in E. destruct E as [[c1 r1] [E1 E]]. apply follow_any in E1; [|exact W].
  cbv zeta in E. apply bind_ok in E. destruct E as [d1 [_ E]].
  apply bind_ok in E. destruct E as [[x r2] [E2 E]]. injection E as _ _ <-. apply getbits_moved in E2; [|apply E1|unfold is_byte; lia]. eapply moved_trans; eauto.
Qed.

(** ** -lzs- and -pm2- *)

Lemma decodeCLzs_any m r c m' r' : rwf r -> decodeCLzs m r = Ok (c, m', r') -> moved r r' /\ 0 <= c < 272.
Proof.
  intros W E. unfold decodeCLzs in E. apply bind_ok in E. destruct E as [[b r1] [E1 E]]. apply getbits_moved in E1; [|exact W|unfold is_byte; lia].
  destruct (b =? 0).
  - apply bind_ok in E. destruct E as [[p r2] [E2 E]]. apply getbits_moved in E2; [|apply E1|unfold is_byte; lia].
    apply bind_ok in E. destruct E as [[n r3] [E3 E]]. injection E as <- _ <-. pose proof (getbits_value 4 r2 n r3 (proj1 E2) ltac:(lia) E3) as V.
    apply getbits_moved in E3; [|apply E2|unfold is_byte; lia]. split; [eapply moved_trans; [exact E1|]; eapply moved_trans; eauto|].
    rewrite u16_id by lia. change (2 ^ 4) with 16 in V. lia.
  - apply bind_ok in E. destruct E as [[p r2] [E2 E]]. injection E as <- _ <-. pose proof (getbits_value 8 r1 p r2 (proj1 E1) ltac:(lia) E2) as V.
    apply getbits_moved in E2; [|apply E1|unfold is_byte; lia]. split; [eapply moved_trans; eauto|]. change (2 ^ 8) with 256 in V. lia.
Qed.

Lemma treeGet_any t r c r' : rwf r -> treeGet t r = Ok (c, r') -> moved r r' /\ 0 <= c < 128.
Proof.
  intros W E. unfold treeGet in E.
  eapply (loop_partial (fun '(i, r1) => moved r r1) (fun '(c, r1) => moved r r1 /\ 0 <= c < 128)) in E.
  - exact E.
  - intros [i r1] x M X. unfold tree_step in X. destruct (i <? 128).
    + apply bind_ok in X. destruct X as [j [_ X]]. apply bind_ok in X. destruct X as [[b r2] [X1 X]]. apply getbits_moved in X1; [|apply M|unfold is_byte; lia].
      destruct (b =? 0); [apply bind_ok in X; destruct X as [k [_ X]]|]; injection X as <-; eapply moved_trans; eauto.
    + injection X as <-. split; [exact M|]. change 127 with (Z.ones 7). rewrite Z.land_ones by lia. apply Z.mod_pos_bound. lia.
  - now apply moved_refl.
Qed.

Lemma read_table {S} (n : S -> Z) (bound : Z) (f : S -> S) (r r' : rst) (s s' : S) (F : Z -> S -> S) :
  rwf r -> (forall s, is_byte (n s)) ->
  forZ 0 bound (fun _ '(l, r) => '(x, r) <- getbits (n l) r ;; Ok (F x l, r)) (s, r) = Ok (s', r') -> moved r r'.
Proof.
  intros W Hn E. apply (forZ_keep (fun '(l, r1) => moved r r1)) in E; [exact E| |now apply moved_refl].
  intros i [l r1] [l2 r2] M X. apply bind_ok in X. destruct X as [[x r3] [X1 X]]. injection X as _ <-. apply getbits_moved in X1; [|apply M|apply Hn]. eapply moved_trans; eauto.
Qed.

Lemma maketree1_any m r m' r' : rwf r -> maketree1 m r = Ok (m', r') -> moved r r'.
Proof.
  intros W E. unfold maketree1 in E. apply bind_ok in E. destruct E as [[b r1] [E1 E]]. apply getbits_moved in E1; [|exact W|unfold is_byte; lia].
  apply bind_ok in E. destruct E as [[mn r2] [E2 E]]. apply getbits_moved in E2; [|apply E1|unfold is_byte; lia].
  cbv zeta in E. destruct (mn =? 0); [injection E as _ <-; eapply moved_trans; eauto|].
  apply bind_ok in E. destruct E as [[nb r3] [E3 E]]. pose proof (getbits_value 3 r2 nb r3 (proj1 E2) ltac:(lia) E3) as V. change (2 ^ 3) with 8 in V.
  apply getbits_moved in E3; [|apply E2|unfold is_byte; lia].
  apply bind_ok in E. destruct E as [[tb r4] [E4 E]].
  apply (read_table (fun _ => nb) b (fun s => s) r3 r4 [] tb (fun x l => l ++ [if x =? 0 then 0 else u8 (u8 (u8 x - 1) + mn)])) in E4; [|apply E3|intros _; unfold is_byte; lia].
  apply bind_ok in E. destruct E as [t [_ E]]. injection E as _ <-.
  eapply moved_trans; [exact E1|]. eapply moved_trans; [exact E2|]. eapply moved_trans; eauto.
Qed.

Lemma maketree2_any b m r m' r' : rwf r -> maketree2 b m r = Ok (m', r') -> moved r r'.
Proof.
  intros W E. unfold maketree2 in E. destruct (pm_bound m <? 10); [injection E as _ <-; now apply moved_refl|].
  destruct (_ && _); [injection E as _ <-; now apply moved_refl|].
  apply bind_ok in E. destruct E as [[tb r4] [E4 E]].
  apply (read_table (fun _ => 3) b (fun s => s) r r4 [] tb (fun x l => l ++ [u8 x])) in E4; [|exact W|intros _; unfold is_byte; lia].
  cbv zeta in E. destruct (filter _ _) as [|i [|j l]].
  - injection E as _ <-. exact E4.
  - injection E as _ <-. exact E4.
  - apply bind_ok in E. destruct E as [t [_ E]]. injection E as _ <-. exact E4.
Qed.

Lemma renew_any count next m r n' m' r' : rwf r -> renew count next m r = Ok (n', m', r') -> moved r r'.
Proof.
  intros W E. unfold renew in E.
  eapply (loop_partial (fun '(_, _, r1) => moved r r1) (fun '(_, _, r1) => moved r r1)) in E; [exact E| |now apply moved_refl].
  intros [[n1 m1] r1] x M X. destruct (n1 <=? count); [|injection X as <-; exact M].
  destruct (n1 =? 0).
  { apply bind_ok in X. destruct X as [[m2 r2] [X1 X]]. apply maketree1_any in X1; [|apply M].
    apply bind_ok in X. destruct X as [[m3 r3] [X2 X]]. apply maketree2_any in X2; [|apply X1]. injection X as <-.
    eapply moved_trans; [exact M|]. eapply moved_trans; eauto. }
  destruct (n1 =? 1024).
  { apply bind_ok in X. destruct X as [[m3 r3] [X2 X]]. apply maketree2_any in X2; [|apply M]. injection X as <-. eapply moved_trans; eauto. }
  destruct (n1 =? 2048).
  { apply bind_ok in X. destruct X as [[m3 r3] [X2 X]]. apply maketree2_any in X2; [|apply M]. injection X as <-. eapply moved_trans; eauto. }
  destruct (n1 =? 4096); apply bind_ok in X; destruct X as [[b r2] [X1 X]]; (apply getbits_moved in X1; [|apply M|unfold is_byte; lia]).
  - apply bind_ok in X. destruct X as [[m3 r3] [X2 X]].
    assert (M3 : moved r2 r3) by (destruct (b =? 0); [injection X2 as _ <-; apply moved_refl; apply X1|eapply maketree1_any; eauto; apply X1]).
    apply bind_ok in X. destruct X as [[m4 r4] [X3 X]]. apply maketree2_any in X3; [|apply M3]. injection X as <-.
    eapply moved_trans; [exact M|]. eapply moved_trans; [exact X1|]. eapply moved_trans; eauto.
  - apply bind_ok in X. destruct X as [[m3 r3] [X2 X]]. injection X as <-.
    assert (M3 : moved r2 r3).
    { destruct (b =? 0); [injection X2 as _ <-; apply moved_refl; apply X1|]. apply bind_ok in X2. destruct X2 as [[m4 r4] [X3 X4]].
      apply maketree1_any in X3; [|apply X1]. apply maketree2_any in X4; [|apply X3]. eapply moved_trans; eauto. }
    eapply moved_trans; [exact M|]. eapply moved_trans; eauto.
Qed.

Lemma nth_byte l i : Forall (fun x => 0 <= x <= 8) l -> is_byte (nth i l 0).
Proof.
  intros F. unfold is_byte. destruct (le_lt_dec (length l) i) as [L|L]; [rewrite nth_overflow by exact L; lia|].
  pose proof (proj1 (Forall_forall _ _) F _ (nth_In _ 0 L)) as H. cbn beta in H. lia.
Qed.

Lemma decodeCPm2_any text loc count next m r c n' m' r' : rwf r -> decodeCPm2 text loc count next m r = Ok (c, n', m', r') -> moved r r'.
Proof.
  intros W E. unfold decodeCPm2 in E. apply bind_ok in E. destruct E as [m1 [_ E]].
  apply bind_ok in E. destruct E as [[[n2 m2] r2] [E2 E]]. apply renew_any in E2; [|exact W].
  apply bind_ok in E. destruct E as [[g r3] [E3 E]]. apply treeGet_any in E3; [|apply E2]. destruct E3 as [M3 G3]. cbv zeta in E.
  assert (M : moved r r3) by (eapply moved_trans; eauto).
  destruct (29 <=? g); [injection E as _ _ _ <-; exact M|]. destruct (g <? 8).
  - apply bind_ok in E. destruct E as [[x r4] [E4 E]]. apply bind_ok in E. destruct E as [ch [_ E]]. injection E as _ _ _ <-.
    apply getbits_moved in E4; [eapply moved_trans; eauto|apply M|]. apply nth_byte. unfold historyBits. repeat constructor; lia.
  - destruct (g <? 23); [injection E as _ _ _ <-; exact M|]. apply bind_ok in E. destruct E as [[x r4] [E4 E]]. injection E as _ _ _ <-.
    apply getbits_moved in E4; [eapply moved_trans; eauto|apply M|]. apply nth_byte. unfold repeatBits. repeat constructor; lia.
Qed.

Lemma decodePPm2_any m r p r' : rwf r -> decodePPm2 m r = Ok (p, r') -> moved r r'.
Proof.
  intros W E. unfold decodePPm2 in E. apply bind_ok in E. destruct E as [[[nb dl] r1] [E1 E]].
  apply bind_ok in E. destruct E as [[x r2] [E2 E]]. injection E as _ <-.
  assert (M : moved r r1).
  { destruct (pm_get m =? 8); [injection E1 as _ _ <-; now apply moved_refl|]. destruct (pm_get m <? 28); [|injection E1 as _ _ <-; now apply moved_refl].
    apply bind_ok in E1. destruct E1 as [[g r3] [E3 E1]]. apply treeGet_any in E3; [|exact W]. destruct (g =? 0); injection E1 as _ _ <-; apply E3. }
  apply getbits_moved in E2; [eapply moved_trans; eauto|apply M|apply u8_byte].
Qed.

(** ** The loop *)

(** The reader moved forward; only -lz5- reads without counting. *)
Definition fwd (method : Z) (r r' : rst) : Prop :=
  rwf r' /\ (exists k, 0 <= k /\ infile r' = drop k (infile r)) /\ (method <> 9 -> rmove r r') /\ (method = 9 -> compsize r' = compsize r).

Lemma moved_fwd method r r' : method <> 9 -> moved r r' -> fwd method r r'.
Proof.
  intros N [W M]. split; [exact W|]. split; [|split; [auto|intros; lia]]. destruct M as [M1 M2]. exists (compsize r - compsize r'). split; [lia|exact M2].
Qed.
Lemma fwd_refl method r : rwf r -> fwd method r r.
Proof. intros W. split; [exact W|]. split; [exists 0; split; [lia|reflexivity]|]. split; [intros _; apply rmove_refl; apply (rwf_comp _ W)|auto]. Qed.
Lemma fwd_trans method a b c : fwd method a b -> fwd method b c -> fwd method a c.
Proof.
  intros [_ [[k1 [K1 I1]] [A2 A3]]] [W [[k2 [K2 I2]] [B2 B3]]]. split; [exact W|]. split; [|split].
  - exists (k1 + k2). split; [lia|]. now rewrite I2, I1, drop_drop by lia.
  - intros N. eapply rmove_trans; eauto.
  - intros N. rewrite B3, A3 by exact N. reflexivity.
Qed.

Lemma read1_drop l c i : read1 l = (c, i) -> i = drop 1 l.
Proof. unfold read1. destruct l; intros H; injection H as <- <-; reflexivity. Qed.

Lemma drop1_drop k (l : list Z) : 0 <= k -> drop 1 (drop k l) = drop (k + 1) l.
Proof. intros. now rewrite drop_drop by lia. Qed.

Lemma decodeCLz5_any s : exists k, 0 <= k /\ z_in (snd (decodeCLz5 s)) = drop k (z_in s).
Proof.
  unfold decodeCLz5.
  assert (K : exists k, 0 <= k /\ z_in (snd (if z_cnt s =? 0 then match read1 (z_in s) with (None, i) => (0, true, LZ5 8 (z_flag s) (z_pos s) i) | (Some b, i) => (b, false, LZ5 8 b (z_pos s) i) end else (0, false, s))) = drop k (z_in s)).
  { destruct (z_cnt s =? 0); [|exists 0; split; [lia|reflexivity]]. destruct (read1 (z_in s)) as [[b|] i] eqn:R; apply read1_drop in R; exists 1; (split; [lia|exact R]). }
  destruct (if z_cnt s =? 0 then _ else _) as [[b stop] s1]. cbn [snd] in K. destruct K as [k [K0 K]].
  destruct stop; [exists k; auto|]. cbv zeta.
  assert (R1 : exists c i, (match read1 (z_in s1) with (None, i) => (b, i) | (Some c, i) => (c, i) end) = (c, i) /\ i = drop 1 (z_in s1)).
  { destruct (read1 (z_in s1)) as [[c|] i] eqn:R; apply read1_drop in R; eauto. }
  destruct R1 as [c [i [-> ->]]]. cbn [z_flag z_cnt z_pos].
  destruct (Z.land (z_flag s1) 1 =? 0).
  - destruct (read1 (drop 1 (z_in s1))) as [[e|] i2] eqn:R; apply read1_drop in R; cbn [snd z_in]; exists (k + 1 + 1); (split; [lia|]); rewrite R, K, !drop_drop by lia; f_equal; lia.
  - cbn [snd z_in]. exists (k + 1). split; [lia|]. now rewrite K, drop1_drop by lia.
Qed.

Lemma decodeCLz5_range s : 0 <= z_cnt s -> bytes (z_in s) -> 0 <= fst (decodeCLz5 s) < 272.
Proof.
  intros _ B. unfold decodeCLz5.
  assert (RB : forall l c i, bytes l -> read1 l = (Some c, i) -> 0 <= c < 256 /\ bytes i).
  { intros l c i X. unfold read1. destruct l as [|x l]; intros H; [discriminate|]. injection H as <- <-. inversion X; subst. auto. }
  assert (RN : forall l i, read1 l = (None, i) -> i = []) by (intros l i; unfold read1; destruct l; intros H; [now injection H|discriminate]).
  destruct (z_cnt s =? 0).
  - destruct (read1 (z_in s)) as [[b|] i] eqn:R; [|cbn; lia]. destruct (RB _ _ _ B R) as [B1 B2]. cbv zeta. cbn [z_in].
    destruct (read1 i) as [[c|] i2] eqn:R2.
    + destruct (RB _ _ _ B2 R2) as [B3 B4]. cbn [z_flag]. destruct (Z.land b 1 =? 0); [|cbn; lia].
      destruct (read1 i2) as [[e|] i3] eqn:R3; [|cbn; lia]. cbn [fst]. change 15 with (Z.ones 4). rewrite Z.land_ones by lia. pose proof (Z.mod_pos_bound e (2 ^ 4) ltac:(lia)). change (2 ^ 4) with 16 in *. lia.
    + apply RN in R2. subst i2. cbn [z_flag]. destruct (Z.land b 1 =? 0); cbn; lia.
  - cbv zeta. destruct (read1 (z_in s)) as [[c|] i2] eqn:R2.
    + destruct (RB _ _ _ B R2) as [B3 B4]. cbn [z_flag]. destruct (Z.land (z_flag s) 1 =? 0); [|cbn; lia].
      destruct (read1 i2) as [[e|] i3] eqn:R3; [|cbn; lia]. cbn [fst]. change 15 with (Z.ones 4). rewrite Z.land_ones by lia. pose proof (Z.mod_pos_bound e (2 ^ 4) ltac:(lia)). change (2 ^ 4) with 16 in *. lia.
    + apply RN in R2. subst i2. cbn [z_flag]. destruct (Z.land (z_flag s) 1 =? 0); cbn; lia.
Qed.

(** What a decoder step does to the rest of the state. *)
Definition stepped (method : Z) (s s' : dst) : Prop :=
  okeep (d_huf s) (d_huf s') /\ fwd method (d_r s) (d_r s') /\
  d_text s' = d_text s /\ d_loc s' = d_loc s /\ d_crc s' = d_crc s /\ d_out s' = d_out s /\ d_count s' = d_count s.

Lemma stepped_refl method s : rwf (d_r s) -> stepped method s s.
Proof. intros W. repeat split; auto using okeep_refl; try (apply okeep_refl; assumption); try apply W; try apply (fwd_refl method _ W); assumption. Qed.

Lemma stepped_r method s r : fwd method (d_r s) r -> stepped method s (with_r r s).
Proof. intros F. split; [apply okeep_refl|]. split; [exact F|]. repeat split. Qed.

Lemma decodeMethodC_any method s x c s' x' : rwf (d_r s) -> dinv (d_huf s) -> decodeMethodC method s x = Ok (c, s', x') -> stepped method s s'.
Proof.
  intros W D E. unfold decodeMethodC in E. destruct (_ || _) eqn:M12.
  { apply bind_ok in E. destruct E as [[[c1 d1] r1] [E1 E]]. injection E as <- <- <-. apply decodeCDyn_any in E1; [|exact W]. apply stepped_r. apply moved_fwd; [|apply E1].
    intros ->. discriminate. }
  destruct (Z.eqb_spec method 3) as [->|N3].
  { apply bind_ok in E. destruct E as [[[c1 h1] r1] [E1 E]]. injection E as <- <- <-. apply decodeCSt0_any in E1; auto. destruct E1 as [K [M _]].
    split; [exact K|]. split; [apply moved_fwd; [lia|exact M]|]. repeat split. }
  destruct (Z.eqb_spec method 8) as [->|N8].
  { apply bind_ok in E. destruct E as [[[c1 p1] r1] [E1 E]]. injection E as <- <- <-. apply decodeCLzs_any in E1; [|exact W]. apply stepped_r. apply moved_fwd; [lia|apply E1]. }
  destruct (Z.eqb_spec method 9) as [->|N9].
  { cbv zeta in E. destruct (decodeCLz5 _) as [c1 z] eqn:Z5. injection E as <- <- <-. apply stepped_r.
    destruct (decodeCLz5_any (LZ5 (x_cnt x) (x_flag x) (x_pos x) (infile (d_r s)))) as [k [K0 K]]. rewrite Z5 in K. cbn [snd z_in] in K.
    destruct W as [W1 W2 W3 W4 W5]. split; [|split; [exists k; auto|split; [lia|reflexivity]]]. constructor; cbn; auto. rewrite K. unfold bytes, drop in *. rewrite <- (firstn_skipn (Z.to_nat k) (infile (d_r s))) in W5. now apply Forall_app in W5. }
  destruct (Z.eqb_spec method 13) as [->|N13].
  { apply bind_ok in E. destruct E as [[[[c1 n1] m1] r1] [E1 E]]. injection E as <- <- <-. apply decodeCPm2_any in E1; [|exact W]. apply stepped_r. apply moved_fwd; [lia|exact E1]. }
  injection E as <- <- <-. now apply stepped_refl.
Qed.

Lemma decodeMethodP_any method s x p s' x' : rwf (d_r s) -> dinv (d_huf s) -> decodeMethodP method s x = Ok (p, s', x') -> stepped method s s'.
Proof.
  intros W D E. unfold decodeMethodP in E. destruct (_ || _) eqn:M12.
  { apply bind_ok in E. destruct E as [[p1 r1] [E1 E]]. injection E as <- <- <-. apply decodePSt0_any in E1; auto. apply stepped_r. apply moved_fwd; [|exact E1]. intros ->. discriminate. }
  destruct (Z.eqb_spec method 2) as [->|N2].
  { apply bind_ok in E. destruct E as [[[p1 d1] r1] [E1 E]]. injection E as <- <- <-. apply decodePDyn_any in E1; auto. apply stepped_r. apply moved_fwd; [lia|exact E1]. }
  destruct (Z.eqb_spec method 8) as [->|N8]; [injection E as <- <- <-; now apply stepped_refl|].
  destruct (Z.eqb_spec method 9) as [->|N9]; [injection E as <- <- <-; now apply stepped_refl|].
  destruct (Z.eqb_spec method 13) as [->|N13].
  { apply bind_ok in E. destruct E as [[p1 r1] [E1 E]]. injection E as <- <- <-. apply decodePPm2_any in E1; auto. apply stepped_r. apply moved_fwd; [lia|exact E1]. }
  injection E as <- <- <-. now apply stepped_refl.
Qed.

Record oloop (method d : Z) (h0 : huf) (r0 : rst) (s : dst) : Prop := {
  ol_any : dany d s;
  ol_inv : dinv (d_huf s);
  ol_frame : oframe h0 (d_huf s);
  ol_fwd : fwd method r0 (d_r s);
  ol_count : d_count s = dtot s;
  ol_crc : d_crc s = calcCrc 0 (concat (rev (d_out s)))
}.

Lemma dput_crc d ch s s' : d_crc s = calcCrc 0 (concat (rev (d_out s))) -> dput d ch s = Ok s' -> d_crc s' = calcCrc 0 (concat (rev (d_out s'))).
Proof.
  intros Z1 Z2. unfold dput in Z2. apply bind_ok in Z2. destruct Z2 as [t [_ Z2]]. cbv zeta in Z2.
  match type of Z2 with context [if ?b then _ else _] => destruct b end; injection Z2 as <-; cbn [d_crc d_out fwriteCrc rev d_text]; [|exact Z1]. now rewrite concat_snoc, calcCrc_app, Z1.
Qed.

Lemma dcopy_crc d len mp s s' : d_crc s = calcCrc 0 (concat (rev (d_out s))) -> dcopy d len mp s = Ok s' -> d_crc s' = calcCrc 0 (concat (rev (d_out s'))).
Proof.
  intros Z1 Z2. unfold dcopy in Z2. apply (forZ_keep (fun s => d_crc s = calcCrc 0 (concat (rev (d_out s))))) in Z2; auto.
  intros i s1 s2 I X. apply bind_ok in X. destruct X as [c [_ X]]. eapply dput_crc; eauto.
Qed.

Lemma adjust_le method : adjust method <= 254.
Proof. unfold adjust, threshold. destruct (_ || _); lia. Qed.

Lemma old_step_any method d h0 r0 size s x c : 1 <= d < 65536 -> oloop method d h0 r0 s -> old_step method d size (s, x) = Ok c ->
  match c with Go (s', _) => oloop method d h0 r0 s' | Stop (s', _) => oloop method d h0 r0 s' /\ size <= d_count s' end.
Proof.
  intros Hd [L I F M C R] E. unfold old_step in E. destruct (Z.ltb_spec (d_count s) size).
  2:{ injection E as <-. split; [constructor; auto|lia]. }
  apply bind_ok in E. destruct E as [[[ch s1] x1] [E1 E]]. apply decodeMethodC_any in E1; [|apply M|exact I].
  destruct E1 as [K1 [M1 [T1 [T2 [T3 [T4 T5]]]]]]. destruct (K1 I) as [I1 F1].
  assert (L1 : dany d s1) by (destruct L; constructor; rewrite ?T2, ?T4; auto). assert (C1 : d_count s1 = dtot s1) by (unfold dtot in *; congruence).
  assert (R1 : d_crc s1 = calcCrc 0 (concat (rev (d_out s1)))) by congruence.
  assert (F1' : oframe h0 (d_huf s1)) by (eapply oframe_trans; eauto). assert (M1' : fwd method r0 (d_r s1)) by (eapply fwd_trans; eauto).
  destruct (Z.ltb_spec ch 256).
  - apply bind_ok in E. destruct E as [s2 [E2 E]]. pose proof (dput_crc _ _ _ _ R1 E2) as R2. apply dput_any in E2; [|lia|exact L1].
    destruct E2 as [Y1 [Y2 [Y3 [Y4 Y5]]]]. injection E as <-. constructor; cbn [d_huf d_r d_count d_crc d_out]; rewrite ?Y2, ?Y3, ?Y4; auto.
    + destruct Y1. constructor; auto.
    + unfold dtot in *. cbn [d_out d_loc]. rewrite Y5 by lia. lia.
  - cbv zeta in E. apply bind_ok in E. destruct E as [[[p s2] x2] [E2 E]]. apply decodeMethodP_any in E2; [|apply M1'|exact I1].
    destruct E2 as [K2 [M2 [U1 [U2 [U3 [U4 U5]]]]]]. destruct (K2 I1) as [I2 F2].
    apply bind_ok in E. destruct E as [s3 [E3 E]]. injection E as <-.
    assert (R2 : d_crc s2 = calcCrc 0 (concat (rev (d_out s2)))) by congruence.
    pose proof (dcopy_crc _ _ _ _ _ (R2 : d_crc (DST (d_huf s2) (d_r s2) (d_text s2) (d_loc s2) (d_crc s2) (d_out s2) (d_count s2 + (ch - adjust method))) = _) E3) as R3.
    apply dcopy_any in E3; [|lia|pose proof (adjust_le method); lia|destruct L1; constructor; cbn [d_loc d_out]; rewrite ?U2, ?U4; auto].
    cbn [d_huf d_r d_count] in E3. destruct E3 as [Y1 [Y2 [Y3 [Y4 Y5]]]].
    constructor; rewrite ?Y2, ?Y3, ?Y4; auto.
    + eapply oframe_trans; eauto.
    + eapply fwd_trans; eauto.
    + rewrite Y5 by lia. unfold dtot in *. cbn [d_out d_loc]. rewrite U4, U2, U5. lia.
Qed.

Lemma decodeMethodStart_any method packed inp text h x h1 r1 text1 x1 : 0 <= packed -> bytes inp -> dinv h ->
  decodeMethodStart method packed inp text h x = Ok (h1, r1, text1, x1) -> dinv h1 /\ oframe h h1 /\ fwd method (RS 0 0 0 packed inp) r1.
Proof.
  intros Hp Hb D E. assert (W0 : rwf (RS 0 0 0 packed inp)) by (constructor; simpl; auto; lia).
  assert (IG : forall r, initGetbits packed inp = Ok r -> moved (RS 0 0 0 packed inp) r) by (intros r X; apply fillbuf_moved in X; [exact X|exact W0|unfold is_byte; lia]).
  assert (OK : forall h', okeep h h' -> dinv h' /\ oframe h h') by (intros h' K; exact (K D)).
  unfold decodeMethodStart in E. destruct (Z.eqb_spec method 1) as [->|N1].
  { apply bind_ok in E. destruct E as [r [E1 E]]. apply IG in E1. apply bind_ok in E. destruct E as [[h2 d2] [E2 E]]. injection E as <- <- <- <-.
    unfold decodeStartFix in E2. cbv zeta in E2. apply bind_ok in E2. destruct E2 as [d3 [_ E2]]. apply bind_ok in E2. destruct E2 as [h3 [X1 E2]]. apply bind_ok in E2. destruct E2 as [h4 [X2 E2]].
    injection E2 as <- <-. apply okeep_readyMade in X1. apply okeep_use_pt in X2. rewrite <- and_assoc. split; [|apply moved_fwd; [lia|exact E1]].
    apply OK. eapply okeep_trans; [apply okeep_np|]. eapply okeep_trans; eauto. }
  destruct (Z.eqb_spec method 2) as [->|N2].
  { apply bind_ok in E. destruct E as [r [E1 E]]. apply IG in E1. apply bind_ok in E. destruct E as [d2 [E2 E]]. injection E as <- <- <- <-.
    split; [exact D|]. split; [apply oframe_refl|apply moved_fwd; [lia|exact E1]]. }
  destruct (Z.eqb_spec method 3) as [->|N3].
  { apply bind_ok in E. destruct E as [r [E1 E]]. apply IG in E1. injection E as <- <- <- <-.
    rewrite <- and_assoc. split; [|apply moved_fwd; [lia|exact E1]]. apply OK. apply okeep_np. }
  destruct (Z.eqb_spec method 8) as [->|N8].
  { apply bind_ok in E. destruct E as [r [E1 E]]. apply IG in E1. injection E as <- <- <- <-. split; [exact D|]. split; [apply oframe_refl|apply moved_fwd; [lia|exact E1]]. }
  destruct (Z.eqb_spec method 9) as [->|N9].
  { apply bind_ok in E. destruct E as [t [E1 E]]. injection E as <- <- <- <-. split; [exact D|]. split; [apply oframe_refl|]. now apply fwd_refl. }
  destruct (Z.eqb_spec method 13) as [->|N13].
  { apply bind_ok in E. destruct E as [r [E1 E]]. apply IG in E1. apply bind_ok in E. destruct E as [[m2 r2] [E2 E]]. injection E as <- <- <- <-.
    split; [exact D|]. split; [apply oframe_refl|]. apply moved_fwd; [lia|]. unfold decodeStartPm2 in E2. apply bind_ok in E2. destruct E2 as [hh [_ E2]].
    apply bind_ok in E2. destruct E2 as [[y r3] [X E2]]. injection E2 as _ <-. apply getbits_moved in X; [|apply E1|unfold is_byte; lia]. eapply moved_trans; eauto. }
  injection E as <- <- <- <-. split; [exact D|]. split; [apply oframe_refl|]. now apply fwd_refl.
Qed.

(** What a call guarantees when it returns. *)
Theorem decode_old_any method dicbit broken size packed inp g g' x : 0 <= dicbit < 16 -> dinv (g_huf g) ->
  0 <= size -> 0 <= packed -> bytes inp ->
  decode_old method dicbit broken size packed inp g = Ok (g', x) ->
  dinv (g_huf g') /\ oframe (g_huf g) (g_huf g') /\
  g_hpos g' = g_hpos g /\ g_hflag g' = g_hflag g /\ g_prevs g' = g_prevs g /\ g_text g' = g_text g /\
  (exists k, 0 <= k /\ dr_in x = drop k inp /\ (method <> 9 -> k <= packed /\ dr_readSize x = k)) /\
  (method = 9 -> dr_readSize x = 0) /\
  size <= zlen (dr_out x) /\
  dr_crc x = calcCrc 0 (dr_out x).
Proof.
  intros Hk D Hs Hpk Hb E. unfold decode_old in E. cbv zeta in E. rewrite Z.shiftl_1_l in E.
  assert (P2 : 1 <= 2 ^ dicbit < 65536).
  { change 65536 with (2 ^ 16). assert (0 < 2 ^ dicbit) by (apply Z.pow_pos_nonneg; lia). split; [lia|apply Z.pow_lt_mono_r; lia]. }
  apply bind_ok in E. destruct E as [[[[h1 r1] text1] x1] [E1 E]]. apply decodeMethodStart_any in E1; auto. destruct E1 as [D1 [F1 M1]].
  apply bind_ok in E. destruct E as [[s x2] [E2 E]].
  eapply (loop_partial (fun '(s, _) => oloop method (2 ^ dicbit) (g_huf g) (RS 0 0 0 packed inp) s)
     (fun '(s, _) => oloop method (2 ^ dicbit) (g_huf g) (RS 0 0 0 packed inp) s /\ size <= d_count s)) in E2.
  - destruct E2 as [[L I F M C R] HC]. injection E as <- <-. cbn [g_huf g_hpos g_hflag g_prevs g_text dr_huf dr_readSize dr_in dr_out dr_crc].
    set (s' := if d_loc s =? 0 then s else fwriteCrc (d_loc s) s).
    assert (S1 : d_huf s' = d_huf s) by (unfold s'; destruct (d_loc s =? 0); reflexivity).
    assert (S2 : d_r s' = d_r s) by (unfold s'; destruct (d_loc s =? 0); reflexivity).
    assert (S3 : zlen (concat (rev (d_out s'))) = dtot s).
    { unfold s', dtot. pose proof (da_loc _ _ L). destruct (Z.eqb_spec (d_loc s) 0) as [Z0|Z0]; [lia|].
      unfold fwriteCrc. cbn [d_out rev]. rewrite concat_snoc, zlen_app. unfold zlen at 2. rewrite slice_list_length. lia. }
    assert (S4 : d_crc s' = calcCrc 0 (concat (rev (d_out s')))).
    { unfold s'. destruct (d_loc s =? 0); [exact R|]. unfold fwriteCrc. cbn [d_crc d_out rev]. now rewrite concat_snoc, calcCrc_app, R. }
    rewrite S1, S2, S3. split; [exact I|]. split; [exact F|]. do 4 (split; [reflexivity|]).
    destruct M as [W [[k [K0 K]] [M2 M3]]]. cbn [infile compsize] in *. split; [|split; [|split; [|exact S4]]].
    + destruct (Z.eq_dec method 9) as [N9|N9].
      * exists k. split; [exact K0|]. split; [exact K|]. intros; lia.
      * destruct (M2 N9) as [Q1 Q2]. cbn [infile compsize] in *. exists (packed - compsize (d_r s)). split; [lia|]. split; [exact Q2|]. intros _. split; [lia|reflexivity].
    + intros N9. rewrite (M3 N9). lia.
    + rewrite <- C. exact HC.
  - intros [s1 y1] c X1 X2. pose proof (old_step_any _ _ _ _ _ _ _ _ P2 X1 X2) as Y. exact Y.
  - constructor; cbn [d_huf d_r d_count d_crc d_out]; auto.
    constructor; cbn [d_loc d_out]; [lia|auto].
Qed.
