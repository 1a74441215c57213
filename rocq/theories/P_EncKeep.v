(** What a call of the encoder that returns leaves unchanged in the package
    variables, whatever the input and the method: the sizes of all slices, the
    decoder's tables, and that lengths and buffered codes are bytes. *)
From Verif Require Import Go GoLemmas M_Crc M_Bitio M_Maketree M_Maketbl M_Huf P_DecAny M_Slide.

Ltac inv1 :=
  match goal with
  | H : bind _ _ = Ok _ |- _ => apply bind_ok in H; let E := fresh "E" in let x := fresh "x" in destruct H as [x [E H]]
  | H : aset _ _ _ = Ok ?x |- _ => apply aset_inv in H; destruct H as [? H]; subst x
  | H : aget _ _ = Ok ?x |- _ => apply aget_inv in H; destruct H as [? H]; subst x
  | H : Ok _ = Ok _ |- _ => injection H; clear H; intros; subst
  end.
Ltac inv := repeat inv1.

Definition asame (a b : arr) : Prop := alen b = alen a /\ (bytearr a -> bytearr b).

Lemma asame_refl a : asame a a.
Proof. split; auto. Qed.
Lemma asame_trans a b c : asame a b -> asame b c -> asame a c.
Proof. intros [A1 A2] [B1 B2]. split; [congruence|auto]. Qed.
Lemma asame_upd a i v : 0 <= i -> is_byte v -> asame a (upd a i v).
Proof. intros. split; [reflexivity|]. intros. now apply bytearr_upd. Qed.

(** ** makeTree *)

Lemma makeCode_keep nchar bl code ln code' : makeCode nchar bl code ln = Ok code' -> alen code' = alen code.
Proof.
  unfold makeCode. intros H. apply bind_ok in H. destruct H as [[[st we] tot] [_ H]]. apply bind_ok in H. destruct H as [[st2 c2] [H E]].
  injection E as <-. apply (forZ_keep (fun s => alen (snd s) = alen code)) in H; auto.
  intros i [s c] [s' c'] K X. cbn [snd] in *. inv. exact K.
Qed.

Lemma makeLen_keep bl so ln bl' ln' : makeLen bl so ln = Ok (bl', ln') -> asame bl bl'.
Proof.
  unfold makeLen. intros H. apply bind_ok in H. destruct H as [cum [_ H]]. cbv zeta in H. apply bind_ok in H. destruct H as [ln2 [_ H]].
  apply bind_ok in H. destruct H as [[b si] [H E]]. injection E as <- <-.
  apply (forZ_partial (fun _ s => asame bl (fst s))) in H; [exact H|lia| |apply asame_refl].
  intros i [b1 s1] [b2 s2] Hi K X. cbn [fst] in *. apply bind_ok in X. destruct X as [k [_ X]].
  apply (forZ_keep (fun s => asame bl (fst s))) in X; auto. intros j [b3 s3] [b4 s4] K2 Y. cbn [fst] in *. inv.
  eapply asame_trans; [exact K2|]. apply asame_upd; [lia|unfold is_byte; lia].
Qed.

Record mtkeep (freq bl code lf rg : arr) (r : mtres) : Prop := {
  mk_freq : alen (r_freq r) = alen freq;
  mk_bl : asame bl (r_bitlen r);
  mk_code : alen (r_code r) = alen code;
  mk_left : alen (r_left r) = alen lf;
  mk_right : alen (r_right r) = alen rg
}.

Lemma makeTree_keep nchar freq bl code lf rg r : makeTree nchar freq bl code lf rg = Ok r -> mtkeep freq bl code lf rg r.
Proof.
  unfold makeTree. intros H. apply bind_ok in H. destruct H as [[[heap hs] bl1] [E1 H]].
  assert (B1 : asame bl bl1).
  { unfold mt_collect in E1. apply bind_ok in E1. destruct E1 as [hp [_ E1]].
    apply (forZ_keep (fun s => asame bl (snd s))) in E1; auto using asame_refl.
    intros i [[h2 n2] b2] [[h3 n3] b3] K X. cbn [snd] in *. inv.
    destruct (_ =? 0); inv; (eapply asame_trans; [exact K|]; apply asame_upd; [lia|unfold is_byte; lia]). }
  destruct (hs <? 2). { inv. constructor; auto. }
  apply bind_ok in H. destruct H as [heap2 [_ H]]. apply bind_ok in H. destruct H as [s [E2 H]]. cbv zeta in H.
  apply bind_ok in H. destruct H as [ln [_ H]]. apply bind_ok in H. destruct H as [[bl2 ln2] [E3 H]].
  apply bind_ok in H. destruct H as [code2 [E4 H]]. injection H as <-.
  apply makeLen_keep in E3. apply makeCode_keep in E4.
  pose proof (loop_partial (fun s => alen (mt_freq s) = alen freq /\ alen (mt_code s) = alen code /\ alen (mt_left s) = alen lf /\ alen (mt_right s) = alen rg)
    (fun s => alen (mt_freq s) = alen freq /\ alen (mt_code s) = alen code /\ alen (mt_left s) = alen lf /\ alen (mt_right s) = alen rg)
    (hs + 1) (mt_step nchar) (MT heap2 hs code 0 nchar freq lf rg) s) as P.
  destruct P as [P1 [P2 [P3 P4]]]; [|cbn; auto|exact E2|].
  - intros s1 c [K1 [K2 [K3 K4]]] X. unfold mt_step in X. apply bind_ok in X. destruct X as [i [_ X]].
    apply bind_ok in X. destruct X as [[code3 sort3] [X1 X]].
    assert (C3 : alen code3 = alen code) by (destruct (i <? nchar); inv; auto).
    apply bind_ok in X. destruct X as [v1 [_ X]]. apply bind_ok in X. destruct X as [v2 [_ X]]. cbv zeta in X.
    apply bind_ok in X. destruct X as [v3 [_ X]]. apply bind_ok in X. destruct X as [j [_ X]].
    apply bind_ok in X. destruct X as [[code4 sort4] [X2 X]].
    assert (C4 : alen code4 = alen code) by (destruct (j <? nchar); inv; auto).
    apply bind_ok in X. destruct X as [fi [_ X]]. apply bind_ok in X. destruct X as [fj [_ X]].
    apply bind_ok in X. destruct X as [fr [X3 X]]. apply bind_ok in X. destruct X as [v4 [_ X]].
    apply bind_ok in X. destruct X as [v5 [_ X]]. apply bind_ok in X. destruct X as [lf2 [X4 X]]. apply bind_ok in X. destruct X as [rg2 [X5 X]].
    destruct (_ <=? 1); inv; cbn [mt_freq mt_code mt_left mt_right]; rewrite ?alen_upd; auto.
  - constructor; cbn [r_freq r_bitlen r_code r_left r_right]; try congruence. eapply asame_trans; eauto.
Qed.

(** ** The Huffman coder *)

Record hsame (h h' : huf) : Prop := {
  hs_left : alen (left h') = alen (left h);
  hs_right : alen (right h') = alen (right h);
  hs_cc : alen (cCode h') = alen (cCode h);
  hs_pc : alen (ptCode h') = alen (ptCode h);
  hs_ct : cTable h' = cTable h;
  hs_pt : ptTable h' = ptTable h;
  hs_cf : alen (cFreq h') = alen (cFreq h);
  hs_pf : alen (pFreq h') = alen (pFreq h);
  hs_tf : alen (tFreq h') = alen (tFreq h);
  hs_cl : asame (cLen h) (cLen h');
  hs_pl : asame (ptLen h) (ptLen h');
  hs_buf : asame (buf h) (buf h');
  hs_np : np h' = np h;
  hs_pb : pbit h' = pbit h
}.

Lemma hsame_refl h : hsame h h.
Proof. constructor; auto using asame_refl. Qed.
Lemma hsame_trans a b c : hsame a b -> hsame b c -> hsame a c.
Proof. intros [] []. constructor; try congruence; eapply asame_trans; eauto. Qed.

Lemma incr_alen a i by_ a' : incr a i by_ = Ok a' -> alen a' = alen a.
Proof. unfold incr. intros. inv. reflexivity. Qed.

Lemma fill_alen lo hi v a a' : forZ lo hi (fun i t => aset t i v) a = Ok a' -> alen a' = alen a.
Proof.
  intros E. apply (forZ_keep (fun t => alen t = alen a)) in E; auto. intros i s s' K X. inv. exact K.
Qed.

Lemma countTFreq_keep cl tf t : countTFreq cl tf = Ok t -> alen t = alen tf.
Proof.
  unfold countTFreq. intros H. apply bind_ok in H. destruct H as [t1 [E1 H]]. apply fill_alen in E1. apply bind_ok in H. destruct H as [n [_ H]].
  eapply (loop_partial (fun s => alen (snd s) = alen tf) (fun t => alen t = alen tf)) in H; [exact H| |exact E1].
  intros [i t2] c K X. cbn [snd] in K. destruct (i <? n); [|inv; exact K].
  apply bind_ok in X. destruct X as [k [_ X]]. cbv zeta in X. destruct (k =? 0).
  - apply bind_ok in X. destruct X as [[i2 cnt] [_ X]]. apply bind_ok in X. destruct X as [t3 [X1 X]]. injection X as <-. cbn [snd].
    destruct (cnt <=? 2); [|destruct (cnt <=? 18); [|destruct (cnt =? 19)]]; try (apply incr_alen in X1; congruence).
    apply bind_ok in X1. destruct X1 as [t4 [X2 X3]]. apply incr_alen in X2. apply incr_alen in X3. congruence.
  - apply bind_ok in X. destruct X as [t3 [X1 X]]. injection X as <-. cbn [snd]. apply incr_alen in X1. congruence.
Qed.

Lemma sendHead_keep h w h' w' size : sendHead h w = Ok (h', w', size) -> hsame h h'.
Proof.
  unfold sendHead. intros H. apply bind_ok in H. destruct H as [r [E1 H]]. apply makeTree_keep in E1. destruct E1 as [A1 A2 A3 A4 A5].
  cbv zeta in H. set (h1 := set_cFreq _ _) in *.
  assert (K1 : hsame h h1) by (constructor; cbn; auto using asame_refl). clearbody h1. clear A1 A2 A3 A4 A5.
  apply bind_ok in H. destruct H as [sz [_ H]]. apply bind_ok in H. destruct H as [w1 [_ H]].
  apply bind_ok in H. destruct H as [[h2 w2] [E2 H]].
  assert (K2 : hsame h h2).
  { destruct (Nc <=? r_root r).
    - apply bind_ok in E2. destruct E2 as [t [T1 E2]]. apply countTFreq_keep in T1.
      apply bind_ok in E2. destruct E2 as [r2 [T2 E2]]. apply makeTree_keep in T2. destruct T2 as [A1 A2 A3 A4 A5].
      apply bind_ok in E2. destruct E2 as [w3 [_ E2]]. apply bind_ok in E2. destruct E2 as [w4 [_ E2]]. injection E2 as <- <-.
      eapply hsame_trans; [exact K1|]. constructor; cbn; auto using asame_refl. congruence.
    - apply bind_ok in E2. destruct E2 as [w3 [_ E2]]. apply bind_ok in E2. destruct E2 as [w4 [_ E2]].
      apply bind_ok in E2. destruct E2 as [w5 [_ E2]]. apply bind_ok in E2. destruct E2 as [w6 [_ E2]]. injection E2 as <- <-. exact K1. }
  apply bind_ok in H. destruct H as [r2 [T2 H]]. apply makeTree_keep in T2. destruct T2 as [A1 A2 A3 A4 A5].
  apply bind_ok in H. destruct H as [w3 [_ H]]. injection H as <- _ _. 
  eapply hsame_trans; [exact K2|]. constructor; cbn; auto using asame_refl.
Qed.

Lemma sendBlock_keep h w h' w' : sendBlock h w = Ok (h', w') -> hsame h h'.
Proof.
  unfold sendBlock. intros H. apply bind_ok in H. destruct H as [[[h1 w1] sz] [E1 H]]. apply sendHead_keep in E1.
  apply bind_ok in H. destruct H as [c [_ H]]. destruct c as [[[f p] w2]|w2]; [|injection H as <- _; exact E1].
  apply bind_ok in H. destruct H as [cf [E2 H]]. apply bind_ok in H. destruct H as [pf [E3 H]]. injection H as <- _.
  apply fill_alen in E2. apply fill_alen in E3. eapply hsame_trans; [exact E1|]. constructor; cbn; auto using asame_refl.
Qed.

Lemma byte_lor a b : is_byte a -> is_byte b -> is_byte (Z.lor a b).
Proof.
  unfold is_byte. intros A B. assert (0 <= Z.lor a b) by (apply Z.lor_nonneg; lia). split; [lia|].
  destruct (Z.eq_dec (Z.lor a b) 0) as [->|N]; [lia|].
  change 256 with (2 ^ 8). apply Z.log2_lt_pow2; [lia|]. rewrite Z.log2_lor by lia.
  assert (forall x, 0 <= x < 256 -> Z.log2 x < 8).
  { intros x Hx. destruct (Z.eq_dec x 0) as [->|]; [cbn; lia|]. apply Z.log2_lt_pow2; lia. }
  apply Z.max_lub_lt; auto.
Qed.

Lemma outputSt1_keep c p h w h' w' : outputSt1 c p h w = Ok (h', w') -> hsame h h'.
Proof.
  unfold outputSt1. cbv zeta. intros H. apply bind_ok in H. destruct H as [x [E1 H]].
  assert (K : match x with Go hw | Stop hw => hsame h (fst hw) end).
  { destruct (_ =? 0).
    - apply bind_ok in E1. destruct E1 as [[[stop h1] w1] [E2 E1]].
      assert (K1 : hsame h h1).
      { destruct (_ <=? _).
        - apply bind_ok in E2. destruct E2 as [[h2 w2] [E3 E2]]. apply sendBlock_keep in E3.
          assert (K2 : hsame h h2) by (eapply hsame_trans; [|exact E3]; constructor; cbn; auto using asame_refl).
          destruct (unpackable w2); injection E2 as _ <- _; [exact K2|]. eapply hsame_trans; [exact K2|]. constructor; cbn; auto using asame_refl.
        - injection E2 as _ <- _. constructor; cbn; auto using asame_refl. }
      destruct stop; [injection E1 as <-; exact K1|]. inv. cbn [fst]. eapply hsame_trans; [exact K1|].
      constructor; cbn [left right cCode ptCode cTable ptTable cFreq pFreq tFreq cLen ptLen buf np pbit set_buf set_cpos set_outputPos]; auto using asame_refl.
      apply asame_upd; [lia|unfold is_byte; lia].
    - injection E1 as <-. constructor; cbn; auto using asame_refl. }
  destruct x as [[h1 w1]|hw]; [|injection H as ->; exact K]. cbn [fst] in K.
  apply bind_ok in H. destruct H as [b [B1 H]]. apply aset_inv in B1. destruct B1 as [B1 ->].
  apply bind_ok in H. destruct H as [f [F1 H]]. apply incr_alen in F1.
  destruct (256 <=? c).
  - cbn [buf cpos outputMask outputPos pFreq set_buf set_cFreq set_outputPos] in H.
    apply bind_ok in H. destruct H as [v [V1 H]]. apply aget_inv in V1. destruct V1 as [V1 ->].
    apply bind_ok in H. destruct H as [b2 [B2 H]]. apply aset_inv in B2. destruct B2 as [B2 ->].
    apply bind_ok in H. destruct H as [b3 [B3 H]]. apply aset_inv in B3. destruct B3 as [B3 ->].
    apply bind_ok in H. destruct H as [b4 [B4 H]]. apply aset_inv in B4. destruct B4 as [B4 ->].
    apply bind_ok in H. destruct H as [k [_ H]]. apply bind_ok in H. destruct H as [f2 [F2 H]]. apply incr_alen in F2.
    injection H as <- _. eapply hsame_trans; [exact K|].
    constructor; cbn [left right cCode ptCode cTable ptTable cFreq pFreq tFreq cLen ptLen buf np pbit set_buf set_pFreq set_outputPos set_cFreq]; auto using asame_refl.
    split; [reflexivity|]. intros BB.
    assert (BB1 : bytearr (upd (buf h1) (outputPos h1) (u8 c))) by (apply bytearr_upd; [exact BB|lia|apply u8_byte]).
    apply bytearr_upd; [|lia|apply u8_byte]. apply bytearr_upd; [|lia|apply u8_byte]. apply bytearr_upd; [exact BB1|lia|].
    apply byte_lor; [|apply u8_byte]. apply BB1. lia.
  - injection H as <- _. eapply hsame_trans; [exact K|].
    constructor; cbn [left right cCode ptCode cTable ptTable cFreq pFreq tFreq cLen ptLen buf np pbit set_buf set_pFreq set_outputPos set_cFreq]; auto using asame_refl.
    apply asame_upd; [lia|apply u8_byte].
Qed.

(** ** The LZ part *)

Record ssame (s s' : sl) : Prop := {
  ss_text : alen (s_text s') = alen (s_text s);
  ss_hpos : alen (s_hpos s') = alen (s_hpos s);
  ss_hflag : alen (s_hflag s') = alen (s_hflag s);
  ss_prevs : alen (s_prevs s') = alen (s_prevs s)
}.

Lemma ssame_refl s : ssame s s.
Proof. constructor; auto. Qed.
Lemma ssame_trans a b c : ssame a b -> ssame b c -> ssame a c.
Proof. intros [] []. constructor; congruence. Qed.

Lemma insertHash_keep P t p s s' : insertHash P t p s = Ok s' -> ssame s s'.
Proof. unfold insertHash. intros. inv. constructor; reflexivity. Qed.

Lemma blit_alen : forall l a o a', blit a o l = Ok a' -> alen a' = alen a.
Proof. induction l; intros a' o a2 H; cbn [blit] in H; inv; auto. apply IHl in H. rewrite H. reflexivity. Qed.

Lemma updateDict_keep P pos s s' p' : updateDict P pos s = Ok (s', p') -> ssame s s'.
Proof.
  unfold updateDict. cbv zeta. intros H. apply bind_ok in H. destruct H as [t [E1 H]]. apply blit_alen in E1.
  apply bind_ok in H. destruct H as [[[[t2 crc] n] inp] [E2 H]]. unfold freadCrc in E2. cbv zeta in E2.
  apply bind_ok in E2. destruct E2 as [t3 [E2 E3]]. injection E3 as <- _ _ _. apply blit_alen in E2.
  apply bind_ok in H. destruct H as [[hp hf] [E4 H]]. apply bind_ok in H. destruct H as [pv [E5 H]]. injection H as <- _.
  apply (forZ_keep (fun x => alen (fst x) = alen (s_hpos s) /\ alen (snd x) = alen (s_hflag s))) in E4; cbn [fst snd]; auto.
  2:{ intros i [a b] [a' b'] K X. cbn [fst snd] in *. inv. exact K. }
  apply (forZ_keep (fun x => alen x = alen (s_prevs s))) in E5; auto.
  2:{ intros i a a' K X. inv. exact K. }
  destruct E4. constructor; cbn; auto. congruence.
Qed.

Lemma nextToken_keep P t p s t' p' s' : nextToken P t p s = Ok (t', p', s') -> ssame s s'.
Proof.
  unfold nextToken. cbv zeta. intros H. apply bind_ok in H. destruct H as [[s1 p1] [E1 H]]. apply bind_ok in H. destruct H as [t1 [_ H]]. injection H as _ _ <-.
  destruct (_ <=? _).
  - apply updateDict_keep in E1. destruct E1. constructor; auto.
  - injection E1 as <- _. constructor; reflexivity.
Qed.

Lemma searchDict1_keep P t p o mx m s m' s' : searchDict1 P t p o mx m s = Ok (m', s') -> ssame s s'.
Proof.
  unfold searchDict1. cbv zeta. intros H. apply bind_ok in H. destruct H as [sp [_ H]]. apply bind_ok in H. destruct H as [[m1 ch] [_ H]].
  apply bind_ok in H. destruct H as [hf [E H]]. injection H as _ <-. destruct (_ <=? _); inv; constructor; reflexivity.
Qed.

Lemma searchDict_keep P t p mn s m' s' : searchDict P t p mn s = Ok (m', s') -> ssame s s'.
Proof.
  unfold searchDict. cbv zeta. intros H. apply bind_ok in H. destruct H as [[o tk] [_ H]].
  destruct (if o =? _ then _ else _) as [o2 t2]. apply bind_ok in H. destruct H as [[m1 s1] [E1 H]]. apply searchDict1_keep in E1.
  apply bind_ok in H. destruct H as [[m2 s2] [E2 H]]. injection H as _ <-.
  destruct (_ && _); [apply searchDict1_keep in E2; eapply ssame_trans; eauto|injection E2 as _ <-; exact E1].
Qed.

Lemma skip_tokens_keep P k t p s t' p' s' : skip_tokens P k t p s = Ok (t', p', s') -> ssame s s'.
Proof.
  unfold skip_tokens. intros H. apply (forZ_keep (fun x => ssame s (snd x))) in H; auto using ssame_refl.
  intros i [[t1 p1] s1] [[t2 p2] s2] K X. cbn [snd] in *. apply bind_ok in X. destruct X as [[[t3 p3] s3] [E1 X]]. apply nextToken_keep in E1.
  apply bind_ok in X. destruct X as [s4 [E2 X]]. apply insertHash_keep in E2. injection X as _ _ <-.
  eapply ssame_trans; [exact K|]. eapply ssame_trans; eauto.
Qed.

Definition esame (e e' : est) : Prop := ssame (e_sl e) (e_sl e') /\ hsame (e_huf e) (e_huf e').

Lemma encode_step_keep P e c : encode_step P e = Ok c -> match c with Go e' | Stop e' => esame e e' end.
Proof.
  unfold encode_step. cbv zeta. intros H. destruct (_ && _).
  2:{ injection H as <-. split; [apply ssame_refl|apply hsame_refl]. }
  apply bind_ok in H. destruct H as [[[t p] s] [E1 H]]. apply nextToken_keep in E1.
  apply bind_ok in H. destruct H as [[m s1] [E2 H]]. apply searchDict_keep in E2.
  apply bind_ok in H. destruct H as [s2 [E3 H]]. apply insertHash_keep in E3.
  assert (K : ssame (e_sl e) s2) by (eapply ssame_trans; [exact E1|eapply ssame_trans; eauto]).
  destruct (_ || _).
  - apply bind_ok in H. destruct H as [ch [_ H]]. apply bind_ok in H. destruct H as [[h w] [E4 H]]. apply outputSt1_keep in E4. injection H as <-.
    split; assumption.
  - apply bind_ok in H. destruct H as [[h w] [E4 H]]. apply outputSt1_keep in E4.
    apply bind_ok in H. destruct H as [[[t3 p3] s3] [E5 H]]. apply skip_tokens_keep in E5.
    apply bind_ok in H. destruct H as [[[t4 p4] s4] [E6 H]]. apply nextToken_keep in E6.
    apply bind_ok in H. destruct H as [[m5 s5] [E7 H]]. apply searchDict_keep in E7.
    apply bind_ok in H. destruct H as [s6 [E8 H]]. apply insertHash_keep in E8. injection H as <-.
    split; [|exact E4]. cbn [e_sl]. eapply ssame_trans; [exact K|]. eapply ssame_trans; [exact E5|]. eapply ssame_trans; [exact E6|]. eapply ssame_trans; eauto.
Qed.

Record gsame (k : Z) (g g' : glob) : Prop := {
  gs_h : hsame (set_np_pbit k (g_huf g)) (g_huf g');
  gs_hpos : alen (g_hpos g') = alen (g_hpos g);
  gs_hflag : alen (g_hflag g') = alen (g_hflag g);
  gs_prevs : alen (g_prevs g') = alen (g_prevs g);
  gs_text : alen (g_text g') = alen (g_text g)
}.

Theorem encode_keep k mx size body g er : encode k mx size body g = Ok er -> gsame k g (er_glob er).
Proof.
  unfold encode. cbv zeta. cbn [p_dicsiz p_txtsiz p_maxmatch]. intros H. apply bind_ok in H. destruct H as [[hp hf] [E1 H]].
  apply (forZ_keep (fun x => alen (fst x) = alen (g_hpos g) /\ alen (snd x) = alen (g_hflag g))) in E1; cbn [fst snd]; auto.
  2:{ intros i [a b] [a' b'] K X. cbn [fst snd] in *. inv. exact K. }
  cbn [fst snd] in E1. destruct E1 as [A1 A2].
  apply bind_ok in H. destruct H as [h [E2 H]]. apply bind_ok in H. destruct H as [t [E3 H]]. apply fill_alen in E3.
  assert (K2 : hsame (set_np_pbit k (g_huf g)) h).
  { unfold encodeStartSt1 in E2. cbv zeta in E2. apply bind_ok in E2. destruct E2 as [cf [X1 E2]]. apply fill_alen in X1.
    apply bind_ok in E2. destruct E2 as [pf [X2 E2]]. apply fill_alen in X2. apply bind_ok in E2. destruct E2 as [b [X3 E2]].
    apply aset_inv in X3. destruct X3 as [X3 ->]. injection E2 as <-.
    constructor; cbn [left right cCode ptCode cTable ptTable cFreq pFreq tFreq cLen ptLen buf np pbit set_buf set_pFreq set_outputPos set_outputMask set_cFreq]; auto using asame_refl.
    apply asame_upd; [lia|unfold is_byte; lia]. }
  destruct body as [|b0 body].
  - injection H as <-. constructor; cbn; auto.
  - apply bind_ok in H. destruct H as [[[[t2 crc] v] inp] [E4 H]]. unfold freadCrc in E4. cbv zeta in E4.
    apply bind_ok in E4. destruct E4 as [t3 [E4 X]]. injection X as <- _ _ _. apply blit_alen in E4.
    apply bind_ok in H. destruct H as [tk [_ H]]. apply bind_ok in H. destruct H as [s [E5 H]]. apply insertHash_keep in E5.
    apply bind_ok in H. destruct H as [e [E6 H]].
    match type of E6 with loop _ ?st ?e0 = _ => pose proof (loop_partial (esame e0) (esame e0) (zlen (b0 :: body) + 2) st e0 e) as P end.
    destruct P as [P1 P2]; [| |exact E6|].
    + intros e1 c [K1 K3] X. apply encode_step_keep in X. destruct c; destruct X as [X1 X2]; (split; [eapply ssame_trans|eapply hsame_trans]); eauto.
    + split; [apply ssame_refl|apply hsame_refl].
    + cbn [e_sl e_huf] in P1, P2. apply bind_ok in H. destruct H as [[h2 w2] [E7 H]]. injection H as <-.
      assert (K3 : hsame (e_huf e) h2).
      { unfold encodeEndSt1 in E7. destruct (unpackable _); [injection E7 as <- _; apply hsame_refl|].
        apply bind_ok in E7. destruct E7 as [[h3 w3] [X E7]]. apply sendBlock_keep in X. apply bind_ok in E7. destruct E7 as [w4 [_ E7]]. injection E7 as <- _. exact X. }
      destruct P1 as [Q1 Q2 Q3 Q4], E5 as [R1 R2 R3 R4]. cbn [s_text s_hpos s_hflag s_prevs] in *.
      constructor; cbn [er_glob g_huf g_hpos g_hflag g_prevs g_text]; try congruence.
      eapply hsame_trans; [exact K2|]. eapply hsame_trans; eauto.
Qed.

(** ** The writer: giving up means the budget is used up *)

Definition wfull (w : wst) : Prop := unpackable w = true -> worigsize w <= wcompsize w.
Definition wkeep (w w' : wst) : Prop := worigsize w' = worigsize w /\ (wfull w -> wfull w').

Lemma wkeep_refl w : wkeep w w.
Proof. split; auto. Qed.
Lemma wkeep_trans a b c : wkeep a b -> wkeep b c -> wkeep a c.
Proof. intros [A1 A2] [B1 B2]. split; [congruence|auto]. Qed.

Lemma putcode_loop_keep fuel : forall n x w w', putcode_loop fuel n x w = Ok w' -> wkeep w w'.
Proof.
  induction fuel; intros n x w w' H; cbn [putcode_loop] in H; [discriminate|]. destruct (_ <=? n).
  - destruct (Z.ltb_spec (wcompsize w) (worigsize w)); apply IHfuel in H; (eapply wkeep_trans; [|exact H]); (split; [reflexivity|]);
      unfold wfull; cbn [unpackable worigsize wcompsize]; intros F U; [specialize (F U); lia|lia].
  - injection H as <-. split; auto.
Qed.

Lemma putcode_keep n x w w' : putcode n x w = Ok w' -> wkeep w w'.
Proof. apply putcode_loop_keep. Qed.
Lemma putbits_keep n x w w' : putbits n x w = Ok w' -> wkeep w w'.
Proof. apply putcode_keep. Qed.
Lemma putsym_keep l c x w w' : putsym l c x w = Ok w' -> wkeep w w'.
Proof. unfold putsym. intros H. inv. eapply putcode_keep; eauto. Qed.

Ltac wk := repeat match goal with
  | H : bind _ _ = Ok _ |- _ => apply bind_ok in H; let E := fresh "E" in let x := fresh "x" in destruct H as [x [E H]]
  | H : (let '(_, _) := ?p in _) = Ok _ |- _ => destruct p
  | H : putbits _ _ _ = Ok _ |- _ => apply putbits_keep in H
  | H : putcode _ _ _ = Ok _ |- _ => apply putcode_keep in H
  | H : putsym _ _ _ _ = Ok _ |- _ => apply putsym_keep in H
  | H : Ok _ = Ok _ |- _ => injection H; clear H; intros; subst
  end.
Ltac wt := first [eassumption | apply wkeep_refl | eapply wkeep_trans; [eassumption|wt]].

Lemma writePtLen_keep a n nb i w w' : writePtLen a n nb i w = Ok w' -> wkeep w w'.
Proof.
  unfold writePtLen. intros H. wk.
  eapply (loop_partial (fun s => wkeep w (snd s)) (fun w' => wkeep w w')) in H; [exact H| |exact E0].
  intros [j w2] c K X. cbn [snd] in K. destruct (j <? x).
  - cbv zeta in X. apply bind_ok in X. destruct X as [k [_ X]]. apply bind_ok in X. destruct X as [w3 [X1 X]].
    assert (K2 : wkeep w w3) by (destruct (k <=? 6); wk; wt).
    destruct (_ =? i).
    + apply bind_ok in X. destruct X as [j2 [_ X]]. wk. cbn [snd]. wt.
    + wk. exact K2.
  - wk. exact K.
Qed.

Lemma writeCLen_keep a b c0 w w' : writeCLen a b c0 w = Ok w' -> wkeep w w'.
Proof.
  unfold writeCLen. intros H. wk.
  eapply (loop_partial (fun s => wkeep w (snd s)) (fun w' => wkeep w w')) in H; [exact H| |exact E0].
  intros [j w2] c K X. cbn [snd] in K. destruct (j <? x); [|wk; exact K].
  cbv zeta in X. apply bind_ok in X. destruct X as [k [_ X]]. destruct (k =? 0).
  - apply bind_ok in X. destruct X as [[i2 cnt] [_ X]]. apply bind_ok in X. destruct X as [w3 [X1 X]]. injection X as <-. cbn [snd].
    destruct (cnt <=? 2); [|destruct (cnt <=? 18); [|destruct (cnt =? 19)]]; try (wk; wt).
    apply (forZ_keep (fun w3 => wkeep w w3)) in X1; auto. intros i3 s s' K2 Y. wk. wt.
  - wk. cbn [snd]. wt.
Qed.

Lemma encodeP_keep a b p w w' : encodeP a b p w = Ok w' -> wkeep w w'.
Proof. unfold encodeP. intros H. wk. destruct (1 <? x); wk; wt. Qed.

Lemma sendHead_wkeep h w h' w' size : sendHead h w = Ok (h', w', size) -> wkeep w w'.
Proof.
  unfold sendHead. cbv zeta. intros H. apply bind_ok in H. destruct H as [r [_ H]]. apply bind_ok in H. destruct H as [sz [_ H]].
  apply bind_ok in H. destruct H as [w1 [E1 H]]. apply putbits_keep in E1. apply bind_ok in H. destruct H as [[h2 w2] [E2 H]].
  assert (K2 : wkeep w1 w2).
  { destruct (Nc <=? _).
    - apply bind_ok in E2. destruct E2 as [t [_ E2]]. apply bind_ok in E2. destruct E2 as [r2 [_ E2]]. apply bind_ok in E2. destruct E2 as [w3 [E3 E2]].
      apply bind_ok in E2. destruct E2 as [w4 [E4 E2]]. injection E2 as _ <-. apply writeCLen_keep in E4.
      eapply wkeep_trans; [|exact E4]. destruct (Nt <=? _); [eapply writePtLen_keep; eauto|wk; wt].
    - wk; wt. }
  apply bind_ok in H. destruct H as [r2 [_ H]]. apply bind_ok in H. destruct H as [w3 [E3 H]]. injection H as _ <- _.
  eapply wkeep_trans; [exact E1|]. eapply wkeep_trans; [exact K2|].
  match type of E3 with (if ?b then _ else _) = _ => destruct b end; [eapply writePtLen_keep; eauto|wk; wt].
Qed.

Lemma send_sym_keep h i f p w c : send_sym h i (f, p, w) = Ok c ->
  match c with Go (_, _, w') => wkeep w w' | Stop w' => wkeep w w' end.
Proof.
  unfold send_sym. intros H. apply bind_ok in H. destruct H as [[f1 p1] [_ H]]. apply bind_ok in H. destruct H as [[p2 w2] [E H]].
  assert (K : wkeep w w2).
  { destruct (Z.testbit _ _).
    - cbv zeta in E. apply bind_ok in E. destruct E as [b [_ E]]. apply bind_ok in E. destruct E as [w3 [X1 E]]. apply putsym_keep in X1.
      apply bind_ok in E. destruct E as [k1 [_ E]]. apply bind_ok in E. destruct E as [k2 [_ E]]. apply bind_ok in E. destruct E as [w4 [X2 E]].
      apply encodeP_keep in X2. injection E as _ <-. eapply wkeep_trans; eauto.
    - apply bind_ok in E. destruct E as [b [_ E]]. apply bind_ok in E. destruct E as [w3 [X1 E]]. apply putsym_keep in X1. injection E as _ <-. exact X1. }
  destruct (unpackable w2); injection H as <-; exact K.
Qed.

Lemma sendBlock_wkeep h w h' w' : sendBlock h w = Ok (h', w') -> wkeep w w'.
Proof.
  unfold sendBlock. intros H. apply bind_ok in H. destruct H as [[[h1 w1] sz] [E1 H]]. apply sendHead_wkeep in E1.
  apply bind_ok in H. destruct H as [c [E2 H]].
  apply (for_ctl_keep (fun s => wkeep w (snd s)) (fun w2 => wkeep w w2)) in E2; [| |exact E1].
  - destruct c as [[[f p] w2]|w2]; cbn [snd] in E2; wk; exact E2.
  - intros i [[f p] w2] c2 K X. cbn [snd] in K. apply send_sym_keep in X. destruct c2 as [[[f2 p2] w3]|w3]; cbn [snd]; eapply wkeep_trans; eauto.
Qed.

Lemma outputSt1_wkeep c p h w h' w' : outputSt1 c p h w = Ok (h', w') -> wkeep w w'.
Proof.
  unfold outputSt1. cbv zeta. intros H. apply bind_ok in H. destruct H as [x [E1 H]].
  assert (K : match x with Go hw | Stop hw => wkeep w (snd hw) end).
  { destruct (_ =? 0).
    - apply bind_ok in E1. destruct E1 as [[[stop h1] w1] [E2 E1]].
      assert (K1 : wkeep w w1).
      { destruct (_ <=? _).
        - apply bind_ok in E2. destruct E2 as [[h2 w2] [E3 E2]]. apply sendBlock_wkeep in E3.
          destruct (unpackable w2); injection E2 as _ _ <-; exact E3.
        - injection E2 as _ _ <-. apply wkeep_refl. }
      destruct stop; [injection E1 as <-; exact K1|]. apply bind_ok in E1. destruct E1 as [b [_ E1]]. injection E1 as <-. exact K1.
    - injection E1 as <-. apply wkeep_refl. }
  destruct x as [[h1 w1]|hw]; [|injection H as ->; exact K]. cbn [snd] in K.
  apply bind_ok in H. destruct H as [b [_ H]]. apply bind_ok in H. destruct H as [f [_ H]]. destruct (256 <=? c); wk; exact K.
Qed.

(** When the encoder gives up, it has written as many bytes as it was told the
    input has. *)
Theorem encode_unpackable k mx size body g er : encode k mx size body g = Ok er ->
  er_unpackable er = true -> size <= er_packed er.
Proof.
  unfold encode. cbv zeta. intros H U. apply bind_ok in H. destruct H as [[hp hf] [_ H]]. apply bind_ok in H. destruct H as [h [_ H]].
  apply bind_ok in H. destruct H as [t [_ H]]. destruct body as [|b0 body]; [injection H as <-; discriminate|].
  apply bind_ok in H. destruct H as [[[[t2 crc] v] inp] [_ H]]. apply bind_ok in H. destruct H as [tk [_ H]]. apply bind_ok in H. destruct H as [s [_ H]].
  apply bind_ok in H. destruct H as [e [E6 H]]. apply bind_ok in H. destruct H as [[h2 w2] [E7 H]]. injection H as <-. cbn [er_unpackable er_packed] in *.
  apply (loop_partial (fun e => wkeep (initPutbits size) (e_w e)) (fun e => wkeep (initPutbits size) (e_w e))) in E6; [| |apply wkeep_refl].
  - assert (K : wkeep (initPutbits size) w2).
    { unfold encodeEndSt1 in E7. destruct (unpackable (e_w e)); [injection E7 as _ <-; exact E6|].
      apply bind_ok in E7. destruct E7 as [[h3 w3] [X E7]]. apply sendBlock_wkeep in X. wk. wt. }
    destruct K as [K1 K2]. cbn [initPutbits worigsize] in K1. rewrite <- K1. apply K2; [discriminate|exact U].
  - intros e1 c K X. unfold encode_step in X. cbv zeta in X. match type of X with (if ?b then _ else _) = _ => destruct b end; [|injection X as <-; exact K].
    apply bind_ok in X. destruct X as [[[t3 p3] s3] [_ X]]. apply bind_ok in X. destruct X as [[m4 s4] [_ X]]. apply bind_ok in X. destruct X as [s5 [_ X]].
    match type of X with (if ?b then _ else _) = _ => destruct b end.
    + apply bind_ok in X. destruct X as [ch [_ X]]. apply bind_ok in X. destruct X as [[h3 w3] [X1 X]]. apply outputSt1_wkeep in X1. injection X as <-. cbn [e_w]. wt.
    + apply bind_ok in X. destruct X as [[h3 w3] [X1 X]]. apply outputSt1_wkeep in X1.
      apply bind_ok in X. destruct X as [[[t6 p6] s6] [_ X]]. apply bind_ok in X. destruct X as [[[t7 p7] s7] [_ X]]. apply bind_ok in X. destruct X as [[m8 s8] [_ X]].
      apply bind_ok in X. destruct X as [s9 [_ X]]. injection X as <-. cbn [e_w]. wt.
Qed.
