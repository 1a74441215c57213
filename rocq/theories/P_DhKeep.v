(** The arrays of the adaptive coder keep their sizes, whatever is decoded. *)
From Verif Require Import Go GoLemmas M_Crc M_Bitio M_Maketree M_Maketbl M_Huf M_Dhuf M_Shuf M_Larc M_Pm2 M_Slide M_Decode M_Lzhuf P_DecAny P_Dhuf S_History.

(** If it returns, [Q] holds of the result. *)
Definition kp {A} (Q : A -> Prop) (m : res A) : Prop := forall a, m = Ok a -> Q a.

Lemma kp_bind {A B} (P : A -> Prop) (Q : B -> Prop) (m : res A) (k : A -> res B) : kp P m -> (forall a, P a -> kp Q (k a)) -> kp Q (bind m k).
Proof. intros H1 H2 b E. apply bind_ok in E. destruct E as [a [E1 E2]]. exact (H2 a (H1 a E1) b E2). Qed.
Lemma kp_true {A} (m : res A) : kp (fun _ => True) m.
Proof. intros a _. exact I. Qed.
Lemma kp_ret {A} (Q : A -> Prop) a : Q a -> kp Q (Ok a).
Proof. intros H b E. injection E as <-. exact H. Qed.
Lemma kp_weak {A} (P Q : A -> Prop) m : kp P m -> (forall a, P a -> Q a) -> kp Q m.
Proof. intros H1 H2 a E. auto. Qed.
Lemma kp_loop {S T} (J : S -> Prop) (Q : T -> Prop) fuel (step : S -> res (ctl S T)) s :
  (forall s, J s -> kp (fun c => match c with Go s' => J s' | Stop t => Q t end) (step s)) -> J s -> kp Q (loop fuel step s).
Proof. intros H1 H2 t E. eapply loop_partial in E; [exact E| |exact H2]. intros s0 c X1 X2. exact (H1 s0 X1 c X2). Qed.
Lemma kp_for {S} (J : S -> Prop) (body : Z -> S -> res S) lo hi s : (forall i s, J s -> kp J (body i s)) -> J s -> kp J (forZ lo hi body s).
Proof. intros H1 H2 t E. eapply forZ_keep in E; [exact E| |exact H2]. intros i s0 s1 X1 X2. exact (H1 i s0 X1 s1 X2). Qed.
Arguments kp : simpl never.

Ltac sz := let H := fresh in intros H; destruct H; constructor; cbv beta iota delta [k_child k_parent k_block k_edge k_stock k_snode k_freq
  set_totalP set_avail set_mostP set_nn set_next set_n1 set_nMax set_child set_parent set_block set_edge set_stock set_snode set_freq] in *; rewrite ?alen_upd; assumption.
Lemma sz_totalP v d : Sz d -> Sz (set_totalP v d). Proof. sz. Qed.
Lemma sz_avail v d : Sz d -> Sz (set_avail v d). Proof. sz. Qed.
Lemma sz_mostP v d : Sz d -> Sz (set_mostP v d). Proof. sz. Qed.
Lemma sz_nn v d : Sz d -> Sz (set_nn v d). Proof. sz. Qed.
Lemma sz_next v d : Sz d -> Sz (set_next v d). Proof. sz. Qed.
Lemma sz_n1 v d : Sz d -> Sz (set_n1 v d). Proof. sz. Qed.
Lemma sz_nMax v d : Sz d -> Sz (set_nMax v d). Proof. sz. Qed.
Ltac szput := intros H d' E; apply bind_ok in E; destruct E as [a [E1 E2]]; apply aset_inv in E1; destruct E1 as [_ ->]; injection E2 as <-; revert H; sz.
Lemma kp_child i v d : Sz d -> kp Sz (put_child i v d). Proof. szput. Qed.
Lemma kp_parent i v d : Sz d -> kp Sz (put_parent i v d). Proof. szput. Qed.
Lemma kp_block i v d : Sz d -> kp Sz (put_block i v d). Proof. szput. Qed.
Lemma kp_edge i v d : Sz d -> kp Sz (put_edge i v d). Proof. szput. Qed.
Lemma kp_stock i v d : Sz d -> kp Sz (put_stock i v d). Proof. szput. Qed.
Lemma kp_snode i v d : Sz d -> kp Sz (put_snode i v d). Proof. szput. Qed.
Lemma kp_freq i v d : Sz d -> kp Sz (put_freq i v d). Proof. szput. Qed.
#[local] Hint Resolve sz_totalP sz_avail sz_mostP sz_nn sz_next sz_n1 sz_nMax kp_child kp_parent kp_block kp_edge kp_stock kp_snode kp_freq : dhk.
Opaque put_child put_parent put_block put_edge put_stock put_snode put_freq.

(** Walk through a function: what is read does not matter. *)
Ltac kstep :=
  cbv zeta;
  match goal with
  | |- kp _ (Ok _) => apply kp_ret; cbv beta iota; auto 6 with dhk
  | |- kp _ Panic => intros ? E; discriminate E
  | |- kp _ (bind (aget _ _) _) => eapply kp_bind; [apply kp_true|]; intros ? _; cbv beta
  | |- kp _ (bind (if _ then _ else _) _) => idtac
  | |- kp _ (bind _ _) => eapply kp_bind; [solve [auto 6 with dhk]|]; intros ? ?; cbv beta
  | |- kp _ (if ?b then _ else _) => destruct b
  | |- kp _ _ => solve [auto 6 with dhk]
  end.
Ltac kk := repeat kstep.

Lemma kp_new p d : Sz d -> kp Sz (new_block p d).
Proof. intros H. unfold new_block. kk. Qed.
#[local] Hint Resolve kp_new : dhk.

Lemma kp_startC nm mm d : Sz d -> kp Sz (startCDyn nm mm d).
Proof.
  intros H. unfold startCDyn. cbv zeta. eapply kp_bind; [apply (kp_for Sz); [|auto 6 with dhk]|].
  { intros i d1 H1. unfold start_clear. kk. }
  intros d1 H1. cbv beta. eapply kp_bind; [apply (kp_for Sz); [|exact H1]|].
  { intros i d2 H2. unfold start_leaf. kk. }
  intros d2 H2. cbv beta. eapply kp_bind; [apply kp_edge; auto with dhk|]. intros d3 H3. cbv beta.
  apply (kp_for Sz); [|exact H3]. intros i d4 H4. unfold start_inner. kk.
Qed.
Lemma kp_startP k d : Sz d -> kp Sz (startPDyn k d).
Proof. intros H. unfold startPDyn. kk. Qed.
#[local] Hint Resolve kp_startC kp_startP : dhk.

Lemma kp_reconst a b d : Sz d -> kp Sz (reconst a b d).
Proof.
  intros H. unfold reconst. eapply kp_bind; [apply (kp_for (fun s => Sz (snd s))); [|exact H]|].
  { intros i [[j z] d1] H1. cbn [snd] in H1. unfold reconst_leaves. kk. apply (kp_bind (fun s => Sz (snd s))); [kk|].
    intros [j1 d2] H2. cbn [snd] in H2. kk. }
  intros [[j z] d1] H1. cbn [snd] in H1. eapply kp_bind; [apply (kp_loop (fun s => Sz (snd s)) Sz); [|exact H1]|].
  { assert (MV : forall tg lim s, Sz (snd s) -> kp (fun s => Sz (snd s)) (loop (treesize + 2) (reconst_move tg lim) s)).
    { intros tg lim s HS. apply (kp_loop (fun s => Sz (snd s)) (fun s => Sz (snd s))); [|exact HS]. intros [[i0 j0] d0] H0. cbn [snd] in H0. unfold reconst_move. destruct (lim <=? (if tg then i0 else j0)); kk. }
    intros [[[i0 j0] l0] d0] H0. cbn [snd] in H0. unfold reconst_join. destruct (a <=? i0); [|now apply kp_ret].
    eapply kp_bind; [apply (MV true l0); exact H0|]. intros [[i1 j1] d2] H2. cbn [snd] in H2. kk.
    eapply kp_bind; [apply kp_true|]. intros k _. eapply kp_bind; [apply (MV false k); exact H2|]. intros [[i2 j2] d3] H3. cbn [snd] in H3. kk. }
  intros d2 H2. cbv beta. eapply kp_bind; [apply (kp_for (fun s => Sz (snd s))); [|exact H2]|].
  { intros i [[f0 b0] d3] H3. cbn [snd] in H3. unfold reconst_links. kk. apply (kp_bind Sz); [kk|]. intros d4 H4. kk. }
  intros [[f0 b0] d3] H3. now apply kp_ret.
Qed.

Lemma kp_hang r q d : Sz d -> kp Sz (hang r q d).
Proof. intros H. unfold hang. kk. Qed.
Lemma kp_raise p d : Sz d -> kp Sz (raise p d).
Proof. intros H. unfold raise. kk. Qed.
#[local] Hint Resolve kp_reconst kp_hang kp_raise : dhk.

Lemma kp_swapInc p d : Sz d -> kp (fun s => Sz (snd s)) (swapInc p d).
Proof.
  intros H. unfold swapInc. kk. apply (kp_bind (fun s => Sz (snd s))).
  - kk.
  - intros [p1 d1] H1. cbn [snd] in H1. kk.
Qed.

Lemma kp_updateC p d : Sz d -> kp Sz (updateC p d).
Proof.
  intros H. unfold updateC. kk. apply (kp_bind Sz); [kk|]. intros d1 H1. kk.
  apply (kp_loop (fun s => Sz (snd s)) Sz); [|assumption]. intros [q d2] H2. cbn [snd] in H2. eapply kp_bind; [apply kp_swapInc; exact H2|]. intros [q2 d3] H3. cbn [snd] in H3. kk.
Qed.

Lemma kp_updateP p d : Sz d -> kp Sz (updateP p d).
Proof.
  intros H. unfold updateP. apply (kp_bind Sz); [kk|]. intros d1 H1. kk. apply (kp_bind Sz); [|intros d2 H2; kk].
  apply (kp_loop (fun s => Sz (snd s)) Sz); [|assumption]. intros [q d2] H2. cbn [snd] in H2. destruct (q =? rootP); [now apply kp_ret|].
  eapply kp_bind; [apply kp_swapInc; exact H2|]. intros [q2 d3] H3. cbn [snd] in H3. kk.
Qed.
#[local] Hint Resolve kp_updateC kp_updateP : dhk.

Lemma kp_makeNewNode p d : Sz d -> kp Sz (makeNewNode p d).
Proof.
  intros H. unfold makeNewNode. kk. apply (kp_bind Sz); [kk|]. intros dd HH. kk.
Qed.
#[local] Hint Resolve kp_makeNewNode : dhk.

Lemma kp_decodeC d r : Sz d -> kp (fun s => Sz (snd (fst s))) (decodeCDyn d r).
Proof.
  intros H. unfold decodeCDyn. kk. apply (kp_bind (fun _ => True)); [apply kp_true|]. intros [c1 r1] _. kk. apply (kp_bind (fun _ => True)); [apply kp_true|]. intros [c2 r2] _. kk.
Qed.

Lemma kp_decodeP n d r : Sz d -> kp (fun s => Sz (snd (fst s))) (decodePDyn n d r).
Proof.
  intros H. unfold decodePDyn. apply (kp_bind Sz).
  { unfold grow_p. apply (kp_loop Sz Sz); [|exact H]. intros d1 H1. kk. }
  intros d1 H1. kk. apply (kp_bind (fun _ => True)); [apply kp_true|]. intros [c1 r1] _. kk. apply (kp_bind (fun _ => True)); [apply kp_true|]. intros [c2 r2] _. kk.
Qed.

Definition szx (s : dst * ext) : Prop := Sz (x_dh (snd s)).

Lemma kp_start m packed inp text h x : Sz (x_dh x) -> kp (fun s => Sz (x_dh (snd s))) (decodeMethodStart m packed inp text h x).
Proof.
  intros H. unfold decodeMethodStart. destruct (m =? 1); [|destruct (m =? 2); [|destruct (m =? 3); [|destruct (m =? 8); [|destruct (m =? 9); [|destruct (m =? 13)]]]]].
  - apply (kp_bind (fun _ => True)); [apply kp_true|]. intros r _. apply (kp_bind (fun s => Sz (snd s))); [|intros [h1 d1] H1; now apply kp_ret].
    unfold decodeStartFix. kk. apply (kp_bind (fun _ => True)); [apply kp_true|]. intros h1 _. apply (kp_bind (fun _ => True)); [apply kp_true|]. intros h2 _. now apply kp_ret.
  - apply (kp_bind (fun _ => True)); [apply kp_true|]. intros r _. apply (kp_bind Sz); [|intros d1 H1; now apply kp_ret]. unfold decodeStartDyn. kk.
  - apply (kp_bind (fun _ => True)); [apply kp_true|]. intros r _. unfold decodeStartSt0. apply kp_ret. cbn [snd x_dh]. now apply sz_nMax.
  - apply (kp_bind (fun _ => True)); [apply kp_true|]. intros r _. now apply kp_ret.
  - apply (kp_bind (fun _ => True)); [apply kp_true|]. intros r _. now apply kp_ret.
  - apply (kp_bind (fun _ => True)); [apply kp_true|]. intros r _. apply (kp_bind (fun _ => True)); [apply kp_true|]. intros [m1 r1] _. apply kp_ret. cbn [snd x_dh]. now apply sz_next.
  - now apply kp_ret.
Qed.

Lemma kp_methodC m s x : Sz (x_dh x) -> kp (fun s => Sz (x_dh (snd s))) (decodeMethodC m s x).
Proof.
  intros H. unfold decodeMethodC. destruct ((m =? 1) || (m =? 2)); [|destruct (m =? 3); [|destruct (m =? 8); [|destruct (m =? 9); [|destruct (m =? 13)]]]].
  - eapply kp_bind; [apply kp_decodeC; exact H|]. intros [[c d] r] H1. now apply kp_ret.
  - apply (kp_bind (fun _ => True)); [apply kp_true|]. intros [[c h] r] _. now apply kp_ret.
  - apply (kp_bind (fun _ => True)); [apply kp_true|]. intros [[c h] r] _. now apply kp_ret.
  - cbv zeta. destruct (decodeCLz5 _) as [c z]. now apply kp_ret.
  - apply (kp_bind (fun _ => True)); [apply kp_true|]. intros [[[c n] m1] r] _. apply kp_ret. cbn [snd x_dh]. now apply sz_next.
  - now apply kp_ret.
Qed.

Lemma kp_methodP m s x : Sz (x_dh x) -> kp (fun s => Sz (x_dh (snd s))) (decodeMethodP m s x).
Proof.
  intros H. unfold decodeMethodP. destruct ((m =? 1) || (m =? 3)); [|destruct (m =? 2); [|destruct (m =? 8); [|destruct (m =? 9); [|destruct (m =? 13)]]]].
  - apply (kp_bind (fun _ => True)); [apply kp_true|]. intros [p r] _. now apply kp_ret.
  - eapply kp_bind; [apply kp_decodeP; exact H|]. intros [[c d] r] H1. now apply kp_ret.
  - now apply kp_ret.
  - now apply kp_ret.
  - apply (kp_bind (fun _ => True)); [apply kp_true|]. intros [p r] _. now apply kp_ret.
  - now apply kp_ret.
Qed.

Lemma kp_decode_old m k broken o p inp g : Sz (g_dh g) -> kp (fun s => Sz (g_dh (fst s))) (decode_old m k broken o p inp g).
Proof.
  intros H. unfold decode_old. cbv zeta. eapply kp_bind; [apply kp_start; exact H|]. intros [[[h r] t] x] H1. cbn [snd] in H1.
  eapply kp_bind; [apply (kp_loop szx szx); [|exact H1]|].
  { intros [s y] HS. unfold szx in HS. cbn [snd] in HS. unfold old_step. destruct (d_count s <? o); [|now apply kp_ret].
    eapply kp_bind; [apply kp_methodC; exact HS|]. intros [[c s1] x1] HS1. cbn [snd] in HS1. destruct (c <? 256).
    - apply (kp_bind (fun _ => True)); [apply kp_true|]. intros s2 _. now apply kp_ret.
    - cbv zeta. eapply kp_bind; [apply kp_methodP; exact HS1|]. intros [[p2 s2] x2] HS2. cbn [snd] in HS2.
      apply (kp_bind (fun _ => True)); [apply kp_true|]. intros s3 _. now apply kp_ret. }
  intros [s y] HS. apply kp_ret. exact HS.
Qed.

Lemma encode_dh k mx size inp g : kp (fun er => g_dh (er_glob er) = g_dh g) (encode k mx size inp g).
Proof.
  unfold encode. cbv zeta. apply (kp_bind (fun _ => True)); [apply kp_true|]. intros [hp hf] _. apply (kp_bind (fun _ => True)); [apply kp_true|]. intros h _.
  apply (kp_bind (fun _ => True)); [apply kp_true|]. intros t _. destruct inp as [|b inp]; [now apply kp_ret|].
  apply (kp_bind (fun _ => True)); [apply kp_true|]. intros [[[t1 crc] v] i] _. do 3 (apply (kp_bind (fun _ => True)); [apply kp_true|]; intros ? _).
  apply (kp_bind (fun _ => True)); [apply kp_true|]. intros [h2 w] _. now apply kp_ret.
Qed.

Lemma run_call_sz c g g' : Sz (g_dh g) -> run_call c g = Some g' -> Sz (g_dh g').
Proof.
  intros H E. destruct c as [m size inp|m broken o p inp]; cbn [run_call] in E.
  - destruct (EncodeLzhuf m size inp g) as [eo| |] eqn:X; try discriminate. injection E as <-. revert eo X.
    change (kp (fun eo => Sz (g_dh (eo_glob eo))) (EncodeLzhuf m size inp g)). unfold EncodeLzhuf.
    destruct (if 0 <? m then method_params m else None) as [[k mx]|].
    + cbv zeta. eapply kp_bind; [apply encode_dh|]. intros er HE. cbv beta in HE. destruct (er_original er =? 0); [intros ? Z; discriminate Z|]. apply kp_ret. cbn [eo_glob]. rewrite HE.
      unfold encodeAlloc. destruct (alen (g_hpos g) =? 0); exact H.
    + cbv zeta. apply (kp_bind (fun _ => True)); [apply kp_true|]. intros [[out r] rest] _. destruct (r =? 0); [intros ? Z; discriminate Z|]. now apply kp_ret.
  - destruct (DecodeLzhuf m broken o p inp g) as [[[[[g1 a] b] c] d]| |] eqn:X; try discriminate. injection E as <-.
    assert (Y : kp (fun s => Sz (g_dh (fst (fst (fst (fst s)))))) (DecodeLzhuf m broken o p inp g)); [|exact (Y _ X)]. clear X.
    unfold DecodeLzhuf. destruct (dec_dicbit m) as [k|].
    + destruct (k =? 0); [apply (kp_bind (fun _ => True)); [apply kp_true|]; intros [[out r] rest] _; now apply kp_ret|].
      apply (kp_bind (fun _ => True)); [apply kp_true|]. intros x _. now apply kp_ret.
    + eapply kp_bind; [apply kp_decode_old; exact H|]. intros [g2 x] H2. now apply kp_ret.
Qed.

Theorem after_sz cs g : after cs g -> Sz (g_dh g).
Proof.
  intros [_ R]. assert (Z0 : Sz (g_dh glob0)) by (constructor; reflexivity). revert Z0 R. generalize glob0. induction cs as [|c cs IH]; intros g0 Z0 R; cbn [run_calls] in R.
  - now injection R as <-.
  - destruct (run_call c g0) as [g1|] eqn:E; [|discriminate]. apply (IH g1); [|exact R]. eapply run_call_sz; eauto.
Qed.
