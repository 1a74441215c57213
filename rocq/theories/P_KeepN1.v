(** What decoding -lh2- data leaves behind in the package variables. *)
From Verif Require Import Go GoLemmas M_Crc M_Bitio M_Maketree M_Maketbl M_Huf M_Dhuf M_Shuf M_Pm2 M_Slide M_Decode M_Lzhuf.

(** If [m] returns, its result has [Q]. *)
Definition post {A} (Q : A -> Prop) (m : res A) : Prop := match m with Ok a => Q a | _ => True end.

Lemma post_bind {A B} (P : A -> Prop) (Q : B -> Prop) (m : res A) (k : A -> res B) : post P m -> (forall a, P a -> post Q (k a)) -> post Q (bind m k).
Proof. intros M K. destruct m as [a| |]; cbn [bind]; [exact (K a M)|exact Logic.I..]. Qed.
Lemma post_any {A} (m : res A) : post (fun _ => True) m.
Proof. destruct m; exact Logic.I. Qed.
Lemma post_for {S} (I : S -> Prop) lo hi (body : Z -> S -> res S) s : (forall i s, I s -> post I (body i s)) -> I s -> post I (forZ lo hi body s).
Proof.
  intros H. unfold forZ. generalize (Z.to_nat (hi - lo)) as n. intros n. revert lo s. induction n as [|n IH]; intros lo s Hs; cbn [for_up]; [exact Hs|].
  apply post_bind with (P := I); [apply H; exact Hs|]. intros a Ha. apply IH. exact Ha.
Qed.
Lemma post_loop {S T} (I : S -> Prop) (Q : T -> Prop) fuel (step : S -> res (ctl S T)) s :
  (forall s, I s -> post (fun c => match c with Go s' => I s' | Stop t => Q t end) (step s)) -> I s -> post Q (loop fuel step s).
Proof.
  intros H Hs. destruct (loop fuel step s) as [t| |] eqn:E; cbn [post]; auto. revert E. apply loop_partial with (I := I); [|exact Hs].
  intros s0 c I0 E. specialize (H s0 I0). rewrite E in H. exact H.
Qed.

Section N1.
  Variable n : Z.
  Definition kd (d : dh) : Prop := k_n1 d = n.
  Definition kzd (x : Z * dh) : Prop := kd (snd x).
  Definition kzzd (x : Z * Z * dh) : Prop := kd (snd x).
  Definition kzzzd (x : Z * Z * Z * dh) : Prop := kd (snd x).

  Lemma p_put f (set : arr -> dh -> dh) i v d : (forall a d, k_n1 (set a d) = k_n1 d) -> kd d -> post kd (a <- aset (f d) i v ;; Ok (set a d)).
  Proof. intros S K. apply post_bind with (P := fun _ => True); [apply post_any|]. intros a _. cbn [post]. unfold kd. rewrite S. exact K. Qed.
  Lemma p_child i v d : kd d -> post kd (put_child i v d). Proof. apply p_put. reflexivity. Qed.
  Lemma p_parent i v d : kd d -> post kd (put_parent i v d). Proof. apply p_put. reflexivity. Qed.
  Lemma p_block i v d : kd d -> post kd (put_block i v d). Proof. apply p_put. reflexivity. Qed.
  Lemma p_edge i v d : kd d -> post kd (put_edge i v d). Proof. apply p_put. reflexivity. Qed.
  Lemma p_stock i v d : kd d -> post kd (put_stock i v d). Proof. apply p_put. reflexivity. Qed.
  Lemma p_snode i v d : kd d -> post kd (put_snode i v d). Proof. apply p_put. reflexivity. Qed.
  Lemma p_freq i v d : kd d -> post kd (put_freq i v d). Proof. apply p_put. reflexivity. Qed.
  Create HintDb kp.
  Hint Resolve p_child p_parent p_block p_edge p_stock p_snode p_freq : kp.

  Ltac kp := repeat first
    [ progress cbn [post]
    | match goal with
      | |- forall _, _ => intros
      | p : (_ * _)%type |- _ => destruct p
      | H : kzd _ |- _ => unfold kzd in H; cbn [snd] in H
      | H : kzzd _ |- _ => unfold kzzd in H; cbn [snd] in H
      | H : kzzzd _ |- _ => unfold kzzzd in H; cbn [snd] in H
      | |- kzd _ => unfold kzd; cbn [snd]
      | |- kzzd _ => unfold kzzd; cbn [snd]
      | |- kzzzd _ => unfold kzzzd; cbn [snd]
      | |- kd _ => assumption
      | |- True => exact Logic.I
      | |- post _ (if ?b then _ else _) => destruct b
      | |- post (fun _ => True) _ => apply post_any
      | |- post kd (put_child _ _ _) => apply p_child
      | |- post kd (put_parent _ _ _) => apply p_parent
      | |- post kd (put_block _ _ _) => apply p_block
      | |- post kd (put_edge _ _ _) => apply p_edge
      | |- post kd (put_stock _ _ _) => apply p_stock
      | |- post kd (put_snode _ _ _) => apply p_snode
      | |- post kd (put_freq _ _ _) => apply p_freq
      | |- @post ?B _ (@bind dh _ _ _) => apply post_bind with (P := kd)
      | |- @post ?B _ (@bind (Z * dh) _ _ _) => apply post_bind with (P := kzd)
      | |- @post ?B _ (@bind (Z * Z * dh) _ _ _) => apply post_bind with (P := kzzd)
      | |- @post ?B _ (@bind _ _ _ _) => apply post_bind with (P := fun _ => True); [apply post_any|]
      | |- kd (set_avail _ ?d) => change (kd d)
      | |- kd (set_totalP _ ?d) => change (kd d)
      | |- kd (set_mostP _ ?d) => change (kd d)
      | |- kd (set_nn _ ?d) => change (kd d)
      | |- kd (set_next _ ?d) => change (kd d)
      | |- kd (set_nMax _ ?d) => change (kd d)
      end ].

  Lemma p_new p d : kd d -> post kd (new_block p d).
  Proof. intros K. unfold new_block. kp. Qed.
  Lemma p_hang r q d : kd d -> post kd (hang r q d).
  Proof. intros K. unfold hang. kp. Qed.
  Lemma p_raise p d : kd d -> post kd (raise p d).
  Proof. intros K. unfold raise. kp. apply p_new. assumption. Qed.
  Lemma p_swap p d : kd d -> post kzd (swapInc p d).
  Proof. intros K. unfold swapInc. kp; try (apply p_hang; assumption); try (apply p_raise; assumption). Qed.
  Lemma p_move t lim s : kzzd s -> post (fun c => match c with Go s' => kzzd s' | Stop s' => kzzd s' end) (reconst_move t lim s).
  Proof. intros K. destruct s as [[i j] d]. unfold reconst_move. destruct (lim <=? _); kp. Qed.
  Lemma p_join start s : kzzzd s -> post (fun c => match c with Go s' => kzzzd s' | Stop d => kd d end) (reconst_join start s).
  Proof.
    intros K. destruct s as [[[i j] l] d]. unfold reconst_join. kp.
    all: apply post_loop with (I := kzzd); [intros; apply p_move; assumption|kp].
  Qed.
  Lemma p_reconst start e d : kd d -> post kd (reconst start e d).
  Proof.
    intros K. unfold reconst. kp.
    - apply post_for; [|kp]. intros i s Hs. destruct s as [[? ?] ?]. unfold reconst_leaves. kp.
    - apply post_loop with (I := kzzzd); [intros; apply p_join; assumption|kp].
    - apply post_for; [|kp]. intros i s Hs. destruct s as [[? ?] ?]. unfold reconst_links. kp. apply p_new; assumption.
  Qed.
  Lemma p_updateC p d : kd d -> post kd (updateC p d).
  Proof.
    intros K. unfold updateC. kp; try (apply p_reconst; assumption).
    apply post_loop with (I := kzd); [|kp]. intros s Hs. kp. apply p_swap; assumption.
  Qed.
  Lemma p_updateP p d : kd d -> post kd (updateP p d).
  Proof.
    intros K. unfold updateP. kp; try (apply p_reconst; assumption).
    apply post_loop with (I := kzd); [|kp]. intros s Hs. kp. apply p_swap; assumption.
  Qed.
  Lemma p_make p d : kd d -> post kd (makeNewNode p d).
  Proof. intros K. unfold makeNewNode. cbv zeta. kp; try (apply p_new; kp); try (apply p_updateP; assumption). Qed.
  Lemma p_grow c d : kd d -> post kd (grow_p c d).
  Proof. intros K. unfold grow_p. apply post_loop with (I := kd); [|exact K]. intros s Hs. kp. apply p_make; assumption. Qed.
  Definition krd (x : Z * dh * rst) : Prop := kd (snd (fst x)).
  Lemma p_cdyn d r : kd d -> post krd (decodeCDyn d r).
  Proof. intros K. unfold decodeCDyn. kp; unfold krd; cbn [fst snd]; kp. apply p_updateC; assumption. Qed.
  Lemma p_pdyn c d r : kd d -> post krd (decodePDyn c d r).
  Proof. intros K. unfold decodePDyn. kp; unfold krd; cbn [fst snd]; kp; try (apply p_grow; assumption); apply p_updateP; assumption. Qed.

  Lemma p_start_loops m d : kd d -> post kd (
    d <- forZ 0 treesizeC start_clear d ;;
    d <- forZ 0 m (start_leaf m) d ;;
    let d := set_avail 2 d in
    d <- put_edge 1 (m - 1) d ;;
    forZ 0 (m - 1) (start_inner m) d).
  Proof.
    intros K. apply post_bind with (P := kd).
    { apply post_for; [|exact K]. intros i s Hs. unfold start_clear. kp. }
    intros d1 K1. apply post_bind with (P := kd).
    { apply post_for; [|exact K1]. intros i s Hs. unfold start_leaf. kp. }
    intros d2 K2. cbv zeta. apply post_bind with (P := kd).
    { apply p_edge. exact K2. }
    intros d3 K3. apply post_for; [|exact K3]. intros i s Hs. unfold start_inner. cbv zeta. kp. apply p_new; assumption.
  Qed.
  Lemma p_startP k d : kd d -> post kd (startPDyn k d).
  Proof. intros K. unfold startPDyn. kp. apply p_new; assumption. Qed.
End N1.

Lemma p_startC d : post (kd 512) (startCDyn 286 256 d).
Proof. unfold startCDyn. apply p_start_loops. reflexivity. Qed.
Lemma p_startDyn d : post (kd 512) (decodeStartDyn d).
Proof.
  unfold decodeStartDyn. apply post_bind with (P := kd 512); [apply p_startC|]. intros d1 K. apply p_startP. exact K.
Qed.

Definition same (h : huf) (s : dst) : Prop := d_huf s = h.
Lemma p_dput h k c s : same h s -> post (same h) (dput k c s).
Proof.
  intros S. unfold dput. apply post_bind with (P := fun _ => True); [apply post_any|]. intros t _. cbv zeta.
  destruct (_ =? _); cbn [post]; exact S.
Qed.
Lemma p_dcopy h k len mp s : same h s -> post (same h) (dcopy k len mp s).
Proof.
  intros S. unfold dcopy. apply post_for; [|exact S]. intros i s1 S1.
  apply post_bind with (P := fun _ => True); [apply post_any|]. intros c _. apply p_dput. exact S1.
Qed.

Definition kst (h : huf) (m : pm) (st : dst * ext) : Prop := same h (fst st) /\ kd 512 (x_dh (snd st)) /\ x_pm (snd st) = m.
Lemma p_step h m k size st : kst h m st -> post (fun c => match c with Go s => kst h m s | Stop s => kst h m s end) (old_step 2 k size st).
Proof.
  destruct st as [s x]. intros (S & K & M). cbn [fst snd] in S, K, M. unfold old_step. destruct (_ <? size); [|cbn [post]; repeat split; assumption].
  apply post_bind with (P := fun y => kst h m (snd (fst y), snd y)).
  { unfold decodeMethodC. change ((2 =? 1) || (2 =? 2)) with true. cbv iota. apply post_bind with (P := krd 512); [apply p_cdyn; exact K|].
    intros [[c d] r] Q. cbn [post]. split; [exact S|]. split; [exact Q|exact M]. }
  intros [[c s1] x1] (S1 & K1 & M1). cbn [fst snd] in S1, K1, M1. destruct (c <? 256).
  - apply post_bind with (P := same h); [apply p_dput; exact S1|]. intros s2 S2. cbn [post]. split; [exact S2|]. split; [exact K1|exact M1].
  - cbv zeta. apply post_bind with (P := fun y => kst h m (snd (fst y), snd y)).
    { unfold decodeMethodP. change ((2 =? 1) || (2 =? 3)) with false. change (2 =? 2) with true. cbv iota. apply post_bind with (P := krd 512); [apply p_pdyn; exact K1|].
      intros [[p d] r] Q. cbn [post]. split; [exact S1|]. split; [exact Q|exact M1]. }
    intros [[p s2] x2] (S2 & K2 & M2). cbn [fst snd] in S2, K2, M2. apply post_bind with (P := same h); [apply p_dcopy; exact S2|].
    intros s3 S3. cbn [post]. split; [exact S3|]. split; [exact K2|exact M2].
Qed.

Lemma lh2_leaves broken size packed inp g g2 crc out n rest :
  DecodeLzhuf 2 broken size packed inp g = Ok (g2, crc, out, n, rest) -> k_n1 (g_dh g2) = 512 /\ g_huf g2 = g_huf g /\ g_pm g2 = g_pm g.
Proof.
  assert (X : post (fun y => k_n1 (g_dh (fst (fst (fst (fst y))))) = 512 /\ g_huf (fst (fst (fst (fst y)))) = g_huf g /\ g_pm (fst (fst (fst (fst y)))) = g_pm g) (DecodeLzhuf 2 broken size packed inp g)).
  { unfold DecodeLzhuf. change (dec_dicbit 2) with (@None Z). cbv iota.
    apply post_bind with (P := fun y => k_n1 (g_dh (fst y)) = 512 /\ g_huf (fst y) = g_huf g /\ g_pm (fst y) = g_pm g).
    2: { intros [g1 y] Q. cbn [post fst]. exact Q. }
    unfold decode_old. cbv zeta. apply post_bind with (P := fun y => fst (fst (fst y)) = g_huf g /\ kd 512 (x_dh (snd y)) /\ x_pm (snd y) = g_pm g).
    { unfold decodeMethodStart. change (2 =? 1) with false. change (2 =? 2) with true. cbv iota.
      apply post_bind with (P := fun _ => True); [apply post_any|]. intros r _.
      apply post_bind with (P := kd 512); [apply p_startDyn|]. intros d K. cbn [post fst snd x_dh x_pm]. split; [reflexivity|]. split; [exact K|reflexivity]. }
    intros [[[h r] t] x] (H & K & M). cbn [fst snd] in H, K, M.
    apply post_bind with (P := kst (g_huf g) (g_pm g)); [apply post_loop with (I := kst (g_huf g) (g_pm g)); [apply p_step|split; [exact H|]; split; [exact K|exact M]]|].
    intros [s y] (S & L & M1). cbn [fst snd] in S, L, M1. cbn [post fst g_dh g_huf g_pm]. split; [exact L|]. split; [|exact M1]. destruct (d_loc s =? 0); exact S. }
  intros E. rewrite E in X. exact X.
Qed.
