(** dhuf.go keeps the trees of S_Lh1.v: swapInc and updateC. *)
From Verif Require Import Go GoLemmas M_Bitio M_Dhuf S_Bits S_Huff S_Lz S_Lh1 P_Tree P_Build P_Blocks.

Lemma put_child_ok i v d : 0 <= i < alen (k_child d) -> put_child i v d = Ok (set_child (upd (k_child d) i v) d).
Proof. intros. unfold put_child. now rewrite aset_ok by lia. Qed.
Lemma put_parent_ok i v d : 0 <= i < alen (k_parent d) -> put_parent i v d = Ok (set_parent (upd (k_parent d) i v) d).
Proof. intros. unfold put_parent. now rewrite aset_ok by lia. Qed.
Lemma put_block_ok i v d : 0 <= i < alen (k_block d) -> put_block i v d = Ok (set_block (upd (k_block d) i v) d).
Proof. intros. unfold put_block. now rewrite aset_ok by lia. Qed.
Lemma put_edge_ok i v d : 0 <= i < alen (k_edge d) -> put_edge i v d = Ok (set_edge (upd (k_edge d) i v) d).
Proof. intros. unfold put_edge. now rewrite aset_ok by lia. Qed.
Lemma put_stock_ok i v d : 0 <= i < alen (k_stock d) -> put_stock i v d = Ok (set_stock (upd (k_stock d) i v) d).
Proof. intros. unfold put_stock. now rewrite aset_ok by lia. Qed.
Lemma put_snode_ok i v d : 0 <= i < alen (k_snode d) -> put_snode i v d = Ok (set_snode (upd (k_snode d) i v) d).
Proof. intros. unfold put_snode. now rewrite aset_ok by lia. Qed.
Lemma put_freq_ok i v d : 0 <= i < alen (k_freq d) -> put_freq i v d = Ok (set_freq (upd (k_freq d) i v) d).
Proof. intros. unfold put_freq. now rewrite aset_ok by lia. Qed.

Ltac dred := cbv beta iota delta [bind k_child k_parent k_block k_edge k_stock k_snode k_freq k_totalP k_avail k_mostP k_nn k_next k_n1 k_nMax
  set_child set_parent set_block set_edge set_stock set_snode set_freq set_totalP set_avail set_mostP set_nn set_next set_n1 set_nMax].
Ltac dredin H := cbv beta iota delta [bind k_child k_parent k_block k_edge k_stock k_snode k_freq k_totalP k_avail k_mostP k_nn k_next k_n1 k_nMax
  set_child set_parent set_block set_edge set_stock set_snode set_freq set_totalP set_avail set_mostP set_nn set_next set_n1 set_nMax] in H.
Ltac dside := dred; rewrite ?alen_upd; lia.
Ltac dget := rewrite aget_ok by dside; dred.
Ltac dput := first [rewrite put_child_ok by dside | rewrite put_parent_ok by dside | rewrite put_block_ok by dside | rewrite put_edge_ok by dside
  | rewrite put_stock_ok by dside | rewrite put_snode_ok by dside | rewrite put_freq_ok by dside]; dred.

(** All arrays have their sizes. *)
Record Sz (d : dh) : Prop := {
  z_child : alen (k_child d) = 884;
  z_parent : alen (k_parent d) = 884;
  z_block : alen (k_block d) = 884;
  z_edge : alen (k_edge d) = 884;
  z_stock : alen (k_stock d) = 884;
  z_snode : alen (k_snode d) = 442;
  z_freq : alen (k_freq d) = 884
}.

Definition enc (w : what) : Z := match w with Leaf s => - s - 1 | Fork m => 2 * m end.

(** Where a leaf or the subtrees of a fork are linked to. *)
Definition linked (pa sn : arr) (w : what) (i : Z) : Prop :=
  match w with Leaf s => at_ sn s = i | Fork m => at_ pa (2 * m - 1) = i /\ at_ pa (2 * m) = i end.

Record Rep (n : Z) (t : tree) (d : dh) : Prop := {
  r_sz : Sz d;
  r_freq : forall i, 0 <= i < 2 * n - 1 -> at_ (k_freq d) i = wt t i;
  r_child : forall i, 0 <= i < 2 * n - 1 -> at_ (k_child d) i = enc (wh t i);
  r_link : forall i, 0 <= i < 2 * n - 1 -> linked (k_parent d) (k_snode d) (wh t i) i;
  r_blk : Blk (2 * n - 1) (at_ (k_freq d)) (at_ (k_block d)) (at_ (k_edge d)) (at_ (k_stock d)) (k_avail d);
  r_end : at_ (k_block d) (2 * n - 1) = 0
}.

Lemma raise_ok ch pa bl ed0 st sn fr tp av mo nn nx n1 nm N q :
  alen bl = 884 -> alen ed0 = 884 -> alen st = 884 -> alen fr = 884 -> 3 <= N <= 627 ->
  Blk N (at_ fr) (at_ bl) (at_ ed0) (at_ st) av -> 1 <= q -> q + 1 < N ->
  (forall i j, 0 <= i <= j -> j < N -> at_ fr j <= at_ fr i) ->
  (forall j, 0 <= j < q -> at_ fr j <> at_ fr q) -> at_ fr (q + 1) = at_ fr q -> 0 <= at_ fr q < 60000 -> at_ bl N = 0 ->
  exists bl' ed' av', raise q (DH ch pa bl (upd ed0 (at_ bl q) (q + 1)) st sn fr tp av mo nn nx n1 nm) =
      Ok (DH ch pa bl' ed' st sn (upd fr q (at_ fr q + 1)) tp av' mo nn nx n1 nm) /\
    alen bl' = 884 /\ alen ed' = 884 /\ at_ bl' N = 0 /\
    Blk N (at_ (upd fr q (at_ fr q + 1))) (at_ bl') (at_ ed') (at_ st) av'.
Proof.
  intros Zb Ze Zs Zf HN B Q1 Q2 SO FI EN FB EB. unfold raise. dred. dget.
  assert (U : u16 (at_ fr q + 1) = at_ fr q + 1) by (unfold u16; apply Z.mod_small; lia). rewrite U. dput. dget. dget. rewrite at_upd_eq, at_upd_ne by lia.
  assert (FU : forall x, 0 <= x -> at_ (upd fr q (at_ fr q + 1)) x = if x =? q then at_ fr q + 1 else at_ fr x) by (intros; apply at_upd; lia).
  pose proof (b_rng _ _ _ _ _ _ B) as BR. destruct (Z.eqb_spec (at_ fr q + 1) (at_ fr (q - 1))) as [E|E].
  - dget. dput. do 3 eexists. split; [reflexivity|]. rewrite !alen_upd. split; [exact Zb|]. split; [exact Ze|]. split; [rewrite at_upd_ne by lia; exact EB|].
    apply (blk_join N av q (at_ fr) (at_ bl) (at_ ed0) (at_ st)); auto; try lia.
    + intros; apply at_upd; lia.
    + intros; apply at_upd; [|lia]. pose proof (BR q). lia.
  - unfold new_block. dred. assert (QN : q < N) by lia.
    destruct (blk_new N av q (at_ fr) (at_ bl) (at_ ed0) (at_ st) (at_ (upd fr q (at_ fr q + 1))) HN B SO (conj Q1 QN) FI FU (at_ (upd bl q (at_ st av))) (fun y => if y =? at_ st av then q else if y =? at_ bl q then q + 1 else at_ ed0 y)) as [AV BL]; auto; try lia.
    { intros; apply at_upd; lia. }
    assert (AP : 1 <= av) by (rewrite (b_avail _ _ _ _ _ _ B); pose proof (lead_range (at_ fr) (Z.to_nat N)); lia).
    destruct (b_free _ _ _ _ _ _ B av ltac:(lia)) as [SR _].
    dget. dput. dput. do 3 eexists. split; [reflexivity|]. rewrite !alen_upd. split; [exact Zb|]. split; [exact Ze|]. split; [rewrite at_upd_ne by lia; exact EB|].
    apply (blk_new N av q (at_ fr) (at_ bl) (at_ ed0) (at_ st)); auto; try lia.
    + intros; apply at_upd; lia.
    + intros y Y. pose proof (BR q ltac:(lia)). rewrite !at_upd by lia. reflexivity.
Qed.

(** The links after exchanging what is at [p] and [q]. *)
Definition relink (pa sn : arr) (w : what) (i : Z) : arr * arr :=
  match w with Leaf s => (pa, upd sn s i) | Fork m => (upd (upd pa (2 * m - 1) i) (2 * m) i, sn) end.

Lemma hang_ok n ch pa bl ed st sn fr tp av mo nn nx n1 nm w q : n <= 314 -> alen pa = 884 -> alen sn = 442 ->
  match w with Leaf s => 0 <= s < n | Fork m => 1 <= m < n end ->
  hang (enc w) q (DH ch pa bl ed st sn fr tp av mo nn nx n1 nm) =
    Ok (let '(pa', sn') := relink pa sn w q in DH ch pa' bl ed st sn' fr tp av mo nn nx n1 nm).
Proof.
  intros Hn Zp Zs V. unfold hang, relink, enc. destruct w as [s|m].
  - destruct (Z.leb_spec 0 (- s - 1)); [lia|]. replace (- (- s - 1) - 1) with s by lia. dput. reflexivity.
  - destruct (Z.leb_spec 0 (2 * m)); [|lia]. dput. dput. reflexivity.
Qed.

Lemma relink_len pa sn w q pa' sn' : relink pa sn w q = (pa', sn') -> alen pa' = alen pa /\ alen sn' = alen sn.
Proof. destruct w; cbn [relink]; intros E; injection E as <- <-; rewrite ?alen_upd; auto. Qed.

Lemma relink_ok n pa sn w q pa' sn' v i : relink pa sn w q = (pa', sn') ->
  match w with Leaf s => 0 <= s < n | Fork m => 1 <= m < n end ->
  match v with Leaf s => 0 <= s < n | Fork m => 1 <= m < n end ->
  (v = w /\ i = q \/ v <> w /\ linked pa sn v i) -> linked pa' sn' v i.
Proof.
  intros E V W H. destruct w as [s|m], v as [s'|m']; cbn [relink linked] in *; injection E as <- <-.
  - destruct H as [[X ->]|[X Y]]; [injection X as ->; apply at_upd_eq|]. rewrite at_upd by lia. destruct (Z.eqb_spec s' s); [congruence|exact Y].
  - destruct H as [[X _]|[_ Y]]; [discriminate X|exact Y].
  - destruct H as [[X _]|[_ Y]]; [discriminate X|exact Y].
  - destruct H as [[X ->]|[X Y]].
    + injection X as ->. rewrite at_upd_eq. rewrite at_upd_ne by lia. rewrite at_upd_eq. auto.
    + assert (m' <> m) by congruence. rewrite !at_upd_ne by lia. exact Y.
Qed.

Lemma wf_valid n t c i : wf n t c -> 0 <= i < 2 * n - 1 -> match wh t i with Leaf s => 0 <= s < n | Fork m => 1 <= m < n end.
Proof.
  intros W I. destruct (wh t i) eqn:E; [now apply (wf_leaf _ _ _ W i)|]. destruct (wf_fork _ _ _ W i m I E) as [A _]. exact A.
Qed.

Definition same (d d' : dh) : Prop := k_n1 d' = k_n1 d /\ k_nMax d' = k_nMax d.

Section Swap.
Variable n : Z.
Hypothesis Hn : 2 <= n <= 314.

(** The parent of the node that was raised. *)
Lemma parent_above t c d q : wf n t c -> (forall i, 0 <= i < 2 * n - 1 -> linked (k_parent d) (k_snode d) (wh t i) i) -> 1 <= q < 2 * n - 1 ->
  at_ (k_parent d) q = above t q.
Proof.
  intros W L Q. destruct (above_ok n t c q W Q) as [A B]. specialize (L (above t q) ltac:(lia)). rewrite B in L. cbn [linked] in L.
  destruct (half q ltac:(lia)) as [H|H]; rewrite <- H in L; tauto.
Qed.

Theorem swapInc_ok t p d t1 q : wf n t p -> 1 <= p < 2 * n - 1 -> wt t 0 <= 40000 -> Rep n t d -> grow t p = (t1, q) ->
  exists d', swapInc p d = Ok (above t1 q, d') /\ Rep n t1 d' /\ same d d'.
Proof.
  intros W P B0 R G. destruct (grow_ok n ltac:(lia) t p t1 q W P G) as [Q [EQ [FI [WT [WH W1]]]]].
  destruct R as [SZ RF RC RL RB RE]. destruct d as [ch pa bl ed st sn fr tp av mo nn nx n1 nm]. destruct SZ as [Z1 Z2 Z3 Z4 Z5 Z6 Z7]. dredin Z1. dredin Z2. dredin Z3. dredin Z4. dredin Z5. dredin Z6. dredin Z7. dredin RF. dredin RC. dredin RL. dredin RB. dredin RE.
  assert (HN : 3 <= 2 * n - 1 <= 627) by lia. set (N := 2 * n - 1) in *.
  assert (SO : forall i j, 0 <= i <= j -> j < N -> at_ fr j <= at_ fr i) by (intros; rewrite !RF by lia; apply (wf_sort _ _ _ W); lia).
  assert (FB : forall i, 0 <= i < N -> 1 <= at_ fr i < 60000). { intros i I. rewrite RF by lia. pose proof (wf_pos _ _ _ W i I). pose proof (wf_sort _ _ _ W 0 i ltac:(lia) ltac:(lia)). lia. }
  assert (FQ : at_ fr q = at_ fr p) by (rewrite !RF by lia; exact EQ).
  assert (FI' : forall j, 0 <= j < q -> at_ fr j <> at_ fr q) by (intros; rewrite FQ, !RF by lia; apply FI; lia).
  pose proof (b_rng _ _ _ _ _ _ RB) as BR. pose proof (BR p ltac:(lia)) as BRp.
  assert (BQ : at_ bl q = at_ bl p) by (apply (b_eq _ _ _ _ _ _ RB); lia).
  assert (EDp : at_ ed (at_ bl p) = q).
  { destruct (b_edge _ _ _ _ _ _ RB p ltac:(lia)) as [A1 [A2 A3]]. set (e := at_ ed (at_ bl p)) in *.
    destruct (Z_lt_le_dec e q); [exfalso; apply (FI' e); lia|]. destruct (Z_lt_le_dec q e); [exfalso; apply (A3 q); lia|]. lia. }
  assert (F1 : forall fr1, (forall x, 0 <= x -> at_ fr1 x = if x =? q then at_ fr q + 1 else at_ fr x) -> forall i, 0 <= i < N -> at_ fr1 i = wt t1 i).
  { intros fr1 H i I. rewrite H, WT by lia. destruct (i =? q); [rewrite RF by lia; lia|apply RF; lia]. }
  assert (FU : forall x, 0 <= x -> at_ (upd fr q (at_ fr q + 1)) x = if x =? q then at_ fr q + 1 else at_ fr x) by (intros; apply at_upd; lia).
  unfold swapInc. dred. dget. dget. rewrite EDp. destruct (Z.eqb_spec q p) as [QP|QP]; cbn [negb].
  - (* the node leads its block *)
    rewrite QP in *. clear BQ EQ FQ Q.
    assert (LK : forall i, 0 <= i < N -> wh t1 i = wh t i). { intros i I. rewrite WH by lia. destruct (Z.eqb_spec i p) as [->|]; reflexivity. }
    assert (RC1 : forall i, 0 <= i < N -> at_ ch i = enc (wh t1 i)) by (intros; rewrite LK by lia; now apply RC).
    assert (RL1 : forall i, 0 <= i < N -> linked pa sn (wh t1 i) i) by (intros; rewrite LK by lia; now apply RL).
    dget. destruct (Z.eqb_spec (at_ bl p) (at_ bl (p + 1))) as [BE|BE].
    + assert (PN : p + 1 < N). { destruct (Z.eq_dec (p + 1) N) as [X|]; [|lia]. rewrite X, RE in BE. lia. }
      assert (FN : at_ fr (p + 1) = at_ fr p) by (symmetry; apply (b_eq _ _ _ _ _ _ RB); lia).
      dput.
      destruct (raise_ok ch pa bl ed st sn fr tp av mo nn nx n1 nm N p) as [bl' [ed' [av' [E [A1 [A2 [A3 A4]]]]]]]; auto; try lia; [pose proof (FB p ltac:(lia)); lia|].
      rewrite E. dred. dget. eexists. split; [f_equal; f_equal|].
      { apply (parent_above t1 _ (DH ch pa bl' ed' st sn (upd fr p (at_ fr p + 1)) tp av' mo nn nx n1 nm) p W1); [exact RL1|lia]. }
      split; [|split; reflexivity]. constructor; dred; auto. constructor; dred; auto.
    + assert (AL : forall x, 0 <= x < N -> at_ fr x = at_ fr p -> x = p).
      { intros x X E. destruct (Z_lt_le_dec x p); [exfalso; apply (FI' x); lia|]. destruct (Z.eq_dec x p); [assumption|]. exfalso. apply BE.
        apply (b_eq _ _ _ _ _ _ RB); [lia|lia|]. pose proof (SO p (p + 1) ltac:(lia) ltac:(lia)). pose proof (SO (p + 1) x ltac:(lia) ltac:(lia)). lia. }
      dget. assert (U : u16 (at_ fr p + 1) = at_ fr p + 1) by (pose proof (FB p ltac:(lia)); unfold u16; apply Z.mod_small; lia). rewrite U. dput. dget. dget. rewrite at_upd_eq, at_upd_ne by lia.
      destruct (Z.eqb_spec (at_ fr p + 1) (at_ fr (p - 1))) as [E|E].
      * destruct (blk_free N av p (at_ fr) (at_ bl) (at_ ed) (at_ st) (at_ (upd fr p (at_ fr p + 1))) HN RB SO P FI' FU (at_ (upd bl p (at_ bl (p - 1)))) (fun k => if k =? av - 1 then at_ bl p else at_ st k)) as [AV _]; auto; [intros; apply at_upd; lia|].
        assert (AVU : av <= 628). { rewrite (b_avail _ _ _ _ _ _ RB). pose proof (lead_range (at_ fr) (Z.to_nat N)). lia. }
        dput. dget. dput. dget. eexists. split; [f_equal; f_equal|].
        { apply (parent_above t1 _ (DH ch pa bl ed st sn fr tp av mo nn nx n1 nm) p W1); [exact RL1|lia]. }
        split; [|split; reflexivity]. constructor; dred; auto.
        -- constructor; dred; auto.
        -- apply (blk_free N av p (at_ fr) (at_ bl) (at_ ed) (at_ st)); auto; try lia; intros; apply at_upd; lia.
        -- rewrite at_upd_ne by lia. exact RE.
      * dget. eexists. split; [f_equal; f_equal|].
        { apply (parent_above t1 _ (DH ch pa bl ed st sn fr tp av mo nn nx n1 nm) p W1); [exact RL1|lia]. }
        split; [|split; reflexivity]. constructor; dred; auto.
        -- constructor; dred; auto.
        -- apply (blk_keep N av p (at_ fr) (at_ bl) (at_ ed) (at_ st)); auto; try lia.
  - (* exchange with the leader *)
    assert (QN : q + 1 < N) by lia.
    assert (FN : at_ fr (q + 1) = at_ fr q). { pose proof (SO q (q + 1) ltac:(lia) ltac:(lia)). pose proof (SO (q + 1) p ltac:(lia) ltac:(lia)). lia. }
    dget. dget. rewrite (RC p), (RC q) by lia. dput. dput.
    assert (NW : wh t p <> wh t q) by (intros X; apply (wf_inj _ _ _ W) in X; lia).
    pose proof (wf_valid n t p p W ltac:(lia)) as Vp. pose proof (wf_valid n t p q W ltac:(lia)) as Vq.
    rewrite (hang_ok n) by (auto; lia). destruct (relink pa sn (wh t p) q) as [pa1 sn1] eqn:E1. dred. destruct (relink_len _ _ _ _ _ _ E1) as [L1 L2].
    rewrite (hang_ok n) by (auto; lia). destruct (relink pa1 sn1 (wh t q) p) as [pa2 sn2] eqn:E2. dred. destruct (relink_len _ _ _ _ _ _ E2) as [L3 L4].
    dget. rewrite EDp. dput. rewrite <- BQ.
    destruct (raise_ok (upd (upd ch p (enc (wh t q))) q (enc (wh t p))) pa2 bl ed st sn2 fr tp av mo nn nx n1 nm N q) as [bl' [ed' [av' [E [A1 [A2 [A3 A4]]]]]]]; auto; try lia; [pose proof (FB q ltac:(lia)); lia|].
    rewrite E. dred. dget.
    assert (RL1 : forall i, 0 <= i < N -> linked pa2 sn2 (wh t1 i) i).
    { intros i I. pose proof (wf_valid n t p i W I) as Vi. rewrite WH by lia. apply (relink_ok n _ _ _ _ _ _ _ _ E2 Vq).
      - destruct (i =? q); [exact Vp|]. destruct (i =? p); assumption.
      - destruct (Z.eqb_spec i q) as [->|]; [right; split; [exact NW|]|].
        + apply (relink_ok n _ _ _ _ _ _ _ _ E1 Vp Vp). now left.
        + destruct (Z.eqb_spec i p) as [->|]; [now left|]. right. split; [intros X; apply (wf_inj _ _ _ W) in X; lia|].
          apply (relink_ok n _ _ _ _ _ _ _ _ E1 Vp Vi). right. split; [intros X; apply (wf_inj _ _ _ W) in X; lia|now apply RL]. }
    eexists. split; [f_equal; f_equal|].
    { apply (parent_above t1 _ (DH ch pa2 bl' ed' st sn2 fr tp av' mo nn nx n1 nm) q W1); [exact RL1|lia]. }
    split; [|split; reflexivity]. constructor; dred; auto.
    + constructor; dred; rewrite ?alen_upd; auto; lia.
    + intros i I. rewrite !at_upd by lia. rewrite WH by lia. destruct (i =? q); [reflexivity|]. destruct (i =? p); [reflexivity|now apply RC].
Qed.

(** The way up to the root. *)
Lemma climb_loop : forall k t p d, wf n t p -> 0 <= p < 2 * n - 1 -> p < Z.of_nat k -> p <> 0 -> wt t 0 <= 40000 -> Rep n t d ->
  exists d', loopN k (fun '(q, d) => '(q, d) <- swapInc q d ;; if q =? rootC then Ok (Stop d) else Ok (Go (q, d))) (p, d) = Ok (Stop d') /\
    Rep n (climb k t p) d' /\ same d d'.
Proof.
  induction k as [|k IH]; intros t p d W P K P0 B R; [lia|]. cbn [loopN climb]. destruct (Z.eqb_spec p 0); [lia|].
  destruct (grow t p) as [t1 q] eqn:G. destruct (swapInc_ok t p d t1 q W ltac:(lia) B R G) as [d' [E [R1 S1]]]. rewrite E. cbn [bind].
  destruct (grow_ok n ltac:(lia) t p t1 q W ltac:(lia) G) as [Q [EQ [FI [WT [WH W1]]]]]. destruct (above_ok n t1 _ q W1 ltac:(lia)) as [A1 A2].
  unfold rootC. destruct (Z.eqb_spec (above t1 q) 0) as [Z0|Z0].
  - exists d'. rewrite Z0. split; [reflexivity|]. split; [|exact S1]. destruct k; cbn [climb]; [exact R1|]. exact R1.
  - destruct (IH t1 (above t1 q) d' W1 ltac:(lia) ltac:(lia) Z0) as [d2 [E2 [R2 S2]]]; auto.
    { rewrite WT by lia. destruct (Z.eqb_spec 0 q); [lia|exact B]. }
    exists d2. split; [exact E2|]. split; [exact R2|]. destruct S1, S2. split; congruence.
Qed.

Lemma climb_fuel : forall k j t p, wf n t p -> 0 <= p < 2 * n - 1 -> p < Z.of_nat k -> p < Z.of_nat j -> climb k t p = climb j t p.
Proof.
  induction k as [|k IH]; intros j t p W P K J; [lia|]. destruct j as [|j]; [lia|]. cbn [climb]. destruct (Z.eqb_spec p 0); [reflexivity|].
  destruct (grow t p) as [t1 q] eqn:G. destruct (grow_ok n ltac:(lia) t p t1 q W ltac:(lia) G) as [Q [EQ [FI [WT [WH W1]]]]]. destruct (above_ok n t1 _ q W1 ltac:(lia)) as [A1 A2].
  apply IH; auto; lia.
Qed.

End Swap.
