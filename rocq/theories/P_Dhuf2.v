(** dhuf.go keeps two trees in the same arrays: swapInc for a tree whose nodes start at
    [o] and whose symbols start at [so]. *)
From Verif Require Import Go GoLemmas M_Bitio M_Dhuf S_Bits S_Huff S_Lz S_Lh1 P_Tree P_Build P_Blocks P_Dhuf P_Pool.

Definition encO (o so : Z) (w : what) : Z := match w with Leaf s => - (so + s) - 1 | Fork m => o + 2 * m end.
Definition linkedO (o so : Z) (pa sn : arr) (w : what) (i : Z) : Prop :=
  match w with Leaf s => at_ sn (so + s) = o + i | Fork m => at_ pa (o + 2 * m - 1) = o + i /\ at_ pa (o + 2 * m) = o + i end.

(** freq, block and edge as the tree at [o] sees them. *)
Definition VF (fr : arr) (o x : Z) : Z := at_ fr (o + x).
Definition VB (bl : arr) (o x : Z) : Z := if x =? 0 then 0 else at_ bl (o + x).
Definition VE (ed : arr) (o y : Z) : Z := if y =? 0 then 0 else at_ ed y - o.

Lemma VB_pos bl o x : 1 <= x -> VB bl o x = at_ bl (o + x).
Proof. intros. unfold VB. destruct (Z.eqb_spec x 0); [lia|reflexivity]. Qed.
Lemma VE_pos ed o y : 1 <= y -> VE ed o y = at_ ed y - o.
Proof. intros. unfold VE. destruct (Z.eqb_spec y 0); [lia|reflexivity]. Qed.

Record RepO (o so n : Z) (t : tree) (O : Z -> Prop) (k : Z) (d : dh) : Prop := {
  q_sz : Sz d;
  q_freq : forall i, 1 <= i < 2 * n - 1 -> at_ (k_freq d) (o + i) = wt t i;
  q_root : wt t 0 <= at_ (k_freq d) o < 65536;
  q_child : forall i, 0 <= i < 2 * n - 1 -> at_ (k_child d) (o + i) = encO o so (wh t i);
  q_link : forall i, 0 <= i < 2 * n - 1 -> linkedO o so (k_parent d) (k_snode d) (wh t i) i;
  q_blk : BlkO (2 * n - 1) k O (VF (k_freq d) o) (VB (k_block d) o) (VE (k_edge d) o) (at_ (k_stock d)) (k_avail d);
  q_end : at_ (k_block d) (o + (2 * n - 1)) = 0
}.

(** What is not touched. *)
Record Frame (o so n : Z) (O : Z -> Prop) (d d' : dh) : Prop := {
  f_child : forall i, 0 <= i -> i < o \/ o + (2 * n - 1) <= i -> at_ (k_child d') i = at_ (k_child d) i;
  f_parent : forall i, 0 <= i -> i < o \/ o + (2 * n - 1) <= i -> at_ (k_parent d') i = at_ (k_parent d) i;
  f_block : forall i, 0 <= i -> i < o \/ o + (2 * n - 1) <= i -> at_ (k_block d') i = at_ (k_block d) i;
  f_freq : forall i, 0 <= i -> i <= o \/ o + (2 * n - 1) <= i -> at_ (k_freq d') i = at_ (k_freq d) i;
  f_snode : forall i, 0 <= i -> i < so \/ so + n <= i -> at_ (k_snode d') i = at_ (k_snode d) i;
  f_edge : forall b, 1 <= b -> O b -> at_ (k_edge d') b = at_ (k_edge d) b;
  f_vars : k_totalP d' = k_totalP d /\ k_mostP d' = k_mostP d /\ k_nn d' = k_nn d /\ k_next d' = k_next d /\ k_n1 d' = k_n1 d /\ k_nMax d' = k_nMax d
}.

Lemma frame_refl o so n O d : Frame o so n O d d.
Proof. constructor; auto. repeat split. Qed.
Lemma frame_trans o so n O d1 d2 d3 : Frame o so n O d1 d2 -> Frame o so n O d2 d3 -> Frame o so n O d1 d3.
Proof.
  intros [A1 A2 A3 A4 A5 A6 (A7 & A8 & A9 & A10 & A11 & A12)] [B1 B2 B3 B4 B5 B6 (B7 & B8 & B9 & B10 & B11 & B12)].
  constructor; intros; try (rewrite ?B1, ?B2, ?B3, ?B4, ?B5, ?B6 by auto; auto; fail). repeat split; congruence.
Qed.

Definition relinkO (o so : Z) (pa sn : arr) (w : what) (i : Z) : arr * arr :=
  match w with Leaf s => (pa, upd sn (so + s) (o + i)) | Fork m => (upd (upd pa (o + 2 * m - 1) (o + i)) (o + 2 * m) (o + i), sn) end.

Section Swap2.
Variables (o so n : Z) (O : Z -> Prop) (k : Z).
Hypothesis Ho : 0 <= o /\ o + 2 * n <= 884.
Hypothesis Hso : 0 <= so /\ so + n <= 442.
Hypothesis Hn : 2 <= n.
Hypothesis Hk : 0 <= k /\ 2 * n - 1 + k <= 627.

Lemma hangO ch pa bl ed st sn fr tp av mo nn nx n1 nm w q : alen pa = 884 -> alen sn = 442 ->
  match w with Leaf s => 0 <= s < n | Fork m => 1 <= m < n end ->
  hang (encO o so w) (o + q) (DH ch pa bl ed st sn fr tp av mo nn nx n1 nm) =
    Ok (let '(pa', sn') := relinkO o so pa sn w q in DH ch pa' bl ed st sn' fr tp av mo nn nx n1 nm).
Proof.
  intros Zp Zs V. unfold hang, relinkO, encO. destruct w as [s|m].
  - destruct (Z.leb_spec 0 (- (so + s) - 1)); [lia|]. replace (- (- (so + s) - 1) - 1) with (so + s) by lia. dput. reflexivity.
  - destruct (Z.leb_spec 0 (o + 2 * m)); [|lia]. dput. dput. reflexivity.
Qed.

Lemma relinkO_len pa sn w q pa' sn' : relinkO o so pa sn w q = (pa', sn') -> alen pa' = alen pa /\ alen sn' = alen sn.
Proof. destruct w; cbn [relinkO]; intros E; injection E as <- <-; rewrite ?alen_upd; auto. Qed.

Lemma relinkO_frame pa sn w q pa' sn' : relinkO o so pa sn w q = (pa', sn') -> match w with Leaf s => 0 <= s < n | Fork m => 1 <= m < n end ->
  (forall i, 0 <= i -> i < o \/ o + (2 * n - 1) <= i -> at_ pa' i = at_ pa i) /\ (forall i, 0 <= i -> i < so \/ so + n <= i -> at_ sn' i = at_ sn i).
Proof. destruct w; cbn [relinkO]; intros E V; injection E as <- <-; split; intros; rewrite ?at_upd_ne by lia; reflexivity. Qed.

Lemma relinkO_ok pa sn w q pa' sn' v i : relinkO o so pa sn w q = (pa', sn') ->
  match w with Leaf s => 0 <= s < n | Fork m => 1 <= m < n end ->
  match v with Leaf s => 0 <= s < n | Fork m => 1 <= m < n end ->
  (v = w /\ i = q \/ v <> w /\ linkedO o so pa sn v i) -> linkedO o so pa' sn' v i.
Proof.
  intros E V W H. destruct w as [s|m], v as [s'|m']; cbn [relinkO linkedO] in *; injection E as <- <-.
  - destruct H as [[X ->]|[X Y]]; [injection X as ->; apply at_upd_eq|]. rewrite at_upd by lia. destruct (Z.eqb_spec (so + s') (so + s)); [|exact Y]. exfalso. apply X. f_equal. lia.
  - destruct H as [[X _]|[_ Y]]; [discriminate X|exact Y].
  - destruct H as [[X _]|[_ Y]]; [discriminate X|exact Y].
  - destruct H as [[X ->]|[X Y]].
    + injection X as ->. rewrite at_upd_eq. rewrite at_upd_ne by lia. rewrite at_upd_eq. auto.
    + assert (m' <> m) by congruence. rewrite !at_upd_ne by lia. exact Y.
Qed.

Lemma raiseO ch pa bl ed0 st sn fr tp av mo nn nx n1 nm N q : N = 2 * n - 1 ->
  alen bl = 884 -> alen ed0 = 884 -> alen st = 884 -> alen fr = 884 ->
  BlkO N k O (VF fr o) (VB bl o) (VE ed0 o) (at_ st) av -> 1 <= q -> q + 1 < N -> (2 <= q \/ VF fr o (q - 1) <> VF fr o q + 1) ->
  (forall i j, 0 <= i <= j -> j < N -> VF fr o j <= VF fr o i) ->
  (forall j, 0 <= j < q -> VF fr o j <> VF fr o q) -> VF fr o (q + 1) = VF fr o q -> 0 <= VF fr o q < 60000 -> at_ bl (o + N) = 0 ->
  exists bl' ed' av', raise (o + q) (DH ch pa bl (upd ed0 (at_ bl (o + q)) (o + q + 1)) st sn fr tp av mo nn nx n1 nm) =
      Ok (DH ch pa bl' ed' st sn (upd fr (o + q) (VF fr o q + 1)) tp av' mo nn nx n1 nm) /\
    alen bl' = 884 /\ alen ed' = 884 /\ at_ bl' (o + N) = 0 /\
    BlkO N k O (VF (upd fr (o + q) (VF fr o q + 1)) o) (VB bl' o) (VE ed' o) (at_ st) av' /\
    (forall i, 0 <= i -> i <> o + q -> at_ bl' i = at_ bl i) /\ (forall b, 1 <= b -> O b -> at_ ed' b = at_ ed0 b).
Proof.
  intros EN0 Zb Ze Zs Zf B Q1 Q2 HT SO FI EN FB EB. unfold raise. dred. dget. change (at_ fr (o + q)) with (VF fr o q).
  assert (U : u16 (VF fr o q + 1) = VF fr o q + 1) by (unfold u16; apply Z.mod_small; lia). rewrite U. dput. dget. dget. rewrite at_upd_eq, at_upd_ne by lia.
  assert (FU : forall x, 0 <= x -> VF (upd fr (o + q) (VF fr o q + 1)) o x = if x =? q then VF fr o q + 1 else VF fr o x).
  { intros x X. unfold VF at 1. rewrite at_upd by lia. destruct (Z.eqb_spec (o + x) (o + q)), (Z.eqb_spec x q); try lia; reflexivity. }
  pose proof (o_rng _ _ _ _ _ _ _ _ B q ltac:(lia)) as BR. pose proof (o_pos _ _ _ _ _ _ _ _ B q ltac:(lia)) as BP. rewrite VB_pos in BR, BP by lia.
  pose proof (o_out _ _ _ _ _ _ _ _ B q ltac:(lia)) as BO. rewrite VB_pos in BO by lia.
  replace (o + q - 1) with (o + (q - 1)) by lia. change (at_ fr (o + (q - 1))) with (VF fr o (q - 1)).
  destruct (Z.eqb_spec (VF fr o q + 1) (VF fr o (q - 1))) as [E|E].
  - assert (2 <= q) by lia. dget. dput. do 3 eexists. split; [reflexivity|]. rewrite !alen_upd. split; [exact Zb|]. split; [exact Ze|]. split; [rewrite at_upd_ne by lia; exact EB|]. split.
    + apply (pool_join N k av q O (VF fr o) (VB bl o) (VE ed0 o) (at_ st)); auto; try lia.
      * intros x X. unfold VB. destruct (Z.eqb_spec x 0); [destruct (Z.eqb_spec x q); [lia|reflexivity]|]. rewrite at_upd by lia.
        destruct (Z.eqb_spec (q - 1) 0); [lia|]. destruct (Z.eqb_spec (o + x) (o + q)), (Z.eqb_spec x q); try lia; reflexivity.
      * intros y Y. rewrite (VB_pos bl) by lia. unfold VE. destruct (Z.eqb_spec y 0); [destruct (Z.eqb_spec y (at_ bl (o + q))); [lia|reflexivity]|]. rewrite at_upd by lia. destruct (y =? at_ bl (o + q)); lia.
    + split; [intros; now rewrite at_upd_ne by lia|]. intros b Hb HO. rewrite at_upd by lia. destruct (Z.eqb_spec b (at_ bl (o + q))) as [X|]; [|reflexivity]. subst b. contradiction.
  - unfold new_block. dred.
    set (B' := fun x => if x =? q then at_ st av else VB bl o x). set (E' := fun y => if y =? at_ st av then q else if y =? VB bl o q then q + 1 else VE ed0 o y).
    destruct (pool_new N k av q O (VF fr o) (VB bl o) (VE ed0 o) (at_ st) (VF (upd fr (o + q) (VF fr o q + 1)) o) ltac:(lia) HT B SO ltac:(lia) FI FU B' E') as [AV BL]; auto; try lia.
    assert (AP : 1 <= av) by (rewrite (o_avail _ _ _ _ _ _ _ _ B); pose proof (lead_range (VF fr o) (Z.to_nat N)); lia).
    destruct (o_free _ _ _ _ _ _ _ _ B av ltac:(lia)) as [SR SX]. pose proof (o_outS _ _ _ _ _ _ _ _ B av ltac:(lia)) as SO2.
    dget. dput. dput. do 3 eexists. split; [reflexivity|]. rewrite !alen_upd. split; [exact Zb|]. split; [exact Ze|]. split; [rewrite at_upd_ne by lia; exact EB|]. split.
    + apply (pool_new N k av q O (VF fr o) (VB bl o) (VE ed0 o) (at_ st)); auto; try lia.
      * intros x X. unfold VB. destruct (Z.eqb_spec x 0); [destruct (Z.eqb_spec x q); [lia|reflexivity]|]. rewrite at_upd by lia. destruct (Z.eqb_spec (o + x) (o + q)), (Z.eqb_spec x q); try lia; reflexivity.
      * intros y Y. rewrite (VB_pos bl) by lia. unfold VE. destruct (Z.eqb_spec y 0) as [->|].
        -- destruct (Z.eqb_spec 0 (at_ st av)); [lia|]. destruct (Z.eqb_spec 0 (at_ bl (o + q))); [lia|reflexivity].
        -- rewrite !at_upd by lia. destruct (y =? at_ st av); [lia|]. destruct (y =? at_ bl (o + q)); lia.
    + split; [intros; now rewrite at_upd_ne by lia|]. intros b Hb HO. rewrite !at_upd by lia. destruct (Z.eqb_spec b (at_ st av)) as [X|]; [subst b; contradiction|]. destruct (Z.eqb_spec b (at_ bl (o + q))) as [X|]; [subst b; contradiction|reflexivity].
Qed.

Lemma parentO t c d q : wf n t c -> (forall i, 0 <= i < 2 * n - 1 -> linkedO o so (k_parent d) (k_snode d) (wh t i) i) -> 1 <= q < 2 * n - 1 ->
  at_ (k_parent d) (o + q) = o + above t q.
Proof.
  intros W L Q. destruct (above_ok n t c q W Q) as [A B]. specialize (L (above t q) ltac:(lia)). rewrite B in L. cbn [linkedO] in L.
  destruct (half q ltac:(lia)) as [H|H]; [replace (o + q) with (o + 2 * ((q + 1) / 2) - 1) by lia|replace (o + q) with (o + 2 * ((q + 1) / 2)) by lia]; tauto.
Qed.

Theorem swapIncO t p d t1 q : wf n t p -> 1 <= p < 2 * n - 1 -> wt t 0 <= 40000 -> RepO o so n t O k d -> grow t p = (t1, q) ->
  exists d', swapInc (o + p) d = Ok (o + above t1 q, d') /\ RepO o so n t1 O k d' /\ Frame o so n O d d'.
Proof.
  intros W P B0 R G. destruct (grow_ok n ltac:(lia) t p t1 q W P G) as [Q [EQ [FI [WT [WH W1]]]]].
  destruct R as [SZ RF RR RC RL RB RE]. destruct d as [ch pa bl ed st sn fr tp av mo nn nx n1 nm]. destruct SZ as [Z1 Z2 Z3 Z4 Z5 Z6 Z7]. dredin Z1. dredin Z2. dredin Z3. dredin Z4. dredin Z5. dredin Z6. dredin Z7. dredin RF. dredin RR. dredin RC. dredin RL. dredin RB. dredin RE.
  set (N := 2 * n - 1) in *.
  assert (RT : wt t 1 + 2 <= wt t 0).
  { destruct (wf_fork _ _ _ W 0 1 ltac:(lia) (wf_root n ltac:(lia) t p W)) as [_ [_ D]]. unfold is in D. rewrite Z.eqb_refl in D. destruct (Z.eqb_spec 0 p); [lia|].
    change (2 * 1 - 1) with 1 in D. change (2 * 1) with 2 in D. pose proof (wf_pos _ _ _ W 2 ltac:(lia)). lia. }
  assert (F0 : VF fr o 0 = at_ fr o) by (unfold VF; f_equal; lia).
  assert (FW : forall i, 1 <= i < N -> VF fr o i = wt t i) by (intros; apply RF; lia).
  assert (FH : forall i, 1 <= i < N -> VF fr o i < VF fr o 0 - 1) by (intros i I; rewrite F0, FW by lia; pose proof (wf_sort _ _ _ W 1 i ltac:(lia) ltac:(lia)); lia).
  assert (SO : forall i j, 0 <= i <= j -> j < N -> VF fr o j <= VF fr o i).
  { intros i j I J. destruct (Z.eq_dec i 0) as [->|]; [destruct (Z.eq_dec j 0) as [->|]; [lia|pose proof (FH j ltac:(lia)); lia]|]. rewrite !FW by lia. apply (wf_sort _ _ _ W); lia. }
  assert (FB : forall i, 1 <= i < N -> 1 <= VF fr o i < 60000). { intros i I. rewrite FW by lia. pose proof (wf_pos _ _ _ W i ltac:(lia)). pose proof (wf_sort _ _ _ W 0 i ltac:(lia) ltac:(lia)). lia. }
  assert (Q1 : 1 <= q).
  { destruct (Z.eq_dec q 0) as [X|]; [|lia]. exfalso. rewrite X in EQ. pose proof (wf_sort _ _ _ W 1 p ltac:(lia) ltac:(lia)). lia. }
  assert (FQ : VF fr o q = VF fr o p) by (rewrite !FW by lia; exact EQ).
  assert (FI' : forall j, 0 <= j < q -> VF fr o j <> VF fr o q).
  { intros j J. destruct (Z.eq_dec j 0) as [->|]; [pose proof (FH q ltac:(lia)); lia|]. rewrite FQ, !FW by lia. apply FI; lia. }
  assert (HT : 2 <= q \/ VF fr o (q - 1) <> VF fr o q + 1).
  { destruct (Z.eq_dec q 1) as [->|]; [right; change (1 - 1) with 0; pose proof (FH 1 ltac:(lia)); lia|left; lia]. }
  pose proof (o_rng _ _ _ _ _ _ _ _ RB) as BR. pose proof (BR p ltac:(lia)) as BRp. pose proof (o_pos _ _ _ _ _ _ _ _ RB p ltac:(lia)) as BPp. rewrite VB_pos in BRp, BPp by lia.
  assert (BQ : at_ bl (o + q) = at_ bl (o + p)). { rewrite <- !VB_pos by lia. apply (o_eq _ _ _ _ _ _ _ _ RB); lia. }
  assert (EDp : at_ ed (at_ bl (o + p)) = o + q).
  { destruct (o_edge _ _ _ _ _ _ _ _ RB p ltac:(lia)) as [A1 [A2 A3]]. rewrite VB_pos, VE_pos in A1, A2, A3 by (rewrite ?VB_pos; lia). set (e := at_ ed (at_ bl (o + p)) - o) in *.
    destruct (Z_lt_le_dec e q); [exfalso; apply (FI' e); lia|]. destruct (Z_lt_le_dec q e); [exfalso; apply (A3 q); lia|]. lia. }
  assert (FU : forall x, 0 <= x -> VF (upd fr (o + q) (VF fr o q + 1)) o x = if x =? q then VF fr o q + 1 else VF fr o x).
  { intros x X. unfold VF at 1. rewrite at_upd by lia. destruct (Z.eqb_spec (o + x) (o + q)), (Z.eqb_spec x q); try lia; reflexivity. }
  assert (F1 : forall i, 1 <= i < N -> at_ (upd fr (o + q) (VF fr o q + 1)) (o + i) = wt t1 i).
  { intros i I. rewrite WT by lia. change (VF (upd fr (o + q) (VF fr o q + 1)) o i = if i =? q then wt t p + 1 else wt t i). rewrite FU by lia. destruct (Z.eqb_spec i q); [rewrite FQ, FW by lia; reflexivity|apply FW; lia]. }
  assert (R1 : wt t1 0 <= at_ (upd fr (o + q) (VF fr o q + 1)) o < 65536).
  { rewrite at_upd_ne by lia. rewrite WT by lia. destruct (Z.eqb_spec 0 q); lia. }
  unfold swapInc. dred. dget. dget. rewrite EDp. destruct (Z.eqb_spec (o + q) (o + p)) as [QP'|QP']; cbn [negb].
  - (* the node leads its block *)
    assert (QP : q = p) by lia. rewrite QP in *. clear BQ EQ FQ Q QP'.
    assert (LK : forall i, 0 <= i < N -> wh t1 i = wh t i). { intros i I. rewrite WH by lia. destruct (Z.eqb_spec i p) as [->|]; reflexivity. }
    assert (RC1 : forall i, 0 <= i < N -> at_ ch (o + i) = encO o so (wh t1 i)) by (intros; rewrite LK by lia; now apply RC).
    assert (RL1 : forall i, 0 <= i < N -> linkedO o so pa sn (wh t1 i) i) by (intros; rewrite LK by lia; now apply RL).
    dget. replace (o + p + 1) with (o + (p + 1)) by lia. destruct (Z.eqb_spec (at_ bl (o + p)) (at_ bl (o + (p + 1)))) as [BE|BE].
    + assert (PN : p + 1 < N). { destruct (Z.eq_dec (p + 1) N) as [X|]; [|lia]. rewrite X, RE in BE. lia. }
      assert (FN : VF fr o (p + 1) = VF fr o p). { symmetry. apply (o_eq _ _ _ _ _ _ _ _ RB); [lia|lia|]. rewrite !VB_pos by lia. exact BE. }
      replace (o + (p + 1)) with (o + p + 1) by lia. dput.
      destruct (raiseO ch pa bl ed st sn fr tp av mo nn nx n1 nm N p) as [bl' [ed' [av' [E [A1 [A2 [A3 [A4 [A5 A6]]]]]]]]]; auto; try lia; [pose proof (FB p ltac:(lia)); lia|].
      rewrite E. dred. dget. eexists. split; [f_equal; f_equal|].
      { apply (parentO t1 _ (DH ch pa bl' ed' st sn (upd fr (o + p) (VF fr o p + 1)) tp av' mo nn nx n1 nm) p W1); [exact RL1|lia]. }
      split.
      * constructor; dred; auto. constructor; dred; rewrite ?alen_upd; auto.
      * constructor; dred; auto; intros; try (apply A5; lia); try (rewrite at_upd_ne by lia; reflexivity). repeat split; reflexivity.
    + assert (AL : forall x, 0 <= x < N -> VF fr o x = VF fr o p -> x = p).
      { intros x X E. destruct (Z_lt_le_dec x p); [exfalso; apply (FI' x); lia|]. destruct (Z.eq_dec x p); [assumption|]. exfalso. apply BE. rewrite <- !VB_pos by lia.
        apply (o_eq _ _ _ _ _ _ _ _ RB); [lia|lia|]. pose proof (SO p (p + 1) ltac:(lia) ltac:(lia)). pose proof (SO (p + 1) x ltac:(lia) ltac:(lia)). lia. }
      dget. change (at_ fr (o + p)) with (VF fr o p). assert (U : u16 (VF fr o p + 1) = VF fr o p + 1) by (pose proof (FB p ltac:(lia)); unfold u16; apply Z.mod_small; lia). rewrite U. dput. dget. dget. rewrite at_upd_eq, at_upd_ne by lia.
      replace (o + p - 1) with (o + (p - 1)) by lia. change (at_ fr (o + (p - 1))) with (VF fr o (p - 1)).
      destruct (Z.eqb_spec (VF fr o p + 1) (VF fr o (p - 1))) as [E|E].
      * assert (2 <= p) by lia.
        destruct (pool_free N k av p O (VF fr o) (VB bl o) (VE ed o) (at_ st) (VF (upd fr (o + p) (VF fr o p + 1)) o) ltac:(lia) HT RB SO P FI' FU (fun x => if x =? p then VB bl o (p - 1) else VB bl o x) (fun k => if k =? av - 1 then VB bl o p else at_ st k)) as [AV _]; auto.
        assert (AVU : av <= 628). { rewrite (o_avail _ _ _ _ _ _ _ _ RB). pose proof (lead_range (VF fr o) (Z.to_nat N)). lia. }
        dput. dget. dput. dget. eexists. split; [f_equal; f_equal|].
        { apply (parentO t1 _ (DH ch pa bl ed st sn fr tp av mo nn nx n1 nm) p W1); [exact RL1|lia]. }
        split.
        -- constructor; dred; auto.
           ++ constructor; dred; rewrite ?alen_upd; auto.
           ++ apply (pool_free N k av p O (VF fr o) (VB bl o) (VE ed o) (at_ st)); auto; try lia.
              ** intros x X. rewrite (VB_pos bl o (p - 1)) by lia. unfold VB. destruct (Z.eqb_spec x 0); [destruct (Z.eqb_spec x p); [lia|reflexivity]|]. rewrite at_upd by lia. destruct (Z.eqb_spec (o + x) (o + p)), (Z.eqb_spec x p); try lia; reflexivity.
              ** intros x X. rewrite VB_pos by lia. apply at_upd; lia.
           ++ rewrite at_upd_ne by lia. exact RE.
        -- constructor; dred; auto; intros; try (rewrite at_upd_ne by lia; reflexivity). repeat split; reflexivity.
      * dget. eexists. split; [f_equal; f_equal|].
        { apply (parentO t1 _ (DH ch pa bl ed st sn fr tp av mo nn nx n1 nm) p W1); [exact RL1|lia]. }
        split.
        -- constructor; dred; auto.
           ++ constructor; dred; rewrite ?alen_upd; auto.
           ++ apply (pool_keep N k av p O (VF fr o) (VB bl o) (VE ed o) (at_ st)); auto; try lia.
        -- constructor; dred; auto; intros; try (rewrite at_upd_ne by lia; reflexivity). repeat split; reflexivity.
  - (* exchange with the leader *)
    assert (QN : q + 1 < N) by lia.
    assert (FN : VF fr o (q + 1) = VF fr o q). { pose proof (SO q (q + 1) ltac:(lia) ltac:(lia)). pose proof (SO (q + 1) p ltac:(lia) ltac:(lia)). lia. }
    dget. dget. rewrite (RC p), (RC q) by lia. dput. dput.
    assert (NW : wh t p <> wh t q) by (intros X; apply (wf_inj _ _ _ W) in X; lia).
    pose proof (wf_valid n t p p W ltac:(lia)) as Vp. pose proof (wf_valid n t p q W ltac:(lia)) as Vq.
    rewrite hangO by (auto; lia). destruct (relinkO o so pa sn (wh t p) q) as [pa1 sn1] eqn:E1. dred. destruct (relinkO_len _ _ _ _ _ _ E1) as [L1 L2].
    rewrite hangO by (auto; lia). destruct (relinkO o so pa1 sn1 (wh t q) p) as [pa2 sn2] eqn:E2. dred. destruct (relinkO_len _ _ _ _ _ _ E2) as [L3 L4].
    dget. rewrite EDp. dput. rewrite <- BQ.
    destruct (raiseO (upd (upd ch (o + p) (encO o so (wh t q))) (o + q) (encO o so (wh t p))) pa2 bl ed st sn2 fr tp av mo nn nx n1 nm N q) as [bl' [ed' [av' [E [A1 [A2 [A3 [A4 [A5 A6]]]]]]]]]; auto; try lia; [pose proof (FB q ltac:(lia)); lia|].
    rewrite E. dred. dget.
    assert (RL1 : forall i, 0 <= i < N -> linkedO o so pa2 sn2 (wh t1 i) i).
    { intros i I. pose proof (wf_valid n t p i W I) as Vi. rewrite WH by lia. apply (relinkO_ok _ _ _ _ _ _ _ _ E2 Vq).
      - destruct (i =? q); [exact Vp|]. destruct (i =? p); assumption.
      - destruct (Z.eqb_spec i q) as [->|]; [right; split; [exact NW|]|].
        + apply (relinkO_ok _ _ _ _ _ _ _ _ E1 Vp Vp). now left.
        + destruct (Z.eqb_spec i p) as [->|]; [now left|]. right. split; [intros X; apply (wf_inj _ _ _ W) in X; lia|].
          apply (relinkO_ok _ _ _ _ _ _ _ _ E1 Vp Vi). right. split; [intros X; apply (wf_inj _ _ _ W) in X; lia|now apply RL]. }
    destruct (relinkO_frame _ _ _ _ _ _ E1 Vp) as [G1 G2]. destruct (relinkO_frame _ _ _ _ _ _ E2 Vq) as [G3 G4].
    eexists. split; [f_equal; f_equal|].
    { apply (parentO t1 _ (DH ch pa2 bl' ed' st sn2 fr tp av' mo nn nx n1 nm) q W1); [exact RL1|lia]. }
    split.
    + constructor; dred; auto.
      * constructor; dred; rewrite ?alen_upd; auto; lia.
      * intros i I. rewrite !at_upd by lia. rewrite WH by lia. destruct (Z.eqb_spec (o + i) (o + q)), (Z.eqb_spec i q); try lia; try reflexivity. destruct (Z.eqb_spec (o + i) (o + p)), (Z.eqb_spec i p); try lia; try reflexivity; now apply RC.
    + constructor; dred; auto; intros; try (apply A5; lia); try (rewrite !at_upd_ne by lia; reflexivity).
      * rewrite G3, G1 by lia. reflexivity.
      * rewrite G4, G2 by lia. reflexivity.
      * repeat split; reflexivity.
Qed.

(** The way up to the root: as in updateC, and as in updateP. *)
Lemma climbO : forall j t p d, wf n t p -> 0 <= p < 2 * n - 1 -> p < Z.of_nat j -> p <> 0 -> wt t 0 <= 40000 -> RepO o so n t O k d ->
  exists d', loopN j (fun '(q, d) => '(q, d) <- swapInc q d ;; if q =? o then Ok (Stop d) else Ok (Go (q, d))) (o + p, d) = Ok (Stop d') /\
    RepO o so n (climb j t p) O k d' /\ Frame o so n O d d'.
Proof.
  induction j as [|j IH]; intros t p d W P K P0 B R; [lia|]. cbn [loopN climb]. destruct (Z.eqb_spec p 0); [lia|].
  destruct (grow t p) as [t1 q] eqn:G. destruct (swapIncO t p d t1 q W ltac:(lia) B R G) as [d' [E [R1 S1]]]. rewrite E. cbn [bind].
  destruct (grow_ok n ltac:(lia) t p t1 q W ltac:(lia) G) as [Q [EQ [FI [WT [WH W1]]]]]. destruct (above_ok n t1 _ q W1 ltac:(lia)) as [A1 A2].
  destruct (Z.eqb_spec (o + above t1 q) o) as [Z0|Z0].
  - exists d'. replace (above t1 q) with 0 by lia. split; [reflexivity|]. split; [|exact S1]. destruct j; exact R1.
  - destruct (IH t1 (above t1 q) d' W1 ltac:(lia) ltac:(lia) ltac:(lia)) as [d2 [E2 [R2 S2]]]; auto.
    { rewrite WT by lia. destruct (Z.eqb_spec 0 q); [lia|exact B]. }
    exists d2. split; [exact E2|]. split; [exact R2|]. eapply frame_trans; eauto.
Qed.

Lemma climbO_P : forall j t p d, wf n t p -> 0 <= p < 2 * n - 1 -> p < Z.of_nat j -> wt t 0 <= 40000 -> RepO o so n t O k d ->
  exists d', loopN j (fun '(q, d) => if q =? o then Ok (Stop d) else '(q, d) <- swapInc q d ;; Ok (Go (q, d))) (o + p, d) = Ok (Stop d') /\
    RepO o so n (climb j t p) O k d' /\ Frame o so n O d d'.
Proof.
  induction j as [|j IH]; intros t p d W P K B R; [lia|]. cbn [loopN climb]. destruct (Z.eqb_spec p 0) as [->|P0].
  { destruct (Z.eqb_spec (o + 0) o); [|lia]. exists d. split; [reflexivity|]. split; [exact R|apply frame_refl]. }
  destruct (Z.eqb_spec (o + p) o); [lia|].
  destruct (grow t p) as [t1 q] eqn:G. destruct (swapIncO t p d t1 q W ltac:(lia) B R G) as [d' [E [R1 S1]]]. rewrite E. cbn [bind].
  destruct (grow_ok n ltac:(lia) t p t1 q W ltac:(lia) G) as [Q [EQ [FI [WT [WH W1]]]]]. destruct (above_ok n t1 _ q W1 ltac:(lia)) as [A1 A2].
  destruct (IH t1 (above t1 q) d' W1 ltac:(lia) ltac:(lia)) as [d2 [E2 [R2 S2]]]; auto.
  { rewrite WT by lia. destruct (Z.eqb_spec 0 q); [lia|exact B]. }
  exists d2. split; [exact E2|]. split; [exact R2|]. eapply frame_trans; eauto.
Qed.

(** Counting the root. *)
Lemma rootO_keep t c d : wf n t c -> RepO o so n t O k d -> wt t 0 + 1 <= at_ (k_freq d) o -> RepO o so n (put t 0 (wt t 0 + 1, wh t 0)) O k d.
Proof.
  intros W [SZ RF RR RC RL RB RE] H. pose proof (wf_len _ _ _ W) as L.
  assert (ND : forall i, 0 <= i -> node (put t 0 (wt t 0 + 1, wh t 0)) i = if i =? 0 then (wt t 0 + 1, wh t 0) else node t i) by (intros; apply node_put; lia).
  constructor; auto.
  - intros i I. unfold wt. rewrite ND by lia. destruct (Z.eqb_spec i 0); [lia|]. now apply RF.
  - unfold wt at 1. rewrite ND by lia. change (0 =? 0) with true; cbv iota; cbn [fst]; lia.
  - intros i I. unfold wh. rewrite ND by lia. destruct (Z.eqb_spec i 0) as [->|]; now apply RC.
  - intros i I. unfold wh. rewrite ND by lia. destruct (Z.eqb_spec i 0) as [->|]; now apply RL.
Qed.

Lemma rootO_count t d : wf n t 0 -> RepO o so n t O k d -> at_ (k_freq d) o < 40000 ->
  exists d', put_freq o (u16 (at_ (k_freq d) o + 1)) d = Ok d' /\ RepO o so n (put t 0 (wt t 0 + 1, wh t 0)) O k d' /\
    at_ (k_freq d') o = at_ (k_freq d) o + 1 /\ k_snode d' = k_snode d /\
    (forall i, 0 <= i -> i <> o -> at_ (k_freq d') i = at_ (k_freq d) i) /\ k_child d' = k_child d /\ k_parent d' = k_parent d /\ k_block d' = k_block d /\ k_edge d' = k_edge d /\
    k_totalP d' = k_totalP d /\ k_mostP d' = k_mostP d /\ k_nn d' = k_nn d /\ k_next d' = k_next d /\ k_n1 d' = k_n1 d /\ k_nMax d' = k_nMax d.
Proof.
  intros W [SZ RF RR RC RL RB RE] H. pose proof (wf_len _ _ _ W) as L.
  assert (RT : wt t 1 + 1 <= wt t 0).
  { destruct (wf_fork _ _ _ W 0 1 ltac:(lia) (wf_root n ltac:(lia) t 0 W)) as [_ [_ D]]. unfold is in D. rewrite Z.eqb_refl in D.
    change (2 * 1 - 1) with 1 in D. change (2 * 1) with 2 in D. pose proof (wf_pos _ _ _ W 2 ltac:(lia)). lia. }
  pose proof (wf_pos _ _ _ W 0 ltac:(lia)) as W0.
  assert (ND : forall i, 0 <= i -> node (put t 0 (wt t 0 + 1, wh t 0)) i = if i =? 0 then (wt t 0 + 1, wh t 0) else node t i) by (intros; apply node_put; lia).
  destruct d as [ch pa bl ed st sn fr tp av mo nn nx n1 nm]. destruct SZ as [Z1 Z2 Z3 Z4 Z5 Z6 Z7]. dredin Z1. dredin Z2. dredin Z3. dredin Z4. dredin Z5. dredin Z6. dredin Z7. dredin RF. dredin RR. dredin RC. dredin RL. dredin RB. dredin RE. dredin H. dred.
  assert (U : u16 (at_ fr o + 1) = at_ fr o + 1) by (unfold u16; apply Z.mod_small; lia). rewrite U. dput. eexists. split; [reflexivity|]. split.
  - constructor; dred; auto.
    + constructor; dred; rewrite ?alen_upd; auto.
    + intros i I. rewrite at_upd_ne by lia. unfold wt. rewrite ND by lia. destruct (Z.eqb_spec i 0); [lia|]. now apply RF.
    + unfold wt at 1. rewrite ND, at_upd_eq by lia. change (0 =? 0) with true; cbv iota; cbn [fst]; lia.
    + intros i I. unfold wh. rewrite ND by lia. destruct (Z.eqb_spec i 0) as [->|]; now apply RC.
    + intros i I. unfold wh. rewrite ND by lia. destruct (Z.eqb_spec i 0) as [->|]; now apply RL.
    + apply (pool_root _ _ _ (VF fr o)); [lia|exact RB| | |].
      * intros x X. unfold VF. rewrite RF by lia. replace (o + 0) with o by lia. pose proof (wf_sort _ _ _ W 1 x ltac:(lia) ltac:(lia)). lia.
      * intros x X. unfold VF. now rewrite at_upd_ne by lia.
      * unfold VF. replace (o + 0) with o by lia. rewrite at_upd_eq. lia.
  - dred. rewrite at_upd_eq. split; [reflexivity|]. split; [reflexivity|]. split; [intros; now rewrite at_upd_ne by lia|]. repeat split; reflexivity.
Qed.
End Swap2.

(** The two trees together. *)
Definition OB (o n : Z) (d : dh) (b : Z) : Prop := exists x, 1 <= x < 2 * n - 1 /\ b = at_ (k_block d) (o + x).
Definition LD (o n : Z) (d : dh) : Z := lead (VF (k_freq d) o) (Z.to_nat (2 * n - 1)).

Record Keep (o so n : Z) (d d' : dh) : Prop := {
  e_child : forall i, o <= i < o + (2 * n - 1) -> at_ (k_child d') i = at_ (k_child d) i;
  e_parent : forall i, o <= i < o + (2 * n - 1) -> at_ (k_parent d') i = at_ (k_parent d) i;
  e_block : forall i, o <= i <= o + (2 * n - 1) -> at_ (k_block d') i = at_ (k_block d) i;
  e_freq : forall i, o <= i < o + (2 * n - 1) -> at_ (k_freq d') i = at_ (k_freq d) i;
  e_snode : forall i, so <= i < so + n -> at_ (k_snode d') i = at_ (k_snode d) i;
  e_edge : forall b, 1 <= b -> OB o n d b -> at_ (k_edge d') b = at_ (k_edge d) b
}.

Lemma repO_mono o so n t (O O' : Z -> Prop) k d : RepO o so n t O k d -> (forall b, O' b -> O b) -> RepO o so n t O' k d.
Proof.
  intros [SZ RF RR RC RL [A1 A2 A3 A4 A5 A6 A7 A8 A9] RE] H. constructor; auto. constructor; auto.
  - intros x X Y. now apply (A8 x X), H.
  - intros j J Y. now apply (A9 j J), H.
Qed.

Lemma keep_OB o so n d d' b : Keep o so n d d' -> OB o n d' b <-> OB o n d b.
Proof. intros K. split; intros [x [X ->]]; exists x; (split; [exact X|]); rewrite (e_block _ _ _ _ _ K) by lia; reflexivity. Qed.

Lemma keep_LD o so n d d' : Keep o so n d d' -> LD o n d' = LD o n d.
Proof. intros K. unfold LD. apply lead_ext. intros x X. unfold VF. apply (e_freq _ _ _ _ _ K). lia. Qed.

Lemma exch o1 so1 n1 t1 O1 k1 o2 so2 n2 t2 O2 k2 d d' : 2 <= n1 -> 2 <= n2 -> 0 <= o2 -> 0 <= so2 -> wf n2 t2 0 ->
  RepO o2 so2 n2 t2 O2 k2 d -> Keep o2 so2 n2 d d' -> RepO o1 so1 n1 t1 O1 k1 d' -> (forall b, OB o2 n2 d b -> O1 b) -> k1 = LD o2 n2 d - 1 ->
  RepO o2 so2 n2 t2 (OB o1 n1 d') (LD o1 n1 d' - 1) d'.
Proof.
  intros N1 N2 Ho Hs W [SZ RF RR RC RL RB RE] K [SZ' RF' RR' RC' RL' RB' RE'] HO HK. pose proof K as [K1 K2 K3 K4 K5 K6].
  assert (EF : forall x, 0 <= x < 2 * n2 - 1 -> VF (k_freq d') o2 x = VF (k_freq d) o2 x) by (intros; apply K4; lia).
  assert (EB : forall x, 0 <= x < 2 * n2 - 1 -> VB (k_block d') o2 x = VB (k_block d) o2 x) by (intros x X; unfold VB; destruct (x =? 0); [reflexivity|apply K3; lia]).
  assert (EE : forall x, 0 <= x < 2 * n2 - 1 -> VE (k_edge d') o2 (VB (k_block d) o2 x) = VE (k_edge d) o2 (VB (k_block d) o2 x)).
  { intros x X. destruct (Z.eq_dec x 0) as [->|]; [reflexivity|]. pose proof (o_pos _ _ _ _ _ _ _ _ RB x ltac:(lia)). rewrite !VE_pos by lia. f_equal. apply K6; [lia|]. exists x. split; [lia|apply VB_pos; lia]. }
  constructor; auto.
  - intros i I. rewrite K4 by lia. now apply RF.
  - rewrite K4 by lia. exact RR.
  - intros i I. rewrite K1 by lia. now apply RC.
  - intros i I. specialize (RL i I). pose proof (wf_valid n2 t2 0 i W I) as V. destruct (wh t2 i); cbn [linkedO] in *; [rewrite K5 by lia; exact RL|rewrite !K2 by lia; exact RL].
  - destruct RB as [A1 A2 A3 A4 A5 A6 A7 A8 A9]. destruct RB' as [B1 B2 B3 B4 B5 B6 B7 B8 B9]. constructor.
    + rewrite B1, HK. fold (LD o2 n2 d'). rewrite (keep_LD _ _ _ _ _ K). unfold LD. lia.
    + intros x X. rewrite EB by lia. now apply A2.
    + intros x X. rewrite EB by lia. now apply A3.
    + intros x y X Y. rewrite !EB, !EF by lia. now apply A4.
    + intros x X. rewrite EB, EE by lia. destruct (A5 x X) as [C1 [C2 C3]]. split; [exact C1|]. rewrite !EF by lia. split; [exact C2|]. intros j J. rewrite EF by lia. now apply C3.
    + intros j J. destruct (B6 j J) as [C1 C2]. split; [exact C1|]. intros x X Y. destruct (Z.eq_dec x 0) as [->|]; [change (VB (k_block d') o2 0) with 0 in Y; lia|].
      apply (B9 j J), HO. exists x. split; [lia|]. rewrite Y, EB by lia. apply VB_pos. lia.
    + exact B7.
    + intros x X [y [Y1 Y2]]. rewrite <- (VB_pos _ o1) in Y2 by lia. apply (B8 y Y1). apply HO. exists x. split; [lia|]. rewrite <- Y2, EB by lia. apply VB_pos. lia.
    + intros j J [y [Y1 Y2]]. destruct (B6 j J) as [_ C2]. apply (C2 y ltac:(lia)). rewrite Y2. symmetry. apply VB_pos. lia.
  - rewrite K3 by lia. exact RE.
Qed.
