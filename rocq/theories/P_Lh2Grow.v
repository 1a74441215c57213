(** dhuf.go makeNewNode: one more symbol in the code of the distances. *)
From Verif Require Import Go GoLemmas M_Bitio M_Dhuf S_Bits S_Huff S_Lz S_Lh1 S_Lh2 P_Tree P_Build P_Blocks P_Dhuf P_Pool P_Dhuf2 P_Lh2Tree P_Lh2.

(** What makeNewNode leaves alone before it counts the new symbol. *)
Record FP (n : Z) (O : Z -> Prop) (d d' : dh) : Prop := {
  p_child : forall i, 0 <= i < 628 -> at_ (k_child d') i = at_ (k_child d) i;
  p_parent : forall i, 0 <= i < 628 -> at_ (k_parent d') i = at_ (k_parent d) i;
  p_block : forall i, 0 <= i < 628 \/ 628 + (2 * n + 1) <= i -> at_ (k_block d') i = at_ (k_block d) i;
  p_freq : forall i, 0 <= i < 628 -> at_ (k_freq d') i = at_ (k_freq d) i;
  p_snode : forall i, 0 <= i < 314 -> at_ (k_snode d') i = at_ (k_snode d) i;
  p_edge : forall b, 1 <= b -> O b -> at_ (k_edge d') b = at_ (k_edge d) b;
  p_root : at_ (k_freq d') 628 = 65535;
  p_vars : k_totalP d' = k_totalP d /\ k_mostP d' = 628 + 2 * n /\ k_nn d' = k_nn d /\ k_next d' = k_next d /\ k_n1 d' = k_n1 d
}.

Lemma blkO_ext N k O F B E S av F' B' : 0 <= N -> BlkO N k O F B E S av -> (forall x, 0 <= x < N -> F' x = F x) -> (forall x, 0 <= x < N -> B' x = B x) -> BlkO N k O F' B' E S av.
Proof.
  intros HN [A1 A2 A3 A4 A5 A6 A7 A8 A9] HF HB. constructor; auto.
  - rewrite A1. f_equal. symmetry. apply lead_ext. intros x X. apply HF. lia.
  - intros x X. rewrite HB by lia. now apply A2.
  - intros x X. rewrite HB by lia. now apply A3.
  - intros x y X Y. rewrite !HB, !HF by lia. now apply A4.
  - intros x X. rewrite HB by lia. destruct (A5 x X) as [C1 [C2 C3]]. split; [exact C1|]. rewrite !HF by lia. split; [exact C2|]. intros j J. rewrite HF by lia. now apply C3.
  - intros j J. destruct (A6 j J) as [C1 C2]. split; [exact C1|]. intros x X. rewrite HB by lia. now apply C2.
  - intros x X. rewrite HB by lia. now apply A8.
Qed.

(** The arrays after the assignments. *)
Section Make.
Variables (n : Z) (t : tree) (O : Z -> Prop) (k : Z).
Hypothesis Hn : 1 <= n <= 28.
Hypothesis Hk : 0 <= k /\ 2 * n + 1 + k <= 627.
Hypothesis W : wf n t 0.
Hypothesis B0 : wt t 0 < 30000.
Notation m := (2 * n - 2).

Lemma made sl ch pa bl ed st sn fr tp av mo nn nx n1 nm fr0 : wh t m = Leaf sl -> Sz (DH ch pa bl ed st sn fr tp av mo nn nx n1 nm) ->
  (forall i, 1 <= i < 2 * n - 1 -> at_ fr0 (628 + i) = wt t i) -> at_ fr0 (628 + (2 * n - 1)) = wt t m -> at_ fr0 (628 + 2 * n) = 0 -> at_ fr0 628 = 65535 -> alen fr0 = 884 ->
  (forall i, 0 <= i < 2 * n - 1 -> at_ ch (628 + i) = encO 628 314 (wh t i)) ->
  (forall i, 0 <= i < 2 * n - 1 -> linkedO 628 314 pa sn (wh t i) i) ->
  BlkO (2 * n) k O (VF fr0 628) (VB bl 628) (VE ed 628) (at_ st) av -> at_ bl (628 + (2 * n + 1)) = 0 ->
  exists bl' ed' av',
    new_block (628 + 2 * n) (DH (upd (upd (upd ch (628 + (2 * n - 1)) (- (314 + sl) - 1)) (628 + 2 * n) (- (314 + n) - 1)) (628 + m) (628 + 2 * n))
        (upd (upd pa (628 + 2 * n) (628 + m)) (628 + (2 * n - 1)) (628 + m)) bl ed st (upd (upd sn (314 + sl) (628 + (2 * n - 1))) (314 + n) (628 + 2 * n)) fr0 tp av mo nn nx n1 nm) =
      Ok (DH (upd (upd (upd ch (628 + (2 * n - 1)) (- (314 + sl) - 1)) (628 + 2 * n) (- (314 + n) - 1)) (628 + m) (628 + 2 * n))
        (upd (upd pa (628 + 2 * n) (628 + m)) (628 + (2 * n - 1)) (628 + m)) bl' ed' st (upd (upd sn (314 + sl) (628 + (2 * n - 1))) (314 + n) (628 + 2 * n)) fr0 tp av' mo nn nx n1 nm) /\
    RepO 628 314 (n + 1) (ta n t) O k (DH (upd (upd (upd ch (628 + (2 * n - 1)) (- (314 + sl) - 1)) (628 + 2 * n) (- (314 + n) - 1)) (628 + m) (628 + 2 * n))
        (upd (upd pa (628 + 2 * n) (628 + m)) (628 + (2 * n - 1)) (628 + m)) bl' ed' st (upd (upd sn (314 + sl) (628 + (2 * n - 1))) (314 + n) (628 + 2 * n)) fr0 tp av' mo nn nx n1 nm) /\
    (forall i, 0 <= i -> i <> 628 + 2 * n -> at_ bl' i = at_ bl i) /\ (forall b, 1 <= b -> O b -> at_ ed' b = at_ ed b).
Proof.
  intros SL SZ RF RF1 RF2 RF0 RZ RC RL RB RE. unz.
  pose proof (wf_leaf _ _ _ W m sl ltac:(lia) SL) as SLR. pose proof (wf_len _ _ _ W) as L.
  assert (FW : forall i, 1 <= i < 2 * n + 1 -> at_ fr0 (628 + i) = wt (ta n t) i).
  { intros i I. rewrite (ta_wt n t) by (auto; lia). destruct (Z.eqb_spec i (2 * n)) as [->|]; [exact RF2|]. destruct (Z.eqb_spec i (2 * n - 1)) as [->|]; [exact RF1|]. destruct (Z.eqb_spec i 0); [lia|]. apply RF. lia. }
  assert (WR : wt (ta n t) 0 = wt t 0 + 1) by (rewrite (ta_wt n t) by (auto; lia); destruct (Z.eqb_spec 0 (2 * n)); [lia|]; destruct (Z.eqb_spec 0 (2 * n - 1)); [lia|]; reflexivity).
  set (B2 := fun x => if x =? 2 * n then at_ st av else VB bl 628 x). set (E2 := fun y => if y =? at_ st av then 2 * n else VE ed 628 y).
  destruct (pool_app_new (2 * n) k O (VF fr0 628) (VB bl 628) (VE ed 628) (at_ st) av B2 E2) as [AV BN]; auto; try lia.
  { intros x X. unfold VF. rewrite RF2. destruct (Z.eq_dec x 0) as [->|]; [replace (628 + 0) with 628 by lia; lia|]. rewrite FW by lia. pose proof (ta_pos n t ltac:(lia) W x ltac:(lia)). lia. }
  destruct (o_free _ _ _ _ _ _ _ _ RB av ltac:(lia)) as [SR _]. pose proof (o_outS _ _ _ _ _ _ _ _ RB av ltac:(lia)) as SO.
  unfold new_block. dred. dget. dput. dput. do 3 eexists. split; [reflexivity|]. split; [|split; [intros; now rewrite at_upd_ne by lia|intros b Hb HO; rewrite at_upd by lia; destruct (Z.eqb_spec b (at_ st av)) as [X|]; [subst b; contradiction|reflexivity]]].
  constructor; dred; replace (2 * (n + 1) - 1) with (2 * n + 1) by lia.
  - constructor; dred; rewrite ?alen_upd; auto.
  - exact FW.
  - rewrite RF0. lia.
  - intros i I. rewrite (ta_wh n t) by (auto; lia). rewrite !at_upd by lia.
    destruct (Z.eqb_spec i (2 * n)), (Z.eqb_spec (628 + i) (628 + m)); try lia; destruct (Z.eqb_spec (628 + i) (628 + 2 * n)); try lia; try reflexivity.
    + destruct (Z.eqb_spec i (2 * n - 1)); [lia|]. destruct (Z.eqb_spec i m); [|lia]. reflexivity.
    + destruct (Z.eqb_spec i (2 * n - 1)), (Z.eqb_spec (628 + i) (628 + (2 * n - 1))); try lia; [rewrite SL; reflexivity|]. destruct (Z.eqb_spec i m); [lia|]. apply RC. lia.
  - intros i I. rewrite (ta_wh n t) by (auto; lia). destruct (Z.eqb_spec i (2 * n)) as [->|]; [cbn [linkedO]; apply at_upd_eq|].
    destruct (Z.eqb_spec i (2 * n - 1)) as [->|].
    + rewrite SL. cbn [linkedO]. rewrite at_upd_ne by lia. apply at_upd_eq.
    + destruct (Z.eqb_spec i m) as [->|].
      * cbn [linkedO]. replace (628 + 2 * n - 1) with (628 + (2 * n - 1)) by lia. rewrite at_upd_eq, at_upd_ne, at_upd_eq by lia. split; reflexivity.
      * specialize (RL i ltac:(lia)). destruct (wh t i) as [s|f] eqn:E; cbn [linkedO] in *.
        -- pose proof (wf_leaf _ _ _ W i s ltac:(lia) E). assert (s <> sl) by (intros ->; rewrite <- SL in E; pose proof (wf_inj _ _ _ W i m ltac:(lia) ltac:(lia) E); lia).
           rewrite !at_upd_ne by lia. exact RL.
        -- destruct (wf_fork _ _ _ W i f ltac:(lia) E) as [A _]. rewrite !at_upd_ne by lia. exact RL.
  - apply (pool_app_new (2 * n) k O (VF fr0 628) (VB bl 628) (VE ed 628) (at_ st) av); auto; try lia.
    + intros x X. unfold VF. rewrite RF2. destruct (Z.eq_dec x 0) as [->|]; [replace (628 + 0) with 628 by lia; lia|]. rewrite FW by lia. pose proof (ta_pos n t ltac:(lia) W x ltac:(lia)). lia.
    + intros x X. unfold VB. destruct (Z.eqb_spec x 0); [destruct (Z.eqb_spec x (2 * n)); [lia|reflexivity]|]. rewrite at_upd by lia. destruct (Z.eqb_spec (628 + x) (628 + 2 * n)), (Z.eqb_spec x (2 * n)); try lia; reflexivity.
    + intros y Y. unfold VE. destruct (Z.eqb_spec y 0); [destruct (Z.eqb_spec y (at_ st av)); [lia|reflexivity]|]. rewrite at_upd by lia. destruct (y =? at_ st av); lia.
  - rewrite at_upd_ne by lia. exact RE.
Qed.

Ltac unzd d := destruct d as [ch pa bl ed st sn fr tp av mo nn nx n1 nm].

Lemma make_more d : 2 <= n -> RepO 628 314 n t O k d -> at_ (k_freq d) 628 = 65535 -> k_mostP d = 628 + m -> (forall i, 628 + (2 * n - 1) <= i < 884 -> at_ (k_block d) i = 0) ->
  exists d1, makeNewNode n d = updateP n d1 /\ RepO 628 314 (n + 1) (ta n t) O k d1 /\ FP n O d d1.
Proof.
  intros N2 [SZ RF RR RC RL RB RE] R0 RM BLK. destruct (last_leaf n t ltac:(lia) W) as [sl [SL SLR]]. unzd d. pose proof SZ as SZ0. unz.
  dredin RF. dredin RR. dredin RC. dredin RL. dredin RB. dredin RE. dredin R0. dredin RM. dredin BLK. subst mo.
  set (fr0 := upd (upd fr (628 + (2 * n - 1)) (wt t m)) (628 + 2 * n) 0).
  set (bl0 := upd bl (628 + (2 * n - 1)) (at_ bl (628 + m))).
  assert (CM : at_ ch (628 + m) = - (314 + sl) - 1) by (rewrite RC, SL by lia; reflexivity).
  assert (FM : at_ fr (628 + m) = wt t m) by (apply RF; lia).
  assert (RB2 : BlkO (2 * n) k O (VF fr0 628) (VB bl0 628) (VE ed 628) (at_ st) av).
  { replace (2 * n) with (2 * n - 1 + 1) by lia. apply (pool_app_same (2 * n - 1) k O (VF fr0 628) (VB bl 628)); [lia| | |].
    - apply (blkO_ext _ _ _ (VF fr 628) (VB bl 628)); auto; [lia|]. intros x X. unfold VF, fr0. rewrite !at_upd_ne by lia. reflexivity.
    - unfold VF, fr0. rewrite (at_upd_ne _ (628 + 2 * n)) by lia. rewrite at_upd_eq. rewrite !at_upd_ne by lia. replace (628 + (2 * n - 1 - 1)) with (628 + m) by lia. now rewrite FM.
    - intros x X. unfold VB, bl0. replace (2 * n - 1 - 1) with m by lia. destruct (Z.eqb_spec x 0) as [->|]; [destruct (Z.eqb_spec 0 (2 * n - 1)); [lia|reflexivity]|].
      destruct (Z.eqb_spec m 0); [lia|]. rewrite at_upd by lia. destruct (Z.eqb_spec (628 + x) (628 + (2 * n - 1))), (Z.eqb_spec x (2 * n - 1)); try lia; reflexivity. }
  destruct (made sl ch pa bl0 ed st sn fr tp av (628 + 2 * n) nn nx n1 nm fr0 SL) as (bl' & ed' & av' & E & R1 & A1 & A2); auto.
  { constructor; dred; unfold bl0; rewrite ?alen_upd; auto. }
  { intros i I. unfold fr0. rewrite !at_upd_ne by lia. now apply RF. }
  { unfold fr0. rewrite at_upd_ne by lia. apply at_upd_eq. } { unfold fr0. apply at_upd_eq. } { unfold fr0. rewrite !at_upd_ne by lia. exact R0. }
  { unfold bl0. rewrite at_upd_ne by lia. apply BLK. lia. }
  eexists. split; [|split; [exact R1|]].
  - unfold makeNewNode. dred. replace (628 + m + 1) with (628 + (2 * n - 1)) by lia. replace (628 + (2 * n - 1) + 1) with (628 + 2 * n) by lia.
    dget. rewrite CM. dput. replace (- (- (314 + sl) - 1) - 1) with (314 + sl) by lia. dput. unfold nChar. replace (n + 314) with (314 + n) by lia. dput. dput. dget. rewrite FM. dput. dput. dget. dput.
    unfold rootP. destruct (Z.eqb_spec (628 + m) 628); [lia|]. dput. dput. dput. fold bl0. fold fr0. rewrite E. reflexivity.
  - constructor; dred.
    + intros i I. rewrite !at_upd_ne by lia. reflexivity.
    + intros i I. rewrite !at_upd_ne by lia. reflexivity.
    + intros i I. rewrite A1 by lia. unfold bl0. rewrite at_upd_ne by lia. reflexivity.
    + intros i I. unfold fr0. rewrite !at_upd_ne by lia. reflexivity.
    + intros i I. rewrite !at_upd_ne by lia. reflexivity.
    + exact A2.
    + unfold fr0. rewrite !at_upd_ne by lia. exact R0.
    + repeat split; reflexivity.
Qed.
End Make.

(** The second symbol. *)
Record One (d : dh) : Prop := {
  u_freq : at_ (k_freq d) 628 = 1;
  u_child : at_ (k_child d) 628 = -315;
  u_snode : at_ (k_snode d) 314 = 628;
  u_block : 0 < at_ (k_block d) 628 < 628;
  u_edge : at_ (k_edge d) (at_ (k_block d) 628) = 628
}.

Lemma make_second tC d : RepO 0 0 286 tC (eq (at_ (k_block d) 628)) 1 d -> One d -> k_mostP d = 628 -> (forall i, 629 <= i < 884 -> at_ (k_block d) i = 0) ->
  exists d1, makeNewNode 1 d = updateP 1 d1 /\ RepO 628 314 2 (ta 1 [(1, Leaf 0)]) (OB 0 286 d) (LD 0 286 d - 1) d1 /\ FP 1 (OB 0 286 d) d d1.
Proof.
  intros [SZ RF RR RC RL RB RE] [U1 U2 U3 U4 U5] RM BLK. destruct d as [ch pa bl ed st sn fr tp av mo nn nx n1 nm]. pose proof SZ as SZ0. unz.
  dredin RF. dredin RR. dredin RC. dredin RL. dredin RB. dredin RE. dredin RM. dredin BLK. dredin U1. dredin U2. dredin U3. dredin U4. dredin U5. subst mo.
  set (O := OB 0 286 (DH ch pa bl ed st sn fr tp av 628 nn nx n1 nm)). set (k := LD 0 286 (DH ch pa bl ed st sn fr tp av 628 nn nx n1 nm) - 1).
  set (b0 := at_ bl 628) in *.
  set (fr0 := upd (upd (upd fr 629 1) 630 0) 628 65535). set (bl0 := upd bl 629 b0). set (ed0 := upd ed b0 629).
  assert (KR : 0 <= k <= 570).
  { unfold k, LD. change (Z.to_nat (2 * 286 - 1)) with 571%nat. dred. pose proof (lead_range (VF fr 0) 571). pose proof (lead_pos (VF fr 0) 571 ltac:(lia)). lia. }
  assert (OB0 : forall b, O b -> exists x, 1 <= x < 571 /\ b = VB bl 0 x).
  { intros b [x [X ->]]. dred. exists x. split; [lia|]. now rewrite VB_pos by lia. }
  assert (NO : ~ O b0). { intros X. destruct (OB0 _ X) as [x [X1 X2]]. apply (o_out _ _ _ _ _ _ _ _ RB x ltac:(lia)). exact X2. }
  assert (V0 : VF fr0 628 0 = 65535) by (unfold VF, fr0; apply at_upd_eq).
  assert (V1 : VF fr0 628 1 = 1) by (unfold VF, fr0; rewrite !at_upd_ne by lia; apply at_upd_eq).
  assert (B1 : VB bl0 628 1 = b0) by (rewrite VB_pos by lia; unfold bl0; apply at_upd_eq).
  assert (E1 : VE ed0 628 b0 = 1) by (rewrite VE_pos by lia; unfold ed0; rewrite at_upd_eq; reflexivity).
  assert (XX : forall x, 0 <= x < 2 -> x = 0 \/ x = 1) by (intros; lia).
  assert (RB2 : BlkO (2 * 1) k O (VF fr0 628) (VB bl0 628) (VE ed0 628) (at_ st) av).
  { change (2 * 1) with 2. destruct RB as [A1 A2 A3 A4 A5 A6 A7 A8 A9]. constructor.
    - assert (L2 : lead (VF fr0 628) (Z.to_nat 2) = 2).
      { change (Z.to_nat 2) with 2%nat. cbn [lead]. unfold isl. change (Z.of_nat 0) with 0. change (Z.of_nat 1) with 1. change (1 - 1) with 0. rewrite V0, V1. reflexivity. }
      rewrite A1, L2. unfold k, LD. dred. lia.
    - intros x X. destruct (XX x X) as [-> | ->]; [change (VB bl0 628 0) with 0; lia|rewrite B1; lia].
    - intros x X. assert (x = 1) by lia. subst x. rewrite B1. lia.
    - intros x y X Y. destruct (XX x X) as [-> | ->], (XX y Y) as [-> | ->]; change (VB bl0 628 0) with 0; rewrite ?B1, ?V0, ?V1; lia.
    - intros x X. destruct (XX x X) as [-> | ->]; [change (VB bl0 628 0) with 0; change (VE ed0 628 0) with 0; split; [lia|split; [reflexivity|intros; lia]]|].
      rewrite B1, E1, V1. split; [lia|]. split; [reflexivity|]. intros j J. assert (j = 0) by lia. subst j. rewrite V0. lia.
    - intros j J. destruct (A6 j J) as [C1 C2]. split; [exact C1|]. intros x X. destruct (XX x X) as [-> | ->]; [change (VB bl0 628 0) with 0; lia|]. rewrite B1. intros Y. apply (A9 j J). now symmetry.
    - exact A7.
    - intros x X. assert (x = 1) by lia. subst x. rewrite B1. exact NO.
    - intros j J X. destruct (OB0 _ X) as [x [X1 X2]]. destruct (A6 j J) as [_ C2]. apply (C2 x ltac:(lia)). exact X2. }
  destruct (made 1 [(1, Leaf 0)] O k ltac:(lia) ltac:(lia) wf_one ltac:(reflexivity) 0 ch pa bl0 ed0 st sn fr tp av 630 nn nx n1 nm fr0) as (bl' & ed' & av' & E & R1 & A1 & A2); auto.
  { constructor; dred; unfold bl0, ed0; rewrite ?alen_upd; auto. }
  { intros; lia. } { unfold fr0. rewrite at_upd_ne by lia. apply at_upd_eq. }
  { intros i I. assert (i = 0) by lia. subst i. exact U2. } { intros i I. assert (i = 0) by lia. subst i. exact U3. }
  { unfold bl0. rewrite at_upd_ne by lia. apply BLK. lia. }
  change (628 + 2 * 1) with 630 in *. change (628 + (2 * 1 - 1)) with 629 in *. change (628 + (2 * 1 - 2)) with 628 in *. change (314 + 0) with 314 in *. change (314 + 1) with 315 in *.
  eexists. split; [|split; [exact R1|]].
  - unfold makeNewNode. dred. change (628 + 1) with 629. change (629 + 1) with 630. dget. rewrite U2. dput. change (- (-315) - 1) with 314. dput. unfold nChar. change (1 + 314) with 315. dput. dput. dget. rewrite U1. dput. dput. dget. fold b0. dput.
    unfold rootP. rewrite Z.eqb_refl. dput. dget. rewrite at_upd_ne by lia. fold b0. dget. rewrite U5. dput. change (628 + 1) with 629. dput. dput. dput. fold bl0. fold fr0. fold ed0. change (- (315) - 1) with (-316) in *. change (- (314) - 1) with (-315) in E. rewrite E. reflexivity.
  - constructor; dred; change (628 + (2 * 1 + 1)) with 631 in *.
    + intros i I. rewrite !at_upd_ne by lia. reflexivity.
    + intros i I. rewrite !at_upd_ne by lia. reflexivity.
    + intros i I. rewrite A1 by lia. unfold bl0. rewrite at_upd_ne by lia. reflexivity.
    + intros i I. unfold fr0. rewrite !at_upd_ne by lia. reflexivity.
    + intros i I. rewrite !at_upd_ne by lia. reflexivity.
    + intros b Hb HO. rewrite A2 by assumption. unfold ed0. rewrite at_upd by lia. destruct (Z.eqb_spec b b0) as [->|]; [contradiction|reflexivity].
    + unfold fr0. apply at_upd_eq.
    + repeat split; reflexivity.
Qed.
