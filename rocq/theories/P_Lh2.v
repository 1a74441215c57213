(** The two adaptive codes of -lh2- as dhuf.go keeps them. *)
From Verif Require Import Go GoLemmas M_Bitio M_Dhuf S_Bits S_Huff S_Lz S_Lh1 S_Lh2 P_Tree P_Build P_Blocks P_Dhuf P_Pool P_Dhuf2 P_Lh2Tree.

Ltac unz := match goal with Z : Sz _ |- _ => destruct Z as [Z1 Z2 Z3 Z4 Z5 Z6 Z7]; dredin Z1; dredin Z2; dredin Z3; dredin Z4; dredin Z5; dredin Z6; dredin Z7 end.

Record FC (O : Z -> Prop) (d d' : dh) : Prop := {
  c_child : forall i, 571 <= i -> at_ (k_child d') i = at_ (k_child d) i;
  c_parent : forall i, 571 <= i -> at_ (k_parent d') i = at_ (k_parent d) i;
  c_block : forall i, 571 <= i -> at_ (k_block d') i = at_ (k_block d) i;
  c_freq : forall i, 571 <= i -> at_ (k_freq d') i = at_ (k_freq d) i;
  c_snode : forall i, 286 <= i -> at_ (k_snode d') i = at_ (k_snode d) i;
  c_edge : forall b, 1 <= b -> O b -> at_ (k_edge d') b = at_ (k_edge d) b;
  c_vars : k_totalP d' = k_totalP d /\ k_mostP d' = k_mostP d /\ k_nn d' = k_nn d /\ k_next d' = k_next d /\ k_n1 d' = k_n1 d
}.

Lemma updateC_O (O : Z -> Prop) k tC d s : 0 <= k /\ 571 + k <= 627 -> wf 286 tC 0 -> RepO 0 0 286 tC O k d -> at_ (k_freq d) 0 = wt tC 0 -> wt tC 0 < 30000 -> 0 <= s < 286 ->
  exists d', updateC s d = Ok d' /\ RepO 0 0 286 (adapt tC s) O k d' /\ FC O d d' /\ at_ (k_freq d') 0 = wt (adapt tC s) 0 /\ wt (adapt tC s) 0 = wt tC 0 + 1 /\ wf 286 (adapt tC s) 0.
Proof.
  intros Hk W R F0 B S. unfold updateC, rootC. pose proof (z_freq _ (q_sz _ _ _ _ _ _ _ R)) as ZF. rewrite aget_ok by lia. cbn [bind]. rewrite F0.
  destruct (Z.eqb_spec (wt tC 0) 32768); [lia|]. cbn [bind]. rewrite aget_ok by lia. cbn [bind].
  destruct (rootO_count 0 0 286 O k ltac:(lia) ltac:(lia) tC d W R ltac:(lia)) as (d1 & E1 & R1 & F1 & SN & FQ & G1 & G2 & G3 & G4 & V1 & V2 & V3 & V4 & V5 & V6).
  rewrite E1. cbn [bind]. destruct (find_leaf 286 tC 0 s W S) as [P1 P2]. set (p := find_what (Leaf s) tC) in *.
  set (t2 := put tC 0 (wt tC 0 + 1, wh tC 0)) in *. pose proof (count_root 286 tC p s W P1 P2) as W2. fold t2 in W2. pose proof (wf_len _ _ _ W) as L1.
  assert (ND : forall i, 0 <= i -> node t2 i = if i =? 0 then (wt tC 0 + 1, wh tC 0) else node tC i) by (intros; apply node_put; lia).
  assert (P0 : p <> 0). { intros Q. rewrite Q in P2. rewrite (wf_root 286 ltac:(lia) tC 0 W) in P2. discriminate P2. }
  assert (SN1 : aget (k_snode d1) s = Ok (0 + p)).
  { pose proof (z_snode _ (q_sz _ _ _ _ _ _ _ R1)) as ZS. rewrite aget_ok by lia. f_equal. pose proof (q_link _ _ _ _ _ _ _ R1 p P1) as Q. unfold wh in Q. rewrite ND in Q by lia. destruct (Z.eqb_spec p 0); [lia|]. fold (wh tC p) in Q. rewrite P2 in Q. exact Q. }
  rewrite SN1. cbn [bind]. rewrite loop_loopN by reflexivity.
  assert (WT2 : wt t2 0 = wt tC 0 + 1) by (unfold wt at 1; rewrite ND by lia; reflexivity).
  assert (FU : p < Z.of_nat (Z.to_nat (treesize + 2))) by (unfold treesize; lia).
  destruct (climbO 0 0 286 O k ltac:(lia) ltac:(lia) ltac:(lia) ltac:(lia) (Z.to_nat (treesize + 2)) t2 p d1 W2 P1 FU P0 ltac:(lia) R1) as [d2 [E2 [R2 [H1 H2 H3 H4 H5 H6 H7]]]].
  assert (AD : adapt tC s = climb (Z.to_nat (treesize + 2)) t2 p).
  { unfold adapt. destruct (Z.eqb_spec (wt tC 0) 32768); [lia|]. fold t2. fold p. apply (climb_fuel 286); auto; try lia. unfold zlen in L1. lia. }
  destruct (climb_ok 286 ltac:(lia) (Z.to_nat (treesize + 2)) t2 p W2 P1 FU) as [C1 C2].
  exists d2. split; [rewrite E2; reflexivity|]. rewrite AD. split; [exact R2|]. split; [|split; [rewrite H4 by lia; rewrite F1, C2, WT2; lia|split; [rewrite C2; exact WT2|exact C1]]].
  constructor.
  - intros i I. rewrite H1 by lia. now rewrite G1.
  - intros i I. rewrite H2 by lia. now rewrite G2.
  - intros i I. rewrite H3 by lia. now rewrite G3.
  - intros i I. rewrite H4 by lia. apply FQ; lia.
  - intros i I. rewrite H5 by lia. now rewrite SN.
  - intros b Hb HO. rewrite H6 by assumption. now rewrite G4.
  - destruct H7 as (X1 & X2 & X3 & X4 & X5 & X6). repeat split; congruence.
Qed.

Lemma repO_total o so n t O k d v : RepO o so n t O k d -> RepO o so n t O k (set_totalP v d).
Proof. intros [[Z1 Z2 Z3 Z4 Z5 Z6 Z7] RF RR RC RL RB RE]. destruct d. constructor; auto. constructor; auto. Qed.

Lemma updateP_O n (O : Z -> Prop) k tP d s : 2 <= n <= 29 -> 0 <= k /\ 2 * n - 1 + k <= 627 -> wf n tP 0 -> RepO 628 314 n tP O k d -> at_ (k_freq d) 628 = 65535 ->
  wt tP 0 < 30000 -> 0 <= k_totalP d < 30000 -> 0 <= s < n ->
  exists t' d', lh2_adapt (tP, k_totalP d) s = (t', k_totalP d + 1) /\ updateP s d = Ok (set_totalP (k_totalP d + 1) d') /\ RepO 628 314 n t' O k d' /\ Frame 628 314 n O d d' /\
    wf n t' 0 /\ wt t' 0 = wt tP 0 + 1.
Proof.
  intros Hn Hk W R F0 B T S. unfold updateP, lh2_adapt. cbn [fst snd]. destruct (Z.eqb_spec (k_totalP d) 32768); [lia|]. cbn [bind].
  pose proof (wf_len _ _ _ W) as L1. destruct (Nat.eqb_spec (length tP) 1); [unfold zlen in L1; lia|].
  destruct (find_leaf n tP 0 s W S) as [P1 P2]. set (p := find_what (Leaf s) tP) in *.
  set (t2 := put tP 0 (wt tP 0 + 1, wh tP 0)) in *. pose proof (count_root n tP p s W P1 P2) as W2. fold t2 in W2.
  assert (ND : forall i, 0 <= i -> node t2 i = if i =? 0 then (wt tP 0 + 1, wh tP 0) else node tP i) by (intros; apply node_put; lia).
  pose proof (rootO_keep 628 314 n O k ltac:(lia) tP 0 d W R ltac:(lia)) as R2. fold t2 in R2.
  assert (SN1 : aget (k_snode d) (s + nChar) = Ok (628 + p)).
  { pose proof (z_snode _ (q_sz _ _ _ _ _ _ _ R)) as ZS. unfold nChar. rewrite aget_ok by lia. f_equal. pose proof (q_link _ _ _ _ _ _ _ R p P1) as Q. rewrite P2 in Q. cbn [linkedO] in Q. rewrite Z.add_comm. exact Q. }
  rewrite SN1. cbn [bind]. rewrite loop_loopN by reflexivity.
  assert (WT2 : wt t2 0 = wt tP 0 + 1) by (unfold wt at 1; rewrite ND by lia; reflexivity).
  assert (FU : p < Z.of_nat (Z.to_nat (treesize + 2))) by (unfold treesize; lia).
  destruct (climbO_P 628 314 n O k ltac:(lia) ltac:(lia) ltac:(lia) ltac:(lia) (Z.to_nat (treesize + 2)) t2 p d W2 P1 FU ltac:(lia) R2) as [d2 [E2 [R3 H]]].
  assert (AD : climb (length tP) t2 p = climb (Z.to_nat (treesize + 2)) t2 p).
  { apply (climb_fuel n); auto; try lia. unfold zlen in L1. lia. }
  destruct (climb_ok n ltac:(lia) (Z.to_nat (treesize + 2)) t2 p W2 P1 FU) as [C1 C2].
  exists (climb (Z.to_nat (treesize + 2)) t2 p), d2. rewrite AD. split; [reflexivity|]. unfold rootP. rewrite E2. cbn [bind].
  destruct (f_vars _ _ _ _ _ _ H) as [V1 _]. rewrite V1, u16_id by lia. split; [reflexivity|]. split; [exact R3|]. split; [exact H|]. split; [exact C1|lia].
Qed.

(** The new leaf is counted. *)
Lemma first_swap n t (O : Z -> Prop) k d : 1 <= n <= 28 -> 0 <= k /\ 2 * n + 1 + k <= 627 -> wf n t 0 -> wt t 0 < 30000 -> RepO 628 314 (n + 1) (ta n t) O k d ->
  exists d', swapInc (628 + 2 * n) d = Ok (628 + (2 * n - 2), d') /\ RepO 628 314 (n + 1) (tb n t) O k d' /\ Frame 628 314 (n + 1) O d d'.
Proof.
  intros Hn Hk W B0 [SZ RF RR RC RL RB RE]. destruct d as [ch pa bl ed st sn fr tp av mo nn nx n1 nm]. unz. dredin RF. dredin RR. dredin RC. dredin RL. dredin RB. dredin RE.
  pose proof (tb_wf n t ltac:(lia) W) as WB.
  replace (2 * (n + 1) - 1) with (2 * n + 1) in * by lia. set (p := 2 * n) in *. change 628 with rootP in *. set (o := rootP) in *. assert (Ho : o = 628) by reflexivity. clearbody o.
  assert (FW : forall i, 1 <= i < p + 1 -> VF fr o i = wt (ta n t) i) by (intros; apply RF; lia).
  assert (F0 : VF fr o 0 = at_ fr o) by (unfold VF; f_equal; lia).
  assert (TW : forall i, 0 <= i <= p -> wt (ta n t) i = if i =? p then 0 else if i =? p - 1 then wt t (2 * n - 2) else if i =? 0 then wt t 0 + 1 else wt t i) by (intros i I; exact (ta_wt n t ltac:(lia) W i I)).
  assert (FP : VF fr o p = 0) by (rewrite FW, TW by lia; now rewrite Z.eqb_refl).
  assert (TP : forall i, 0 <= i < p -> 1 <= wt (ta n t) i) by (intros i I; exact (ta_pos n t ltac:(lia) W i I)).
  assert (SO : forall i j, 0 <= i <= j -> j < p + 1 -> VF fr o j <= VF fr o i).
  { intros i j I J. destruct (Z.eq_dec j p) as [->|].
    { rewrite FP. destruct (Z.eq_dec i p) as [->|]; [lia|]. destruct (Z.eq_dec i 0) as [->|]; [rewrite F0; pose proof (TP 0 ltac:(lia)); lia|]. rewrite FW by lia. pose proof (TP i ltac:(lia)). lia. }
    assert (S1 : wt (ta n t) j <= wt (ta n t) i).
    { pose proof (wf_sort _ _ _ WB i j ltac:(lia) ltac:(lia)) as X. rewrite !(tb_wt n t) in X by (auto; lia). destruct (Z.eqb_spec j (2 * n)), (Z.eqb_spec i (2 * n)); try lia. }
    destruct (Z.eq_dec i 0) as [->|]; [destruct (Z.eq_dec j 0) as [->|]; [lia|rewrite F0, FW by lia; lia]|]. rewrite !FW by lia. exact S1. }
  assert (FI' : forall j, 0 <= j < p -> VF fr o j <> VF fr o p).
  { intros j J. rewrite FP. destruct (Z.eq_dec j 0) as [->|]; [rewrite F0; pose proof (TP 0 ltac:(lia)); lia|]. rewrite FW by lia. pose proof (TP j J). lia. }
  assert (HT : 2 <= p \/ VF fr o (p - 1) <> VF fr o p + 1) by lia.
  pose proof (o_rng _ _ _ _ _ _ _ _ RB) as BR. pose proof (BR p ltac:(lia)) as BRp. pose proof (o_pos _ _ _ _ _ _ _ _ RB p ltac:(lia)) as BPp. rewrite VB_pos in BRp, BPp by lia.
  assert (EDp : at_ ed (at_ bl (o + p)) = o + p).
  { destruct (o_edge _ _ _ _ _ _ _ _ RB p ltac:(lia)) as [A1 [A2 A3]]. rewrite VB_pos, VE_pos in A1, A2 by (rewrite ?VB_pos; lia). set (e := at_ ed (at_ bl (o + p)) - o) in *.
    destruct (Z_lt_le_dec e p); [exfalso; apply (FI' e); lia|]. lia. }
  assert (PQ : 1 <= p < p + 1) by lia.
  assert (AL : forall x, 0 <= x < p + 1 -> VF fr o x = VF fr o p -> x = p) by (intros x X E; destruct (Z.eq_dec x p); [assumption|exfalso; apply (FI' x); [lia|exact E]]).
  assert (FU : forall x, 0 <= x -> VF (upd fr (o + p) (VF fr o p + 1)) o x = if x =? p then VF fr o p + 1 else VF fr o x).
  { intros x X. unfold VF at 1. rewrite at_upd by lia. destruct (Z.eqb_spec (o + x) (o + p)), (Z.eqb_spec x p); try lia; reflexivity. }
  assert (NB : forall i, 0 <= i <= p -> wh (tb n t) i = wh (ta n t) i) by (intros i I; exact (tb_wh n t ltac:(lia) W i I)).
  assert (RC1 : forall i, 0 <= i < p + 1 -> at_ ch (o + i) = encO o 314 (wh (tb n t) i)) by (intros; rewrite NB by lia; apply RC; lia).
  assert (RL1 : forall i, 0 <= i < p + 1 -> linkedO o 314 pa sn (wh (tb n t) i) i) by (intros; rewrite NB by lia; apply RL; lia).
  assert (PA : at_ pa (o + p) = o + (2 * n - 2)).
  { specialize (RL1 (2 * n - 2) ltac:(lia)). rewrite NB, (ta_wh n t) in RL1 by (auto; lia). destruct (Z.eqb_spec (2 * n - 2) (2 * n)); [lia|]. destruct (Z.eqb_spec (2 * n - 2) (2 * n - 1)); [lia|].
    rewrite Z.eqb_refl in RL1. cbn [linkedO] in RL1. apply RL1. }
  assert (F1 : forall i, 1 <= i < p + 1 -> at_ (upd fr (o + p) (VF fr o p + 1)) (o + i) = wt (tb n t) i).
  { intros i I. change (VF (upd fr (o + p) (VF fr o p + 1)) o i = wt (tb n t) i). rewrite FU by lia. rewrite (tb_wt n t) by (auto; lia). fold p. destruct (Z.eqb_spec i p); [lia|apply FW; lia]. }
  assert (R1 : wt (tb n t) 0 <= at_ (upd fr (o + p) (VF fr o p + 1)) o < 65536).
  { rewrite at_upd_ne by lia. rewrite (tb_wt n t) by (auto; lia). fold p. destruct (Z.eqb_spec 0 p); lia. }
  unfold swapInc. dred. dget. dget. rewrite EDp. rewrite Z.eqb_refl. cbn [negb]. dget. replace (o + p + 1) with (o + (p + 1)) by lia. rewrite RE. destruct (Z.eqb_spec (at_ bl (o + p)) 0); [lia|].
  dget. change (at_ fr (o + p)) with (VF fr o p). assert (U : u16 (VF fr o p + 1) = VF fr o p + 1) by (rewrite FP; reflexivity). rewrite U. dput. dget. dget. rewrite at_upd_eq, at_upd_ne by lia.
  replace (o + p - 1) with (o + (p - 1)) by lia. change (at_ fr (o + (p - 1))) with (VF fr o (p - 1)).
  destruct (Z.eqb_spec (VF fr o p + 1) (VF fr o (p - 1))) as [E|E].
  - destruct (pool_free (p + 1) k av p O (VF fr o) (VB bl o) (VE ed o) (at_ st) (VF (upd fr (o + p) (VF fr o p + 1)) o) ltac:(lia) HT RB SO PQ FI' FU (fun x => if x =? p then VB bl o (p - 1) else VB bl o x) (fun k => if k =? av - 1 then VB bl o p else at_ st k)) as [AV _]; auto.
    assert (AVU : av <= 628). { rewrite (o_avail _ _ _ _ _ _ _ _ RB). pose proof (lead_range (VF fr o) (Z.to_nat (p + 1))). lia. }
    dput. dget. dput. dget. eexists. split; [f_equal; f_equal; exact PA|]. split.
    + constructor; dred; replace (2 * (n + 1) - 1) with (p + 1) by lia; auto.
      * constructor; dred; rewrite ?alen_upd; auto.
      * apply (pool_free (p + 1) k av p O (VF fr o) (VB bl o) (VE ed o) (at_ st)); auto; try lia.
        -- intros x X. rewrite (VB_pos bl o (p - 1)) by lia. unfold VB. destruct (Z.eqb_spec x 0); [destruct (Z.eqb_spec x p); [lia|reflexivity]|]. rewrite at_upd by lia. destruct (Z.eqb_spec (o + x) (o + p)), (Z.eqb_spec x p); try lia; reflexivity.
        -- intros x X. rewrite VB_pos by lia. apply at_upd; lia.
      * rewrite at_upd_ne by lia. exact RE.
    + constructor; dred; auto; intros; try (rewrite at_upd_ne by lia; reflexivity). repeat split; reflexivity.
  - dget. eexists. split; [f_equal; f_equal; exact PA|]. split.
    + constructor; dred; replace (2 * (n + 1) - 1) with (p + 1) by lia; auto.
      * constructor; dred; rewrite ?alen_upd; auto.
      * apply (pool_keep (p + 1) k av p O (VF fr o) (VB bl o) (VE ed o) (at_ st)); auto; try lia.
    + constructor; dred; auto; intros; try (rewrite at_upd_ne by lia; reflexivity). repeat split; reflexivity.
Qed.

Lemma updateP_new n t (O : Z -> Prop) k d : 1 <= n <= 28 -> 0 <= k /\ 2 * n + 1 + k <= 627 -> wf n t 0 -> wt t 0 < 30000 -> RepO 628 314 (n + 1) (ta n t) O k d ->
  0 <= k_totalP d < 30000 ->
  exists t' d', lh2_adapt (add_leaf t n, k_totalP d) n = (t', k_totalP d + 1) /\ updateP n d = Ok (set_totalP (k_totalP d + 1) d') /\ RepO 628 314 (n + 1) t' O k d' /\
    Frame 628 314 (n + 1) O d d' /\ wf (n + 1) t' 0 /\ wt t' 0 = wt t 0 + 1.
Proof.
  intros Hn Hk W B0 R T. pose proof (tb_wf n t ltac:(lia) W) as WB. rewrite (adapt_new n t ltac:(lia) W) by lia. unfold updateP. destruct (Z.eqb_spec (k_totalP d) 32768); [lia|]. cbn [bind].
  assert (SN1 : aget (k_snode d) (n + nChar) = Ok (628 + 2 * n)).
  { pose proof (z_snode _ (q_sz _ _ _ _ _ _ _ R)) as ZS. unfold nChar. rewrite aget_ok by lia. f_equal. pose proof (q_link _ _ _ _ _ _ _ R (2 * n) ltac:(lia)) as Q. rewrite (ta_wh n t) in Q by (auto; lia). rewrite Z.eqb_refl in Q. cbn [linkedO] in Q. rewrite Z.add_comm. exact Q. }
  rewrite SN1. cbn [bind]. rewrite loop_loopN by reflexivity. destruct (first_swap n t O k d Hn Hk W B0 R) as [d1 [E1 [R1 H1]]].
  assert (FE : exists K, Z.to_nat (treesize + 2) = S K /\ 60 <= Z.of_nat K) by (exists (Z.to_nat 885); split; [reflexivity|lia]). destruct FE as [K [FE KB]]. rewrite FE. cbn [loopN]. unfold rootP. destruct (Z.eqb_spec (628 + 2 * n) 628); [lia|]. rewrite E1. cbn [bind].
  assert (WT0 : wt (tb n t) 0 = wt t 0 + 1).
  { rewrite (tb_wt n t), (ta_wt n t) by (auto; lia). destruct (Z.eqb_spec 0 (2 * n)); [lia|]. destruct (Z.eqb_spec 0 (2 * n - 1)); [lia|]. reflexivity. }
  assert (FU : 2 * n - 2 < Z.of_nat K) by lia.
  destruct (climbO_P 628 314 (n + 1) O k ltac:(lia) ltac:(lia) ltac:(lia) ltac:(lia) K (tb n t) (2 * n - 2) d1 WB ltac:(lia) FU ltac:(lia) R1) as [d2 [E2 [R2 H2]]].
  rewrite (climb_fuel (n + 1) ltac:(lia) (Z.to_nat (2 * n)) K (tb n t) (2 * n - 2) WB ltac:(lia) ltac:(lia) FU).
  destruct (climb_ok (n + 1) ltac:(lia) K (tb n t) (2 * n - 2) WB ltac:(lia) FU) as [C1 C2].
  exists (climb K (tb n t) (2 * n - 2)), d2. split; [reflexivity|]. rewrite E2. cbn [bind]. pose proof (frame_trans _ _ _ _ _ _ _ H1 H2) as H.
  destruct (f_vars _ _ _ _ _ _ H) as [V1 _]. rewrite V1, u16_id by lia. split; [reflexivity|]. split; [exact R2|]. split; [exact H|]. split; [exact C1|lia].
Qed.
