(** Both codes of -lh2- while data are decoded, as long as nothing is halved and at most 29 symbols stand for distances. *)
From Verif Require Import Go GoLemmas M_Crc M_Bitio S_Bits P_Bits P_Bitio S_Huff M_Maketree M_Maketbl M_Huf M_Dhuf M_Shuf M_Larc M_Pm2 M_Slide M_Decode M_Lzhuf
  P_Maketbl P_HufCode P_HufTables S_Lz S_Lh1 S_Lh2 P_Lz P_Decode P_Tree P_Blocks P_Build P_Dhuf P_Reconst P_Lh1Start P_Lh1 P_Pool P_Dhuf2 P_Lh2Tree P_Lh2 P_Lh2Grow.

Definition Two (tC : tree) (n : Z) (tP : tree) (d : dh) : Prop :=
  (n = 1 /\ tP = [(1, Leaf 0)] /\ One d /\ RepO 0 0 286 tC (eq (at_ (k_block d) 628)) 1 d) \/
  (2 <= n /\ RepO 0 0 286 tC (OB 628 n d) (LD 628 n d - 1) d /\ RepO 628 314 n tP (OB 0 286 d) (LD 0 286 d - 1) d /\ at_ (k_freq d) 628 = 65535).

Record St (tC : tree) (n : Z) (tP : tree) (d : dh) : Prop := {
  s_n : 1 <= n <= 29;
  s_wfC : wf 286 tC 0;
  s_root : at_ (k_freq d) 0 = wt tC 0;
  s_wfP : wf n tP 0;
  s_tot : 0 <= k_totalP d /\ wt tP 0 <= k_totalP d + 1;
  s_next : k_next d = 64 * n;
  s_nn : k_nn d = 8192;
  s_n1 : k_n1 d = 512;
  s_most : k_mostP d = 628 + (2 * n - 2);
  s_blank : forall i, 628 + (2 * n - 1) <= i < 884 -> at_ (k_block d) i = 0;
  s_two : Two tC n tP d
}.

Lemma LD_range o n d : 1 <= n -> 1 <= LD o n d <= 2 * n - 1.
Proof. intros H. unfold LD. pose proof (lead_pos (VF (k_freq d) o) (Z.to_nat (2 * n - 1)) ltac:(lia)). pose proof (lead_range (VF (k_freq d) o) (Z.to_nat (2 * n - 1))). lia. Qed.

Lemma st_len tC n tP d : St tC n tP d -> zlen tP = 2 * n - 1.
Proof. intros S. exact (wf_len _ _ _ (s_wfP _ _ _ _ S)). Qed.
Lemma st_sz tC n tP d : St tC n tP d -> Sz d.
Proof. intros S. destruct (s_two _ _ _ _ S) as [(_ & _ & _ & R)|(_ & R & _)]; exact (q_sz _ _ _ _ _ _ _ R). Qed.

Lemma st_C tC n tP d s : St tC n tP d -> wt tC 0 < 30000 -> 0 <= s < 286 ->
  exists d', updateC s d = Ok d' /\ St (adapt tC s) n tP d' /\ wt (adapt tC s) 0 = wt tC 0 + 1 /\ k_totalP d' = k_totalP d.
Proof.
  intros [N WC RT WP TT NX NN N1 MO BL TW] HT HS. destruct TW as [(-> & -> & U & R)|(N2 & RC & RP & FR)].
  - destruct (updateC_O (eq (at_ (k_block d) 628)) 1 tC d s) as (d' & E & R' & [C1 C2 C3 C4 C5 C6 (V1 & V2 & V3 & V4 & V5)] & F' & W' & WF'); auto; try lia.
    exists d'. split; [exact E|]. split; [|split; [exact W'|exact V1]]. constructor; auto; try congruence.
    + intros i I. rewrite C3 by lia. now apply BL.
    + left. split; [reflexivity|]. split; [reflexivity|]. rewrite C3 by lia. split; [|exact R']. destruct U as [U1 U2 U3 U4 U5]. constructor; rewrite ?C3, ?C4, ?C1, ?C5 by lia; auto.
      rewrite C6; [exact U5|lia|reflexivity].
  - pose proof (LD_range 628 n d ltac:(lia)) as LR.
    destruct (updateC_O (OB 628 n d) (LD 628 n d - 1) tC d s) as (d' & E & R' & [C1 C2 C3 C4 C5 C6 (V1 & V2 & V3 & V4 & V5)] & F' & W' & WF'); auto; try lia.
    exists d'. split; [exact E|]. split; [|split; [exact W'|exact V1]].
    assert (K : Keep 628 314 n d d') by (constructor; intros; [apply C1|apply C2|apply C3|apply C4|apply C5|apply C6]; auto; lia).
    constructor; auto; try congruence.
    + intros i I. rewrite C3 by lia. now apply BL.
    + right. split; [exact N2|]. split; [|split].
      * rewrite (keep_LD _ _ _ _ _ K). eapply repO_mono; [exact R'|]. intros b. now apply (keep_OB _ _ _ _ _ _ K).
      * eapply (exch 0 0 286 _ _ _ 628 314 n tP); [lia|exact N2|lia|lia|exact WP|exact RP|exact K|exact R'|auto|reflexivity].
      * now rewrite C4 by lia.
Qed.

(** The code of the distances is changed; that of the bytes stays. *)
Lemma st_swap tC n O2 k2 d tP' d' : 2 <= n -> wf 286 tC 0 -> RepO 0 0 286 tC O2 k2 d -> Keep 0 0 286 d d' -> RepO 628 314 n tP' (OB 0 286 d) (LD 0 286 d - 1) d' ->
  at_ (k_freq d') 628 = 65535 -> Two tC n tP' d'.
Proof.
  intros N WC RC K RP FR. right. split; [exact N|]. split; [|split; [|exact FR]].
  - eapply (exch 628 314 n _ _ _ 0 0 286 tC); [exact N|lia|lia|lia|exact WC|exact RC|exact K|exact RP|auto|reflexivity].
  - rewrite (keep_LD _ _ _ _ _ K). eapply repO_mono; [exact RP|]. intros b. now apply (keep_OB _ _ _ _ _ _ K).
Qed.

Lemma st_P tC n tP d s : St tC n tP d -> k_totalP d < 29000 -> 0 <= s < n ->
  exists t' d', lh2_adapt (tP, k_totalP d) s = (t', k_totalP d + 1) /\ updateP s d = Ok d' /\ St tC n t' d' /\ k_totalP d' = k_totalP d + 1.
Proof.
  intros [N WC RT WP TT NX NN N1 MO BL TW] HT HS. destruct TW as [(-> & -> & U & R)|(N2 & RC & RP & FR)].
  - assert (s = 0) as -> by lia. exists [(1, Leaf 0)], (set_totalP (k_totalP d + 1) d). pose proof (q_sz _ _ _ _ _ _ _ R) as SZ. split; [|split; [|split; [|reflexivity]]].
    + unfold lh2_adapt. cbn [snd fst]. destruct (Z.eqb_spec (k_totalP d) 32768); [lia|]. reflexivity.
    + unfold updateP. destruct (Z.eqb_spec (k_totalP d) 32768); [lia|]. cbn [bind]. change (0 + nChar) with 314. rewrite aget_ok by (rewrite (z_snode _ SZ); lia). cbn [bind].
      rewrite (u_snode _ U). rewrite loop_loopN by (unfold treesize; lia). destruct (Z.to_nat (treesize + 2)) eqn:K; [unfold treesize in K; lia|]. cbn [loopN]. change (628 =? rootP) with true. cbn [bind].
      rewrite u16_id by lia. reflexivity.
    + constructor; auto; cbn [k_totalP set_totalP]; [lia|]. left. split; [reflexivity|]. split; [reflexivity|]. split; [destruct U; constructor; assumption|]. apply repO_total. exact R.
  - pose proof (LD_range 0 286 d ltac:(lia)) as LR.
    destruct (updateP_O n (OB 0 286 d) (LD 0 286 d - 1) tP d s) as (t' & d' & A & E & R' & [C1 C2 C3 C4 C5 C6 (V1 & V2 & V3 & V4 & V5 & V6)] & WF' & W'); auto; try lia.
    exists t', (set_totalP (k_totalP d + 1) d'). split; [exact A|]. split; [exact E|]. split; [|reflexivity].
    assert (K : Keep 0 0 286 d (set_totalP (k_totalP d + 1) d')) by (constructor; intros; [apply C1|apply C2|apply C3|apply C4|apply C5|apply C6]; auto; lia).
    constructor; auto; cbn [k_totalP set_totalP k_next k_nn k_n1 k_mostP k_freq k_block]; try congruence; try lia.
    + rewrite C4 by lia. exact RT.
    + intros i I. rewrite C3 by lia. now apply BL.
    + apply (st_swap tC n (OB 628 n d) (LD 628 n d - 1) d); auto. { now apply repO_total. } cbn [k_freq set_totalP]. rewrite C4 by lia. exact FR.
Qed.

Lemma st_new tC n tP d : St tC n tP d -> n <= 28 -> k_totalP d < 29000 ->
  exists t' d', lh2_adapt (add_leaf tP n, k_totalP d) n = (t', k_totalP d + 1) /\ makeNewNode n d = Ok d' /\
    St tC (n + 1) t' (set_next (64 * (n + 1)) d') /\ k_next d' = 64 * n /\ k_nn d' = 8192 /\ k_totalP d' = k_totalP d + 1.
Proof.
  intros [N WC RT WP TT NX NN N1 MO BL TW] N28 HT. pose proof (LD_range 0 286 d ltac:(lia)) as LR.
  assert (X : exists d1 O2 k2, makeNewNode n d = updateP n d1 /\ RepO 0 0 286 tC O2 k2 d /\ RepO 628 314 (n + 1) (ta n tP) (OB 0 286 d) (LD 0 286 d - 1) d1 /\ FP n (OB 0 286 d) d d1).
  { destruct TW as [(-> & -> & U & R)|(N2 & RC & RP & FR)].
    - destruct (make_second tC d R U) as (d1 & E & R1 & F1); auto. exists d1. eexists _, _. split; [exact E|]. split; [exact R|]. split; [exact R1|exact F1].
    - destruct (make_more n tP (OB 0 286 d) (LD 0 286 d - 1) ltac:(lia) ltac:(lia) WP ltac:(lia) d N2 RP FR MO BL) as (d1 & E & R1 & F1).
      exists d1. eexists _, _. split; [exact E|]. split; [exact RC|]. split; [exact R1|exact F1]. }
  destruct X as (d1 & O2 & k2 & E & RC & R1 & [P1 P2 P3 P4 P5 P6 P7 (Q1 & Q2 & Q3 & Q4 & Q5)]).
  destruct (updateP_new n tP (OB 0 286 d) (LD 0 286 d - 1) d1) as (t' & d' & A & E2 & R' & [C1 C2 C3 C4 C5 C6 (V1 & V2 & V3 & V4 & V5 & V6)] & WF' & W'); auto; try lia.
  rewrite Q1 in A, E2. exists t', (set_totalP (k_totalP d + 1) d'). split; [exact A|]. split; [now rewrite E|]. split; [|cbn [k_totalP set_totalP k_next k_nn]; split; [congruence|split; [congruence|reflexivity]]].
  set (d2 := set_next _ _).
  assert (K : Keep 0 0 286 d d2).
  { constructor; intros; [transitivity (at_ (k_child d1) i); [apply C1|apply P1]|transitivity (at_ (k_parent d1) i); [apply C2|apply P2]|transitivity (at_ (k_block d1) i); [apply C3|apply P3]
      |transitivity (at_ (k_freq d1) i); [apply C4|apply P4]|transitivity (at_ (k_snode d1) i); [apply C5|apply P5]|transitivity (at_ (k_edge d1) b); [apply C6|apply P6]]; auto; lia. }
  constructor; auto; unfold d2; cbn [k_totalP set_totalP set_next k_next k_nn k_n1 k_mostP k_freq k_block]; try congruence; try lia.
  - rewrite C4, P4 by lia. exact RT.
  - intros i I. rewrite C3, P3 by lia. apply BL. lia.
  - apply (st_swap tC (n + 1) O2 k2 d); auto; [lia| |].
    + assert (RT' := repO_total _ _ _ _ _ _ _ (k_totalP d + 1) R'). destruct RT' as [Y1 Y2 Y3 Y4 Y5 Y6 Y7]. constructor; auto. destruct Y1; constructor; assumption.
    + cbn [k_freq set_next set_totalP]. rewrite C4 by lia. exact P7.
Qed.

Definition grow_step (count : Z) (d : dh) : res (ctl dh dh) :=
  if k_next d <? count then
    d <- makeNewNode (k_next d / 64) d ;;
    let n := k_next d + 64 in
    Ok (Go (set_next (if k_nn d <=? n then 4294967295 else n) d))
  else Ok (Stop d).

Lemma st_leaves tC n tP d : St tC n tP d -> leaves tP = n.
Proof. intros S. pose proof (st_len _ _ _ _ S) as L. unfold leaves. unfold zlen in L. rewrite L. replace (2 * n - 1 + 1) with (n * 2) by lia. apply Z.div_mul. lia. Qed.

Lemma grow_ok tC count : count <= 1856 -> forall j j2 n tP d, St tC n tP d -> k_totalP d + (29 - n) < 29000 -> 29 - n < Z.of_nat j -> 29 - n < Z.of_nat j2 ->
  exists n' tP' d', loopN j (grow_step count) d = Ok (Stop d') /\ lh2_widen j2 count (tP, k_totalP d) = (tP', k_totalP d') /\ St tC n' tP' d' /\
    count <= 64 * n' /\ n <= n' /\ k_totalP d' = k_totalP d + (n' - n).
Proof.
  intros HC. induction j as [|j IH]; intros j2 n tP d S HT J J2; [pose proof (s_n _ _ _ _ S); lia|].
  destruct j2 as [|j2]; [pose proof (s_n _ _ _ _ S); lia|]. cbn [loopN lh2_widen fst snd]. cbv zeta. rewrite (st_leaves _ _ _ _ S).
  unfold grow_step at 1. pose proof (s_next _ _ _ _ S) as NX. pose proof (s_n _ _ _ _ S) as N. rewrite NX. destruct (Z.ltb_spec (64 * n) count) as [L|L].
  - destruct (Z.ltb_spec n 128); [|lia]. cbn [andb]. replace (64 * n / 64) with n by (rewrite Z.mul_comm, Z.div_mul; lia).
    destruct (st_new tC n tP d S ltac:(lia) ltac:(lia)) as (t' & d' & A & E & S' & E1 & E2 & E3). rewrite E. cbn [bind]. rewrite E1, E2. cbv zeta.
    destruct (Z.leb_spec 8192 (64 * n + 64)); [lia|]. replace (64 * n + 64) with (64 * (n + 1)) by lia. rewrite A.
    destruct (IH j2 (n + 1) t' (set_next (64 * (n + 1)) d') S') as (n' & tP' & d2 & X1 & X2 & X3 & X4 & X5 & X6); cbn [k_totalP set_next]; try lia.
    cbn [k_totalP set_next] in X2, X6. rewrite E3 in X2, X6. exists n', tP', d2. split; [exact X1|]. split; [exact X2|]. split; [exact X3|]. split; [exact X4|]. lia.
  - cbn [andb bind]. exists n, tP, d. split; [reflexivity|]. split; [reflexivity|]. split; [exact S|]. lia.
Qed.

(** ** Following a code *)
Section FollowO.
Variables (o so n : Z) (t : tree) (ch : arr).
Hypothesis Ho : 0 <= o.
Hypothesis Hso : 0 <= so.
Hypothesis Hch : o + (2 * n - 1) <= alen ch.
Hypothesis Hn : 2 * n - 1 <= 800.
Hypothesis W : wf n t 0.
Hypothesis C : forall i, 0 <= i < 2 * n - 1 -> at_ ch (o + i) = encO o so (wh t i).

Lemma followO_fork p m first buf cnt r : 0 <= p < 2 * n - 1 -> wh t p = Fork m ->
  follow_step ch (first, encO o so (wh t p), buf, cnt, r) =
    (let c := encO o so (wh t (if buf <? 32768 then 2 * m else 2 * m - 1)) in
     if cnt + 1 =? 16 then r <- fillbuf 16 r ;; Ok (Go (false, c, bitbuf r, 0, r))
     else Ok (Go (false, c, u16 (buf * 2), cnt + 1, r))).
Proof.
  intros P E. destruct (wf_fork _ _ _ W p m P E) as [M [M2 _]]. unfold follow_step. rewrite E. cbn [encO].
  destruct (Z.ltb_spec 0 (o + 2 * m)) as [_|]; [|lia]. rewrite orb_true_r. destruct (buf <? 32768).
  - rewrite aget_ok by lia. cbn [bind]. rewrite C by lia. reflexivity.
  - rewrite aget_ok by lia. cbn [bind]. replace (o + 2 * m - 1) with (o + (2 * m - 1)) by lia. rewrite C by lia. reflexivity.
Qed.

Lemma followO_leaf p s buf cnt r : 0 <= p < 2 * n - 1 -> wh t p = Leaf s ->
  follow_step ch (false, encO o so (wh t p), buf, cnt, r) = Ok (Stop (- (so + s) - 1, cnt, r)).
Proof.
  intros P E. pose proof (wf_leaf _ _ _ W p s P E). unfold follow_step. rewrite E. cbn [encO].
  destruct (Z.ltb_spec 0 (- (so + s) - 1)); [lia|]. reflexivity.
Qed.

Lemma followO_bits packed rest sy q : wh t q = Leaf sy -> 0 <= q < 2 * n - 1 ->
  forall bits p, desc t p bits q -> 0 <= p < 2 * n - 1 ->
  forall k first cnt r B s tail, Rd packed rest r B s -> 0 <= cnt < 16 -> skipn (Z.to_nat cnt) s = bits ++ tail ->
  (first = true -> bits <> []) -> (length bits < k)%nat ->
  exists cnt' r' B' s', loopN k (follow_step ch) (first, encO o so (wh t p), u16 (bitbuf r * 2 ^ cnt), cnt, r) = Ok (Stop (- (so + sy) - 1, cnt', r')) /\
    Rd packed rest r' B' s' /\ 0 <= cnt' < 16 /\ skipn (Z.to_nat cnt') s' = tail /\ B' + cnt' = B + cnt + Z.of_nat (length bits).
Proof.
  intros Hq Q. induction bits as [|b bits IH]; intros p D P k first cnt r B s tail HR HC ES HF HK.
  - inversion D; subst. destruct k; [cbn [length] in HK; lia|]. cbn [loopN]. destruct first; [now contradiction HF|]. rewrite (followO_leaf q sy) by assumption. cbn [bind].
    exists cnt, r, B, s. cbn [app length] in *. split; [reflexivity|]. split; [assumption|]. split; [assumption|]. split; [assumption|lia].
  - inversion D as [|? m ? ? ? E D2]; subst. destruct k; [lia|]. cbn [loopN]. rewrite (followO_fork p m) by assumption.
    destruct (wf_fork _ _ _ W p m P E) as [M [M2 _]].
    assert (NB : nth (Z.to_nat cnt) s false = b).
    { replace (Z.to_nat cnt) with (Z.to_nat cnt + 0)%nat by lia. rewrite <- nth_skipn, ES. reflexivity. }
    assert (NS : skipn (Z.to_nat (cnt + 1)) s = bits ++ tail).
    { replace (Z.to_nat (cnt + 1)) with (Z.to_nat cnt + 1)%nat by lia. rewrite <- skipn_skipn, ES. reflexivity. }
    rewrite (next_bit _ _ _ _ _ _ HR HC), NB. cbv zeta.
    replace (if negb b then 2 * m else 2 * m - 1) with (if b then 2 * m - 1 else 2 * m) by (destruct b; reflexivity).
    set (p2 := if b then 2 * m - 1 else 2 * m) in *. assert (P2 : 0 <= p2 < 2 * n - 1) by (unfold p2; destruct b; lia).
    cbn [length] in HK. destruct (Z.eqb_spec (cnt + 1) 16) as [CC|CC].
    + destruct (fillbuf_bits 16 _ _ _ _ _ HR ltac:(lia)) as [r1 [F1 R1]]. rewrite F1. cbn [bind].
      destruct (IH p2 D2 P2 k false 0 r1 (B + 16) (skipn (Z.to_nat 16) s) tail) as (cnt' & r' & B' & s' & L1 & L2 & L3 & L4 & L5); auto; try lia.
      { rewrite <- CC, NS. reflexivity. }
      rewrite Z.pow_0_r, Z.mul_1_r, (u16_id (bitbuf r1)) in L1 by apply (Rd_buf _ _ _ _ _ R1).
      exists cnt', r', B', s'. cbn [length]. split; [exact L1|]. split; [assumption|]. split; [assumption|]. split; [assumption|lia].
    + cbn [bind]. destruct (next_buf r cnt) as [NX|]; [|lia]. rewrite NX.
      destruct (IH p2 D2 P2 k false (cnt + 1) r B s tail) as (cnt' & r' & B' & s' & L1 & L2 & L3 & L4 & L5); auto; try lia.
      exists cnt', r', B', s'. cbn [length]. split; [exact L1|]. split; [assumption|]. split; [assumption|]. split; [assumption|lia].
Qed.

Lemma followO_code packed rest first sy r B tail : 0 <= sy < n -> (first = true -> 2 <= n) -> Rd packed rest r B (sym_code t sy ++ tail) ->
  exists r', follow ch first (encO o so (wh t 0)) r = Ok (- (so + sy) - 1, r') /\ Rd packed rest r' (B + Z.of_nat (length (sym_code t sy))) tail.
Proof.
  intros Y FN HR. pose proof (code_desc n t 0 sy W Y) as D. destruct (find_leaf n t 0 sy W Y) as [F1 F2].
  set (q := find_what (Leaf sy) t) in *. pose proof (desc_length n t 0 (sym_code t sy) q W ltac:(lia) D) as DL.
  assert (NE : first = true -> sym_code t sy <> []).
  { intros FT X. specialize (FN FT). assert (Q0 : q = 0) by (rewrite X in D; inversion D; auto). rewrite Q0 in F2. rewrite (root_fork n t) in F2 by (auto; lia). discriminate. }
  destruct (followO_bits packed rest sy q F2 F1 (sym_code t sy) 0 D ltac:(lia) (Z.to_nat (treesize + 2)) first 0 r B (sym_code t sy ++ tail) tail)
    as (cnt & r1 & B1 & s1 & L1 & L2 & L3 & L4 & L5); auto; try lia. { unfold treesize. lia. }
  rewrite Z.pow_0_r, Z.mul_1_r, (u16_id (bitbuf r)) in L1 by apply (Rd_buf _ _ _ _ _ HR).
  unfold follow. rewrite loop_loopN by (unfold treesize; lia). rewrite L1. cbn [bind].
  destruct (fillbuf_bits cnt _ _ _ _ _ L2 ltac:(lia)) as [r2 [F3 R3]]. rewrite F3. cbn [bind]. rewrite L4 in R3.
  exists r2. split; [reflexivity|]. replace (B + Z.of_nat (length (sym_code t sy))) with (B1 + cnt) by lia. exact R3.
Qed.
End FollowO.

Lemma two_childC tC n tP d : Two tC n tP d -> forall i, 0 <= i < 571 -> at_ (k_child d) (0 + i) = encO 0 0 (wh tC i).
Proof. intros [(_ & _ & _ & R)|(_ & R & _)] i I; apply (q_child _ _ _ _ _ _ _ R); lia. Qed.
Lemma two_childP tC n tP d : Two tC n tP d -> forall i, 0 <= i < 2 * n - 1 -> at_ (k_child d) (628 + i) = encO 628 314 (wh tP i).
Proof.
  intros [(-> & -> & U & _)|(_ & _ & R & _)] i I.
  - assert (i = 0) as -> by lia. change (628 + 0) with 628. rewrite (u_child _ U). reflexivity.
  - apply (q_child _ _ _ _ _ _ _ R); lia.
Qed.

Lemma decodeC2 packed rest tC n tP d sy r B tail : St tC n tP d -> wt tC 0 < 30000 -> 0 <= sy < 286 -> Rd packed rest r B (sym_code tC sy ++ tail) ->
  exists d' r', decodeCDyn d r = Ok (sy, d', r') /\ St (adapt tC sy) n tP d' /\ wt (adapt tC sy) 0 = wt tC 0 + 1 /\ k_totalP d' = k_totalP d /\
    Rd packed rest r' (B + Z.of_nat (length (sym_code tC sy))) tail.
Proof.
  intros S HT Y R. pose proof (st_sz _ _ _ _ S) as SZ. pose proof (z_child _ SZ) as A. unfold decodeCDyn, rootC. rewrite aget_ok by lia. cbn [bind].
  pose proof (two_childC _ _ _ _ (s_two _ _ _ _ S)) as C. pose proof (C 0 ltac:(lia)) as C0. change (0 + 0) with 0 in C0. rewrite C0.
  destruct (followO_code 0 0 286 tC (k_child d) ltac:(lia) ltac:(lia) ltac:(lia) ltac:(lia) (s_wfC _ _ _ _ S) C packed rest true sy r B tail Y ltac:(lia) R) as (r' & F & R').
  rewrite F. cbn [bind]. replace (- (- (0 + sy) - 1) - 1) with sy by lia. destruct (st_C _ _ _ _ sy S HT Y) as (d' & U & S' & W' & T'). rewrite U. cbn [bind].
  rewrite (s_n1 _ _ _ _ S'). destruct (Z.eqb_spec sy 512); [lia|]. rewrite u16_id by lia. exists d', r'. auto.
Qed.

Lemma decodeP2 packed rest tC n tP d count dist r B tail : St tC n tP d -> 0 <= count <= 1856 -> k_totalP d < 20000 -> 1 <= dist <= reach count ->
  let st := lh2_widen 128 count (tP, k_totalP d) in let s := (dist - 1) / 64 in
  Rd packed rest r B (sym_code (fst st) s ++ to_bits 6 ((dist - 1) mod 64) ++ tail) ->
  exists n' tP' d' r', decodePDyn count d r = Ok (dist - 1, d', r') /\ lh2_adapt st s = (tP', k_totalP d') /\ St tC n' tP' d' /\ n <= n' /\ k_totalP d' = k_totalP d + (n' - n) + 1 /\
    Rd packed rest r' (B + Z.of_nat (length (sym_code (fst st) s)) + 6) tail.
Proof.
  intros S HC HT HD st s R. pose proof (s_n _ _ _ _ S) as N.
  destruct (grow_ok tC count ltac:(lia) (Z.to_nat (treesize + 2)) 128 n tP d S ltac:(lia) ltac:(unfold treesize; lia) ltac:(lia)) as (n1 & t1 & d1 & G1 & G2 & S1 & G4 & G5 & G6).
  unfold st in *. rewrite G2 in *. clear st. cbn [fst] in *. unfold decodePDyn. change (grow_p count d) with (loop (treesize + 2) (grow_step count) d). rewrite loop_loopN by (unfold treesize; lia). rewrite G1. cbn [bind].
  pose proof (st_sz _ _ _ _ S1) as SZ. pose proof (z_child _ SZ) as A. unfold rootP. rewrite aget_ok by lia. cbn [bind].
  pose proof (s_n _ _ _ _ S1) as N1. pose proof (two_childP _ _ _ _ (s_two _ _ _ _ S1)) as C. pose proof (C 0 ltac:(lia)) as C0. change (628 + 0) with 628 in C0. rewrite C0.
  assert (RC : reach count <= 64 * n1).
  { unfold reach. assert (Z.max 1 ((count + 63) / 64) <= n1); [|lia]. apply Z.max_lub; [lia|]. assert ((count + 63) / 64 < n1 + 1); [|lia]. apply Z.div_lt_upper_bound; lia. }
  assert (SB : 0 <= s < n1) by (unfold s; split; [apply Z.div_pos; lia|apply Z.div_lt_upper_bound; lia]).
  pose proof (Z.mod_pos_bound (dist - 1) 64 ltac:(lia)) as XB. pose proof (Z.div_mod (dist - 1) 64 ltac:(lia)) as DM. fold s in DM.
  destruct (followO_code 628 314 n1 t1 (k_child d1) ltac:(lia) ltac:(lia) ltac:(lia) ltac:(lia) (s_wfP _ _ _ _ S1) C packed rest false s r B _ SB ltac:(discriminate) R) as (r1 & F & R1).
  rewrite F. cbn [bind]. replace (- (- (314 + s) - 1) - 1 - nChar) with s by (unfold nChar; lia).
  destruct (st_P _ _ _ _ s S1 ltac:(lia) SB) as (t2 & d2 & U1 & U2 & S2 & U4). rewrite U2. cbn [bind].
  destruct (getbits_field 6 ((dist - 1) mod 64) packed rest r1 _ tail R1 ltac:(lia) ltac:(change (2 ^ 6) with 64; lia)) as [r2 [E2 R2]]. rewrite E2. cbn [bind].
  rewrite shiftl_mul by lia. change (2 ^ 6) with 64. rewrite (u16_id s), (u16_id (s * 64)), u16_id by lia.
  exists n1, t2, d2, r2. split; [f_equal; f_equal; f_equal; lia|]. split; [rewrite U4; exact U1|]. split; [exact S2|]. split; [exact G5|]. split; [lia|exact R2].
Qed.
