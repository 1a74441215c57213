(** Decoding -lh1- data: following a code through the tree, the fixed code of the
    distances, and the whole stream. *)
From Verif Require Import Go GoLemmas M_Crc M_Bitio S_Bits P_Bits P_Bitio S_Huff M_Maketree M_Maketbl M_Huf M_Dhuf M_Shuf M_Larc M_Pm2 M_Slide M_Decode M_Lzhuf
  P_Maketbl P_HufCode P_HufTables S_Lz S_Lh1 P_Lz P_Decode P_Tree P_Blocks P_Build P_Dhuf P_Reconst P_Lh1Start.

(** ** Following a code *)

Lemma nth_to_bits n x : forall k, (k < n)%nat -> nth k (to_bits n x) false = Z.testbit x (Z.of_nat n - 1 - Z.of_nat k).
Proof.
  induction n as [|n IH]; intros k H; [lia|]. cbn [to_bits]. destruct k as [|k]; cbn [nth].
  - f_equal. lia.
  - rewrite IH by lia. f_equal. lia.
Qed.

Lemma top_bit v : 0 <= v < 65536 -> (v <? 32768) = negb (Z.testbit v 15).
Proof.
  intros H. pose proof (Z.testbit_spec' v 15 ltac:(lia)) as E. change (2 ^ 15) with 32768 in E.
  destruct (Z.ltb_spec v 32768) as [L|L].
  - rewrite Z.div_small in E by lia. destruct (Z.testbit v 15); [discriminate E|reflexivity].
  - replace (v / 32768) with 1 in E by (apply Z.div_unique with (v - 32768); lia). destruct (Z.testbit v 15); [reflexivity|discriminate E].
Qed.

Lemma next_bit packed rest r B s cnt : Rd packed rest r B s -> 0 <= cnt < 16 ->
  (u16 (bitbuf r * 2 ^ cnt) <? 32768) = negb (nth (Z.to_nat cnt) s false).
Proof.
  intros R H. rewrite top_bit by apply u16_range. f_equal. rewrite <- (Rd_stream _ _ _ _ _ R). unfold rbits.
  rewrite app_nth1 by (rewrite to_bits_length; lia). rewrite nth_to_bits by lia.
  unfold u16. change 65536 with (2 ^ 16). rewrite Z.mod_pow2_bits_low by lia. rewrite Z.mul_pow2_bits by lia. f_equal. lia.
Qed.

Lemma next_buf r cnt : u16 (u16 (bitbuf r * 2 ^ cnt) * 2) = u16 (bitbuf r * 2 ^ (cnt + 1)) \/ cnt < 0.
Proof.
  destruct (Z.lt_ge_cases cnt 0) as [|C]; [now right|left]. unfold u16. rewrite Z.mul_mod_idemp_l by lia. f_equal. rewrite Z.pow_add_r by lia. lia.
Qed.

Section Follow.
Variable n : Z.
Variable t : tree.
Variable d : dh.
Hypothesis Hn : 2 <= n <= 314.
Hypothesis W : wf n t 0.
Hypothesis R : Rep n t d.

(** One bit, from a fork. *)
Lemma follow_fork p m first buf cnt r : 0 <= p < 2 * n - 1 -> wh t p = Fork m ->
  follow_step (k_child d) (first, enc (wh t p), buf, cnt, r) =
    (let c := enc (wh t (if buf <? 32768 then 2 * m else 2 * m - 1)) in
     if cnt + 1 =? 16 then r <- fillbuf 16 r ;; Ok (Go (false, c, bitbuf r, 0, r))
     else Ok (Go (false, c, u16 (buf * 2), cnt + 1, r))).
Proof.
  intros P E. destruct (wf_fork _ _ _ W p m P E) as [M [M2 _]]. unfold follow_step. rewrite E. cbn [enc].
  destruct (Z.ltb_spec 0 (2 * m)) as [_|]; [|lia]. rewrite orb_true_r.
  pose proof (z_child _ (r_sz _ _ _ R)) as A. destruct (buf <? 32768).
  - rewrite aget_ok by lia. cbn [bind]. rewrite (r_child _ _ _ R) by lia. reflexivity.
  - rewrite aget_ok by lia. cbn [bind]. rewrite (r_child _ _ _ R) by lia. reflexivity.
Qed.

Lemma follow_leaf p s buf cnt r : 0 <= p < 2 * n - 1 -> wh t p = Leaf s ->
  follow_step (k_child d) (false, enc (wh t p), buf, cnt, r) = Ok (Stop (- s - 1, cnt, r)).
Proof.
  intros P E. pose proof (wf_leaf _ _ _ W p s P E). unfold follow_step. rewrite E. cbn [enc].
  destruct (Z.ltb_spec 0 (- s - 1)); [lia|]. reflexivity.
Qed.

Lemma follow_bits packed rest sy q : wh t q = Leaf sy -> 0 <= q < 2 * n - 1 ->
  forall bits p, desc t p bits q -> 0 <= p < 2 * n - 1 ->
  forall k first cnt r B s tail, Rd packed rest r B s -> 0 <= cnt < 16 -> skipn (Z.to_nat cnt) s = bits ++ tail ->
  (first = true -> bits <> []) -> (length bits < k)%nat ->
  exists cnt' r' B' s', loopN k (follow_step (k_child d)) (first, enc (wh t p), u16 (bitbuf r * 2 ^ cnt), cnt, r) = Ok (Stop (- sy - 1, cnt', r')) /\
    Rd packed rest r' B' s' /\ 0 <= cnt' < 16 /\ skipn (Z.to_nat cnt') s' = tail /\ B' + cnt' = B + cnt + Z.of_nat (length bits).
Proof.
  intros Hq Q. induction bits as [|b bits IH]; intros p D P k first cnt r B s tail HR HC ES HF HK.
  - inversion D; subst. destruct k; [cbn [length] in HK; lia|]. cbn [loopN]. destruct first; [now contradiction HF|]. rewrite (follow_leaf q sy) by assumption. cbn [bind].
    exists cnt, r, B, s. cbn [app length] in *. split; [first [exact L1|reflexivity]|]. split; [assumption|]. split; [assumption|]. split; [assumption|lia].
  - inversion D as [|? m ? ? ? E D2]; subst. destruct k; [lia|]. cbn [loopN]. rewrite (follow_fork p m) by assumption.
    destruct (wf_fork _ _ _ W p m P E) as [M [M2 _]].
    assert (NB : nth (Z.to_nat cnt) s false = b).
    { replace (Z.to_nat cnt) with (Z.to_nat cnt + 0)%nat by lia. rewrite <- nth_skipn, ES. reflexivity. }
    assert (NS : skipn (Z.to_nat (cnt + 1)) s = bits ++ tail).
    { replace (Z.to_nat (cnt + 1)) with (Z.to_nat cnt + 1)%nat by lia. rewrite <- skipn_skipn, ES. reflexivity. }
    rewrite (next_bit _ _ _ _ _ _ HR HC), NB. cbv zeta.
    replace (if negb b then 2 * m else 2 * m - 1) with (if b then 2 * m - 1 else 2 * m) by (destruct b; reflexivity).
    set (p2 := if b then 2 * m - 1 else 2 * m) in *. assert (P2 : 0 <= p2 < 2 * n - 1) by (unfold p2; destruct b; lia).
    cbn [length] in HK. destruct (Z.eqb_spec (cnt + 1) 16) as [C|C].
    + destruct (fillbuf_bits 16 _ _ _ _ _ HR ltac:(lia)) as [r1 [F1 R1]]. rewrite F1. cbn [bind].
      destruct (IH p2 D2 P2 k false 0 r1 (B + 16) (skipn (Z.to_nat 16) s) tail) as (cnt' & r' & B' & s' & L1 & L2 & L3 & L4 & L5); auto; try lia.
      { rewrite <- C, NS. reflexivity. }
      rewrite Z.pow_0_r, Z.mul_1_r, (u16_id (bitbuf r1)) in L1 by apply (Rd_buf _ _ _ _ _ R1).
      exists cnt', r', B', s'. cbn [length]. split; [first [exact L1|reflexivity]|]. split; [assumption|]. split; [assumption|]. split; [assumption|lia].
    + cbn [bind]. destruct (next_buf r cnt) as [NX|]; [|lia]. rewrite NX.
      destruct (IH p2 D2 P2 k false (cnt + 1) r B s tail) as (cnt' & r' & B' & s' & L1 & L2 & L3 & L4 & L5); auto; try lia.
     
      exists cnt', r', B', s'. cbn [length]. split; [first [exact L1|reflexivity]|]. split; [assumption|]. split; [assumption|]. split; [assumption|lia].
Qed.

(** Any data: the code ends at a leaf. *)
Lemma follow_total r p first : 0 <= p < 2 * n - 1 -> rwf r -> (first = true -> exists m, wh t p = Fork m) ->
  exists sy r', follow (k_child d) first (enc (wh t p)) r = Ok (- sy - 1, r') /\ 0 <= sy < n /\ rwf r' /\ rmove r r'.
Proof.
  intros P HR HF. unfold follow.
  assert (L : exists sy cnt r', loop (treesize + 2) (follow_step (k_child d)) (first, enc (wh t p), bitbuf r, 0, r) = Ok (- sy - 1, cnt, r') /\
    0 <= sy < n /\ rwf r' /\ rmove r r' /\ 0 <= cnt < 16).
  { rewrite loop_loopN by (unfold treesize; lia).
    assert (G : forall k p first buf cnt r1, 0 <= p < 2 * n - 1 -> (first = true -> exists m, wh t p = Fork m) -> 0 <= cnt < 16 -> rwf r1 -> rmove r r1 -> 2 * n - 1 - p < Z.of_nat k ->
      exists sy cnt' r', loopN k (follow_step (k_child d)) (first, enc (wh t p), buf, cnt, r1) = Ok (Stop (- sy - 1, cnt', r')) /\ 0 <= sy < n /\ rwf r' /\ rmove r r' /\ 0 <= cnt' < 16).
    { clear p first HF P. induction k as [|k IH]; intros p first buf cnt r1 P HF HC W1 M1 HK; [lia|]. cbn [loopN]. destruct (wh t p) as [sy|m] eqn:E.
      - destruct first; [destruct (HF eq_refl); discriminate|]. rewrite <- E, (follow_leaf p sy) by assumption. cbn [bind].
        exists sy, cnt, r1. split; [reflexivity|]. split; [exact (wf_leaf _ _ _ W p sy P E)|auto].
      - rewrite <- E, (follow_fork p m) by assumption. destruct (wf_fork _ _ _ W p m P E) as [M [M2 _]]. cbv zeta.
        set (p2 := if buf <? 32768 then 2 * m else 2 * m - 1). assert (P2 : p < p2 < 2 * n - 1) by (unfold p2; destruct (buf <? 32768); lia).
        destruct (Z.eqb_spec (cnt + 1) 16).
        + destruct (fillbuf_total 16 r1 W1 ltac:(lia)) as [r2 [F1 [F2 F3]]]. rewrite F1. cbn [bind]. apply IH; auto; try lia; eapply rmove_trans; eauto.
        + cbn [bind]. apply IH; auto; try lia. }
    destruct (G (Z.to_nat (treesize + 2)) p first (bitbuf r) 0 r) as (sy & cnt & r' & G1 & G2); auto; try lia.
    { apply rmove_refl. apply HR. } { unfold treesize, Nc, Maxmatch. lia. }
    exists sy, cnt, r'. rewrite G1. auto. }
  destruct L as (sy & cnt & r1 & L1 & L2 & L3 & L4 & L5). rewrite L1. cbn [bind].
  destruct (fillbuf_total cnt r1 L3 ltac:(lia)) as [r2 [F1 [F2 F3]]]. rewrite F1. cbn [bind]. exists sy, r2. split; [reflexivity|]. split; [exact L2|]. split; [exact F2|eapply rmove_trans; eauto].
Qed.

End Follow.

(** ** The adaptive code *)

Lemma desc_length n t p l q : wf n t 0 -> 0 <= p < 2 * n - 1 -> desc t p l q -> Z.of_nat (length l) <= q - p.
Proof.
  intros W P D. revert P. induction D as [p|p m b l q E D IH]; intros P; cbn [length]; [lia|].
  destruct (wf_fork _ _ _ W p m P E) as [M [M2 _]]. assert (0 <= (if b then 2 * m - 1 else 2 * m) < 2 * n - 1) as P2 by (destruct b; lia).
  specialize (IH P2). destruct b; lia.
Qed.

Lemma root_fork n t : 2 <= n -> wf n t 0 -> wh t 0 = Fork 1.
Proof.
  intros Hn W. destruct (wf_hasfork _ _ _ W 1 ltac:(lia)) as [i [I E]]. destruct (wf_fork _ _ _ W i 1 I E) as [_ [X _]]. replace 0 with i by lia. exact E.
Qed.

(** The coder stands at tree [t]. *)
Record Stand (n : nat) (n1 : Z) (t : tree) (d : dh) : Prop := {
  st_wf : wf (Z.of_nat n) t 0;
  st_wt : wt t 0 <= 32768;
  st_rep : Rep (Z.of_nat n) t d;
  st_max : k_nMax d = Z.of_nat n;
  st_n1 : k_n1 d = n1
}.

Section Coder.
Variable n : nat.
Variable n1 : Z.
Hypothesis Hn : (2 <= n)%nat /\ Z.of_nat n <= 314.

Lemma stand_adapt t d s : Stand n n1 t d -> 0 <= s < Z.of_nat n -> exists d', updateC s d = Ok d' /\ Stand n n1 (adapt t s) d'.
Proof.
  intros [A B C D E] S. destruct (updateC_ok n t d s Hn A B C D S) as (d' & U1 & U2 & [U3 U4]). exists d'. split; [exact U1|].
  destruct (adapt_ok n t s ltac:(lia) A B S) as [X1 X2]. constructor; auto; congruence.
Qed.

Lemma decodeCDyn_ok packed rest t d sy r B tail : Stand n n1 t d -> 0 <= sy < Z.of_nat n ->
  Rd packed rest r B (sym_code t sy ++ tail) ->
  exists d' r', Stand n n1 (adapt t sy) d' /\ Rd packed rest r' (B + Z.of_nat (length (sym_code t sy))) tail /\
    decodeCDyn d r = (if sy =? n1 then '(x, r) <- getbits 8 r' ;; Ok (u16 (sy + x), d', r) else Ok (sy, d', r')).
Proof.
  intros ST Y HR. pose proof ST as [W _ R _ _]. destruct (stand_adapt t d sy ST Y) as [d' [U ST']].
  unfold decodeCDyn. pose proof (z_child _ (r_sz _ _ _ R)) as A. unfold rootC. rewrite aget_ok by lia. cbn [bind]. rewrite (r_child _ _ _ R) by lia.
  pose proof (code_desc (Z.of_nat n) t 0 sy W Y) as D. destruct (find_leaf (Z.of_nat n) t 0 sy W Y) as [F1 F2].
  set (q := find_what (Leaf sy) t) in *. pose proof (desc_length (Z.of_nat n) t 0 (sym_code t sy) q W ltac:(lia) D) as DL.
  assert (NE : sym_code t sy <> []).
  { intros X. assert (Q0 : q = 0) by (rewrite X in D; inversion D; auto). rewrite Q0 in F2. rewrite (root_fork (Z.of_nat n) t) in F2 by (auto; lia). discriminate. }
  destruct (follow_bits (Z.of_nat n) t d ltac:(lia) W R packed rest sy q F2 F1 (sym_code t sy) 0 D ltac:(lia) (Z.to_nat (treesize + 2)) true 0 r B (sym_code t sy ++ tail) tail)
    as (cnt & r1 & B1 & s1 & L1 & L2 & L3 & L4 & L5); auto; try lia. { unfold treesize. lia. }
  rewrite Z.pow_0_r, Z.mul_1_r, (u16_id (bitbuf r)) in L1 by apply (Rd_buf _ _ _ _ _ HR).
  unfold follow. rewrite loop_loopN by (unfold treesize; lia). rewrite L1. cbn [bind].
  destruct (fillbuf_bits cnt _ _ _ _ _ L2 ltac:(lia)) as [r2 [F3 R3]]. rewrite F3. cbn [bind]. rewrite L4 in R3.
  replace (- (- sy - 1) - 1) with sy by lia. rewrite U. cbn [bind]. rewrite (st_n1 _ _ _ _ ST'). rewrite (u16_id sy) by lia.
  exists d', r2. split; [exact ST'|]. split; [|reflexivity]. replace (B + Z.of_nat (length (sym_code t sy))) with (B1 + cnt) by lia. exact R3.
Qed.

Lemma decodeCDyn_total t d r : Stand n n1 t d -> rwf r ->
  exists c d' r' t', decodeCDyn d r = Ok (c, d', r') /\ Stand n n1 t' d' /\ rwf r' /\ rmove r r' /\ 0 <= c < Z.of_nat n + 255.
Proof.
  intros ST HR. pose proof ST as [W _ R _ _].
  unfold decodeCDyn. pose proof (z_child _ (r_sz _ _ _ R)) as A. unfold rootC. rewrite aget_ok by lia. cbn [bind]. rewrite (r_child _ _ _ R) by lia.
  destruct (follow_total (Z.of_nat n) t d ltac:(lia) W R r 0 true) as (sy & r1 & F1 & F2 & F3 & F4); auto; try lia.
  { intros _. exists 1. apply (root_fork (Z.of_nat n)); auto. lia. }
  rewrite F1. cbn [bind]. replace (- (- sy - 1) - 1) with sy by lia. destruct (stand_adapt t d sy ST F2) as [d' [U ST']]. rewrite U. cbn [bind].
  destruct (sy =? k_n1 d').
  - destruct (getbits_total 8 r1 F3 ltac:(lia)) as (x & r2 & G1 & G2 & G3 & G4). rewrite G1. cbn [bind]. change (2 ^ 8) with 256 in G2. rewrite u16_id by lia.
    exists (sy + x), d', r2, (adapt t sy). split; [reflexivity|]. split; [exact ST'|]. split; [exact G3|]. split; [eapply rmove_trans; eauto|lia].
  - rewrite u16_id by lia. exists sy, d', r1, (adapt t sy). split; [reflexivity|]. split; [exact ST'|]. split; [exact F3|]. split; [exact F4|lia].
Qed.

End Coder.

(** ** Distances *)

Lemma dist_len_range k : 3 <= dist_len k <= 8.
Proof. unfold dist_len. destruct (k <? 1), (k <? 4), (k <? 12), (k <? 24), (k <? 48); lia. Qed.

Lemma ready_grow_ok i w : 0 <= i < 64 ->
  exists w', loop 20 (ready_grow 0 i) (dist_len (i - 1), dist_len (i - 1) - 2, w) = Ok (dist_len i, dist_len i - 2, w').
Proof.
  intros H. replace i with (Z.of_nat (Z.to_nat i)) by lia. assert (K : (Z.to_nat i < 64)%nat) by lia. revert K. generalize (Z.to_nat i). clear H. intros k K.
  do 64 (destruct k as [|k]; [eexists; vm_compute; reflexivity|]). lia.
Qed.

(** The tables of the fixed code. *)
Record Fix (h : huf) : Prop := {
  fx_np : np h = 64;
  fx_pt : alen (ptTable h) = 256;
  fx_pl : 64 <= alen (ptLen h);
  fx_len : forall c, 0 <= c < 64 -> at_ (ptLen h) c = dist_len c;
  fx_word : forall c t, 0 <= c < 64 -> at_ (ptTable h) (peek 8 (codeword 64 dist_len c ++ t)) = c;
  fx_all : forall i, 0 <= i < 256 -> 0 <= at_ (ptTable h) i < 64
}.

Lemma dist_cover i : 0 <= i < 256 -> exists c, 0 <= c < 64 /\ canon 64 dist_len c / 256 <= i < (canon 64 dist_len c + weight (dist_len c)) / 256.
Proof.
  intros H.
  set (tb := map (fun k => let c := Z.of_nat k in let x := canon 64 dist_len c in (c, x / 256, (x + weight (dist_len c)) / 256)) (List.seq 0 64)).
  assert (A : forallb (fun k => existsb (fun '(c, lo, hi) => (lo <=? Z.of_nat k) && (Z.of_nat k <? hi)) tb) (List.seq 0 256) = true) by (vm_compute; reflexivity).
  rewrite forallb_forall in A. specialize (A (Z.to_nat i)). rewrite in_seq in A. specialize (A ltac:(lia)).
  apply existsb_exists in A. destruct A as [[[c lo] hi] [I X]]. apply in_map_iff in I. destruct I as [k [E K]]. rewrite in_seq in K. cbv zeta in E.
  injection E as E1 E2 E3. exists (Z.of_nat k). apply andb_prop in X. destruct X as [X1 X2]. apply Z.leb_le in X1. apply Z.ltb_lt in X2. lia.
Qed.

Lemma readyMade_ok h : np h = 64 -> 64 <= alen (ptLen h) -> 64 <= alen (ptCode h) ->
  exists pl pc, readyMade 0 h = Ok (set_ptLen pl (set_ptCode pc h)) /\ alen pl = alen (ptLen h) /\ alen pc = alen (ptCode h) /\
    forall c, 0 <= c < 64 -> at_ pl c = dist_len c.
Proof.
  intros N L C. unfold readyMade. cbv zeta. rewrite N.
  destruct (forZ_inv (fun i '(j, tbl, w, code, h') => j = dist_len (i - 1) /\ tbl = dist_len (i - 1) - 2 /\
    exists pl pc, h' = set_ptLen pl (set_ptCode pc h) /\ alen pl = alen (ptLen h) /\ alen pc = alen (ptCode h) /\ forall c, 0 <= c < i -> at_ pl c = dist_len c)
    (ready_step 0) 0 64 (nth 0 (fixed 0) 0, 1, Z.shiftl 1 (16 - nth 0 (fixed 0) 0), 0, h)) as [[[[[j tbl] w] code] h'] [E I]].
  - lia.
  - intros i [[[[j tbl] w] code] h'] Hi (-> & -> & pl & pc & -> & P1 & P2 & P3). unfold ready_step. destruct (ready_grow_ok i w Hi) as [w' G]. rewrite G. cbn [bind].
    cbn [ptLen ptCode set_ptLen set_ptCode]. rewrite !aset_ok by lia. cbn [bind]. eexists. split; [reflexivity|]. replace (i + 1 - 1) with i by lia.
    split; [reflexivity|]. split; [reflexivity|]. pose proof (dist_len_range i). rewrite (u8_id (dist_len i)) by lia.
    exists (upd pl i (dist_len i)), (upd pc i (u16 code)). split; [destruct h; reflexivity|]. split; [rewrite alen_upd; exact P1|]. split; [rewrite alen_upd; exact P2|].
    intros c Hc. destruct (Z.eq_dec c i) as [->|]; [apply at_upd_eq; lia|]. rewrite at_upd_ne by lia. apply P3. lia.
  - split; [reflexivity|]. split; [reflexivity|]. exists (ptLen h), (ptCode h). split; [destruct h; reflexivity|]. split; [reflexivity|]. split; [reflexivity|]. intros; lia.
  - rewrite E. cbn [bind]. destruct I as (_ & _ & pl & pc & -> & P1 & P2 & P3). exists pl, pc. auto.
Qed.

Lemma startFix_ok h d : P_HufLens.dsz h -> alen (ptCode h) = Npt -> Sz d ->
  exists h' d', decodeStartFix h d = Ok (h', d') /\ Fix h' /\ Stand 314 313 (start_tree 314) d'.
Proof.
  intros [D1 D2 D3 D4 D5 D6] PC SZ. unfold decodeStartFix. cbv zeta.
  assert (H314 : (2 <= 314)%nat /\ Z.of_nat 314 <= 314) by lia.
  destruct (startCDyn_ok 314 H314 60 d SZ) as (d' & S1 & S2 & S3 & S4). change (Z.of_nat 314) with 314 in S1, S4. rewrite S1. cbn [bind].
  change (if u16 (256 + 60 - 3 + 1) <=? 314 then 314 - 1 else 512) with 313 in S4.
  unfold Npt in *. destruct (readyMade_ok (set_np 64 h)) as (pl & pc & R1 & R2 & R3 & R4); [reflexivity|cbn; lia|cbn; lia|]. rewrite R1. cbn [bind].
  cbn [ptLen ptCode set_np] in R2, R3. unfold use_pt. cbn [ptLen ptTable left right set_ptLen set_ptCode set_np].
  assert (LK : lengths_ok 64 (at_ pl)) by (intros c Hc; rewrite R4 by lia; pose proof (dist_len_range c); lia).
  assert (KK : kraft 64 (at_ pl) = 65536) by (rewrite (kraft_ext 64 (at_ pl) dist_len) by exact R4; vm_compute; reflexivity).
  destruct (makeTable_ok 64 pl 8 (ptTable h) (left h) (right h)) as (s & T1 & T2 & T3); auto; try lia.
  rewrite T1. cbn [bind]. eexists _, d'. split; [reflexivity|]. split.
  - constructor; cbn [np ptTable ptLen set_ptTable set_left set_right set_ptLen set_ptCode set_np]; try lia; auto.
    + intros c tl Hc. rewrite (codeword_ext 64 dist_len (at_ pl)) by (auto; intros; symmetry; now apply R4).
      pose proof (dist_len_range c). eapply (index_short 64 (at_ pl) 8 (left h) (right h) s); auto; try lia. rewrite R4 by lia. lia.
    + intros i Hi. destruct (dist_cover i Hi) as [c [C1 C2]].
      assert (CE : canon 64 (at_ pl) c = canon 64 dist_len c) by (unfold canon; apply P_Huff.sumn_ext; intros k Hk; unfold before; rewrite !R4 by lia; reflexivity).
      rewrite (tbs_short _ _ _ _ _ _ T3 c); [lia| |].
      * split; [lia|]. rewrite R4 by lia. pose proof (dist_len_range c). lia.
      * rewrite CE, R4 by lia. change (2 ^ (16 - 8)) with 256. exact C2.
  - destruct (start_ok 314 ltac:(lia)) as [W1 W2]. constructor; auto. rewrite W2. lia.
Qed.

Lemma decodePSt0_ok packed rest h r B dist tail : Fix h -> 1 <= dist <= 4096 -> Rd packed rest r B (dist_bits dist ++ tail) ->
  exists r', decodePSt0 h r = Ok (dist - 1, r') /\ Rd packed rest r' (B + Z.of_nat (length (dist_bits dist))) tail.
Proof.
  intros [F1 F2 F3 F4 F5 F6] D R. unfold dist_bits in R. rewrite <- app_assoc in R. unfold decodePSt0.
  set (j := (dist - 1) / 64) in *. set (x := (dist - 1) mod 64) in *.
  assert (J : 0 <= j < 64) by (unfold j; split; [apply Z.div_pos; lia|apply Z.div_lt_upper_bound; lia]).
  assert (X : 0 <= x < 64) by (unfold x; apply Z.mod_pos_bound; lia). assert (JX : dist - 1 = 64 * j + x) by (unfold j, x; apply Z.div_mod; lia).
  rewrite (peekbits_bits _ _ _ _ _ 8 R) by lia. pose proof (peek_range 8 (codeword 64 dist_len j ++ to_bits 6 x ++ tail) ltac:(lia)) as PR. change (2 ^ 8) with 256 in PR.
  rewrite aget_ok by lia. cbn [bind]. rewrite F5, F1 by lia. destruct (Z.ltb_spec j 64); [|lia]. rewrite aget_ok by lia. cbn [bind]. rewrite F4 by lia.
  pose proof (dist_len_range j) as DR.
  destruct (fillbuf_codeword 64 dist_len j packed rest r B (to_bits 6 x ++ tail) ltac:(lia) R) as [r1 [E1 R1]]. rewrite E1. cbn [bind].
  destruct (getbits_field 6 x packed rest r1 (B + dist_len j) tail) as [r2 [G2 R2]]; [exact R1|lia|change (2 ^ 6) with 64; lia|]. rewrite G2. cbn [bind].
  rewrite shiftl_mul by lia. change (2 ^ 6) with 64. rewrite u16_id by lia. exists r2. split; [f_equal; f_equal; lia|].
  unfold dist_bits. fold j. fold x. rewrite app_length, to_bits_length. unfold codeword. rewrite to_bits_length.
  match goal with |- Rd _ _ _ ?b _ => replace b with (B + dist_len j + 6) by lia end. exact R2.
Qed.

Lemma decodePSt0_total h r : Fix h -> rwf r -> exists p r', decodePSt0 h r = Ok (p, r') /\ 0 <= p < 4096 /\ rwf r' /\ rmove r r'.
Proof.
  intros [F1 F2 F3 F4 F5 F6] R. unfold decodePSt0. pose proof (rwf_buf _ R) as RB.
  assert (P : 0 <= peekbits 8 r < 256).
  { unfold peekbits. rewrite u16_id, shiftr_div by lia. change (2 ^ (16 - 8)) with 256. split; [apply Z.div_pos; lia|apply Z.div_lt_upper_bound; lia]. }
  rewrite aget_ok by lia. cbn [bind]. pose proof (F6 _ P) as J. set (j := at_ (ptTable h) (peekbits 8 r)) in *. rewrite F1. destruct (Z.ltb_spec j 64); [|lia].
  rewrite aget_ok by lia. cbn [bind]. rewrite F4 by lia. pose proof (dist_len_range j). destruct (fillbuf_total (dist_len j) r R ltac:(lia)) as (r1 & E1 & W1 & M1). rewrite E1. cbn [bind].
  destruct (getbits_total 6 r1 W1 ltac:(lia)) as (x & r2 & G1 & G2 & G3 & G4). rewrite G1. cbn [bind]. change (2 ^ 6) with 64 in G2.
  rewrite shiftl_mul by lia. change (2 ^ 6) with 64. rewrite u16_id by lia. exists (j * 64 + x), r2. split; [reflexivity|]. split; [lia|]. split; [exact G3|eapply rmove_trans; eauto].
Qed.

(** ** The stream *)

Definition toklen (t : lztok) : Z := match t with LzByte _ => 1 | LzCopy len _ => len end.

Lemma lz_step_len out t : 1 <= toklen t -> zlen (lz_step out t) = zlen out + toklen t.
Proof. destruct t as [b|l p]; cbn [lz_step toklen]; intros H; [rewrite zlen_app; reflexivity|]. rewrite lz_copy_zlen. lia. Qed.

Lemma lz_steps_len : forall ts out, Forall (fun t => 1 <= toklen t) ts -> zlen out + zlen ts <= zlen (fold_left lz_step ts out).
Proof.
  induction ts as [|t ts IH]; intros out F; cbn [fold_left]; [rewrite zlen_nil; lia|].
  inversion F; subst. specialize (IH (lz_step out t) H2). rewrite lz_step_len in IH by assumption. rewrite zlen_cons. lia.
Qed.

(** A distance, as a place in the window. *)
Lemma match_place loc p : 0 <= loc < 4096 -> 0 <= p < 4096 ->
  Z.land (u64 (loc - (p + 1))) (4096 - 1) mod 4096 = (loc - (p + 1)) mod 4096.
Proof.
  intros H1 H2. change 4096 with (2 ^ 12). rewrite land_mask by lia. rewrite Z.mod_mod by lia. apply u64_mod. lia.
Qed.

Lemma DI_hr d s out h r c : DI d s out -> DI d (DST h r (d_text s) (d_loc s) (d_crc s) (d_out s) c) out.
Proof. intros []. constructor; assumption. Qed.

(** The tree after some items. *)
Definition adapts (t : tree) (ts : list lztok) : tree := fold_left (fun t x => adapt t (tok_sym x)) ts t.

Lemma lh1_steps size packed rest k : forall ts s x out B t tail,
  DI 4096 s out -> bytes out -> d_count s = zlen out -> Fix (d_huf s) -> Stand 314 313 t (x_dh x) ->
  Rd packed rest (d_r s) B (lh1_bits t ts ++ tail) -> Forall (lz_ok 4096 59) ts -> zlen (fold_left lz_step ts out) <= size ->
  exists s' x', loopN (length ts + k) (old_step 1 4096 size) (s, x) = loopN k (old_step 1 4096 size) (s', x') /\ DI 4096 s' (fold_left lz_step ts out) /\
    bytes (fold_left lz_step ts out) /\ d_count s' = zlen (fold_left lz_step ts out) /\ Fix (d_huf s') /\ Stand 314 313 (adapts t ts) (x_dh x') /\
    Rd packed rest (d_r s') (B + Z.of_nat (length (lh1_bits t ts))) tail.
Proof.
  induction ts as [|tk ts IH]; intros s x out B t tail I Bo Ec FX ST R F Es.
  - exists s, x. split; [reflexivity|]. split; [exact I|]. split; [exact Bo|]. split; [exact Ec|]. split; [exact FX|]. split; [exact ST|].
    cbn [lh1_bits length app] in *. rewrite Z.add_0_r. exact R.
  - change (length (tk :: ts) + k)%nat with (S (length ts + k)). pose proof (Forall_inv F) as F1. pose proof (Forall_inv_tail F) as F2. cbn [loopN fold_left lh1_bits] in *. rewrite <- !app_assoc in R.
    assert (F3 : Forall (fun t => 1 <= toklen t) ts) by (eapply Forall_impl; [|exact F2]; intros [b|l p]; cbn; lia).
    assert (T1 : 1 <= toklen tk) by (destruct tk; cbn in *; lia).
    pose proof (lz_steps_len ts (lz_step out tk) F3) as RL. rewrite lz_step_len in RL by exact T1.
    pose proof (zlen_nonneg ts) as ZN.
    unfold old_step at 1. destruct (Z.ltb_spec (d_count s) size); [|lia].
    unfold decodeMethodC. change ((1 =? 1) || (1 =? 2)) with true. cbv iota.
    assert (SY : 0 <= tok_sym tk < Z.of_nat 314) by (destruct tk; cbn in *; lia).
    assert (SN : tok_sym tk <> 313) by (destruct tk; cbn in *; lia).
    destruct (decodeCDyn_ok 314 313 ltac:(lia) packed rest t (x_dh x) (tok_sym tk) (d_r s) B _ ST SY R) as (d1 & r1 & ST1 & R1 & E1).
    apply Z.eqb_neq in SN. rewrite SN in E1. rewrite E1. cbn [bind]. clear E1 SN.
    pose proof (di_loc _ _ _ I) as DL.
    destruct tk as [b|l p]; cbn [tok_sym lz_step toklen] in *; cbn in F1.
    + destruct (Z.ltb_spec b 256); [|lia]. cbn [app] in R1.
      destruct (dput_ok 4096 b (with_r r1 s) out) as [s1 [P1 [P2 [P3 [P4 P5]]]]]; [lia|now apply DI_hr|unfold is_byte; lia|lia|].
      rewrite P1. cbn [bind]. cbn [with_r with_hr d_huf d_r d_count] in P3, P4, P5.
      destruct (IH (DST (d_huf s1) (d_r s1) (d_text s1) (d_loc s1) (d_crc s1) (d_out s1) (d_count s1 + 1)) (EXT d1 (x_pm x) (x_cnt x) (x_flag x) (x_pos x)) (out ++ [b])
        (B + Z.of_nat (length (sym_code t b))) (adapt t b) tail) as (s' & x' & L1 & L2 & X1 & X2 & X3 & X4 & L3); auto.
      * now apply DI_hr.
      * apply Forall_app. split; [exact Bo|]. constructor; [unfold is_byte; lia|constructor].
      * cbn [d_count]. rewrite zlen_app, P5, Ec. reflexivity.
      * cbn [d_huf]. now rewrite P3.
      * cbn [d_r]. rewrite P4. exact R1.
      * exists s', x'. split; [exact L1|]. split; [exact L2|]. split; [exact X1|]. split; [exact X2|]. split; [exact X3|]. split; [exact X4|]. rewrite app_length. cbn [app].
        match goal with |- Rd _ _ _ ?b _ => match type of L3 with Rd _ _ _ ?b2 _ => replace b with b2 by lia end end. exact L3.
    + destruct (Z.ltb_spec (253 + l) 256); [lia|]. cbv zeta.
      unfold decodeMethodP. change ((1 =? 1) || (1 =? 3)) with true. cbv iota. cbn [with_r with_hr d_huf d_r].
      destruct (decodePSt0_ok packed rest (d_huf s) r1 (B + Z.of_nat (length (sym_code t (253 + l)))) p (lh1_bits (adapt t (253 + l)) ts ++ tail) FX ltac:(lia) R1) as [r2 [E2 R2]].
      rewrite E2. cbn [bind]. change (adjust 1) with 253. replace (253 + l - 253) with l by lia. cbn [with_r with_hr d_huf d_r d_text d_loc d_crc d_out d_count].
      destruct (dcopy_ok 12 l p (Z.land (u64 (d_loc s - (p - 1 + 1))) (4096 - 1)) (DST (d_huf s) r2 (d_text s) (d_loc s) (d_crc s) (d_out s) (d_count s + l)) out)
        as [s1 [P1 [P2 [P3 [P4 P5]]]]]; auto; try (change (2 ^ 12) with 4096); try lia.
      { now apply DI_hr. } { cbn [d_loc]. rewrite match_place by lia. f_equal. lia. }
      change (2 ^ 12) with 4096 in P1, P2. rewrite P1. cbn [bind]. cbn [d_huf d_r d_count] in P3, P4, P5.
      destruct (IH s1 (EXT d1 (x_pm x) (x_cnt x) (x_flag x) (x_pos x)) (lz_copy (Z.to_nat l) p out)
        (B + Z.of_nat (length (sym_code t (253 + l))) + Z.of_nat (length (dist_bits p))) (adapt t (253 + l)) tail) as (s' & x' & L1 & L2 & X1 & X2 & X3 & X4 & L3); auto.
      * now apply lz_copy_bytes.
      * rewrite P5, Ec, lz_copy_zlen. lia.
      * now rewrite P3.
      * rewrite P4. exact R2.
      * exists s', x'. split; [exact L1|]. split; [exact L2|]. split; [exact X1|]. split; [exact X2|]. split; [exact X3|]. split; [exact X4|]. rewrite !app_length.
        match goal with |- Rd _ _ _ ?b _ => match type of L3 with Rd _ _ _ ?b2 _ => replace b with b2 by lia end end. exact L3.
Qed.

Lemma lh1_loop size packed rest ts k s x out B t tail :
  DI 4096 s out -> bytes out -> d_count s = zlen out -> Fix (d_huf s) -> Stand 314 313 t (x_dh x) ->
  Rd packed rest (d_r s) B (lh1_bits t ts ++ tail) -> Forall (lz_ok 4096 59) ts -> size = zlen (fold_left lz_step ts out) -> (length ts < k)%nat ->
  exists s' x', loopN k (old_step 1 4096 size) (s, x) = Ok (Stop (s', x')) /\ DI 4096 s' (fold_left lz_step ts out) /\
    Rd packed rest (d_r s') (B + Z.of_nat (length (lh1_bits t ts))) tail.
Proof.
  intros I Bo Ec FX ST R F Es Hk. destruct (lh1_steps size packed rest (k - length ts) ts s x out B t tail) as (s' & x' & L1 & L2 & _ & L4 & _ & _ & L5); auto; try lia.
  replace (length ts + (k - length ts))%nat with k in L1 by lia. exists s', x'. split; [|auto]. rewrite L1. destruct (k - length ts)%nat eqn:K; [lia|]. cbn [loopN].
  unfold old_step at 1. destruct (Z.ltb_spec (d_count s') size); [lia|]. reflexivity.
Qed.

(** Any data. *)
Lemma lh1_total size : forall k s x out t r0,
  DI 4096 s out -> bytes out -> d_count s = zlen out -> Fix (d_huf s) -> Stand 314 313 t (x_dh x) -> rwf (d_r s) -> rmove r0 (d_r s) ->
  zlen out < size + 315 -> Z.max 0 (size - zlen out) < Z.of_nat k ->
  exists s' x' out', loopN k (old_step 1 4096 size) (s, x) = Ok (Stop (s', x')) /\ DI 4096 s' out' /\ bytes out' /\ size <= zlen out' < size + 315 /\ rmove r0 (d_r s').
Proof.
  induction k as [|k IH]; intros s x out t r0 I Bo Ec FX ST R M Hb Hk; [lia|]. cbn [loopN].
  unfold old_step at 1. destruct (Z.ltb_spec (d_count s) size) as [L|L]; [|cbn [bind]; exists s, x, out; split; [reflexivity|]; split; [exact I|]; split; [exact Bo|]; split; [lia|exact M]].
  unfold decodeMethodC. change ((1 =? 1) || (1 =? 2)) with true. cbv iota.
  destruct (decodeCDyn_total 314 313 ltac:(lia) t (x_dh x) (d_r s) ST R) as (c & d1 & r1 & t1 & E1 & ST1 & R1 & M1 & C). change (Z.of_nat 314) with 314 in C. rewrite E1. cbn [bind].
  pose proof (di_loc _ _ _ I) as DL. destruct (Z.ltb_spec c 256).
  - destruct (dput_ok 4096 c (with_r r1 s) out) as [s1 [P1 [P2 [P3 [P4 P5]]]]]; [lia|now apply DI_hr|unfold is_byte; lia|lia|].
    rewrite P1. cbn [bind]. cbn [with_r with_hr d_huf d_r d_count] in P3, P4, P5.
    apply (IH _ _ (out ++ [c]) t1 r0); cbn [d_count d_huf d_r x_dh]; auto.
    + now apply DI_hr.
    + apply Forall_app. split; [exact Bo|]. constructor; [unfold is_byte; lia|constructor].
    + rewrite zlen_app, P5, Ec. reflexivity.
    + now rewrite P3.
    + now rewrite P4.
    + rewrite P4. eapply rmove_trans; eauto.
    + rewrite zlen_app. change (zlen [c]) with 1. lia.
    + rewrite zlen_app. change (zlen [c]) with 1. lia.
  - cbv zeta. unfold decodeMethodP. change ((1 =? 1) || (1 =? 3)) with true. cbv iota. cbn [with_r with_hr d_huf d_r].
    destruct (decodePSt0_total (d_huf s) r1 FX R1) as (p & r2 & E2 & P & R2 & M2). rewrite E2. cbn [bind]. change (adjust 1) with 253. cbn [with_r with_hr d_huf d_r d_text d_loc d_crc d_out d_count].
    destruct (dcopy_ok 12 (c - 253) (p + 1) (Z.land (u64 (d_loc s - (p + 1))) (4096 - 1)) (DST (d_huf s) r2 (d_text s) (d_loc s) (d_crc s) (d_out s) (d_count s + (c - 253))) out)
      as [s1 [P1 [P2 [P3 [P4 P5]]]]]; auto; try (change (2 ^ 12) with 4096); try lia.
    { now apply DI_hr. } { cbn [d_loc]. now rewrite match_place by lia. }
    change (2 ^ 12) with 4096 in P1, P2. rewrite P1. cbn [bind]. cbn [d_huf d_r d_count] in P3, P4, P5.
    assert (ZL : zlen (lz_copy (Z.to_nat (c - 253)) (p + 1) out) = zlen out + (c - 253)) by (rewrite lz_copy_zlen; lia).
    apply (IH _ _ (lz_copy (Z.to_nat (c - 253)) (p + 1) out) t1 r0); cbn [x_dh]; auto.
    + now apply lz_copy_bytes.
    + rewrite P5, Ec, ZL. reflexivity.
    + now rewrite P3.
    + now rewrite P4.
    + rewrite P4. eapply rmove_trans; [exact M|]. eapply rmove_trans; eauto.
    + rewrite ZL. lia.
    + rewrite ZL. lia.
Qed.

(** ** Whole entries *)

Lemma DI_blank h r c : DI 4096 (DST h r (afill 4096 32) 0 0 [] c) [].
Proof.
  constructor; cbn [d_text d_loc d_out d_crc]; try reflexivity; try lia.
  intros k Hk. rewrite at_afill. unfold back. cbn [length]. destruct (Z.leb_spec k (Z.of_nat 0)); [lia|reflexivity].
Qed.

Lemma lz_ok_len d m ts : Forall (lz_ok d m) ts -> Forall (fun t => 1 <= toklen t) ts.
Proof. intros F. eapply Forall_impl; [|exact F]. intros [b|l p]; cbn; lia. Qed.

Section Entry.
Variable g : glob.
Hypothesis HZ : P_HufLens.dsz (g_huf g).
Hypothesis HP : alen (ptCode (g_huf g)) = Npt.
Hypothesis HS : Sz (g_dh g).

(** The start, and what is left to be shown of the loop. *)
Lemma lh1_run size packed inp r : initGetbits packed inp = Ok r ->
  exists h d, Fix h /\ Stand 314 313 (start_tree 314) d /\
    let x0 := EXT d (g_pm g) 0 0 0 in
    forall s x out, loop (size + 2) (old_step 1 4096 size) (DST h r (afill 4096 32) 0 0 [] 0, x0) = Ok (s, x) -> DI 4096 s out ->
    exists g2, DecodeLzhuf 1 false size packed inp g = Ok (g2, calcCrc 0 out, out, packed - compsize (d_r s), infile (d_r s)).
Proof.
  intros E. destruct (startFix_ok (g_huf g) (g_dh g) HZ HP HS) as (h & d & S1 & S2 & S3). exists h, d. split; [exact S2|]. split; [exact S3|]. cbv zeta.
  intros s x out L I. unfold DecodeLzhuf. change (dec_dicbit 1) with (@None Z). cbv iota. change (old_dicbit 1) with 12. unfold decode_old. change (Z.shiftl 1 12) with 4096. cbv zeta.
  unfold decodeMethodStart. change (1 =? 1) with true. cbv iota. rewrite E. cbn [bind x_dh]. rewrite S1. cbn [bind x_pm x_cnt x_flag x_pos]. rewrite L. cbn [bind].
  destruct (dst_final _ _ _ I) as [D1 [D2 [D3 D4]]]. cbv zeta in D1, D2, D3, D4. cbn [dr_crc dr_out dr_readSize dr_in]. rewrite D1, D2, D4. eexists. reflexivity.
Qed.

Theorem lh1_decodes ts data rest pad : Forall (lz_ok 4096 59) ts -> bytes (data ++ rest) ->
  byte_string_bits data = lh1_stream ts ++ pad -> (length pad < 16)%nat ->
  exists g2, DecodeLzhuf 1 false (zlen (lz_expand ts)) (zlen data) (data ++ rest) g = Ok (g2, calcCrc 0 (lz_expand ts), lz_expand ts, zlen data, rest).
Proof.
  intros F HB EB HL. destruct (initGetbits_bits data rest HB) as [r [E R]]. rewrite EB in R.
  destruct (lh1_run (zlen (lz_expand ts)) (zlen data) (data ++ rest) r E) as (h & d & FX & ST & X). cbv zeta in X.
  pose proof (lz_steps_len ts [] (lz_ok_len _ _ _ F)) as RL. rewrite zlen_nil in RL. fold (lz_expand ts) in RL. pose proof (zlen_nonneg ts) as ZN.
  destruct (lh1_loop (zlen (lz_expand ts)) (zlen data) rest ts (Z.to_nat (zlen (lz_expand ts) + 2)) (DST h r (afill 4096 32) 0 0 [] 0) (EXT d (g_pm g) 0 0 0) [] 0 (start_tree 314) pad)
    as (s & x & L1 & L2 & L3); auto; [apply DI_blank|apply Forall_nil|unfold zlen in *; lia|].
  destruct (X s x (lz_expand ts)) as [g2 Y]; [rewrite loop_loopN by lia; rewrite L1; reflexivity|exact L2|].
  destruct (Rd_end _ _ _ _ _ L3) as [Z1 Z2].
  { assert (L : length (byte_string_bits data) = (length (lh1_stream ts) + length pad)%nat) by (rewrite EB, app_length; reflexivity).
    rewrite byte_string_bits_length in L. unfold lh1_stream in L. unfold zlen. lia. }
  exists g2. rewrite Y, Z1, Z2. rewrite Z.sub_0_r. reflexivity.
Qed.

Theorem lh1_any size packed inp : 0 <= size -> 0 <= packed -> bytes inp ->
  exists g2 crc out n rest, DecodeLzhuf 1 false size packed inp g = Ok (g2, crc, out, n, rest) /\ size <= zlen out < size + 315 /\ bytes out /\ 0 <= n <= packed /\ rest = drop n inp /\ crc = calcCrc 0 out.
Proof.
  intros Hs Hp HB. unfold initGetbits.
  assert (W0 : rwf (RS 0 0 0 packed inp)) by (constructor; cbn; auto; lia).
  destruct (fillbuf_total 16 (RS 0 0 0 packed inp) W0 ltac:(lia)) as (r & E & W & M).
  destruct (lh1_run size packed inp r) as (h & d & FX & ST & X); [exact E|]. cbv zeta in X.
  destruct (lh1_total size (Z.to_nat (size + 2)) (DST h r (afill 4096 32) 0 0 [] 0) (EXT d (g_pm g) 0 0 0) [] (start_tree 314) (RS 0 0 0 packed inp))
    as (s & x & out & L1 & L2 & L3 & L4 & [L5 L6]); auto; try apply DI_blank; try apply Forall_nil; change (zlen (@nil Z)) with 0; try lia.
  destruct (X s x out) as [g2 Y]; [rewrite loop_loopN by lia; rewrite L1; reflexivity|exact L2|]. cbn [compsize infile] in L5, L6.
  exists g2, (calcCrc 0 out), out, (packed - compsize (d_r s)), (infile (d_r s)). split; [exact Y|]. split; [exact L4|]. split; [exact L3|]. split; [lia|]. split; [exact L6|reflexivity].
Qed.

End Entry.

(** ** A copy of 60 bytes *)

(** Any bits are read as some distance. *)
Lemma decodePSt0_read packed rest h r B s : Fix h -> Rd packed rest r B s ->
  exists p r' B' s', decodePSt0 h r = Ok (p, r') /\ 0 <= p < 4096 /\ Rd packed rest r' B' s' /\ B + 9 <= B'.
Proof.
  intros [F1 F2 F3 F4 F5 F6] R. unfold decodePSt0. pose proof (Rd_buf _ _ _ _ _ R) as RB.
  assert (P : 0 <= peekbits 8 r < 256).
  { unfold peekbits. rewrite u16_id, shiftr_div by lia. change (2 ^ (16 - 8)) with 256. split; [apply Z.div_pos; lia|apply Z.div_lt_upper_bound; lia]. }
  rewrite aget_ok by lia. cbn [bind]. pose proof (F6 _ P) as J. set (j := at_ (ptTable h) (peekbits 8 r)) in *. rewrite F1. destruct (Z.ltb_spec j 64); [|lia].
  rewrite aget_ok by lia. cbn [bind]. rewrite F4 by lia. pose proof (dist_len_range j). destruct (fillbuf_bits (dist_len j) _ _ _ _ _ R ltac:(lia)) as (r1 & E1 & R1). rewrite E1. cbn [bind].
  destruct (getbits_bits 6 _ _ _ _ _ R1 ltac:(lia)) as (r2 & G1 & R2). rewrite G1. cbn [bind].
  pose proof (peek_range 6 (skipn (Z.to_nat (dist_len j)) s) ltac:(lia)) as G2. set (x := peek 6 _) in *. change (2 ^ 6) with 64 in G2.
  rewrite shiftl_mul by lia. change (2 ^ 6) with 64. rewrite u16_id by lia. exists (j * 64 + x), r2. eexists _, _. split; [reflexivity|]. split; [lia|]. split; [exact R2|lia].
Qed.

Lemma dist_word j : 1 <= j < 64 -> 1 <= of_bits (codeword 64 dist_len j).
Proof.
  intros H. assert (A : forallb (fun k => 1 <=? of_bits (codeword 64 dist_len (Z.of_nat k))) (List.seq 1 63) = true) by (vm_compute; reflexivity).
  rewrite forallb_forall in A. specialize (A (Z.to_nat j)). rewrite in_seq in A. specialize (A ltac:(lia)). apply Z.leb_le in A. rewrite Z2Nat.id in A by lia. exact A.
Qed.

Lemma dist_first d tail : 3 <= d <= 4096 -> 1 <= peek 8 (dist_bits d ++ tail).
Proof.
  intros H. unfold dist_bits. set (j := (d - 1) / 64). set (m := (d - 1) mod 64). pose proof (dist_len_range j) as DR.
  assert (J : 0 <= j < 64) by (unfold j; split; [apply Z.div_pos; lia|apply Z.div_lt_upper_bound; lia]).
  assert (X : 0 <= m < 64) by (unfold m; apply Z.mod_pos_bound; lia). assert (JX : d - 1 = 64 * j + m) by (unfold j, m; apply Z.div_mod; lia).
  assert (CL : length (codeword 64 dist_len j) = Z.to_nat (dist_len j)) by (unfold codeword; apply to_bits_length).
  unfold peek. rewrite <- !app_assoc, firstn_app, CL. rewrite firstn_all2 by (rewrite CL; lia). rewrite of_bits_app.
  set (t2 := firstn _ (to_bits 6 m ++ _)). pose proof (of_bits_range t2) as T2.
  destruct (Z.eq_dec j 0) as [J0|J0].
  - assert (E : t2 = to_bits 5 (m / 2)).
    { unfold t2. rewrite J0. change (Z.to_nat 8 - Z.to_nat (dist_len 0))%nat with 5%nat. rewrite firstn_app, to_bits_length. change (5 - 6)%nat with 0%nat. rewrite firstn_O, app_nil_r.
      rewrite firstn_to_bits by lia. reflexivity. }
    rewrite E, of_bits_to_bits. change (2 ^ Z.of_nat 5) with 32.
    assert (1 <= m / 2 < 32) by (split; [apply Z.div_le_lower_bound; lia|apply Z.div_lt_upper_bound; lia]). rewrite (Z.mod_small (m / 2)) by lia.
    pose proof (of_bits_range (codeword 64 dist_len j)). nia.
  - pose proof (dist_word j ltac:(lia)). assert (1 <= 2 ^ Z.of_nat (length t2)) by (assert (0 < 2 ^ Z.of_nat (length t2)) by (apply Z.pow_pos_nonneg; lia); lia). nia.
Qed.

Section Sixty.
Variable g : glob.
Hypothesis HZ : P_HufLens.dsz (g_huf g).
Hypothesis HP : alen (ptCode (g_huf g)) = Npt.
Hypothesis HS : Sz (g_dh g).

Lemma lh1_bits_app : forall ts t us, lh1_bits t (ts ++ us) = lh1_bits t ts ++ lh1_bits (adapts t ts) us.
Proof.
  induction ts as [|x ts IH]; intros t us; [reflexivity|]. cbn [app lh1_bits]. rewrite IH. unfold adapts. cbn [fold_left]. rewrite <- !app_assoc. reflexivity.
Qed.

(** More bytes are copied than the item says, as many as the eight bits behind its
    symbol say. *)
Theorem lh1_sixty ts d data rest pad : Forall (lz_ok 4096 59) ts -> 3 <= d <= 4096 -> bytes (data ++ rest) ->
  byte_string_bits data = lh1_stream (ts ++ [LzCopy 60 d]) ++ pad -> (length pad < 16)%nat ->
  exists g2 out, DecodeLzhuf 1 false (zlen (lz_expand (ts ++ [LzCopy 60 d]))) (zlen data) (data ++ rest) g = Ok (g2, calcCrc 0 out, out, zlen data, rest) /\
    zlen (lz_expand (ts ++ [LzCopy 60 d])) < zlen out.
Proof.
  intros F HD HB EB HL. destruct (initGetbits_bits data rest HB) as [r [E R]]. rewrite EB in R. set (size := zlen (lz_expand (ts ++ [LzCopy 60 d]))) in *.
  destruct (lh1_run g HZ HP HS size (zlen data) (data ++ rest) r E) as (h & dd & FX & ST & X). cbv zeta in X.
  unfold lh1_stream in R. rewrite lh1_bits_app in R. rewrite <- app_assoc in R. cbn [lh1_bits tok_sym] in R. rewrite app_nil_r in R. change (253 + 60) with 313 in R. rewrite <- app_assoc in R.
  assert (SZ : size = zlen (lz_expand ts) + 60). { unfold size, lz_expand. rewrite fold_left_app. cbn [fold_left lz_step]. rewrite lz_copy_zlen. reflexivity. }
  pose proof (lz_steps_len ts [] (lz_ok_len _ _ _ F)) as RL. rewrite zlen_nil in RL. fold (lz_expand ts) in RL. pose proof (zlen_nonneg ts) as ZN.
  destruct (lh1_steps size (zlen data) rest (Z.to_nat (size + 2) - length ts) ts (DST h r (afill 4096 32) 0 0 [] 0) (EXT dd (g_pm g) 0 0 0) [] 0 (start_tree 314)
    (sym_code (adapts (start_tree 314) ts) 313 ++ dist_bits d ++ pad)) as (s & x & L1 & L2 & L3 & L4 & L5 & L6 & L7); auto; [apply DI_blank|apply Forall_nil|fold (lz_expand ts); lia|].
  fold (lz_expand ts) in L2, L3, L4. replace (length ts + (Z.to_nat (size + 2) - length ts))%nat with (Z.to_nat (size + 2)) in L1 by (unfold zlen in *; lia).
  set (t1 := adapts (start_tree 314) ts) in *. set (B1 := 0 + Z.of_nat (length (lh1_bits (start_tree 314) ts))) in *.
  destruct (decodeCDyn_ok 314 313 ltac:(lia) (zlen data) rest t1 (x_dh x) 313 (d_r s) B1 (dist_bits d ++ pad) L6 ltac:(lia) L7) as (d1 & r1 & ST1 & R1 & E1).
  change (313 =? 313) with true in E1. cbv iota in E1. destruct (getbits_bits 8 _ _ _ _ _ R1 ltac:(lia)) as [r2 [G2 R2]]. rewrite G2 in E1. cbn [bind] in E1.
  pose proof (dist_first d pad HD) as DF. pose proof (peek_range 8 (dist_bits d ++ pad) ltac:(lia)) as PR. set (v := peek 8 (dist_bits d ++ pad)) in *. change (2 ^ 8) with 256 in PR.
  rewrite (u16_id (313 + v)) in E1 by lia.
  destruct (decodePSt0_read (zlen data) rest (d_huf s) r2 _ _ L5 R2) as (p & r3 & B3 & s3 & E3 & P3 & R3 & LB).
  destruct (dcopy_ok 12 (60 + v) (p + 1) (Z.land (u64 (d_loc s - (p + 1))) (4096 - 1)) (DST (d_huf s) r3 (d_text s) (d_loc s) (d_crc s) (d_out s) (d_count s + (60 + v))) (lz_expand ts))
    as [s1 [P1 [P2 [Q3 [Q4 Q5]]]]]; auto; try (change (2 ^ 12) with 4096); try lia.
  { now apply DI_hr. } { cbn [d_loc]. rewrite match_place by (try lia; apply (di_loc _ _ _ L2)). reflexivity. }
  change (2 ^ 12) with 4096 in P1, P2. cbn [d_huf d_r d_count] in Q3, Q4, Q5.
  assert (ZL : zlen (lz_copy (Z.to_nat (60 + v)) (p + 1) (lz_expand ts)) = zlen (lz_expand ts) + (60 + v)) by (rewrite lz_copy_zlen; lia).
  set (out := lz_copy (Z.to_nat (60 + v)) (p + 1) (lz_expand ts)) in *.
  destruct (X s1 (EXT d1 (x_pm x) (x_cnt x) (x_flag x) (x_pos x)) out) as [g2 Y]; [|exact P2|].
  - rewrite loop_loopN by lia. rewrite L1. destruct (Z.to_nat (size + 2) - length ts)%nat as [|[|k]] eqn:K; [unfold zlen in *; lia|unfold zlen in *; lia|].
    cbn [loopN]. unfold old_step at 1. destruct (Z.ltb_spec (d_count s) size); [|lia].
    unfold decodeMethodC. change ((1 =? 1) || (1 =? 2)) with true. cbv iota. rewrite E1. cbn [bind]. destruct (Z.ltb_spec (313 + v) 256); [lia|]. cbv zeta.
    unfold decodeMethodP. change ((1 =? 1) || (1 =? 3)) with true. cbv iota. cbn [with_r with_hr d_huf d_r]. rewrite E3. cbn [bind]. change (adjust 1) with 253. replace (313 + v - 253) with (60 + v) by lia.
    cbn [with_r with_hr d_huf d_r d_text d_loc d_crc d_out d_count]. rewrite P1. cbn [bind]. unfold old_step at 1. destruct (Z.ltb_spec (d_count s1) size); [lia|]. reflexivity.
  - rewrite <- Q4 in R3. destruct (Rd_end _ _ _ _ _ R3) as [Z1 Z2].
    { assert (L : length (byte_string_bits data) = (length (lh1_bits (start_tree 314) ts) + length (sym_code t1 313) + length (dist_bits d) + length pad)%nat).
      { rewrite EB. unfold lh1_stream. rewrite lh1_bits_app. fold t1. cbn [lh1_bits tok_sym]. change (253 + 60) with 313. rewrite !app_length. cbn [length]. lia. }
      rewrite byte_string_bits_length in L. assert (LD : (length (dist_bits d) <= 14)%nat).
      { unfold dist_bits. rewrite app_length, to_bits_length. unfold codeword. rewrite to_bits_length. pose proof (dist_len_range ((d - 1) / 64)). lia. }
      unfold B1 in LB. unfold zlen. lia. }
    exists g2, out. rewrite Y, Z1, Z2, Z.sub_0_r. split; [reflexivity|lia].
Qed.

End Sixty.
