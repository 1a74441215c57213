(** The decoder of -pm2- on data whose codes have one symbol each. *)
From Verif Require Import Go GoLemmas M_Crc M_Bitio P_Bitio M_Maketree M_Maketbl M_Huf M_Dhuf M_Shuf M_Slide M_Larc M_Pm2hist M_Pm2 M_Decode M_Lzhuf S_Bits P_Bits S_Huff S_Lz S_Mtf S_Lh5 S_Pm2
  P_HufLens P_Decode P_Lz P_Pm2hist P_Lh1 P_Lh3 Properties_Pm2.
Local Notation seq := List.seq.

(** ** Trees of one symbol *)

Lemma lor128 v : 0 <= v < 128 -> Z.lor 128 v = 128 + v /\ Z.land (Z.lor 128 v) 127 = v.
Proof.
  intros H. assert (X : forallb (fun k => (Z.lor 128 k =? 128 + k) && (Z.land (Z.lor 128 k) 127 =? k)) (upto 128) = true) by (vm_compute; reflexivity).
  rewrite forallb_forall in X. specialize (X v). rewrite andb_true_iff, !Z.eqb_eq in X. apply X. unfold upto. apply in_map_iff. exists (Z.to_nat v). split; [lia|]. apply in_seq. lia.
Qed.

Lemma treeGet_single t r v : 0 <= v < 128 -> pt_root t = Z.lor 128 v -> treeGet t r = Ok (v, r).
Proof.
  intros H E. destruct (lor128 v H) as [E1 E2]. unfold treeGet. rewrite loop_loopN by lia. replace (Z.to_nat 100000) with (S (Z.to_nat 99999)) by lia. cbn [loopN]. unfold tree_step at 1. rewrite E, E1.
  destruct (Z.ltb_spec (128 + v) 128); [lia|]. cbn [bind]. rewrite <- E1, E2. reflexivity.
Qed.

(** ** Where the window stands *)

Lemma dput_loc d c s s' : 1 <= d < 65536 -> 0 <= d_loc s < d -> dput d c s = Ok s' -> d_loc s' = (d_loc s + 1) mod d.
Proof.
  intros Hd Hl E. unfold dput in E. apply bind_ok in E. destruct E as [t [_ E]]. cbv zeta in E. rewrite u16_id in E by lia. destruct (Z.eqb_spec (d_loc s + 1) d) as [F|F]; injection E as <-; cbn [d_loc fwriteCrc].
  - rewrite F, Z_mod_same_full. reflexivity.
  - rewrite Z.mod_small by lia. reflexivity.
Qed.

Lemma dcopy_loc d len m s s' : 1 <= d < 65536 -> 0 <= len -> 0 <= d_loc s < d -> dcopy d len m s = Ok s' -> d_loc s' = (d_loc s + len) mod d.
Proof.
  intros Hd Hn Hl E. unfold dcopy in E. eapply (forZ_partial (fun i x => d_loc x = (d_loc s + i) mod d)) in E; [exact E|exact Hn| |].
  - intros i x y Hi Hx Ex. apply bind_ok in Ex. destruct Ex as [c [_ Ex]]. pose proof (Z.mod_pos_bound (d_loc s + i) d ltac:(lia)). apply dput_loc in Ex; [|exact Hd|lia]. rewrite Ex, Hx, Zplus_mod_idemp_l. f_equal. lia.
  - rewrite Z.add_0_r, Z.mod_small by lia. reflexivity.
Qed.

(** ** The history *)

Definition hist_set (h : hist) (last : Z) (m : pm) : pm := PM h (pm_tree1 m) (pm_tree2 m) (pm_bound m) (pm_min m) last (pm_get m).

Lemma back_nth out k : 1 <= k <= zlen out -> back out k = nth (Z.to_nat (zlen out - k)) out 0.
Proof. intros H. unfold back. change (Z.of_nat (length out)) with (zlen out). destruct (Z.leb_spec k (zlen out)); [|lia]. apply nth_indep. unfold zlen in *. lia. Qed.

Lemma firstn_next {A} (l : list A) d : forall k, (k < length l)%nat -> firstn (S k) l = firstn k l ++ [nth k l d].
Proof. induction l as [|x l IH]; intros k H; cbn [length] in H; [lia|]. destruct k; [reflexivity|]. cbn [firstn nth app]. f_equal. apply IH. lia. Qed.

Lemma mtf_snoc bs b : mtf_after (bs ++ [b]) = to_front b (mtf_after bs).
Proof. unfold mtf_after. rewrite fold_left_app. reflexivity. Qed.

Lemma catch_up_ok s out m k : DI 8192 s out -> d_loc s = zlen out mod 8192 -> bytes out -> 0 <= k <= zlen out -> zlen out - k < 8192 ->
  pm_last m = k mod 8192 -> rep (pm_hist m) (mtf_after (firstn (Z.to_nat k) out)) ->
  exists h, catch_up (d_text s) (d_loc s) m = Ok (hist_set h (d_loc s) m) /\ rep h (mtf_after out).
Proof.
  intros I L Bo Hk Hd HL HR. unfold catch_up. rewrite loop_loopN by lia.
  assert (G : forall f k m, 0 <= k <= zlen out -> zlen out - k < 8192 -> zlen out - k < Z.of_nat f -> pm_last m = k mod 8192 -> rep (pm_hist m) (mtf_after (firstn (Z.to_nat k) out)) ->
     exists h, loopN f (fun m => if pm_last m =? d_loc s then Ok (Stop m) else b <- aget (d_text s) (pm_last m) ;; h <- histUpdate b (pm_hist m) ;;
        Ok (Go (PM h (pm_tree1 m) (pm_tree2 m) (pm_bound m) (pm_min m) (Z.land (pm_last m + 1) 8191) (pm_get m)))) m = Ok (Stop (hist_set h (d_loc s) m)) /\ rep h (mtf_after out)).
  { clear k m Hk Hd HL HR. induction f as [|f IH]; intros k m Hk Hd Hf HL HR; [lia|]. cbn [loopN]. rewrite HL, L.
    destruct (Z.eqb_spec (k mod 8192) (zlen out mod 8192)) as [Q|Q].
    - assert (k = zlen out).
      { pose proof (Z.div_mod k 8192 ltac:(lia)). pose proof (Z.div_mod (zlen out) 8192 ltac:(lia)). lia. }
      subst k. cbn [bind]. exists (pm_hist m). split; [rewrite <- HL; destruct m; reflexivity|]. replace (firstn (Z.to_nat (zlen out)) out) with out in HR; [exact HR|]. unfold zlen. rewrite Nat2Z.id, firstn_all. reflexivity.
    - assert (k < zlen out) by (destruct (Z.eq_dec k (zlen out)) as [->|]; [contradiction|lia]). pose proof (Z.mod_pos_bound k 8192 ltac:(lia)).
      assert (W : at_ (d_text s) (k mod 8192) = nth (Z.to_nat k) out 0).
      { rewrite <- (Z.mod_mod k 8192) by lia. pose proof (di_win _ _ _ I (zlen out - k) ltac:(lia)) as W. rewrite back_nth in W by lia. replace (zlen out - (zlen out - k)) with k in W by lia. rewrite <- W. f_equal.
        rewrite L, Zminus_mod_idemp_l, Z.mod_mod by lia. f_equal. lia. }
      rewrite aget_ok by (rewrite (di_len _ _ _ I); lia). cbn [bind]. rewrite W.
      assert (BB : 0 <= nth (Z.to_nat k) out 0 < 256). { unfold bytes in Bo. rewrite Forall_forall in Bo. apply Bo. apply nth_In. unfold zlen in *. lia. }
      destruct (update_rep (pm_hist m) _ (nth (Z.to_nat k) out 0) HR BB) as [h [E1 R1]]. rewrite E1. cbn [bind].
      match goal with |- context [loopN f _ ?m1] => destruct (IH (k + 1) m1) as [h2 [E2 R2]] end; try lia.
      + cbn [pm_last]. change 8191 with (2 ^ 13 - 1). rewrite land_mask by lia. change (2 ^ 13) with 8192. rewrite Zplus_mod_idemp_l. reflexivity.
      + cbn [pm_hist]. replace (Z.to_nat (k + 1)) with (S (Z.to_nat k)) by lia. rewrite (firstn_next out 0) by (unfold zlen in *; lia). rewrite mtf_snoc. exact R1.
      + exists h2. split; [|exact R2]. rewrite <- L. rewrite E2. reflexivity. }
  destruct (G (Z.to_nat 8194) k m Hk Hd ltac:(lia) HL HR) as [h [E R]]. rewrite E. cbn [bind]. exists h. split; [reflexivity|exact R].
Qed.

(** ** Reading the codes *)

Lemma upto_snoc i : 0 <= i -> upto (i + 1) = upto i ++ [i].
Proof. intros H. unfold upto. replace (Z.to_nat (i + 1)) with (S (Z.to_nat i)) by lia. rewrite seq_S, map_app. cbn [map]. f_equal. f_equal. lia. Qed.

Lemma read_threes (f : Z -> Z) n packed rest r B tl : 0 <= n -> (forall c, 0 <= c < n -> 0 <= f c < 8) -> Rd packed rest r B (flat_map (fun c => to_bits 3 (f c)) (upto n) ++ tl) ->
  exists r', forZ 0 n (fun _ '(l, r) => '(x, r) <- getbits 3 r ;; Ok (l ++ [u8 x], r)) ([], r) = Ok (map f (upto n), r') /\
    Rd packed rest r' (B + Z.of_nat (length (flat_map (fun c => to_bits 3 (f c)) (upto n)))) tl.
Proof.
  intros Hn F R.
  destruct (forZ_inv (fun i s => fst s = map f (upto i) /\ Rd packed rest (snd s) (B + 3 * i) (flat_map (fun c => to_bits 3 (f c)) (map Z.of_nat (seq (Z.to_nat i) (Z.to_nat (n - i)))) ++ tl))
    (fun _ '(l, r) => '(x, r) <- getbits 3 r ;; Ok (l ++ [u8 x], r)) 0 n ([], r)) as [[l r1] [E [J1 J2]]].
  - exact Hn.
  - intros i [l r0] Hi [J1 J2]. cbn [fst snd] in *. replace (Z.to_nat (n - i)) with (S (Z.to_nat (n - (i + 1)))) in J2 by lia. cbn [seq map flat_map] in J2. rewrite Z2Nat.id in J2 by lia. rewrite <- app_assoc in J2.
    pose proof (F i Hi) as Fi. destruct (getbits_field 3 (f i) _ _ _ _ _ J2 ltac:(lia) ltac:(change (2 ^ 3) with 8; lia)) as [r2 [G R2]]. rewrite G. cbn [bind]. eexists. split; [reflexivity|]. cbn [fst snd].
    rewrite u8_id by lia. rewrite upto_snoc, map_app, J1 by lia. split; [reflexivity|]. replace (Z.to_nat (i + 1)) with (S (Z.to_nat i)) by lia. replace (B + 3 * (i + 1)) with (B + 3 * i + 3) by lia. exact R2.
  - cbn [fst snd]. rewrite Z.sub_0_r, Z.add_0_r. split; [reflexivity|exact R].
  - cbn [fst snd] in *. exists r1. rewrite E, J1. split; [reflexivity|]. rewrite Z.sub_diag in J2. cbn [Z.to_nat seq map flat_map app] in J2.
    assert (L : forall l, length (flat_map (fun c => to_bits 3 (f c)) l) = (3 * length l)%nat) by (induction l0 as [|a l0 IH]; cbn [flat_map length]; [reflexivity|]; rewrite app_length, to_bits_length, IH; lia).
    rewrite L. unfold upto. rewrite map_length, seq_length. replace (B + Z.of_nat (3 * Z.to_nat n)) with (B + 3 * n) by lia. exact J2.
Qed.

Lemma nth_upto (f : Z -> Z) n i : (i < Z.to_nat n)%nat -> nth i (map f (upto n)) 0 = f (Z.of_nat i).
Proof. intros H. unfold upto. rewrite map_map. rewrite (nth_indep _ 0 (f (Z.of_nat 0))) by (rewrite map_length, seq_length; exact H). rewrite (map_nth (fun x => f (Z.of_nat x))), seq_nth by exact H. reflexivity. Qed.

Lemma used_one n j l : 0 <= j < n -> n <= 8 -> l <> 0 ->
  filter (fun i => negb (nth i (map (fun c => if c =? j then l else 0) (upto n)) 0 =? 0)) (seq 0 (Z.to_nat n)) = [Z.to_nat j].
Proof.
  intros Hj Hn Hl. rewrite (filter_ext_in _ (fun i => Nat.eqb i (Z.to_nat j))).
  - assert (X : forall N J, (N <= 8)%nat -> (J < N)%nat -> filter (fun i => Nat.eqb i J) (seq 0 N) = [J]).
    { intros N J H1 H2. do 9 (destruct N as [|N]; [do 8 (destruct J as [|J]; [try lia; reflexivity|]); lia|]). lia. }
    apply X; lia.
  - intros i Hi. apply in_seq in Hi. rewrite nth_upto by lia.
    destruct (Z.eqb_spec (Z.of_nat i) j), (Nat.eqb_spec i (Z.to_nat j)); try lia; destruct (Z.eqb_spec l 0); try contradiction; reflexivity.
Qed.

Lemma used_none n : filter (fun i => negb (nth i (map (fun _ => 0) (upto n)) 0 =? 0)) (seq 0 (Z.to_nat n)) = [].
Proof.
  rewrite (filter_ext_in _ (fun _ => false)); [induction (seq 0 (Z.to_nat n)); [reflexivity|exact IHl]|]. intros i _.
  replace (nth i (map (fun _ : Z => 0) (upto n)) 0) with 0; [reflexivity|]. revert i. induction (upto n) as [|a l IH]; intros [|i]; cbn [map nth]; auto.
Qed.

(** The variables of the decoder hold the codes. *)
Record CI (ks : codes) (m : pm) : Prop := {
  ci_class : forall v, p_class ks = Some (Single v) -> 0 <= v < 29 /\ pt_root (pm_tree1 m) = Z.lor 128 v /\ pm_bound m = v + 1 /\ pm_min m = 0 /\ p_need ks = ((9 <=? v) && (v <? 28));
  ci_dist : forall j, p_dist ks = Some (Single j) -> 0 <= j < 8 /\ pt_root (pm_tree2 m) = Z.lor 128 j
}.

(** What the codes have nothing to do with. *)
Definition same_rest (m m' : pm) : Prop := pm_hist m' = pm_hist m /\ pm_last m' = pm_last m.

Lemma class_part_ok ks ks' bits m packed rest r B tl : CI ks m -> class_part ks ks' bits -> (exists v, p_class ks' = Some (Single v)) -> Rd packed rest r B (bits ++ tl) ->
  exists m' r', maketree1 m r = Ok (m', r') /\ CI ks' m' /\ same_rest m m' /\ Rd packed rest r' (B + Z.of_nat (length bits)) tl.
Proof.
  intros C (k & need & H & ->) (v0 & V) R. cbn [p_class] in V. injection V as ->. inversion H as [v Hv EV EN EB|]; subst. rewrite <- app_assoc in R.
  unfold maketree1. destruct (getbits_field 5 (v0 + 1) _ _ _ _ _ R ltac:(lia) ltac:(change (2 ^ 5) with 32; lia)) as [r1 [E1 R1]]. rewrite E1. cbn [bind].
  destruct (getbits_field 3 0 _ _ _ _ _ R1 ltac:(lia) ltac:(change (2 ^ 3) with 8; lia)) as [r2 [E2 R2]]. rewrite E2. cbn [bind]. cbv zeta. change (0 =? 0) with true. cbv iota. replace (v0 + 1 - 1) with v0 by lia. rewrite u8_id by lia.
  eexists _, r2. split; [reflexivity|]. split.
  { constructor; cbn [p_class p_need p_dist pm_tree1 pm_tree2 pm_bound pm_min treeSetsingle pt_root].
    - intros v E. injection E as <-. auto.
    - exact (ci_dist _ _ C). }
  split; [split; reflexivity|]. rewrite app_length, !to_bits_length. replace (B + Z.of_nat (5 + 3)) with (B + 5 + 3) by lia. exact R2.
Qed.

Lemma dist_part_ok n ks ks' bits m packed rest r B tl : 0 <= n <= 8 -> CI ks m -> dist_part n ks ks' bits -> single_codes ks' -> Rd packed rest r B (bits ++ tl) ->
  exists m' r', maketree2 n m r = Ok (m', r') /\ CI ks' m' /\ same_rest m m' /\ Rd packed rest r' (B + Z.of_nat (length bits)) tl.
Proof.
  intros Hn C (P1 & P2 & P3) (V & SD) R. destruct V as [v V]. rewrite P1 in V. destruct (ci_class _ _ C v V) as (Hv & T1 & Bd & Mn & Nd).
  unfold maketree2. rewrite Bd, Mn. rewrite Nd in P3. destruct (Z.ltb_spec (v + 1) 10) as [L1|L1]; [|destruct (Z.eqb_spec (v + 1) 29) as [L2|L2]].
  - destruct (Z.leb_spec 9 v); [lia|]. destruct P3 as [P3 ->]. exists m, r. split; [reflexivity|]. split; [|split; [split; reflexivity|rewrite Z.add_0_r; exact R]].
    constructor; rewrite ?P1, ?P2, ?P3; apply C.
  - destruct (Z.leb_spec 9 v); [|lia]. destruct (Z.ltb_spec v 28); [lia|]. destruct P3 as [P3 ->]. exists m, r. split; [reflexivity|]. split; [|split; [split; reflexivity|rewrite Z.add_0_r; exact R]].
    constructor; rewrite ?P1, ?P2, ?P3; apply C.
  - destruct (Z.leb_spec 9 v); [|lia]. destruct (Z.ltb_spec v 28); [|lia]. cbn [andb] in P3 |- *. inversion P3 as [EQ EB|j l Hj Hl EQ EB|len a b ? ? ? ? ? ? ? EQ EB]; subst.
    + destruct (read_threes (fun _ => 0) n packed rest r B tl ltac:(lia) ltac:(intros; lia) R) as [r1 [E1 R1]]. rewrite E1. cbn [bind]. rewrite used_none. exists m, r1. split; [reflexivity|]. split; [|split; [split; reflexivity|exact R1]].
      constructor; [rewrite P1, P2; apply C|]. rewrite <- EQ. discriminate.
    + destruct (read_threes (fun c => if c =? j then l else 0) n packed rest r B tl ltac:(lia) ltac:(intros c _; cbv beta; destruct (c =? j); lia) R) as [r1 [E1 R1]]. rewrite E1. cbn [bind]. rewrite used_one by lia. cbv zeta.
      eexists _, r1. split; [reflexivity|]. split; [|split; [split; reflexivity|exact R1]].
      constructor; cbn [pm_tree1 pm_tree2 pm_bound pm_min treeSetsingle pt_root]; [rewrite P1, P2; intros v2 V2; destruct (ci_class _ _ C v2 V2) as (Y1 & Y2 & Y3 & Y4 & Y5); repeat split; auto; lia|]. intros j2 E. rewrite E in EQ. injection EQ as <-. rewrite Z2Nat.id by lia. split; [lia|reflexivity].
    + destruct SD as [SD|[j SD]]; congruence.
Qed.

(** ** Renewal *)

Definition renew_step (count : Z) : Z * pm * rst -> res (ctl (Z * pm * rst) (Z * pm * rst)) :=
  fun '(next, m, r) =>
    if next <=? count then
      if next =? 0 then
        '(m, r) <- maketree1 m r ;; '(m, r) <- maketree2 5 m r ;; Ok (Go (1024, m, r))
      else if next =? 1024 then '(m, r) <- maketree2 6 m r ;; Ok (Go (2048, m, r))
      else if next =? 2048 then '(m, r) <- maketree2 7 m r ;; Ok (Go (4096, m, r))
      else if next =? 4096 then
        '(b, r) <- getbits 1 r ;;
        '(m, r) <- (if b =? 0 then Ok (m, r) else maketree1 m r) ;;
        '(m, r) <- maketree2 8 m r ;;
        Ok (Go (8192, m, r))
      else
        '(b, r) <- getbits 1 r ;;
        '(m, r) <- (if b =? 0 then Ok (m, r) else '(m, r) <- maketree1 m r ;; maketree2 8 m r) ;;
        Ok (Go (next + 4096, m, r))
    else Ok (Stop (next, m, r)).

Lemma same_trans m m1 m2 : same_rest m m1 -> same_rest m1 m2 -> same_rest m m2.
Proof. intros [A1 A2] [B1 B2]. split; congruence. Qed.

Lemma renew_step_ok count next ks ks' b1 m packed rest r B tl : next <= count -> CI ks m -> renewal next ks ks' b1 -> single_codes ks' -> Rd packed rest r B (b1 ++ tl) ->
  exists m' r', renew_step count (next, m, r) = Ok (Go (next_renewal next, m', r')) /\ CI ks' m' /\ same_rest m m' /\ Rd packed rest r' (B + Z.of_nat (length b1)) tl.
Proof.
  intros Hc C H SC R. unfold renew_step. destruct (Z.leb_spec next count); [|lia].
  assert (CS : forall n ka kb bb, dist_part n ka kb bb -> single_codes kb -> exists v, p_class ka = Some (Single v)) by (intros n ka kb bb (Q & _) (V & _); rewrite <- Q; exact V).
  inversion H as [ks1 ks2 x1 x2 EN CP DP|ks2 x2 EN DP|ks2 x2 EN DP|ks2 x2 EN DP|ks1 ks2 x1 x2 EN CP DP|EN|ks1 ks2 x1 x2 EN CP DP]; subst; unfold next_renewal.
  - change (0 =? 0) with true. cbv iota. rewrite <- app_assoc in R. destruct (class_part_ok _ _ _ _ _ _ _ _ _ C CP (CS _ _ _ _ DP SC) R) as (m1 & r1 & E1 & C1 & S1 & R1). rewrite E1. cbn [bind].
    destruct (dist_part_ok 5 _ _ _ _ _ _ _ _ _ ltac:(lia) C1 DP SC R1) as (m2 & r2 & E2 & C2 & S2 & R2). rewrite E2. cbn [bind]. exists m2, r2. split; [reflexivity|]. split; [exact C2|]. split; [eapply same_trans; eauto|].
    rewrite app_length. match goal with |- Rd _ _ _ ?b _ => match type of R2 with Rd _ _ _ ?b2 _ => replace b with b2 by lia end end. exact R2.
  - change (1024 =? 0) with false. change (1024 =? 1024) with true. cbv iota. destruct (dist_part_ok 6 _ _ _ _ _ _ _ _ _ ltac:(lia) C DP SC R) as (m2 & r2 & E2 & C2 & S2 & R2). rewrite E2. cbn [bind]. exists m2, r2. auto.
  - change (2048 =? 0) with false. change (2048 =? 1024) with false. change (2048 =? 2048) with true. cbv iota. destruct (dist_part_ok 7 _ _ _ _ _ _ _ _ _ ltac:(lia) C DP SC R) as (m2 & r2 & E2 & C2 & S2 & R2). rewrite E2. cbn [bind]. exists m2, r2. auto.
  - change (4096 =? 0) with false. change (4096 =? 1024) with false. change (4096 =? 2048) with false. change (4096 =? 4096) with true. cbv iota. cbn [app] in R. destruct (bit_field _ _ _ _ _ _ R) as [r1 [E1 R1]]. rewrite E1. cbn [bind]. change (0 =? 0) with true. cbv iota. cbn [bind].
    destruct (dist_part_ok 8 _ _ _ _ _ _ _ _ _ ltac:(lia) C DP SC R1) as (m2 & r2 & E2 & C2 & S2 & R2). rewrite E2. cbn [bind]. exists m2, r2. split; [reflexivity|]. split; [exact C2|]. split; [exact S2|].
    cbn [length]. match goal with |- Rd _ _ _ ?b _ => match type of R2 with Rd _ _ _ ?b2 _ => replace b with b2 by lia end end. exact R2.
  - change (4096 =? 0) with false. change (4096 =? 1024) with false. change (4096 =? 2048) with false. change (4096 =? 4096) with true. cbv iota. cbn [app] in R. destruct (bit_field _ _ _ _ _ _ R) as [r1 [E1 R1]]. rewrite E1. cbn [bind]. change (1 =? 0) with false. cbv iota.
    rewrite <- app_assoc in R1. destruct (class_part_ok _ _ _ _ _ _ _ _ _ C CP (CS _ _ _ _ DP SC) R1) as (m2 & r2 & E2 & C2 & S2 & R2). rewrite E2. cbn [bind].
    destruct (dist_part_ok 8 _ _ _ _ _ _ _ _ _ ltac:(lia) C2 DP SC R2) as (m3 & r3 & E3 & C3 & S3 & R3). rewrite E3. cbn [bind]. exists m3, r3. split; [reflexivity|]. split; [exact C3|]. split; [eapply same_trans; eauto|].
    cbn [length]. rewrite app_length. match goal with |- Rd _ _ _ ?b _ => match type of R3 with Rd _ _ _ ?b2 _ => replace b with b2 by lia end end. exact R3.
  - destruct (Z.eqb_spec next 0); [lia|]. destruct (Z.eqb_spec next 1024); [lia|]. destruct (Z.eqb_spec next 2048); [lia|]. destruct (Z.eqb_spec next 4096); [lia|]. cbn [app] in R. destruct (bit_field _ _ _ _ _ _ R) as [r1 [E1 R1]]. rewrite E1. cbn [bind]. change (0 =? 0) with true. cbv iota. cbn [bind].
    exists m, r1. split; [reflexivity|]. split; [exact C|]. split; [split; reflexivity|exact R1].
  - destruct (Z.eqb_spec next 0); [lia|]. destruct (Z.eqb_spec next 1024); [lia|]. destruct (Z.eqb_spec next 2048); [lia|]. destruct (Z.eqb_spec next 4096); [lia|]. cbn [app] in R. destruct (bit_field _ _ _ _ _ _ R) as [r1 [E1 R1]]. rewrite E1. cbn [bind]. change (1 =? 0) with false. cbv iota.
    rewrite <- app_assoc in R1. destruct (class_part_ok _ _ _ _ _ _ _ _ _ C CP (CS _ _ _ _ DP SC) R1) as (m2 & r2 & E2 & C2 & S2 & R2). rewrite E2. cbn [bind].
    destruct (dist_part_ok 8 _ _ _ _ _ _ _ _ _ ltac:(lia) C2 DP SC R2) as (m3 & r3 & E3 & C3 & S3 & R3). rewrite E3. cbn [bind]. exists m3, r3. split; [reflexivity|]. split; [exact C3|]. split; [eapply same_trans; eauto|].
    cbn [length]. rewrite app_length. match goal with |- Rd _ _ _ ?b _ => match type of R3 with Rd _ _ _ ?b2 _ => replace b with b2 by lia end end. exact R3.
Qed.

Lemma next_renewal_more next : 0 <= next -> next + 1 <= next_renewal next.
Proof. intros H. unfold next_renewal. repeat match goal with |- context [?a =? ?b] => destruct (Z.eqb_spec a b) end; lia. Qed.

(** All the renewals before an item. *)
Lemma renewals_ok next ks out its bits : pm2_items single_codes next ks out its bits -> forall it its1, its = it :: its1 -> next = 0 \/ single_codes ks -> 0 <= next ->
  exists next' ks' b0 b1 b2, bits = b0 ++ b1 ++ b2 /\ zlen out < next' /\ single_codes ks' /\ pm2_item ks' out it b1 /\ pm2_items single_codes next' ks' (lz_step out it) its1 b2 /\
    forall f m packed rest r B tl, zlen out - next + 2 <= Z.of_nat f -> (0 < f)%nat -> CI ks m -> Rd packed rest r B (b0 ++ tl) ->
      exists m' r', loopN f (renew_step (zlen out)) (next, m, r) = Ok (Stop (next', m', r')) /\ CI ks' m' /\ same_rest m m' /\ Rd packed rest r' (B + Z.of_nat (length b0)) tl.
Proof.
  intros H. induction H as [next ks out|next ks ks' out it0 its0 b1 b2 Hl HR HP H IH|next ks out it0 its0 b1 b2 Hl HI H IH]; intros it its1 EQ HS Hn; [discriminate| |].
  - pose proof (next_renewal_more next Hn) as HM. destruct (IH it its1 EQ (or_intror HP) ltac:(lia)) as (n2 & k2 & x0 & x1 & x2 & -> & Q1 & Q2 & Q3 & Q4 & Q5).
    exists n2, k2, (b1 ++ x0), x1, x2. split; [apply app_assoc|]. split; [exact Q1|]. split; [exact Q2|]. split; [exact Q3|]. split; [exact Q4|].
    intros f m packed rest r B tl Hf Hf0 C R. rewrite <- app_assoc in R. change (Z.of_nat (length out)) with (zlen out) in Hl. destruct f as [|f]; [lia|]. cbn [loopN].
    destruct (renew_step_ok (zlen out) next ks ks' b1 m packed rest r B _ Hl C HR HP R) as (m1 & r1 & E1 & C1 & S1 & R1). rewrite E1. cbn [bind].
    destruct (Q5 f m1 packed rest r1 _ tl ltac:(lia) ltac:(lia) C1 R1) as (m2 & r2 & E2 & C2 & S2 & R2). exists m2, r2. split; [exact E2|]. split; [exact C2|]. split; [eapply same_trans; eauto|].
    rewrite app_length. match goal with |- Rd _ _ _ ?b _ => match type of R2 with Rd _ _ _ ?b2 _ => replace b with b2 by lia end end. exact R2.
  - injection EQ as -> ->. change (Z.of_nat (length out)) with (zlen out) in Hl. pose proof (zlen_nonneg out). exists next, ks, [], b1, b2. split; [reflexivity|]. split; [exact Hl|]. split; [destruct HS; [lia|assumption]|]. split; [exact HI|]. split; [exact H|].
    intros f m packed rest r B tl Hf Hf0 C R. destruct f as [|f]; [lia|]. cbn [loopN renew_step]. destruct (Z.leb_spec next (zlen out)); [lia|]. cbn [bind]. exists m, r. split; [reflexivity|]. split; [exact C|]. split; [split; reflexivity|]. cbn [length]. rewrite Z.add_0_r. exact R.
Qed.

(** ** Items *)

Record SI (next : Z) (ks : codes) (s : dst) (x : ext) (out : list Z) : Prop := {
  si_di : DI 8192 s out;
  si_bytes : bytes out;
  si_count : d_count s = zlen out;
  si_loc : d_loc s = zlen out mod 8192;
  si_next : k_next (x_dh x) = next;
  si_codes : CI ks (x_pm x);
  si_hist : exists k, 0 <= k <= zlen out /\ zlen out - k < 8192 /\ pm_last (x_pm x) = k mod 8192 /\ rep (pm_hist (x_pm x)) (mtf_after (firstn (Z.to_nat k) out))
}.

Lemma mtf_byte bs x : bytes bs -> 0 <= x < 256 -> is_byte (nth (Z.to_nat x) (mtf_after bs) 0).
Proof.
  intros B H. assert (S : byteset (mtf_after bs)).
  { destruct (init_rep hist0 ltac:(split; reflexivity)) as (h & _ & R). destruct (updates_rep bs B h _ R) as (h2 & _ & [_ S _]). exact S. }
  unfold is_byte. apply (byteset_in _ _ S). apply nth_In. rewrite (byteset_length _ S). lia.
Qed.

Lemma lz_copy_firstn n : forall dist out, firstn (length out) (lz_copy n dist out) = out.
Proof. induction n as [|n IH]; intros dist out; [apply firstn_all|]. rewrite lz_copy_snoc, firstn_app, lz_copy_length. replace (length out - (length out + n))%nat with 0%nat by lia. rewrite firstn_O, app_nil_r. apply IH. Qed.

Lemma lz_step_firstn out t : firstn (length out) (lz_step out t) = out.
Proof. destruct t; cbn [lz_step]; [rewrite firstn_app, firstn_all, Nat.sub_diag; apply app_nil_r|apply lz_copy_firstn]. Qed.

Lemma place_ok g x : 0 <= g < 8 -> 0 <= x < 2 ^ Z.of_nat (place_bits g) ->
  nth (Z.to_nat g) historyBits 0 = Z.of_nat (place_bits g) /\ nth (Z.to_nat g) historyBase 0 = place_base g /\ 0 <= place_base g + x < 256 /\ Z.of_nat (place_bits g) <= 16.
Proof.
  intros H. assert (X : forallb (fun g => (nth (Z.to_nat g) historyBits 0 =? Z.of_nat (place_bits g)) && (nth (Z.to_nat g) historyBase 0 =? place_base g) && (0 <=? place_base g) && (place_base g + 2 ^ Z.of_nat (place_bits g) <=? 256) && (Z.of_nat (place_bits g) <=? 16)) (upto 8) = true) by (vm_compute; reflexivity).
  rewrite forallb_forall in X. assert (IN : In g (upto 8)) by (unfold upto; apply in_map_iff; exists (Z.to_nat g); split; [lia|]; apply in_seq; lia). specialize (X g IN). rewrite !andb_true_iff, !Z.eqb_eq, !Z.leb_le in X. intros Hx. intuition lia.
Qed.

Lemma length_ok g x : 23 <= g < 29 -> 0 <= x < 2 ^ Z.of_nat (length_bits g) ->
  nth (Z.to_nat (g - 23)) repeatBits 0 = Z.of_nat (length_bits g) /\ nth (Z.to_nat (g - 23)) repeatBase 0 = length_base g /\ 2 <= length_base g /\ length_base g + x <= 256 /\ Z.of_nat (length_bits g) <= 16.
Proof.
  intros H. assert (X : forallb (fun g => (nth (Z.to_nat (g - 23)) repeatBits 0 =? Z.of_nat (length_bits g)) && (nth (Z.to_nat (g - 23)) repeatBase 0 =? length_base g) && (2 <=? length_base g) && (length_base g + 2 ^ Z.of_nat (length_bits g) <=? 257) && (Z.of_nat (length_bits g) <=? 16)) (map (fun k => k + 23) (upto 6)) = true) by (vm_compute; reflexivity).
  rewrite forallb_forall in X. assert (IN : In g (map (fun k => k + 23) (upto 6))). { apply in_map_iff. exists (g - 23). split; [lia|]. unfold upto; apply in_map_iff; exists (Z.to_nat (g - 23)); split; [lia|]; apply in_seq; lia. }
  specialize (X g IN). rewrite !andb_true_iff, !Z.eqb_eq, !Z.leb_le in X. intros Hx. intuition lia.
Qed.

Lemma length_range g x : 8 <= g < 29 -> 0 <= x < 2 ^ Z.of_nat (length_bits g) -> 2 <= length_base g + x <= 256.
Proof.
  intros Hg Hx. destruct (Z.ltb_spec g 23) as [L|L]; [|destruct (length_ok g x ltac:(lia) Hx) as (_ & _ & L3 & L4 & _); lia].
  unfold length_base, length_bits in *. destruct (Z.ltb_spec g 23); [|lia]. change (2 ^ Z.of_nat 0) with 1 in Hx. lia.
Qed.

Lemma item_class ks out it b : single_codes ks -> pm2_item ks out it b -> exists g, p_class ks = Some (Single g) /\ 0 <= g < 29 /\
  ((exists x, g < 8 /\ 0 <= x < 2 ^ Z.of_nat (place_bits g) /\ it = LzByte (nth (Z.to_nat (place_base g + x)) (mtf_after out) 0) /\ b = to_bits (place_bits g) x) \/
   (exists x p b2, 8 <= g /\ 0 <= x < 2 ^ Z.of_nat (length_bits g) /\ distance_bits ks g p b2 /\ it = LzCopy (length_base g + x) (p + 1) /\ b = to_bits (length_bits g) x ++ b2)).
Proof.
  intros ((v & V) & _) H. inversion H as [k g x K HS Hg Hx|k g x p b2 K HS Hg Hx HD]; subst; rewrite V in K; injection K as <-; destruct HS as [HG ->]; exists v; (split; [exact V|]); (split; [lia|]); cbn [pm_word app].
  - left. exists x. auto.
  - right. exists x, p, b2. auto.
Qed.

(** The distance of a copy of class [g]. *)
Lemma distance_ok ks m g p b packed rest r B tl : CI ks m -> single_codes ks -> 8 <= g < 29 -> pm_get m = g -> distance_bits ks g p b -> Rd packed rest r B (b ++ tl) ->
  0 <= p < 8192 /\ exists r', decodePPm2 m r = Ok (p, r') /\ Rd packed rest r' (B + Z.of_nat (length b)) tl.
Proof.
  intros C (_ & SD) Hg G H R. unfold decodePPm2. rewrite G.
  assert (ONE : forall k, p_dist ks = Some k -> exists j, k = Single j /\ 0 <= j < 8 /\ treeGet (pm_tree2 m) r = Ok (j, r)).
  { intros k K. destruct SD as [SD|[j SD]]; [congruence|]. exists j. destruct (ci_dist _ _ C j SD) as [D1 D2]. split; [congruence|]. split; [exact D1|]. apply treeGet_single; [lia|exact D2]. }
  inversion H as [EG Hp|EG Hp|k Hg2 K HS Hp|k j Hg2 K HS Hj Hp]; subst.
  - rewrite EG. change (8 =? 8) with true. cbv iota. cbn [bind]. change (u8 6) with 6. split; [lia|].
    destruct (getbits_field 6 p _ _ _ _ _ R ltac:(lia) ltac:(change (2 ^ 6) with 64; lia)) as [r1 [E1 R1]]. rewrite E1. cbn [bind]. change (u16 0) with 0. rewrite u16_id by lia. exists r1. split; [reflexivity|]. rewrite to_bits_length. exact R1.
  - rewrite EG. change (28 =? 8) with false. change (28 <? 28) with false. cbv iota. cbn [bind]. change (u8 0) with 0. split; [lia|].
    destruct (getbits_field 0 0 packed rest r B tl R ltac:(lia) ltac:(change (2 ^ 0) with 1; lia)) as [r1 [E1 R1]]. rewrite E1. cbn [bind]. exists r1. split; [reflexivity|]. exact R1.
  - destruct (Z.eqb_spec (pm_get m) 8); [lia|]. destruct (Z.ltb_spec (pm_get m) 28); [|lia]. destruct (ONE k K) as (j & -> & Hj & T). rewrite T. cbn [bind]. destruct HS as [_ <-]. change (0 =? 0) with true. cbv iota. cbn [bind]. change (u8 6) with 6. split; [lia|]. cbn [pm_word app] in R |- *.
    destruct (getbits_field 6 p _ _ _ _ _ R ltac:(lia) ltac:(change (2 ^ 6) with 64; lia)) as [r1 [E1 R1]]. rewrite E1. cbn [bind]. change (u16 0) with 0. rewrite u16_id by lia. exists r1. split; [reflexivity|]. rewrite to_bits_length. exact R1.
  - destruct (Z.eqb_spec (pm_get m) 8); [lia|]. destruct (Z.ltb_spec (pm_get m) 28); [|lia]. destruct (ONE k K) as (j2 & -> & Hj2 & T). rewrite T. cbn [bind]. destruct HS as [_ ->]. destruct (Z.eqb_spec j2 0); [lia|]. cbn [bind]. cbn [pm_word app] in R |- *.
    rewrite u8_id by lia. rewrite Z.shiftl_mul_pow2, Z.mul_1_l by lia.
    assert (P1 : 2 ^ (6 + j2) = 2 * 2 ^ (5 + j2)) by (replace (6 + j2) with (Z.succ (5 + j2)) by lia; apply Z.pow_succ_r; lia).
    assert (P2 : 0 < 2 ^ (5 + j2) <= 4096) by (split; [apply Z.pow_pos_nonneg; lia|change 4096 with (2 ^ 12); apply Z.pow_le_mono_r; lia]). split; [lia|].
    destruct (getbits_field (5 + j2) (p - 2 ^ (5 + j2)) _ _ _ _ _ R ltac:(lia) ltac:(lia)) as [r1 [E1 R1]]. rewrite E1. cbn [bind]. rewrite (u16_id (2 ^ _)) by lia. rewrite u16_id by lia. exists r1. split; [do 2 f_equal; lia|]. rewrite to_bits_length, Z2Nat.id by lia. exact R1.
Qed.

Definition set_get (g : Z) (m : pm) : pm := PM (pm_hist m) (pm_tree1 m) (pm_tree2 m) (pm_bound m) (pm_min m) (pm_last m) g.

Lemma CI_get ks m g : CI ks m -> CI ks (set_get g m).
Proof. intros []. constructor; assumption. Qed.
Lemma CI_hist ks m h l : CI ks m -> CI ks (hist_set h l m).
Proof. intros []. constructor; assumption. Qed.

Lemma item_toklen ks out it b : single_codes ks -> pm2_item ks out it b -> 1 <= toklen it <= 256.
Proof.
  intros SC H. destruct (item_class ks out it b SC H) as (g & _ & Hg & [(x & _ & _ & -> & _)|(x & p & b2 & G8 & Hx & _ & -> & _)]); cbn [toklen]; [lia|].
  pose proof (length_range g x ltac:(lia) Hx). lia.
Qed.

Lemma pm2_step size packed rest next ks s x out it its bits B tl : SI next ks s x out -> next = 0 \/ single_codes ks -> 0 <= next -> pm2_items single_codes next ks out (it :: its) bits ->
  Rd packed rest (d_r s) B (bits ++ tl) -> zlen out < size ->
  exists next' ks' s' x' b0 b2, bits = b0 ++ b2 /\ 1 <= toklen it /\ old_step 13 8192 size (s, x) = Ok (Go (s', x')) /\ SI next' ks' s' x' (lz_step out it) /\ single_codes ks' /\ 0 <= next' /\
    pm2_items single_codes next' ks' (lz_step out it) its b2 /\ Rd packed rest (d_r s') (B + Z.of_nat (length b0)) (b2 ++ tl).
Proof.
  intros [I Bo Ec El En C (k & K1 & K2 & K3 & K4)] HS Hn HI R Hs.
  destruct (renewals_ok _ _ _ _ _ HI it its eq_refl HS Hn) as (n2 & k2 & b0 & b1 & b2 & -> & Q1 & Q2 & Q3 & Q4 & Q5). pose proof (zlen_nonneg out) as ZO.
  rewrite <- !app_assoc in R.
  destruct (catch_up_ok s out (x_pm x) k I El Bo K1 K2 K3 K4) as (h & EC & RH).
  destruct (Q5 (Z.to_nat (zlen out + 6)) (hist_set h (d_loc s) (x_pm x)) packed rest (d_r s) B _ ltac:(lia) ltac:(lia) (CI_hist _ _ _ _ C) R) as (m2 & r2 & EL & C2 & [S1 S2] & R2). cbn [hist_set pm_hist pm_last] in S1, S2.
  assert (ER : renew (d_count s) (k_next (x_dh x)) (hist_set h (d_loc s) (x_pm x)) (d_r s) = Ok (n2, m2, r2)).
  { rewrite Ec, En. unfold renew. fold (renew_step (zlen out)). rewrite loop_loopN by lia. rewrite EL. reflexivity. }
  destruct (item_class _ _ _ _ Q2 Q3) as (g & KC & Hg & IT). destruct (ci_class _ _ C2 g KC) as (_ & T1 & _). pose proof (treeGet_single _ r2 g ltac:(lia) T1) as ET. pose proof (item_toklen _ _ _ _ Q2 Q3) as TL.
  unfold old_step. destruct (Z.ltb_spec (d_count s) size); [|lia]. unfold decodeMethodC. change ((13 =? 1) || (13 =? 2)) with false. change (13 =? 3) with false. change (13 =? 8) with false. change (13 =? 9) with false. change (13 =? 13) with true. cbv iota.
  unfold decodeCPm2. rewrite EC. cbn [bind]. rewrite ER. cbn [bind]. rewrite ET. cbn [bind]. cbv zeta. fold (set_get g m2). destruct (Z.leb_spec 29 g); [lia|]. pose proof (di_loc _ _ _ I) as DL.
  assert (HK : forall out2, zlen out <= zlen out2 <= zlen out + 256 -> firstn (length out) out2 = out -> exists k, 0 <= k <= zlen out2 /\ zlen out2 - k < 8192 /\ d_loc s = k mod 8192 /\ rep h (mtf_after (firstn (Z.to_nat k) out2))).
  { intros out2 H2 F2. exists (zlen out). split; [lia|]. split; [lia|]. split; [exact El|]. unfold zlen at 1. rewrite Nat2Z.id, F2. exact RH. }
  destruct IT as [(y & G8 & Hy & -> & ->)|(y & p & bd & G8 & Hy & HD & -> & ->)].
  - destruct (Z.ltb_spec g 8); [|lia]. destruct (place_ok g y ltac:(lia) Hy) as (L1 & L2 & L3 & L4). rewrite L1, L2. rewrite <- (Nat2Z.id (place_bits g)) in R2 at 1.
    destruct (getbits_field (Z.of_nat (place_bits g)) y _ _ _ _ _ R2 ltac:(lia) ltac:(lia)) as [r3 [E3 R3]]. rewrite E3. cbn [bind]. cbn [set_get pm_hist]. rewrite S1, (lookup_rep h _ _ RH) by lia. cbn [bind].
    pose proof (mtf_byte out (place_base g + y) Bo ltac:(lia)) as CB. unfold is_byte in CB. set (c := nth (Z.to_nat (place_base g + y)) (mtf_after out) 0) in *. destruct (Z.ltb_spec c 256); [|lia].
    destruct (dput_ok 8192 c (with_r r3 s) out) as [s1 [P1 [P2 [P3 [P4 P5]]]]]; [lia|now apply DI_hr|exact CB|lia|]. pose proof (dput_loc 8192 c (with_r r3 s) s1 ltac:(lia) DL P1) as PL. rewrite P1. cbn [bind]. cbn [with_r with_hr d_huf d_r d_count d_loc] in P3, P4, P5, PL.
    eexists n2, k2, _, _, (b0 ++ to_bits (place_bits g) y), b2. split; [rewrite <- app_assoc; reflexivity|]. split; [cbn [toklen]; lia|]. split; [reflexivity|]. cbn [lz_step]. split.
    { constructor; cbn [d_count d_loc x_dh x_pm set_get pm_hist pm_last].
      - now apply DI_hr.
      - apply Forall_app. split; [exact Bo|]. constructor; [exact CB|constructor].
      - rewrite zlen_app. change (zlen [c]) with 1. lia.
      - rewrite PL, El, Zplus_mod_idemp_l, zlen_app. reflexivity.
      - reflexivity.
      - apply CI_get, C2.
      - rewrite S1, S2. apply HK; [rewrite zlen_app; change (zlen [c]) with 1; lia|]. exact (lz_step_firstn out (LzByte c)). }
    split; [exact Q2|]. split; [lia|]. split; [exact Q4|]. cbn [d_r]. rewrite P4. rewrite app_length, to_bits_length. match goal with |- Rd _ _ _ ?b _ => match type of R3 with Rd _ _ _ ?b2 _ => replace b with b2 by lia end end. exact R3.
  - destruct (Z.ltb_spec g 8); [lia|]. cbn [toklen] in TL. rewrite <- app_assoc in R2.
    assert (EE : exists r3, (if g <? 23 then Ok (254 + 2 + (g - 8), n2, set_get g m2, r2) else '(x0, r0) <- getbits (nth (Z.to_nat (g - 23)) repeatBits 0) r2;; Ok (u16 (254 + nth (Z.to_nat (g - 23)) repeatBase 0 + x0), n2, set_get g m2, r0))
      = Ok (254 + (length_base g + y), n2, set_get g m2, r3) /\ Rd packed rest r3 (B + Z.of_nat (length b0) + Z.of_nat (length_bits g)) (bd ++ b2 ++ tl)).
    { destruct (Z.ltb_spec g 23) as [L|L].
      - exists r2. unfold length_base, length_bits in *. destruct (Z.ltb_spec g 23); [|lia]. change (2 ^ Z.of_nat 0) with 1 in Hy. split; [do 4 f_equal; lia|]. rewrite Z.add_0_r. exact R2.
      - destruct (length_ok g y ltac:(lia) Hy) as (L1 & L2 & L3 & L4 & L5). rewrite L1, L2. rewrite <- (Nat2Z.id (length_bits g)) in R2 at 1.
        destruct (getbits_field (Z.of_nat (length_bits g)) y _ _ _ _ _ R2 ltac:(lia) ltac:(lia)) as [r3 [E3 R3]]. rewrite E3. cbn [bind]. rewrite u16_id by lia. exists r3. split; [do 4 f_equal; lia|exact R3]. }
    pose proof (length_range g y ltac:(lia) Hy) as LR. destruct EE as (r3 & E3 & R3). unfold set_get in E3 at 1. unfold set_get at 1. rewrite E3. cbn [bind].
    destruct (Z.ltb_spec (254 + (length_base g + y)) 256); [lia|]. change (adjust 13) with 254. cbv zeta. replace (254 + (length_base g + y) - 254) with (length_base g + y) by lia. set (len := length_base g + y) in *.
    unfold decodeMethodP. change ((13 =? 1) || (13 =? 3)) with false. change (13 =? 2) with false. change (13 =? 8) with false. change (13 =? 9) with false. change (13 =? 13) with true. cbv iota. cbn [with_r with_hr d_r x_pm].
    destruct (distance_ok k2 (set_get g m2) g p bd packed rest r3 _ _ (CI_get _ _ g C2) Q2 ltac:(lia) eq_refl HD R3) as (Hp & r4 & E4 & R4). rewrite E4. cbn [bind]. cbn [with_r with_hr d_huf d_r d_text d_loc d_crc d_out d_count].
    destruct (dcopy_ok 13 len (p + 1) (Z.land (u64 (d_loc s - (p + 1))) (8192 - 1)) (DST (d_huf s) r4 (d_text s) (d_loc s) (d_crc s) (d_out s) (d_count s + len)) out)
        as [s1 [P1 [P2 [P3 [P4 P5]]]]]; auto; try (change (2 ^ 13) with 8192); try lia.
    { now apply DI_hr. } { cbn [d_loc]. rewrite match_place13 by lia. reflexivity. }
    change (2 ^ 13) with 8192 in P1, P2. pose proof (dcopy_loc 8192 len _ (DST (d_huf s) r4 (d_text s) (d_loc s) (d_crc s) (d_out s) (d_count s + len)) s1 ltac:(lia) ltac:(lia) DL P1) as PL. rewrite P1. cbn [bind]. cbn [d_huf d_r d_count d_loc] in P3, P4, P5, PL.
    eexists n2, k2, _, _, (b0 ++ to_bits (length_bits g) y ++ bd), b2. split; [rewrite <- !app_assoc; reflexivity|]. split; [cbn [toklen]; lia|]. split; [reflexivity|]. cbn [lz_step]. split.
    { constructor; cbn [x_dh x_pm set_get pm_hist pm_last].
      - exact P2.
      - now apply lz_copy_bytes.
      - rewrite P5, Ec, lz_copy_zlen; lia.
      - rewrite PL, El, Zplus_mod_idemp_l, lz_copy_zlen. f_equal. lia.
      - reflexivity.
      - apply CI_get, C2.
      - rewrite S1, S2. apply HK; [rewrite lz_copy_zlen; lia|]. apply lz_copy_firstn. }
    split; [exact Q2|]. split; [lia|]. split; [exact Q4|]. rewrite P4. rewrite !app_length, to_bits_length. match goal with |- Rd _ _ _ ?b _ => match type of R4 with Rd _ _ _ ?b2 _ => replace b with b2 by lia end end. exact R4.
Qed.

Lemma pm2_loop size packed rest j : forall its next ks s x out bits B tl, SI next ks s x out -> next = 0 \/ single_codes ks -> 0 <= next -> pm2_items single_codes next ks out its bits ->
  Rd packed rest (d_r s) B (bits ++ tl) -> zlen (fold_left lz_step its out) <= size ->
  zlen out + zlen its <= zlen (fold_left lz_step its out) /\
  exists s' x', loopN (length its + j) (old_step 13 8192 size) (s, x) = loopN j (old_step 13 8192 size) (s', x') /\ DI 8192 s' (fold_left lz_step its out) /\
    d_count s' = zlen (fold_left lz_step its out) /\ Rd packed rest (d_r s') (B + Z.of_nat (length bits)) tl.
Proof.
  induction its as [|it its IH]; intros next ks s x out bits B tl SV HS Hn HI R Hs.
  - cbn [fold_left length]. change (zlen (@nil lztok)) with 0. split; [lia|]. exists s, x. split; [reflexivity|]. split; [apply SV|]. split; [apply SV|]. inversion HI; subst. cbn [length app] in *. rewrite Z.add_0_r. exact R.
  - cbn [fold_left] in *. rewrite zlen_cons.
    assert (G : forall size2, zlen out < size2 -> exists next' ks' s' x' b0 b2, bits = b0 ++ b2 /\ 1 <= toklen it /\ old_step 13 8192 size2 (s, x) = Ok (Go (s', x')) /\ SI next' ks' s' x' (lz_step out it) /\ single_codes ks' /\ 0 <= next' /\
      pm2_items single_codes next' ks' (lz_step out it) its b2 /\ Rd packed rest (d_r s') (B + Z.of_nat (length b0)) (b2 ++ tl)) by (intros size2 H2; exact (pm2_step size2 packed rest next ks s x out it its bits B tl SV HS Hn HI R H2)).
    assert (LT : zlen out < size).
    { destruct (G (zlen out + 1) ltac:(lia)) as (n2 & k2 & s2 & x2 & b0 & b2 & E & T & _ & _ & _ & _ & _ & _). pose proof (lz_step_len out it T).
      assert (M : forall l o, zlen o <= zlen (fold_left lz_step l o)) by (induction l as [|t l IHl]; intros o; cbn [fold_left]; [lia|]; specialize (IHl (lz_step o t)); destruct t as [c|ln d]; cbn [lz_step] in *; [rewrite zlen_app in IHl; pose proof (zlen_nonneg [c])|rewrite lz_copy_zlen in IHl]; lia).
      specialize (M its (lz_step out it)). lia. }
    destruct (G size LT) as (n2 & k2 & s2 & x2 & b0 & b2 & -> & T & E & SV2 & SC2 & Hn2 & HI2 & R2).
    destruct (IH n2 k2 s2 x2 (lz_step out it) b2 _ tl SV2 (or_intror SC2) Hn2 HI2 R2 Hs) as (L & s3 & x3 & E3 & D3 & C3 & R3). rewrite lz_step_len in L by exact T. split; [lia|].
    exists s3, x3. change (length (it :: its) + j)%nat with (S (length its + j)). cbn [loopN]. rewrite E. cbn [bind]. split; [exact E3|]. split; [exact D3|]. split; [exact C3|].
    rewrite app_length. match goal with |- Rd _ _ _ ?b _ => match type of R3 with Rd _ _ _ ?b2 _ => replace b with b2 by lia end end. exact R3.
Qed.

(** A whole entry. *)
Theorem pm2_decodes g its bits data rest pad : sized_hist (pm_hist (g_pm g)) -> pm2_stream single_codes its bits ->
  bytes (data ++ rest) -> byte_string_bits data = bits ++ pad -> (length pad < 16)%nat ->
  exists g2, DecodeLzhuf 13 false (zlen (lz_expand its)) (zlen data) (data ++ rest) g = Ok (g2, calcCrc 0 (lz_expand its), lz_expand its, zlen data, rest).
Proof.
  intros SH (b & bs & -> & HI) HB EB HL. destruct (initGetbits_bits data rest HB) as [r [E R]]. rewrite EB in R. cbn [app] in R.
  unfold DecodeLzhuf. change (dec_dicbit 13) with (@None Z). cbv iota. change (old_dicbit 13) with 13. unfold decode_old. change (Z.shiftl 1 13) with 8192. cbv zeta.
  unfold decodeMethodStart. change (13 =? 1) with false. change (13 =? 2) with false. change (13 =? 3) with false. change (13 =? 8) with false. change (13 =? 9) with false. change (13 =? 13) with true. cbv iota. rewrite E. cbn [bind x_pm x_dh x_cnt x_flag x_pos].
  unfold decodeStartPm2. destruct (init_rep _ SH) as (h & EH & RH). rewrite EH. cbn [bind]. destruct (bit_field _ _ _ _ _ _ R) as [r1 [E1 R1]]. rewrite E1. cbn [bind].
  set (m := PM h _ _ _ _ _ _). set (x := EXT _ m 0 0 0). set (s0 := DST (g_huf g) r1 (afill 8192 32) 0 0 [] 0).
  assert (SV : SI 0 no_codes s0 x []).
  { constructor; try reflexivity.
    - apply DI_blank13.
    - apply Forall_nil.
    - constructor; discriminate.
    - change (zlen (@nil Z)) with 0. exists 0. split; [lia|]. split; [lia|]. split; [reflexivity|exact RH]. }
  set (size := zlen (lz_expand its)). pose proof (zlen_nonneg its) as ZN. pose proof (zlen_nonneg (lz_expand its)) as ZE. fold size in ZE.
  destruct (pm2_loop size (zlen data) rest (S (Z.to_nat (size + 1) - length its)) its 0 no_codes s0 x [] bs _ pad SV (or_introl eq_refl) ltac:(lia) HI R1 ltac:(unfold size; apply Z.le_refl)) as (L & s2 & x2 & E2 & D2 & C2 & R2).
  fold (lz_expand its) in L, D2, C2. fold size in L, C2. change (zlen (@nil Z)) with 0 in L.
  rewrite loop_loopN by lia. replace (Z.to_nat (size + 2)) with (length its + S (Z.to_nat (size + 1) - length its))%nat by (unfold zlen in L, ZN; lia).
  rewrite E2. cbn [loopN]. unfold old_step at 1. rewrite C2, Z.ltb_irrefl. cbn [bind].
  destruct (dst_final _ _ _ D2) as [F1 [F2 [F3 F4]]]. cbv zeta in F1, F2, F3, F4. cbn [dr_crc dr_out dr_readSize dr_in]. rewrite F1, F2, F4.
  destruct (Rd_end _ _ _ _ _ R2) as [Z1 Z2].
  { assert (Q : length (byte_string_bits data) = (S (length bs) + length pad)%nat) by (rewrite EB, app_length; reflexivity).
    rewrite byte_string_bits_length in Q. unfold zlen. lia. }
  rewrite Z1, Z2, Z.sub_0_r. eexists. reflexivity.
Qed.
