(** Facts about canonical codes. *)
From Verif Require Import Go GoLemmas S_Bits P_Bits S_Huff P_Bitio.

Strategy 100 [sumn for_ctl for_up loopN loopP].

Lemma sumn_S n f : sumn (S n) f = sumn n f + f (Z.of_nat n).
Proof. reflexivity. Qed.

Lemma sumn_ext n f g : (forall k, 0 <= k < Z.of_nat n -> f k = g k) -> sumn n f = sumn n g.
Proof.
  induction n as [|n IH]; intros H; [reflexivity|].
  rewrite !sumn_S, IH, H by (intros; try apply H; lia). reflexivity.
Qed.

Lemma sumn_0 n f : (forall k, 0 <= k < Z.of_nat n -> f k = 0) -> sumn n f = 0.
Proof.
  induction n as [|n IH]; intros H; [reflexivity|].
  rewrite sumn_S, IH, H by (intros; try apply H; lia). reflexivity.
Qed.

Lemma sumn_add n f g : sumn n (fun k => f k + g k) = sumn n f + sumn n g.
Proof. induction n as [|n IH]; [reflexivity|]. rewrite !sumn_S, IH. lia. Qed.

Lemma sumn_scale n c f : sumn n (fun k => c * f k) = c * sumn n f.
Proof. induction n as [|n IH]; [simpl; lia|]. rewrite !sumn_S, IH. lia. Qed.

Lemma sumn_le n f g : (forall k, 0 <= k < Z.of_nat n -> f k <= g k) -> sumn n f <= sumn n g.
Proof.
  induction n as [|n IH]; intros H; [simpl; lia|].
  rewrite !sumn_S. specialize (IH ltac:(intros; apply H; lia)). specialize (H (Z.of_nat n) ltac:(lia)). lia.
Qed.

Lemma sumn_nonneg n f : (forall k, 0 <= k < Z.of_nat n -> 0 <= f k) -> 0 <= sumn n f.
Proof.
  intros H. rewrite <- (sumn_0 n (fun _ => 0)) by auto. now apply sumn_le.
Qed.

Lemma sumn_upd n f g i : 0 <= i < Z.of_nat n ->
  (forall k, 0 <= k < Z.of_nat n -> k <> i -> g k = f k) ->
  sumn n g = sumn n f + (g i - f i).
Proof.
  induction n as [|n IH]; intros Hi H; [lia|].
  rewrite !sumn_S. destruct (Z.eq_dec i (Z.of_nat n)) as [->|N].
  - rewrite (sumn_ext n g f) by (intros; apply H; lia). lia.
  - rewrite IH by (try lia; intros; apply H; lia). rewrite (H (Z.of_nat n)) by lia. lia.
Qed.

Lemma sumn_split n m f : sumn (n + m) f = sumn n f + sumn m (fun k => f (k + Z.of_nat n)).
Proof.
  induction m as [|m IH].
  - rewrite Nat.add_0_r. simpl. lia.
  - rewrite Nat.add_succ_r, !sumn_S, IH. replace (Z.of_nat (n + m)) with (Z.of_nat m + Z.of_nat n) by lia. lia.
Qed.

Lemma sumn_term n f i : 0 <= i < Z.of_nat n -> (forall k, 0 <= k < Z.of_nat n -> 0 <= f k) ->
  f i <= sumn n f.
Proof.
  induction n as [|n IH]; intros Hi H; [lia|]. rewrite sumn_S.
  destruct (Z.eq_dec i (Z.of_nat n)) as [->|N].
  - assert (0 <= sumn n f) by (apply sumn_nonneg; intros; apply H; lia). lia.
  - specialize (IH ltac:(lia) ltac:(intros; apply H; lia)). specialize (H (Z.of_nat n) ltac:(lia)). lia.
Qed.

Lemma sumn_two n f i j : 0 <= i < Z.of_nat n -> 0 <= j < Z.of_nat n -> i <> j ->
  (forall k, 0 <= k < Z.of_nat n -> 0 <= f k) -> f i + f j <= sumn n f.
Proof.
  intros Hi Hj N H.
  set (g := fun k => if k =? i then 0 else f k).
  assert (E : sumn n g = sumn n f + (g i - f i)).
  { apply sumn_upd; auto. intros k Hk Nk. unfold g. destruct (Z.eqb_spec k i); auto; lia. }
  assert (G : g j <= sumn n g).
  { apply sumn_term; auto. intros k Hk. unfold g. destruct (k =? i); [lia|auto]. }
  unfold g in E, G at 1. rewrite Z.eqb_refl in E.
  destruct (Z.eqb_spec j i); [congruence|]. fold g in E. lia.
Qed.

(** ** Weights and the canonical code *)

Section Code.
Variable n : Z.
Variable len : Z -> Z.
Hypothesis Hn : 0 <= n.
Hypothesis Hlen : lengths_ok n len.

Lemma weight_nonneg l : 0 <= l <= 16 -> 0 <= weight l.
Proof. intros. unfold weight. destruct (l =? 0); [lia|]. apply Z.pow_nonneg; lia. Qed.

Lemma weight_pos l : 1 <= l <= 16 -> weight l = 2 ^ (16 - l) /\ 0 < weight l.
Proof.
  intros. unfold weight. destruct (Z.eqb_spec l 0); [lia|]. split; auto. apply Z.pow_pos_nonneg; lia.
Qed.

Lemma weight_ge1 l : 1 <= l <= 16 -> 1 <= weight l.
Proof. intros H. destruct (weight_pos l H). lia. Qed.

Lemma weight_div a b : 1 <= a <= b -> b <= 16 -> (weight b | weight a).
Proof.
  intros. rewrite (proj1 (weight_pos a ltac:(lia))), (proj1 (weight_pos b ltac:(lia))).
  exists (2 ^ (b - a)). rewrite <- Z.pow_add_r by lia. f_equal. lia.
Qed.

Lemma kterm k : 0 <= k < Z.of_nat (Z.to_nat n) -> 0 <= weight (len k).
Proof. intros. apply weight_nonneg, Hlen. lia. Qed.

Lemma cterm c k : 0 <= k < Z.of_nat (Z.to_nat n) ->
  0 <= (if before len k c then weight (len k) else 0).
Proof. intros. destruct (before len k c); [now apply kterm|lia]. Qed.

Lemma before_irrefl c : before len c c = false.
Proof. unfold before. rewrite Z.ltb_irrefl, Z.ltb_irrefl, andb_false_r. reflexivity. Qed.

Lemma before_total c d : c <> d -> before len c d = true \/ before len d c = true.
Proof.
  unfold before. intros.
  destruct (Z.ltb_spec (len c) (len d)), (Z.ltb_spec (len d) (len c)), (Z.eqb_spec (len c) (len d)),
    (Z.eqb_spec (len d) (len c)), (Z.ltb_spec c d), (Z.ltb_spec d c); simpl; auto; lia.
Qed.

Lemma before_trans a b c : before len a b = true -> before len b c = true -> before len a c = true.
Proof.
  unfold before.
  destruct (Z.ltb_spec (len a) (len b)), (Z.ltb_spec (len b) (len c)), (Z.ltb_spec (len a) (len c)),
    (Z.eqb_spec (len a) (len b)), (Z.eqb_spec (len b) (len c)), (Z.eqb_spec (len a) (len c)),
    (Z.ltb_spec a b), (Z.ltb_spec b c), (Z.ltb_spec a c); simpl; intros; auto; try discriminate; try lia.
Qed.

Lemma before_len a b : before len a b = true -> len a <= len b.
Proof.
  unfold before. destruct (Z.ltb_spec (len a) (len b)), (Z.eqb_spec (len a) (len b)); simpl; intros; try discriminate; lia.
Qed.

Lemma canon_nonneg c : 0 <= canon n len c.
Proof. apply sumn_nonneg. intros; now apply cterm. Qed.

(** The interval of a codeword ends before the next one starts. *)
Lemma canon_before c d : 0 <= c < n -> before len c d = true ->
  canon n len c + weight (len c) <= canon n len d.
Proof.
  intros Hc Hb. unfold canon.
  set (f := fun k => if before len k c then weight (len k) else 0).
  set (g := fun k => if k =? c then weight (len c) else f k).
  assert (E : sumn (Z.to_nat n) g = sumn (Z.to_nat n) f + (g c - f c)).
  { apply sumn_upd; [lia|]. intros k _ N. unfold g. destruct (Z.eqb_spec k c); auto; lia. }
  assert (Ef : f c = 0) by (unfold f; now rewrite before_irrefl).
  assert (Eg : g c = weight (len c)) by (unfold g; now rewrite Z.eqb_refl).
  rewrite Ef, Eg in E.
  assert (L : sumn (Z.to_nat n) g <= sumn (Z.to_nat n) (fun k => if before len k d then weight (len k) else 0)).
  { apply sumn_le. intros k Hk. unfold g, f. destruct (Z.eqb_spec k c) as [->|N].
    - rewrite Hb. lia.
    - destruct (before len k c) eqn:B1.
      + rewrite (before_trans _ _ _ B1 Hb). lia.
      + now apply cterm. }
  lia.
Qed.

Lemma canon_le_kraft c : 0 <= c < n -> canon n len c + weight (len c) <= kraft n len.
Proof.
  intros Hc. unfold canon, kraft.
  set (f := fun k => if before len k c then weight (len k) else 0).
  set (g := fun k => if k =? c then weight (len c) else f k).
  assert (E : sumn (Z.to_nat n) g = sumn (Z.to_nat n) f + (g c - f c)).
  { apply sumn_upd; [lia|]. intros k _ N. unfold g. destruct (Z.eqb_spec k c); auto; lia. }
  assert (Ef : f c = 0) by (unfold f; now rewrite before_irrefl).
  assert (Eg : g c = weight (len c)) by (unfold g; now rewrite Z.eqb_refl).
  rewrite Ef, Eg in E.
  assert (L : sumn (Z.to_nat n) g <= sumn (Z.to_nat n) (fun k => weight (len k))).
  { apply sumn_le. intros k Hk. unfold g, f. destruct (Z.eqb_spec k c) as [->|N]; [lia|].
    destruct (before len k c); [lia|now apply kterm]. }
  lia.
Qed.

Lemma sumn_divide m f w : (forall k, 0 <= k < Z.of_nat m -> (w | f k)) -> (w | sumn m f).
Proof.
  induction m as [|m IH]; intros H; [apply Z.divide_0_r|]. rewrite sumn_S.
  apply Z.divide_add_r; [apply IH; intros; apply H|apply H]; lia.
Qed.

(** Codewords are aligned to their size. *)
Lemma canon_aligned c : 0 <= c < n -> len c <> 0 -> (weight (len c) | canon n len c).
Proof.
  intros Hc Hl. apply sumn_divide. intros k Hk. rewrite Z2Nat.id in Hk by lia.
  destruct (before len k c) eqn:B; [|apply Z.divide_0_r].
  pose proof (Hlen k Hk). pose proof (Hlen c Hc).
  unfold weight at 2. destruct (Z.eqb_spec (len k) 0) as [E|E]; [apply Z.divide_0_r|].
  pose proof (before_len _ _ B). rewrite <- (proj1 (weight_pos (len k) ltac:(lia))).
  apply weight_div; lia.
Qed.

Lemma canon_range c : 0 <= c < n -> len c <> 0 -> kraft n len <= 65536 ->
  0 <= canon n len c < 65536.
Proof.
  intros Hc Hl Hk. pose proof (canon_nonneg c). pose proof (canon_le_kraft c Hc).
  pose proof (Hlen c Hc). pose proof (proj2 (weight_pos (len c) ltac:(lia))). lia.
Qed.

(** Two used symbols have disjoint intervals. *)
Lemma canon_disjoint c d x : 0 <= c < n -> 0 <= d < n -> len c <> 0 -> len d <> 0 ->
  canon n len c <= x < canon n len c + weight (len c) ->
  canon n len d <= x < canon n len d + weight (len d) -> c = d.
Proof.
  intros Hc Hd Lc Ld I1 I2. destruct (Z.eq_dec c d) as [|N]; auto. exfalso.
  destruct (before_total c d N) as [B|B].
  - pose proof (canon_before c d Hc B). lia.
  - pose proof (canon_before d c Hd B). lia.
Qed.

(** Being in the interval is having the codeword as leading bits. *)
Lemma interval_div c x : 0 <= c < n -> len c <> 0 ->
  (canon n len c <= x < canon n len c + weight (len c) <->
   x / 2 ^ (16 - len c) = canon n len c / 2 ^ (16 - len c)).
Proof.
  intros Hc Hl. pose proof (Hlen c Hc). destruct (weight_pos (len c) ltac:(lia)) as [E P].
  destruct (canon_aligned c Hc Hl) as [q Q]. rewrite Q, E. set (p := 2 ^ (16 - len c)) in *.
  rewrite Z.div_mul by lia.
  pose proof (Z.div_mod x p ltac:(lia)). pose proof (Z.mod_pos_bound x p ltac:(lia)).
  split; intros; nia.
Qed.

Lemma codeword_length c : 0 <= c < n -> length (codeword n len c) = Z.to_nat (len c).
Proof. intros. unfold codeword. apply to_bits_length. Qed.

Lemma codeword_val c : 0 <= c < n -> len c <> 0 -> kraft n len <= 65536 ->
  of_bits (codeword n len c) = canon n len c / 2 ^ (16 - len c).
Proof.
  intros Hc Hl Hk. unfold codeword. apply to_bits_small.
  pose proof (Hlen c Hc). rewrite Z2Nat.id by lia.
  apply div_range; [now apply canon_range|lia].
Qed.

(** The 16-bit window of a stream that starts with a codeword. *)
Lemma codeword_window c t : 0 <= c < n -> len c <> 0 -> kraft n len <= 65536 ->
  peek 16 (codeword n len c ++ t) / 2 ^ (16 - len c) = canon n len c / 2 ^ (16 - len c).
Proof.
  intros Hc Hl Hk. rewrite <- codeword_val by assumption. pose proof (Hlen c Hc) as HL.
  unfold peek. change (Z.to_nat 16) with 16%nat.
  rewrite <- app_assoc, firstn_app, codeword_length by assumption.
  rewrite firstn_all2 by (rewrite codeword_length by assumption; lia).
  rewrite of_bits_app.
  set (u := firstn _ _). assert (Lu : length u = (16 - Z.to_nat (len c))%nat).
  { unfold u. rewrite firstn_length, app_length, repeat_length. lia. }
  rewrite Lu. replace (Z.of_nat (16 - Z.to_nat (len c))) with (16 - len c) by lia.
  rewrite Z.add_comm, Z.div_add by (apply Z.pow_nonzero; lia).
  rewrite Z.div_small; [lia|]. pose proof (of_bits_range u) as R. rewrite Lu in R.
  replace (Z.of_nat (16 - Z.to_nat (len c))) with (16 - len c) in R by lia. exact R.
Qed.

Theorem canon_prefix_free : kraft n len <= 65536 -> prefix_free n len (codeword n len).
Proof.
  intros Hk c d Hc Hd Lc Ld N t E.
  pose proof (codeword_window c t Hc Lc Hk) as W.
  pose proof (codeword_window d [] Hd Ld Hk) as W'. rewrite app_nil_r, E in W'.
  apply N. apply (canon_disjoint c d (peek 16 (codeword n len c ++ t))); auto.
  - now apply interval_div.
  - now apply interval_div.
Qed.

End Code.

(** ** A complete code covers every 16-bit window *)

Lemma sumn_swap n m (f : Z -> Z -> Z) :
  sumn n (fun x => sumn m (fun y => f x y)) = sumn m (fun y => sumn n (fun x => f x y)).
Proof.
  induction n as [|n IH].
  - cbn [sumn]. symmetry. now apply sumn_0.
  - rewrite sumn_S, IH.
    rewrite (sumn_ext m (fun y => sumn (S n) (fun x => f x y))
       (fun y => sumn n (fun x => f x y) + f (Z.of_nat n) y)) by (intros; apply sumn_S).
    now rewrite sumn_add.
Qed.

Lemma sumn_const n c : sumn n (fun _ => c) = c * Z.of_nat n.
Proof. induction n as [|n IH]; [simpl; lia|]. rewrite sumn_S, IH. lia. Qed.

Lemma sumn_interval n lo w : 0 <= lo -> 0 <= w -> lo + w <= Z.of_nat n ->
  sumn n (fun x => if (lo <=? x) && (x <? lo + w) then 1 else 0) = w.
Proof.
  intros Hl Hw H. replace n with (Z.to_nat lo + (Z.to_nat w + (n - Z.to_nat lo - Z.to_nat w)))%nat by lia.
  rewrite !sumn_split.
  rewrite (sumn_0 (Z.to_nat lo)).
  2:{ intros k Hk. destruct (Z.leb_spec lo k); [lia|reflexivity]. }
  rewrite (sumn_ext (Z.to_nat w) _ (fun _ => 1)).
  2:{ intros k Hk. destruct (Z.leb_spec lo (k + Z.of_nat (Z.to_nat lo))), (Z.ltb_spec (k + Z.of_nat (Z.to_nat lo)) (lo + w)); cbn [andb]; lia. }
  rewrite sumn_const. rewrite (sumn_0 (n - Z.to_nat lo - Z.to_nat w)).
  2:{ intros k Hk. match goal with |- (if (lo <=? ?x) && (?x <? lo + w) then _ else _) = _ =>
        destruct (Z.leb_spec lo x), (Z.ltb_spec x (lo + w)); cbn [andb]; lia end. }
  lia.
Qed.

Definition inI (n : Z) (len : Z -> Z) (c x : Z) : bool :=
  (canon n len c <=? x) && (x <? canon n len c + weight (len c)).

Lemma inI_spec n len c x : inI n len c x = true <-> canon n len c <= x < canon n len c + weight (len c).
Proof.
  unfold inI. destruct (Z.leb_spec (canon n len c) x), (Z.ltb_spec x (canon n len c + weight (len c)));
    cbn [andb]; split; intros; try lia; discriminate.
Qed.

Lemma canon_cover n len x : 0 <= n -> lengths_ok n len -> kraft n len = 65536 ->
  0 <= x < 65536 ->
  exists c, 0 <= c < n /\ len c <> 0 /\ canon n len c <= x < canon n len c + weight (len c).
Proof.
  intros Hn Hlen Hk Hx.
  destruct (forallb (fun c => negb (inI n len (Z.of_nat c) x)) (List.seq 0 (Z.to_nat n))) eqn:A.
  - exfalso. rewrite forallb_forall in A.
    assert (A' : forall c, 0 <= c < n -> inI n len c x = false).
    { intros c Hc. specialize (A (Z.to_nat c)). rewrite Z2Nat.id in A by lia.
      specialize (A ltac:(apply in_seq; lia)). now destruct (inI n len c x). }
    set (M := Z.to_nat 65536).
    assert (HM : Z.of_nat M = 65536) by (unfold M; lia).
    set (N := fun x => sumn (Z.to_nat n) (fun c => if inI n len c x then 1 else 0)).
    assert (S1 : sumn M N = 65536).
    { unfold N. rewrite sumn_swap. rewrite <- Hk. unfold kraft. apply sumn_ext. intros c Hc.
      unfold inI. apply sumn_interval.
      - now apply canon_nonneg.
      - apply weight_nonneg. apply Hlen. lia.
      - rewrite HM, <- Hk. apply canon_le_kraft; auto. lia. }
    assert (N1 : forall y, 0 <= N y <= 1).
    { intros y. unfold N. split.
      - apply sumn_nonneg. intros. destruct (inI _ _ _ _); lia.
      - destruct (Z_le_gt_dec (sumn (Z.to_nat n) (fun c => if inI n len c y then 1 else 0)) 1) as [|G]; auto. exfalso.
        assert (U : forall c d, 0 <= c < n -> 0 <= d < n -> inI n len c y = true -> inI n len d y = true -> c = d).
        { intros c d Hc Hd Ic Id. apply inI_spec in Ic. apply inI_spec in Id.
          apply (canon_disjoint n len Hlen c d y); auto; intros E; [rewrite E in Ic; change (weight 0) with 0 in Ic; lia|rewrite E in Id; change (weight 0) with 0 in Id; lia]. }
        assert (G2 : forall m : nat, (Z.of_nat m <= n) ->
          sumn m (fun c => if inI n len c y then 1 else 0) <= 1 /\
          (sumn m (fun c => if inI n len c y then 1 else 0) >= 1 -> exists c, 0 <= c < Z.of_nat m /\ inI n len c y = true)).
        { induction m as [|m IH]; intros Hm; [cbn [sumn]; split; [lia|lia]|].
          rewrite sumn_S. destruct (IH ltac:(lia)) as [I1 I2].
          destruct (inI n len (Z.of_nat m) y) eqn:E.
          - split.
            + destruct (Z_le_gt_dec (sumn m (fun c => if inI n len c y then 1 else 0)) 0); [lia|].
              destruct I2 as [c [Hc Ec]]; [lia|].
              assert (c = Z.of_nat m) by (apply U; auto; lia). lia.
            + intros _. exists (Z.of_nat m). split; [lia|exact E].
          - split; [lia|]. intros H. destruct I2 as [c [Hc Ec]]; [lia|]. exists c. split; [lia|exact Ec]. }
        destruct (G2 (Z.to_nat n) ltac:(lia)). lia. }
    assert (S2 : sumn M N <= 65535).
    { rewrite (sumn_upd M (fun y => if y =? x then 1 else N y) N x).
      - rewrite Z.eqb_refl. replace (N x) with 0.
        + assert (sumn M (fun y => if y =? x then 1 else N y) <= sumn M (fun _ => 1)).
          { apply sumn_le. intros y _. destruct (y =? x); [lia|apply N1]. }
          rewrite sumn_const, HM in H. lia.
        + unfold N. symmetry. apply sumn_0. intros c Hc. rewrite A' by lia. reflexivity.
      - lia.
      - intros y _ Ny. destruct (Z.eqb_spec y x); [lia|reflexivity]. }
    lia.
  - assert (E : exists c, 0 <= c < n /\ inI n len c x = true).
    { clear -A Hn. destruct (existsb (fun c => inI n len (Z.of_nat c) x) (List.seq 0 (Z.to_nat n))) eqn:B.
      - apply existsb_exists in B. destruct B as [c [Hc Ec]]. apply in_seq in Hc. exists (Z.of_nat c). split; [lia|exact Ec].
      - exfalso. assert (forallb (fun c => negb (inI n len (Z.of_nat c) x)) (List.seq 0 (Z.to_nat n)) = true); [|congruence].
        apply forallb_forall. intros c Hc. destruct (inI n len (Z.of_nat c) x) eqn:E; auto.
        assert (existsb (fun c => inI n len (Z.of_nat c) x) (List.seq 0 (Z.to_nat n)) = true); [|congruence].
        apply existsb_exists. eauto. }
    destruct E as [c [Hc Ec]]. apply inI_spec in Ec. exists c. split; auto. split; auto.
    intros E. rewrite E in Ec. change (weight 0) with 0 in Ec. lia.
Qed.

(** The midpoint of an internal prefix is where a codeword starts. *)
Lemma canon_mid n len c d : 0 <= n -> lengths_ok n len -> kraft n len = 65536 ->
  0 <= c < n -> 0 <= d < len c ->
  exists c', 0 <= c' < n /\ len c' <> 0 /\
    canon n len c' = (2 * (canon n len c / 2 ^ (16 - d)) + 1) * 2 ^ (15 - d).
Proof.
  intros Hn Hlen Hk Hc Hd. pose proof (Hlen c Hc) as HLc.
  pose proof (canon_range n len Hlen c Hc ltac:(lia) ltac:(lia)) as Rc.
  set (a := canon n len c / 2 ^ (16 - d)). set (mid := (2 * a + 1) * 2 ^ (15 - d)).
  assert (P15 : 0 < 2 ^ (15 - d)) by (apply Z.pow_pos_nonneg; lia).
  assert (P16 : 2 ^ (16 - d) = 2 * 2 ^ (15 - d)).
  { replace (16 - d) with (Z.succ (15 - d)) by lia. apply Z.pow_succ_r. lia. }
  assert (Ha : 0 <= a < 2 ^ d) by (apply div_range; lia).
  assert (Full : 65536 = 2 ^ d * 2 ^ (16 - d)).
  { rewrite <- Z.pow_add_r by lia. replace (d + (16 - d)) with 16 by lia. reflexivity. }
  assert (Hmid : 0 <= mid < 65536) by (unfold mid; rewrite Full, P16; nia).
  destruct (canon_cover n len mid Hn Hlen Hk Hmid) as [c' [Hc' [Lc' I]]].
  exists c'. split; auto. split; auto. fold mid.
  pose proof (Hlen c' Hc') as HL'.
  destruct (Z_le_gt_dec (d + 1) (len c')) as [L|L].
  - pose proof (canon_aligned n len Hn Hlen c' Hc' Lc') as [q Q].
    destruct (weight_pos (len c') ltac:(lia)) as [W P].
    assert (D : (weight (len c') | mid)).
    { rewrite W. unfold mid. exists ((2 * a + 1) * 2 ^ (len c' - d - 1)).
      rewrite <- Z.mul_assoc, <- Z.pow_add_r by lia. replace (len c' - d - 1 + (16 - len c')) with (15 - d) by lia. reflexivity. }
    destruct D as [q' Q']. clearbody mid. rewrite Q, Q' in I. rewrite Q, Q'.
    set (w := weight (len c')) in *. clearbody w.
    assert (q = q'); [|congruence].
    assert (q <= q') by (apply Z.mul_le_mono_pos_r with w; lia).
    assert (q' < q + 1) by (apply Z.mul_lt_mono_pos_r with w; lia). lia.
  - exfalso. apply (interval_div n len Hn Hlen c' mid Hc' Lc') in I.
    assert (M1 : mid / 2 ^ (16 - d) = a).
    { unfold mid. rewrite P16. symmetry. apply Z.div_unique with (2 ^ (15 - d)); [lia|ring]. }
    assert (SH : forall y, y / 2 ^ (16 - len c') = (y / 2 ^ (16 - d)) / 2 ^ (d - len c')).
    { intros y. rewrite Z.div_div by (try apply Z.pow_nonzero; try apply Z.pow_pos_nonneg; lia).
      rewrite <- Z.pow_add_r by lia. replace (16 - d + (d - len c')) with (16 - len c') by lia. reflexivity. }
    rewrite SH, M1 in I. unfold a in I. rewrite <- SH in I.
    apply (interval_div n len Hn Hlen c' (canon n len c) Hc' Lc') in I.
    assert (c' = c); [|subst; lia].
    apply (canon_disjoint n len Hlen c' c (canon n len c)); auto; try lia.
    pose proof (proj2 (weight_pos (len c) ltac:(lia))). lia.
Qed.
