(** The decoding table built by [makeTable] inverts the canonical code. *)
From Verif Require Import Go GoLemmas S_Bits P_Bits S_Huff P_Bitio P_Huff M_Maketbl P_Maketree.

Section Trie.
Variables (nchar : Z) (len : Z -> Z) (tb : Z).
Hypothesis Hnchar : 1 <= nchar <= 32767.
Hypothesis Htb : 1 <= tb <= 15.
Hypothesis Hlen : lengths_ok nchar len.
Hypothesis Hkraft : kraft nchar len = 65536.
Variables (left0 right0 : arr).
Hypothesis Hleft0 : 2 * nchar - 1 <= alen left0.
Hypothesis Hright0 : 2 * nchar - 1 <= alen right0.

Notation cn := (canon nchar len).
Definition m_ := 16 - tb.

(** First table entry that belongs to long codes. *)
Definition J0 : Z := base nchar len (tb + 1) / 2 ^ m_.

(** The leading [tb + e] bits of the codeword of [c]. *)
Definition pre (c : Z) (e : nat) : Z := cn c / 2 ^ (16 - tb - Z.of_nat e).

(** Content of the slot reached by the [tb + e] bits [a]. *)
Fixpoint slotv (s : tbl) (e : nat) (a : Z) : option Z :=
  match e with
  | O => if (J0 <=? a) && (a <? 2 ^ tb) then Some (at_ (t_table s) a) else None
  | S e' =>
      match slotv s e' (a / 2) with
      | None => None
      | Some n =>
          if n <? nchar then None
          else Some (if Z.odd a then at_ (t_right s) n else at_ (t_left s) n)
      end
  end.

Definition isptr (s : tbl) (w : where_) (p : Z) (e : nat) (a : Z) : Prop :=
  match w with
  | InTable => e = O /\ p = a /\ J0 <= a < 2 ^ tb
  | InRight => exists e', e = S e' /\ slotv s e' (a / 2) = Some p /\ nchar <= p /\ Z.odd a = true
  | InLeft => exists e', e = S e' /\ slotv s e' (a / 2) = Some p /\ nchar <= p /\ Z.odd a = false
  end.

Definition inj_ (s : tbl) : Prop := forall e a e' a' n,
  slotv s e a = Some n -> slotv s e' a' = Some n -> nchar <= n -> e = e' /\ a = a'.

Lemma J0_nonneg : 0 <= J0.
Proof.
  unfold J0, m_. apply Z.div_pos; [|apply Z.pow_pos_nonneg; lia].
  apply sumn_nonneg. intros k Hk. destruct (len k <? tb + 1); [|lia]. apply weight_nonneg. apply Hlen. lia.
Qed.

Lemma slotv_nonneg s e : forall a v, slotv s e a = Some v -> 0 <= a.
Proof.
  pose proof J0_nonneg.
  induction e as [|e IH]; intros a v E; cbn [slotv] in E.
  - destruct (Z.leb_spec J0 a); [lia|discriminate].
  - destruct (slotv s e (a / 2)) eqn:E'; [|discriminate]. specialize (IH _ _ E').
    pose proof (Z.div_mod a 2 ltac:(lia)). pose proof (Z.mod_pos_bound a 2 ltac:(lia)). lia.
Qed.

Definition set_slot (w : where_) (p v : Z) (s : tbl) : tbl :=
  match w with
  | InTable => TB (upd (t_table s) p v) (t_left s) (t_right s) (t_avail s)
  | InRight => TB (t_table s) (t_left s) (upd (t_right s) p v) (t_avail s)
  | InLeft => TB (t_table s) (upd (t_left s) p v) (t_right s) (t_avail s)
  end.

Lemma half_inj a b : a / 2 = b / 2 -> Z.odd a = Z.odd b -> a = b.
Proof.
  intros H1 H2. rewrite (Z.div2_odd a), (Z.div2_odd b), !Z.div2_div, H1, H2. reflexivity.
Qed.

Lemma set_slot_spec s w p e a v v0 :
  inj_ s -> isptr s w p e a -> slotv s e a = Some v0 -> v0 < nchar ->
  (nchar <= v -> (forall e a n, slotv s e a = Some n -> n < v) /\
     at_ (t_left s) v = 0 /\ at_ (t_right s) v = 0) ->
  forall e' a', slotv (set_slot w p v s) e' a' =
    if (Nat.eqb e' e) && (a' =? a) then Some v
    else if (nchar <=? v) && (Nat.eqb e' (S e)) && (a' / 2 =? a) then Some 0
    else slotv s e' a'.
Proof.
  intros Hinj Hp Hv0 Hv0n Hfresh. pose proof J0_nonneg as HJ.
  assert (Hchild : forall x, x / 2 = a -> slotv s (S e) x = None).
  { intros x Hx. cbn [slotv]. rewrite Hx, Hv0. destruct (Z.ltb_spec v0 nchar); [reflexivity|lia]. }
  induction e' as [|e' IH]; intros a'.
  - cbn [slotv]. rewrite (andb_comm (nchar <=? v)). cbn [Nat.eqb andb].
    destruct w; cbn [set_slot t_table isptr] in *.
    + destruct Hp as [-> [-> Ha]]. cbn [Nat.eqb andb].
      destruct (Z.eqb_spec a' a) as [->|N].
      * destruct (Z.leb_spec J0 a), (Z.ltb_spec a (2 ^ tb)); try lia. cbn [andb]. now rewrite at_upd_eq.
      * destruct (Z.leb_spec J0 a'), (Z.ltb_spec a' (2 ^ tb)); cbn [andb]; auto.
        rewrite at_upd_ne by lia. reflexivity.
    + destruct Hp as [e0 [-> _]]. reflexivity.
    + destruct Hp as [e0 [-> _]]. reflexivity.
  - cbn [slotv]. rewrite IH. clear IH.
    destruct (Nat.eqb e' e && (a' / 2 =? a)) eqn:C1.
    + apply andb_true_iff in C1. destruct C1 as [C1 C2]. apply Nat.eqb_eq in C1. apply Z.eqb_eq in C2. subst e'.
      assert (NE : Nat.eqb (S e) e = false) by (apply Nat.eqb_neq; lia).
      rewrite NE. cbn [andb]. rewrite Nat.eqb_refl, C2, Z.eqb_refl, !andb_true_r.
      rewrite Hv0. destruct (Z.ltb_spec v0 nchar); [|lia].
      destruct (Z.ltb_spec v nchar), (Z.leb_spec nchar v); try lia; [reflexivity|].
      destruct (Hfresh ltac:(lia)) as [F1 [F2 F3]]. f_equal.
      assert (Hpv : w <> InTable -> p < v).
      { destruct w; intros Hw; [congruence| |]; cbn [isptr] in Hp; destruct Hp as [e0 [_ [Hp _]]]; eapply F1; exact Hp. }
      destruct w; cbn [set_slot t_left t_right]; [now destruct (Z.odd a')| |].
      * specialize (Hpv ltac:(congruence)). cbn [isptr] in Hp. destruct Hp as [e0 [_ [_ [Hpn _]]]].
        rewrite at_upd_ne by lia. now destruct (Z.odd a').
      * specialize (Hpv ltac:(congruence)). cbn [isptr] in Hp. destruct Hp as [e0 [_ [_ [Hpn _]]]].
        rewrite at_upd_ne by lia. now destruct (Z.odd a').
    + destruct ((nchar <=? v) && (Nat.eqb e' (S e)) && (a' / 2 / 2 =? a)) eqn:C2.
      * apply andb_true_iff in C2. destruct C2 as [C2 C4]. apply andb_true_iff in C2. destruct C2 as [C2 C3].
        apply Nat.eqb_eq in C3. apply Z.eqb_eq in C4. subst e'.
        destruct (Z.ltb_spec 0 nchar); [|lia].
        rewrite (Hchild _ C4).
        assert (NE : Nat.eqb (S (S e)) e = false) by (apply Nat.eqb_neq; lia).
        assert (NE2 : Nat.eqb (S (S e)) (S e) = false) by (apply Nat.eqb_neq; lia).
        rewrite NE, NE2, andb_false_r. reflexivity.
      * rewrite (andb_comm (nchar <=? v)). change (Nat.eqb (S e') (S e)) with (Nat.eqb e' e).
        replace (Nat.eqb e' e && (nchar <=? v) && (a' / 2 =? a)) with false.
        2:{ rewrite andb_comm, andb_assoc, (andb_comm (a' / 2 =? a)), C1. reflexivity. }
        destruct (slotv s e' (a' / 2)) as [n|] eqn:En.
        -- destruct (Z.ltb_spec n nchar) as [Hn|Hn].
           ++ destruct (Nat.eqb (S e') e && (a' =? a)) eqn:C3; [|reflexivity]. exfalso.
              apply andb_true_iff in C3. destruct C3 as [C3 C4]. apply Nat.eqb_eq in C3. apply Z.eqb_eq in C4.
              subst e a'. cbn [slotv] in Hv0. rewrite En in Hv0. destruct (Z.ltb_spec n nchar); [discriminate|lia].
           ++ destruct w; cbn [set_slot t_left t_right isptr] in *.
              ** destruct Hp as [-> _]. reflexivity.
              ** destruct Hp as [e0 [-> [Hps [Hpn Hodd]]]]. change (Nat.eqb (S e') (S e0)) with (Nat.eqb e' e0).
                 destruct (Z.eq_dec n p) as [->|Np].
                 --- destruct (Hinj _ _ _ _ _ En Hps Hpn) as [-> Hh]. rewrite Nat.eqb_refl. cbn [andb].
                     destruct (Z.odd a') eqn:Od.
                     +++ rewrite (half_inj a' a Hh) by congruence. rewrite Z.eqb_refl, at_upd_eq. reflexivity.
                     +++ destruct (Z.eqb_spec a' a) as [->|]; [congruence|]. reflexivity.
                 --- rewrite at_upd_ne by lia.
                     destruct (Nat.eqb e' e0 && (a' =? a)) eqn:C3; [|reflexivity]. exfalso.
                     apply andb_true_iff in C3. destruct C3 as [C3 C4]. apply Nat.eqb_eq in C3. apply Z.eqb_eq in C4. subst. congruence.
              ** destruct Hp as [e0 [-> [Hps [Hpn Hodd]]]]. change (Nat.eqb (S e') (S e0)) with (Nat.eqb e' e0).
                 destruct (Z.eq_dec n p) as [->|Np].
                 --- destruct (Hinj _ _ _ _ _ En Hps Hpn) as [-> Hh]. rewrite Nat.eqb_refl. cbn [andb].
                     destruct (Z.odd a') eqn:Od.
                     +++ destruct (Z.eqb_spec a' a) as [->|]; [congruence|]. reflexivity.
                     +++ rewrite (half_inj a' a Hh) by congruence. rewrite Z.eqb_refl, at_upd_eq. reflexivity.
                 --- rewrite at_upd_ne by lia.
                     destruct (Nat.eqb e' e0 && (a' =? a)) eqn:C3; [|reflexivity]. exfalso.
                     apply andb_true_iff in C3. destruct C3 as [C3 C4]. apply Nat.eqb_eq in C3. apply Z.eqb_eq in C4. subst. congruence.
        -- destruct (Nat.eqb (S e') e && (a' =? a)) eqn:C3; [|reflexivity]. exfalso.
           apply andb_true_iff in C3. destruct C3 as [C3 C4]. apply Nat.eqb_eq in C3. apply Z.eqb_eq in C4.
           subst e a'. cbn [slotv] in Hv0. rewrite En in Hv0. discriminate.
Qed.

(** Zeroing an unallocated pair changes no slot. *)
Lemma slotv_fresh s n x y : (forall e a k, slotv s e a = Some k -> k < n) ->
  0 <= n -> forall e a,
  slotv (TB (t_table s) (upd (t_left s) n x) (upd (t_right s) n y) (t_avail s)) e a = slotv s e a.
Proof.
  intros F Hn. induction e as [|e IH]; intros a; [reflexivity|].
  cbn [slotv]. rewrite IH. destruct (slotv s e (a / 2)) as [k|] eqn:E; [|reflexivity].
  destruct (Z.ltb_spec k nchar); [reflexivity|]. cbn [t_left t_right].
  pose proof (F _ _ _ E). rewrite !at_upd_ne by lia. reflexivity.
Qed.

(** ** Invariant: inner nodes come from codes before [JN], leaves are the codes
    before [JL]; [l] lists a code starting at the midpoint of each node. *)
Definition lng (c : Z) : Prop := 0 <= c < nchar /\ tb < len c.
Definition lv (c : Z) : nat := Z.to_nat (len c - tb).

Record LI (JN JL : Z) (s : tbl) (l : list Z) : Prop := {
  LI_table : alen (t_table s) = 2 ^ tb;
  LI_left : alen (t_left s) = alen left0;
  LI_right : alen (t_right s) = alen right0;
  LI_frame : forall i, 0 <= i -> ~ (nchar <= i < t_avail s) ->
     at_ (t_left s) i = at_ left0 i /\ at_ (t_right s) i = at_ right0 i;
  LI_avail : t_avail s = nchar + zlen l;
  LI_inj : inj_ s;
  LI_rng : forall e a n, slotv s e a = Some n -> 0 <= n < t_avail s;
  LI_node : forall e a n, slotv s e a = Some n -> nchar <= n ->
     exists c, lng c /\ c < JN /\ tb + Z.of_nat e < len c /\ pre c e = a;
  LI_leaf : forall c, lng c -> c < JL -> slotv s (lv c) (pre c (lv c)) = Some c;
  LI_sym : forall e a v, slotv s e a = Some v -> v <> 0 -> v < nchar ->
     lng v /\ v < JL /\ e = lv v /\ a = pre v e;
  LI_nodup : NoDup l;
  LI_list : forall c, In c l -> 0 <= c < nchar /\ len c <> 0 /\
     exists e a n, slotv s e a = Some n /\ nchar <= n /\ cn c = (2 * a + 1) * 2 ^ (15 - tb - Z.of_nat e)
}.

Lemma lng_len c : lng c -> tb < len c <= 16.
Proof. intros [H1 H2]. pose proof (Hlen c H1). lia. Qed.

Lemma cn_range c : 0 <= c < nchar -> len c <> 0 -> 0 <= cn c < 65536.
Proof. intros. apply canon_range; auto; lia. Qed.

Lemma pre_half c e : tb + Z.of_nat e < 16 -> pre c (S e) / 2 = pre c e.
Proof.
  intros H. unfold pre. rewrite Z.div_div by (try apply Z.pow_pos_nonneg; try apply Z.pow_nonzero; lia).
  f_equal. replace (16 - tb - Z.of_nat e) with (Z.succ (16 - tb - Z.of_nat (S e))) by lia.
  rewrite Z.pow_succ_r by lia. ring.
Qed.

Lemma pre_le c d e : (d <= e)%nat -> tb + Z.of_nat e <= 16 -> pre c d = pre c e / 2 ^ (Z.of_nat e - Z.of_nat d).
Proof.
  intros H1 H2. unfold pre. rewrite Z.div_div by (try apply Z.pow_pos_nonneg; try apply Z.pow_nonzero; lia).
  f_equal. rewrite <- Z.pow_add_r by lia. f_equal. lia.
Qed.

(** Prefix freeness. *)
Lemma prefix_eq c c' : lng c -> lng c' -> (lv c' <= lv c)%nat -> pre c (lv c') = pre c' (lv c') -> c = c'.
Proof.
  intros Hc Hc' HL E. pose proof (lng_len c Hc). pose proof (lng_len c' Hc').
  destruct Hc as [Hc Lc], Hc' as [Hc' Lc'].
  assert (Ln : Z.of_nat (lv c') = len c' - tb) by (unfold lv; lia).
  unfold pre in E. rewrite Ln in E. replace (16 - tb - (len c' - tb)) with (16 - len c') in E by lia.
  apply (interval_div nchar len ltac:(lia) Hlen c' (cn c) Hc' ltac:(lia)) in E.
  apply (canon_disjoint nchar len Hlen c c' (cn c)); auto; try lia.
  pose proof (proj2 (weight_pos (len c) ltac:(lia))). lia.
Qed.

Lemma LI_mono JN JN' JL s l : LI JN JL s l -> JN <= JN' -> LI JN' JL s l.
Proof.
  intros H L. destruct H. constructor; auto.
  intros e a n Hs Hn. destruct (LI_node0 e a n Hs Hn) as [c [H1 [H2 H3]]]. exists c. split; auto. split; [lia|auto].
Qed.

(** Room for one more node. *)
Lemma LI_room JN JL s l c : LI JN JL s l -> ~ In c l -> 0 <= c < nchar -> len c <> 0 -> 0 < cn c ->
  (forall x, In x l -> 0 < cn x) -> zlen l + 2 <= nchar.
Proof.
  intros H Nc Hc Lc Pc Pl.
  destruct (canon_cover nchar len 0 ltac:(lia) Hlen Hkraft ltac:(lia)) as [c0 [H0 [L0 I0]]].
  pose proof (cn_range c0 H0 L0). assert (E0 : cn c0 = 0) by lia.
  assert (ND : NoDup (c0 :: c :: l)).
  { constructor.
    - intros [->|Hi]; [lia|]. specialize (Pl _ Hi). lia.
    - constructor; auto. apply (LI_nodup _ _ _ _ H). }
  assert (L : (length (c0 :: c :: l) <= length (map Z.of_nat (List.seq 0 (Z.to_nat nchar))))%nat).
  { apply NoDup_incl_length; auto. intros x Hx. apply in_map_iff. exists (Z.to_nat x).
    assert (0 <= x < nchar).
    { destruct Hx as [<-|[<-|Hx]]; auto. apply (LI_list _ _ _ _ H x Hx). }
    split; [lia|]. apply in_seq. lia. }
  rewrite map_length, seq_length in L. cbn [length] in L. unfold zlen. lia.
Qed.

Lemma odd_pow_unique a b i j : 0 <= i -> 0 <= j -> (2 * a + 1) * 2 ^ i = (2 * b + 1) * 2 ^ j -> i = j /\ a = b.
Proof.
  intros Hi Hj E.
  assert (G : forall i j a b, 0 <= i < j -> (2 * a + 1) * 2 ^ i = (2 * b + 1) * 2 ^ j -> False).
  { clear. intros i j a b H E. replace j with (i + (1 + (j - i - 1))) in E by lia.
    rewrite !Z.pow_add_r in E by lia. change (2 ^ 1) with 2 in E.
    pose proof (Z.pow_pos_nonneg 2 i ltac:(lia) ltac:(lia)).
    assert ((2 * a + 1) = (2 * b + 1) * (2 * 2 ^ (j - i - 1))).
    { apply (Z.mul_reg_r _ _ (2 ^ i)); [lia|]. rewrite E. ring. }
    assert (Z.odd (2 * a + 1) = Z.odd ((2 * b + 1) * (2 * 2 ^ (j - i - 1)))) as O by congruence.
    rewrite Z.odd_mul, Z.odd_mul, andb_false_r in O. rewrite Z.odd_add, Z.odd_mul in O. discriminate. }
  destruct (Z.lt_trichotomy i j) as [L|[L|L]].
  - exfalso. apply (G i j a b); auto.
  - subst. split; auto. pose proof (Z.pow_pos_nonneg 2 j ltac:(lia) ltac:(lia)).
    apply Z.mul_reg_r in E; lia.
  - exfalso. apply (G j i b a); auto.
Qed.

Lemma list_pos JN JL s l x : LI JN JL s l -> In x l -> 0 < cn x.
Proof.
  intros H Hx. destruct (LI_list _ _ _ _ H x Hx) as [_ [_ [e [a [n [E [Hn ->]]]]]]].
  destruct (LI_node _ _ _ _ H e a n E Hn) as [c [Hc [_ [Hl <-]]]].
  pose proof (slotv_nonneg _ _ _ _ E). pose proof (lng_len c Hc).
  apply Z.mul_pos_pos; [lia|]. apply Z.pow_pos_nonneg; lia.
Qed.

(** Creating a node on the way to [c]. *)
Lemma create_ok c JL s l w p e : LI (c + 1) JL s l -> JL <= c -> lng c -> tb + Z.of_nat e < len c ->
  isptr s w p e (pre c e) -> slotv s e (pre c e) = Some 0 ->
  let n := t_avail s in
  n < 2 * nchar - 1 /\
  exists l', LI (c + 1) JL
    (let s1 := set_slot w p n (TB (t_table s) (upd (t_left s) n 0) (upd (t_right s) n 0) n) in
     TB (t_table s1) (t_left s1) (t_right s1) (n + 1)) l' /\
  (forall e' a', slotv (let s1 := set_slot w p n (TB (t_table s) (upd (t_left s) n 0) (upd (t_right s) n 0) n) in
     TB (t_table s1) (t_left s1) (t_right s1) (n + 1)) e' a' =
    if (Nat.eqb e' e) && (a' =? pre c e) then Some n
    else if (Nat.eqb e' (S e)) && (a' / 2 =? pre c e) then Some 0
    else slotv s e' a').
Proof.
  intros H HJ Hc He Hp H0 n.
  destruct (canon_mid nchar len c (tb + Z.of_nat e) ltac:(lia) Hlen Hkraft (proj1 Hc) ltac:(lia)) as [c' [Hc' [Lc' Mid]]].
  replace (16 - (tb + Z.of_nat e)) with (16 - tb - Z.of_nat e) in Mid by lia.
  replace (15 - (tb + Z.of_nat e)) with (15 - tb - Z.of_nat e) in Mid by lia.
  fold (pre c e) in Mid. pose proof (lng_len c Hc) as HLc.
  pose proof (slotv_nonneg _ _ _ _ H0) as Hpe.
  assert (Nin : ~ In c' l).
  { intros Hin. destruct (LI_list _ _ _ _ H c' Hin) as [_ [_ [e2 [a2 [n2 [E2 [Hn2 M2]]]]]]].
    destruct (LI_node _ _ _ _ H _ _ _ E2 Hn2) as [d [Hd [_ [Hde _]]]]. pose proof (lng_len d Hd).
    rewrite Mid in M2. apply odd_pow_unique in M2; try lia. destruct M2 as [M2 M3].
    assert (e = e2) by lia. subst e2. rewrite <- M3, H0 in E2. injection E2 as <-. lia. }
  assert (Room : zlen l + 2 <= nchar).
  { apply (LI_room (c + 1) JL s l c'); auto.
    - rewrite Mid. apply Z.mul_pos_pos; [lia|apply Z.pow_pos_nonneg; lia].
    - intros x Hx. apply (list_pos (c + 1) JL s l); auto. }
  pose proof (LI_avail _ _ _ _ H) as Hav. pose proof (zlen_nonneg l) as Hl0.
  assert (Hn : n = nchar + zlen l) by exact Hav.
  split; [lia|]. exists (c' :: l).
  set (s0 := TB (t_table s) (upd (t_left s) n 0) (upd (t_right s) n 0) n).
  assert (S0 : forall e' a', slotv s0 e' a' = slotv s e' a').
  { intros. unfold s0. apply (slotv_fresh s n 0 0); [|lia]. intros e1 a1 k E1. apply (LI_rng _ _ _ _ H _ _ _ E1). }
  set (s1 := set_slot w p n s0).
  assert (SS : forall e' a', slotv (TB (t_table s1) (t_left s1) (t_right s1) (n + 1)) e' a' =
    if (Nat.eqb e' e) && (a' =? pre c e) then Some n
    else if (Nat.eqb e' (S e)) && (a' / 2 =? pre c e) then Some 0
    else slotv s e' a').
  { intros e' a'.
    assert (X : slotv (TB (t_table s1) (t_left s1) (t_right s1) (n + 1)) e' a' = slotv s1 e' a').
    { clear. revert a'. induction e' as [|e' IH]; intros a'; [reflexivity|]. cbn [slotv]. rewrite IH. reflexivity. }
    rewrite X. unfold s1.
    rewrite (set_slot_spec s0 w p e (pre c e) n 0).
    - rewrite S0. destruct (Z.leb_spec nchar n); [|lia]. reflexivity.
    - intros e1 a1 e2 a2 k E1 E2 Hk. rewrite S0 in E1, E2. eapply (LI_inj _ _ _ _ H); eauto.
    - destruct w; cbn [isptr] in *; [exact Hp| |];
        destruct Hp as [e0 [A1 [A2 A3]]]; exists e0; rewrite S0; auto.
    - now rewrite S0.
    - lia.
    - intros _. split; [|unfold s0; cbn [t_left t_right]; rewrite !at_upd_eq; auto].
      intros e1 a1 k E1. rewrite S0 in E1. apply (LI_rng _ _ _ _ H _ _ _ E1). }
  split; [|exact SS]. cbv zeta. fold s0. fold s1.
  assert (LEN : alen (t_table s1) = alen (t_table s) /\ alen (t_left s1) = alen (t_left s) /\ alen (t_right s1) = alen (t_right s)).
  { unfold s1, s0. destruct w; cbn [set_slot t_table t_left t_right]; rewrite ?alen_upd; auto. }
  destruct LEN as [LE1 [LE2 LE3]].
  assert (OLD : forall e' a' k, slotv s e' a' = Some k -> k <> 0 \/ e' <> e \/ a' <> pre c e ->
     slotv (TB (t_table s1) (t_left s1) (t_right s1) (n + 1)) e' a' = Some k).
  { intros e' a' k E D. rewrite SS.
    destruct (Nat.eqb_spec e' e) as [->|]; cbn [andb].
    - destruct (Z.eqb_spec a' (pre c e)) as [->|].
      + exfalso. rewrite H0 in E. injection E as <-. destruct D as [D|[D|D]]; auto.
      + assert (NE : Nat.eqb e (S e) = false) by (apply Nat.eqb_neq; lia). rewrite NE. exact E.
    - destruct (Nat.eqb_spec e' (S e)) as [->|]; cbn [andb]; [|exact E].
      destruct (Z.eqb_spec (a' / 2) (pre c e)) as [Ha|]; [|exact E].
      exfalso. cbn [slotv] in E. rewrite Ha, H0 in E. destruct (Z.ltb_spec 0 nchar); [discriminate|lia]. }
  assert (NEW : forall e' a' k, slotv (TB (t_table s1) (t_left s1) (t_right s1) (n + 1)) e' a' = Some k ->
     (e' = e /\ a' = pre c e /\ k = n) \/ (k = 0 /\ e' = S e) \/ slotv s e' a' = Some k).
  { intros e' a' k E. rewrite SS in E.
    destruct (Nat.eqb_spec e' e) as [->|]; cbn [andb] in E.
    - destruct (Z.eqb_spec a' (pre c e)) as [->|].
      + injection E as <-. left. auto.
      + right. assert (NE : Nat.eqb e (S e) = false) by (apply Nat.eqb_neq; lia). rewrite NE in E. auto.
    - destruct (Nat.eqb_spec e' (S e)) as [->|]; cbn [andb] in E; [|right; right; exact E].
      destruct (Z.eqb_spec (a' / 2) (pre c e)) as [Ha|]; [|right; right; exact E].
      injection E as <-. right. left. auto. }
  constructor; cbn [t_table t_left t_right t_avail].
  - rewrite LE1. apply H.
  - rewrite LE2. apply H.
  - rewrite LE3. apply H.
  - intros i Hi Hni. destruct (LI_frame _ _ _ _ H i Hi) as [F1 F2]; [lia|]. rewrite <- F1, <- F2.
    destruct w; cbn [set_slot t_table t_left t_right] in *; unfold s1, s0; cbn [set_slot t_table t_left t_right].
    + rewrite !at_upd_ne by lia. auto.
    + cbn [isptr] in Hp. destruct Hp as [e0 [_ [Hp [Hpn _]]]]. pose proof (LI_rng _ _ _ _ H _ _ _ Hp).
      rewrite !at_upd_ne by lia. auto.
    + cbn [isptr] in Hp. destruct Hp as [e0 [_ [Hp [Hpn _]]]]. pose proof (LI_rng _ _ _ _ H _ _ _ Hp).
      rewrite !at_upd_ne by lia. auto.
  - rewrite zlen_cons. lia.
  - intros e1 a1 e2 a2 k E1 E2 Hk. apply NEW in E1. apply NEW in E2.
    destruct E1 as [[-> [-> K1]]|[[K1 _]|E1]], E2 as [[-> [-> K2]]|[[K2 _]|E2]]; try lia; auto.
    + apply (LI_rng _ _ _ _ H) in E2. lia.
    + apply (LI_rng _ _ _ _ H) in E1. lia.
    + eapply (LI_inj _ _ _ _ H); eauto.
  - intros e' a' k E. apply NEW in E. destruct E as [[_ [_ ->]]|[[-> _]|E]]; try lia.
    apply (LI_rng _ _ _ _ H) in E. lia.
  - intros e' a' k E Hk. apply NEW in E. destruct E as [[-> [-> _]]|[[-> _]|E]]; try lia.
    + exists c. split; auto. split; [lia|]. split; [exact He|reflexivity].
    + apply (LI_node _ _ _ _ H _ _ _ E Hk).
  - intros d Hd HdJ. pose proof (LI_leaf _ _ _ _ H d Hd HdJ) as E. apply OLD; auto.
    destruct (Nat.eq_dec (lv d) e) as [Ee|]; [|auto].
    destruct (Z.eq_dec (pre d (lv d)) (pre c e)) as [Ep|]; [|auto]. exfalso.
    rewrite <- Ee in Ep. assert (c = d); [|lia].
    apply prefix_eq; auto. unfold lv. unfold lv in Ee. lia.
  - intros e' a' v E Hv Hvn. apply NEW in E. destruct E as [[_ [_ ->]]|[[-> _]|E]]; try lia.
    apply (LI_sym _ _ _ _ H _ _ _ E Hv Hvn).
  - constructor; auto. apply (LI_nodup _ _ _ _ H).
  - intros x [<-|Hx].
    + split; auto. split; auto. exists e, (pre c e), n. split; [|split; [lia|exact Mid]].
      rewrite SS, Nat.eqb_refl, Z.eqb_refl. reflexivity.
    + destruct (LI_list _ _ _ _ H x Hx) as [X1 [X2 [e2 [a2 [n2 [E2 [Hn2 M2]]]]]]].
      split; auto. split; auto. exists e2, a2, n2. split; [|auto]. apply OLD; auto. left. lia.
Qed.

Lemma store_set w p v s : match w with InTable => 0 <= p < alen (t_table s)
    | InRight => 0 <= p < alen (t_right s) | InLeft => 0 <= p < alen (t_left s) end ->
  store w p v s = Ok (set_slot w p v s).
Proof. destruct w; intros H; unfold store; rewrite aset_ok by exact H; reflexivity. Qed.

Lemma LI_avail_le JN JL s l : LI JN JL s l -> t_avail s <= 2 * nchar - 1.
Proof.
  intros H. pose proof (LI_avail _ _ _ _ H).
  assert (zlen l + 1 <= nchar); [|lia].
  destruct (canon_cover nchar len 0 ltac:(lia) Hlen Hkraft ltac:(lia)) as [c0 [H0' [L0 I0]]].
  pose proof (cn_range c0 H0' L0).
  assert (ND : NoDup (c0 :: l)).
  { constructor; [|apply (LI_nodup _ _ _ _ H)]. intros Hi. pose proof (list_pos _ _ _ _ _ H Hi). lia. }
  assert (L : (length (c0 :: l) <= length (map Z.of_nat (List.seq 0 (Z.to_nat nchar))))%nat).
  { apply NoDup_incl_length; auto. intros x Hx. apply in_map_iff. exists (Z.to_nat x).
    assert (0 <= x < nchar).
    { destruct Hx as [<-|Hx]; auto. apply (LI_list _ _ _ _ H x Hx). }
    split; [lia|]. apply in_seq. lia. }
  rewrite map_length, seq_length in L. cbn [length] in L. unfold zlen. lia.
Qed.

Lemma ptr_bounds JN JL s l w p e a : LI JN JL s l -> isptr s w p e a ->
  match w with InTable => 0 <= p < alen (t_table s)
    | InRight => 0 <= p < alen (t_right s) | InLeft => 0 <= p < alen (t_left s) end.
Proof.
  intros H Hp. pose proof J0_nonneg. pose proof (LI_avail _ _ _ _ H). pose proof (LI_avail_le _ _ _ _ H).
  assert (B : forall e a n, slotv s e a = Some n -> nchar <= n -> 0 <= n < 2 * nchar - 1).
  { intros e1 a1 n E Hn. pose proof (LI_rng _ _ _ _ H _ _ _ E). lia. }
  destruct w; cbn [isptr] in Hp.
  - destruct Hp as [_ [-> Hp]]. rewrite (LI_table _ _ _ _ H). lia.
  - destruct Hp as [e0 [_ [Hp [Hn _]]]]. specialize (B _ _ _ Hp Hn). pose proof (LI_right _ _ _ _ H). lia.
  - destruct Hp as [e0 [_ [Hp [Hn _]]]]. specialize (B _ _ _ Hp Hn). pose proof (LI_left _ _ _ _ H). lia.
Qed.

Lemma bit_pre c e : 0 <= cn c -> tb + Z.of_nat e < 16 ->
  Z.testbit (cn c * 2 ^ (tb + Z.of_nat e)) 15 = Z.odd (pre c (S e)).
Proof.
  intros H0 H. rewrite <- Z.shiftl_mul_pow2 by lia. rewrite Z.shiftl_spec by lia.
  unfold pre. rewrite <- Z.shiftr_div_pow2 by lia. rewrite <- Z.bit0_odd, Z.shiftr_spec by lia. f_equal. lia.
Qed.

(** One level of the insertion. *)
Lemma ins_step_ok c JL e w p pv s l : LI (c + 1) JL s l -> JL <= c -> lng c -> tb + Z.of_nat e < len c ->
  isptr s w p e (pre c e) -> slotv s e (pre c e) = Some pv ->
  exists w' p' pv' s' l',
    ins_step (w, p, pv, cn c * 2 ^ (tb + Z.of_nat e), s) =
      Ok (w', p', pv', cn c * 2 ^ (tb + Z.of_nat (S e)), s') /\
    LI (c + 1) JL s' l' /\ isptr s' w' p' (S e) (pre c (S e)) /\ slotv s' (S e) (pre c (S e)) = Some pv' /\
    (forall i, 0 <= i < J0 -> at_ (t_table s') i = at_ (t_table s) i).
Proof.
  intros H HJ Hc He Hp Hv. pose proof (lng_len c Hc) as HLc.
  pose proof (cn_range c (proj1 Hc) ltac:(lia)) as Rc.
  assert (Half : pre c (S e) / 2 = pre c e) by (apply pre_half; lia).
  assert (Sh : Z.shiftl (cn c * 2 ^ (tb + Z.of_nat e)) 1 = cn c * 2 ^ (tb + Z.of_nat (S e))).
  { rewrite shiftl_mul by lia. rewrite <- Z.mul_assoc, <- Z.pow_add_r by lia. do 2 f_equal. lia. }
  (* the node *)
  assert (G : exists n s' l',
    (if pv =? 0 then
       let a := t_avail s in
       l0 <- aset (t_left s) a 0 ;;
       r <- aset (t_right s) a 0 ;;
       s0 <- store w p (u16 a) (TB (t_table s) l0 r a) ;;
       Ok (u16 a, TB (t_table s0) (t_left s0) (t_right s0) (a + 1))
     else Ok (pv, s)) = Ok (n, s') /\ LI (c + 1) JL s' l' /\ slotv s' e (pre c e) = Some n /\ nchar <= n /\
     (forall i, 0 <= i < J0 -> at_ (t_table s') i = at_ (t_table s) i)).
  { destruct (Z.eqb_spec pv 0) as [->|Npv].
    - destruct (create_ok c JL s l w p e H HJ Hc He Hp Hv) as [Hroom [l' [H' SS]]]. cbv zeta in H', SS |- *.
      set (n := t_avail s) in *.
      assert (Hn0 : nchar <= n) by (unfold n; rewrite (LI_avail _ _ _ _ H); pose proof (zlen_nonneg l); lia).
      rewrite aset_ok by (pose proof (LI_left _ _ _ _ H); lia). cbn [bind].
      rewrite aset_ok by (pose proof (LI_right _ _ _ _ H); lia). cbn [bind].
      rewrite u16_id by lia.
      rewrite store_set.
      2:{ pose proof (ptr_bounds _ _ _ _ _ _ _ _ H Hp) as PB. destruct w; cbn [t_table t_left t_right]; rewrite ?alen_upd; exact PB. }
      cbn [bind]. eexists _, _, l'. split; [reflexivity|]. split; [exact H'|].
      split; [rewrite SS, Nat.eqb_refl, Z.eqb_refl; reflexivity|]. split; [exact Hn0|].
      intros i Hi. destruct w; cbn [set_slot t_table]; auto.
      cbn [isptr] in Hp. rewrite at_upd_ne by lia. reflexivity.
    - exists pv, s, l. split; [reflexivity|]. split; auto. split; auto. split; auto.
      destruct (Z_lt_ge_dec pv nchar) as [L|]; [|lia]. exfalso.
      pose proof (LI_rng _ _ _ _ H _ _ _ Hv).
      destruct (LI_sym _ _ _ _ H _ _ _ Hv Npv L) as [L1 [L2 [L3 L4]]].
      assert (c = pv); [|lia]. apply prefix_eq; auto.
      + unfold lv in *. lia.
      + rewrite <- L3. exact L4. }
  destruct G as [n [s' [l' [EG [H' [Hs' [Hn Hpres]]]]]]].
  unfold ins_step; cbv beta iota zeta. cbv zeta in EG. rewrite EG. cbn [bind]. rewrite (bit_pre c e) by lia. rewrite Sh.
  destruct (Z.odd (pre c (S e))) eqn:Od.
  - assert (P : isptr s' InRight n (S e) (pre c (S e))).
    { exists e. rewrite Half. auto. }
    pose proof (ptr_bounds _ _ _ _ _ _ _ _ H' P) as PB. cbn in PB.
    rewrite aget_ok by exact PB. cbn [bind].
    eexists _, _, _, _, l'. split; [reflexivity|]. split; auto. split; auto. split; auto.
    cbn [slotv]. rewrite Half, Hs'. destruct (Z.ltb_spec n nchar); [lia|]. rewrite Od. reflexivity.
  - assert (P : isptr s' InLeft n (S e) (pre c (S e))).
    { exists e. rewrite Half. auto. }
    pose proof (ptr_bounds _ _ _ _ _ _ _ _ H' P) as PB. cbn in PB.
    rewrite aget_ok by exact PB. cbn [bind].
    eexists _, _, _, _, l'. split; [reflexivity|]. split; auto. split; auto. split; auto.
    cbn [slotv]. rewrite Half, Hs'. destruct (Z.ltb_spec n nchar); [lia|]. rewrite Od. reflexivity.
Qed.

Lemma base_aligned : (2 ^ m_ | base nchar len (tb + 1)).
Proof.
  apply sumn_divide. intros k Hk. destruct (Z.ltb_spec (len k) (tb + 1)); [|apply Z.divide_0_r].
  destruct (Z.eq_dec (len k) 0) as [->|N]; [apply Z.divide_0_r|].
  pose proof (Hlen k ltac:(lia)). rewrite (proj1 (weight_pos (len k) ltac:(lia))). unfold m_.
  exists (2 ^ (tb - len k)). rewrite <- Z.pow_add_r by lia. f_equal. lia.
Qed.

Lemma base_mono i j : i <= j -> base nchar len i <= base nchar len j.
Proof.
  intros H. apply sumn_le. intros k Hk. destruct (Z.ltb_spec (len k) i), (Z.ltb_spec (len k) j); try lia.
  apply weight_nonneg. apply Hlen. lia.
Qed.

Lemma base_le i : base nchar len i <= 65536.
Proof.
  rewrite <- Hkraft. apply sumn_le. intros k Hk. pose proof (weight_nonneg (len k) (Hlen k ltac:(lia))).
  destruct (len k <? i); lia.
Qed.

Lemma canon_ge_base c : 0 <= c < nchar -> len c <> 0 -> base nchar len (len c) <= cn c.
Proof.
  intros Hc Hl. rewrite canon_base by auto.
  pose proof (proj2 (weight_pos (len c) ltac:(pose proof (Hlen c Hc); lia))).
  assert (0 <= sumn (Z.to_nat c) (fun k => if len k =? len c then 1 else 0)).
  { apply sumn_nonneg. intros k _. destruct (len k =? len c); lia. }
  nia.
Qed.

Lemma canon_lt_base c j : 0 <= c < nchar -> len c <> 0 -> len c < j -> cn c + weight (len c) <= base nchar len j.
Proof.
  intros Hc Hl Hj. unfold canon, base.
  set (f := fun k => if before len k c then weight (len k) else 0).
  set (g := fun k => if k =? c then weight (len c) else f k).
  assert (E : sumn (Z.to_nat nchar) g = sumn (Z.to_nat nchar) f + (g c - f c)).
  { apply sumn_upd; [lia|]. intros k _ N. unfold g. destruct (Z.eqb_spec k c); auto; lia. }
  assert (Ef : f c = 0) by (unfold f; now rewrite before_irrefl).
  assert (Eg : g c = weight (len c)) by (unfold g; now rewrite Z.eqb_refl).
  rewrite Ef, Eg in E.
  assert (L : sumn (Z.to_nat nchar) g <= sumn (Z.to_nat nchar) (fun k => if len k <? j then weight (len k) else 0)).
  { apply sumn_le. intros k Hk. unfold g, f. destruct (Z.eqb_spec k c) as [->|N].
    - destruct (Z.ltb_spec (len c) j); lia.
    - pose proof (weight_nonneg (len k) (Hlen k ltac:(lia))).
      destruct (before len k c) eqn:B; [|destruct (len k <? j); lia].
      apply before_len in B. destruct (Z.ltb_spec (len k) j); lia. }
  lia.
Qed.

Lemma J0_mul : J0 * 2 ^ m_ = base nchar len (tb + 1).
Proof.
  destruct base_aligned as [q Q]. unfold J0. rewrite Q. rewrite Z.div_mul; [reflexivity|].
  apply Z.pow_nonzero; unfold m_; lia.
Qed.

Lemma long_entry c : lng c -> J0 <= pre c 0 < 2 ^ tb.
Proof.
  intros Hc. pose proof (lng_len c Hc). destruct Hc as [Hc Hl].
  pose proof (cn_range c Hc ltac:(lia)). pose proof (canon_ge_base c Hc ltac:(lia)).
  pose proof (base_mono (tb + 1) (len c) ltac:(lia)). unfold pre, J0.
  replace (16 - tb - Z.of_nat 0) with m_ by (unfold m_; lia). split.
  - apply Z.div_le_mono; [apply Z.pow_pos_nonneg; unfold m_; lia|lia].
  - apply Z.div_lt_upper_bound; [apply Z.pow_pos_nonneg; unfold m_; lia|].
    rewrite <- Z.pow_add_r by (unfold m_; lia). unfold m_. replace (16 - tb + tb) with 16 by lia. change (2 ^ 16) with 65536. lia.
Qed.

Lemma insert_long_ok c s l : LI c c s l -> lng c ->
  exists s' l', insert_long m_ tb (len c) (cn c) c s = Ok s' /\ LI (c + 1) (c + 1) s' l' /\
    (forall i, 0 <= i < J0 -> at_ (t_table s') i = at_ (t_table s) i).
Proof.
  intros H Hc. pose proof (lng_len c Hc) as HLc. pose proof J0_nonneg as HJ0.
  pose proof (cn_range c (proj1 Hc) ltac:(lia)) as Rc.
  apply (LI_mono c (c + 1)) in H; [|lia].
  pose proof (long_entry c Hc) as HE.
  unfold insert_long. rewrite shiftr_div by (unfold m_; lia).
  change (cn c / 2 ^ m_) with (cn c / 2 ^ (16 - tb)).
  replace (cn c / 2 ^ (16 - tb)) with (pre c 0) by (unfold pre; f_equal; f_equal; lia).
  rewrite aget_ok by (rewrite (LI_table _ _ _ _ H); lia). cbn [bind].
  rewrite shiftl_mul by lia.
  set (I := fun t '(w, p, pv, i, s1) => exists l1, LI (c + 1) c s1 l1 /\
     isptr s1 w p (Z.to_nat t) (pre c (Z.to_nat t)) /\ slotv s1 (Z.to_nat t) (pre c (Z.to_nat t)) = Some pv /\
     i = cn c * 2 ^ (tb + t) /\ (forall i, 0 <= i < J0 -> at_ (t_table s1) i = at_ (t_table s) i)).
  edestruct (forZ_inv I) as [[[[[w p] pv] i] s1] [E1 H1]].
  4:{ rewrite E1. cbn [bind]. destruct H1 as [l1 [HL [Hp [Hv [_ Hpres]]]]].
    change (Z.to_nat (len c - tb)) with (lv c) in *.
    rewrite u16_id by (destruct Hc; lia).
    rewrite store_set by (exact (ptr_bounds _ _ _ _ _ _ _ _ HL Hp)).
    assert (Hlvt : tb + Z.of_nat (lv c) = len c) by (unfold lv; lia).
    assert (Z0 : pv = 0).
    { destruct (Z.eq_dec pv 0) as [|N]; auto. exfalso.
      pose proof (LI_rng _ _ _ _ HL _ _ _ Hv).
      destruct (Z_lt_ge_dec pv nchar) as [L|L].
      - destruct (LI_sym _ _ _ _ HL _ _ _ Hv N L) as [L1 [L2 [L3 L4]]].
        assert (c = pv); [|lia]. apply prefix_eq; auto; [lia|]. rewrite <- L3. exact L4.
      - destruct (LI_node _ _ _ _ HL _ _ _ Hv ltac:(lia)) as [d [Hd [_ [Hde Hpd]]]].
        assert (d = c); [|subst; lia]. apply prefix_eq; auto. unfold lv in *. lia. }
    subst pv.
    assert (SS : forall e' a', slotv (set_slot w p c s1) e' a' =
        if (Nat.eqb e' (lv c)) && (a' =? pre c (lv c)) then Some c else slotv s1 e' a').
    { intros e' a'. rewrite (set_slot_spec s1 w p (lv c) (pre c (lv c)) c 0); auto; try lia.
      - destruct (Z.leb_spec nchar c); [destruct Hc; lia|]. reflexivity.
      - apply (LI_inj _ _ _ _ HL).
      - destruct Hc; lia. }
    assert (NEW : forall e' a' v, slotv (set_slot w p c s1) e' a' = Some v ->
       (v = c /\ e' = lv c /\ a' = pre c (lv c)) \/ slotv s1 e' a' = Some v).
    { intros e' a' v E. rewrite SS in E. destruct (Nat.eqb_spec e' (lv c)) as [->|]; cbn [andb] in E; auto.
      destruct (Z.eqb_spec a' (pre c (lv c))) as [->|]; auto. injection E as <-. auto. }
    assert (OLD : forall e' a' v, slotv s1 e' a' = Some v -> v <> 0 \/ e' <> lv c \/ a' <> pre c (lv c) ->
       slotv (set_slot w p c s1) e' a' = Some v).
    { intros e' a' v E D. rewrite SS. destruct (Nat.eqb_spec e' (lv c)) as [->|]; cbn [andb]; auto.
      destruct (Z.eqb_spec a' (pre c (lv c))) as [->|]; auto. rewrite Hv in E. injection E as <-.
      exfalso. destruct D as [D|[D|D]]; auto. }
    destruct Hc as [Hc0 Hc1].
    eexists _, l1. split; [reflexivity|]. split.
    - constructor.
      + destruct w; apply (LI_table _ _ _ _ HL).
      + destruct w; apply (LI_left _ _ _ _ HL).
      + destruct w; apply (LI_right _ _ _ _ HL).
      + intros i0 Hi0 Hni. replace (t_avail (set_slot w p c s1)) with (t_avail s1) in Hni by (destruct w; reflexivity).
        destruct (LI_frame _ _ _ _ HL i0 Hi0 Hni) as [F1 F2]. rewrite <- F1, <- F2.
        destruct w; cbn [set_slot t_table t_left t_right]; auto.
        * cbn [isptr] in Hp. destruct Hp as [e0 [_ [Hp [Hpn _]]]]. pose proof (LI_rng _ _ _ _ HL _ _ _ Hp).
          rewrite !at_upd_ne by lia. auto.
        * cbn [isptr] in Hp. destruct Hp as [e0 [_ [Hp [Hpn _]]]]. pose proof (LI_rng _ _ _ _ HL _ _ _ Hp).
          rewrite !at_upd_ne by lia. auto.
      + destruct w; apply (LI_avail _ _ _ _ HL).
      + intros e1 a1 e2 a2 k E1' E2' Hk. apply NEW in E1'. apply NEW in E2'.
        destruct E1' as [[K1 [-> ->]]|E1'], E2' as [[K2 [-> ->]]|E2']; try lia; auto.
        eapply (LI_inj _ _ _ _ HL); eauto.
      + intros e' a' v E. replace (t_avail (set_slot w p c s1)) with (t_avail s1) by (destruct w; reflexivity).
        apply NEW in E. destruct E as [[-> _]|E]; [|apply (LI_rng _ _ _ _ HL _ _ _ E)].
        rewrite (LI_avail _ _ _ _ HL). pose proof (zlen_nonneg l1). lia.
      + intros e' a' v E Hvn. apply NEW in E. destruct E as [[-> _]|E]; [lia|]. apply (LI_node _ _ _ _ HL _ _ _ E Hvn).
      + intros d Hd HdJ. destruct (Z.eq_dec d c) as [->|Nd].
        * rewrite SS, Nat.eqb_refl, Z.eqb_refl. reflexivity.
        * apply OLD; [apply (LI_leaf _ _ _ _ HL); auto; lia|].
          destruct (Nat.eq_dec (lv d) (lv c)) as [Ee|]; [|auto].
          destruct (Z.eq_dec (pre d (lv d)) (pre c (lv c))) as [Ep|]; [|auto]. exfalso. apply Nd.
          apply prefix_eq; auto; [split; auto|lia|]. rewrite <- Ee at 1. exact Ep.
      + intros e' a' v E Hvz Hvn. apply NEW in E. destruct E as [[-> [-> ->]]|E].
        * split; [split; auto|]. split; [lia|]. auto.
        * destruct (LI_sym _ _ _ _ HL _ _ _ E Hvz Hvn) as [L1 [L2 L3]]. split; auto. split; [lia|auto].
      + apply (LI_nodup _ _ _ _ HL).
      + intros x Hx. destruct (LI_list _ _ _ _ HL x Hx) as [X1 [X2 [e2 [a2 [n2 [E2 [Hn2 M2]]]]]]].
        split; auto. split; auto. exists e2, a2, n2. split; [|auto]. apply OLD; auto. left. lia.
    - intros i' Hi'. rewrite <- Hpres by exact Hi'. destruct w; cbn [set_slot t_table]; auto.
      cbn [isptr] in Hp. rewrite at_upd_ne by lia. reflexivity. }
  - lia.
  - intros t [[[[w p] pv] i] s1] Ht [l1 [HL [Hp [Hv [-> Hpres]]]]].
    destruct (ins_step_ok c c (Z.to_nat t) w p pv s1 l1 HL ltac:(lia) Hc ltac:(lia) Hp Hv) as (w' & p' & pv' & s' & l' & E & HL' & Hp' & Hv' & Hpres').
    rewrite Z2Nat.id in E by lia. rewrite E. eexists. split; [reflexivity|]. unfold I.
    replace (Z.to_nat (t + 1)) with (S (Z.to_nat t)) by lia.
    exists l'. split; auto. split; auto. split; auto. split.
    + do 2 f_equal. lia.
    + intros i' Hi'. rewrite Hpres' by auto. auto.
  - unfold I. exists l. split; auto. change (Z.to_nat 0) with 0%nat. split; [split; auto|].
    split; [|split; [f_equal; f_equal; lia|auto]].
    cbn [slotv]. destruct (Z.leb_spec J0 (pre c 0)), (Z.ltb_spec (pre c 0) (2 ^ tb)); try lia. reflexivity.
Qed.


Definition short (c : Z) : Prop := 0 <= c < nchar /\ 1 <= len c <= tb.

Lemma LI_start table : alen table = 2 ^ tb ->
  (forall i, J0 <= i < 2 ^ tb -> at_ table i = 0) -> LI 0 0 (TB table left0 right0 nchar) [].
Proof.
  intros H1 Hz.
  assert (S : forall e a v, slotv (TB table left0 right0 nchar) e a = Some v -> v = 0).
  { induction e as [|e IH]; intros a v E; cbn [slotv t_table] in E.
    - destruct (Z.leb_spec J0 a), (Z.ltb_spec a (2 ^ tb)); try discriminate. cbn [andb] in E. injection E as <-. apply Hz. lia.
    - destruct (slotv (TB table left0 right0 nchar) e (a / 2)) as [n|] eqn:E'; [|discriminate].
      rewrite (IH _ _ E') in E. destruct (Z.ltb_spec 0 nchar); [discriminate|lia]. }
  constructor; cbn [t_table t_left t_right t_avail]; auto.
  - rewrite zlen_nil. lia.
  - intros e a e' a' n E _ Hn. apply S in E. lia.
  - intros e a n E. apply S in E. lia.
  - intros e a n E Hn. apply S in E. lia.
  - intros c [Hc _] Hc'. lia.
  - intros e a v E Hv. apply S in E. lia.
  - constructor.
  - intros c [].
Qed.

(** Writing below [J0] does not disturb the slots. *)
Lemma LI_low J s l t : LI J J s l -> alen t = alen (t_table s) ->
  (forall i, J0 <= i < 2 ^ tb -> at_ t i = at_ (t_table s) i) ->
  LI J J (TB t (t_left s) (t_right s) (t_avail s)) l.
Proof.
  intros H Ha Ht.
  assert (S : forall e a, slotv (TB t (t_left s) (t_right s) (t_avail s)) e a = slotv s e a).
  { induction e as [|e IH]; intros a; cbn [slotv t_table t_left t_right].
    - destruct (Z.leb_spec J0 a), (Z.ltb_spec a (2 ^ tb)); cbn [andb]; auto. f_equal. apply Ht. lia.
    - now rewrite IH. }
  destruct H. constructor; cbn [t_table t_left t_right t_avail]; auto.
  - congruence.
  - intros e a e' a' n E1 E2 Hn. rewrite S in E1, E2. eapply LI_inj0; eauto.
  - intros e a n E. rewrite S in E. eauto.
  - intros e a n E Hn. rewrite S in E. eauto.
  - intros c Hc HJ. rewrite S. auto.
  - intros e a v E Hv Hn. rewrite S in E. eauto.
  - intros c Hc. destruct (LI_list0 c Hc) as [X1 [X2 [e2 [a2 [n2 [E2 [Hn2 M2]]]]]]].
    split; auto. split; auto. exists e2, a2, n2. rewrite S. auto.
Qed.

Lemma LI_skip J s l : LI J J s l -> ~ lng J -> LI (J + 1) (J + 1) s l.
Proof.
  intros H NJ. destruct H. constructor; auto.
  - intros e a n E Hn. destruct (LI_node0 e a n E Hn) as [c [H1 [H2 H3]]]. exists c. split; auto. split; [lia|auto].
  - intros c Hc HJ. apply LI_leaf0; auto. destruct (Z.eq_dec c J) as [->|]; [tauto|lia].
  - intros e a v E Hv Hn. destruct (LI_sym0 e a v E Hv Hn) as [H1 [H2 H3]]. split; auto. split; [lia|auto].
Qed.

(** State of the loop over the symbols. *)
Definition nth_code (J k : Z) : Z :=
  base nchar len k + 2 ^ (16 - k) * sumn (Z.to_nat J) (fun c => if len c =? k then 1 else 0).

Lemma nth_code_S J k : 0 <= J -> nth_code (J + 1) k = nth_code J k + (if len J =? k then 2 ^ (16 - k) else 0).
Proof.
  intros HJ. unfold nth_code. replace (Z.to_nat (J + 1)) with (S (Z.to_nat J)) by lia.
  rewrite sumn_S, Z2Nat.id by lia. destruct (len J =? k); lia.
Qed.

Lemma nth_code_canon c : 0 <= c < nchar -> len c <> 0 -> nth_code c (len c) = cn c.
Proof.
  intros Hc Hl. rewrite canon_base by auto. unfold nth_code.
  rewrite (proj1 (weight_pos (len c) ltac:(pose proof (Hlen c Hc); lia))). reflexivity.
Qed.

Lemma nth_code_le J c : 0 <= J <= c -> c < nchar -> len c <> 0 -> 0 <= nth_code J (len c) <= cn c.
Proof.
  clear Hleft0 Hright0. intros HJ Hc Hl. rewrite <- nth_code_canon by lia. unfold nth_code.
  assert (0 <= base nchar len (len c)).
  { apply sumn_nonneg. intros k Hk. destruct (len k <? len c); [|lia]. apply weight_nonneg. apply Hlen. lia. }
  assert (A : 0 <= sumn (Z.to_nat J) (fun k => if len k =? len c then 1 else 0)).
  { apply sumn_nonneg. intros k _. destruct (len k =? len c); lia. }
  assert (B : sumn (Z.to_nat J) (fun k => if len k =? len c then 1 else 0) <= sumn (Z.to_nat c) (fun k => if len k =? len c then 1 else 0)).
  { replace (Z.to_nat c) with (Z.to_nat J + Z.to_nat (c - J))%nat by lia. rewrite sumn_split.
    assert (0 <= sumn (Z.to_nat (c - J)) (fun k => if len (k + Z.of_nat (Z.to_nat J)) =? len c then 1 else 0)); [|lia].
    apply sumn_nonneg. intros k _. destruct (_ =? len c); lia. }
  pose proof (Z.pow_pos_nonneg 2 (16 - len c) ltac:(lia) ltac:(pose proof (Hlen c ltac:(lia)); lia)). nia.
Qed.

Record TI (J : Z) (start : arr) (s : tbl) : Prop := {
  TI_start : alen start = 17;
  TI_next : forall c, J <= c < nchar -> len c <> 0 ->
     at_ start (len c) = if len c <=? tb then nth_code J (len c) / 2 ^ m_ else nth_code J (len c);
  TI_li : exists l, LI J J s l;
  TI_short : forall c, short c -> c < J -> forall i, cn c / 2 ^ m_ <= i < (cn c + weight (len c)) / 2 ^ m_ ->
     at_ (t_table s) i = c
}.

Lemma short_exact c : short c -> (2 ^ m_ | cn c) /\ (2 ^ m_ | weight (len c)) /\
   cn c + weight (len c) <= base nchar len (tb + 1) /\ 0 < weight (len c).
Proof.
  intros [Hc Hl]. destruct (weight_pos (len c) ltac:(lia)) as [W P].
  assert (D : (2 ^ m_ | weight (len c))).
  { rewrite W. unfold m_. exists (2 ^ (tb - len c)). rewrite <- Z.pow_add_r by lia. f_equal. lia. }
  split; [|split; [exact D|split; [|exact P]]].
  - eapply Z.divide_trans; [exact D|]. apply canon_aligned; auto; lia.
  - apply canon_lt_base; auto; lia.
Qed.

Lemma m_pos : 0 < 2 ^ m_.
Proof. apply Z.pow_pos_nonneg; unfold m_; lia. Qed.

Lemma short_div c : short c -> cn c = cn c / 2 ^ m_ * 2 ^ m_ /\
  weight (len c) = weight (len c) / 2 ^ m_ * 2 ^ m_ /\
  (cn c + weight (len c)) / 2 ^ m_ = cn c / 2 ^ m_ + weight (len c) / 2 ^ m_ /\
  0 <= cn c / 2 ^ m_ /\ 0 < weight (len c) / 2 ^ m_ /\
  cn c / 2 ^ m_ + weight (len c) / 2 ^ m_ <= J0.
Proof.
  intros H. destruct (short_exact c H) as [[a A] [[b B] [L P]]]. pose proof m_pos as M.
  pose proof J0_mul as HJ. destruct H as [Hc Hl]. pose proof (canon_nonneg nchar len Hlen c) as C0.
  rewrite A, B in L |- *. rewrite <- HJ in L. rewrite B in P. rewrite A in C0.
  rewrite <- Z.mul_add_distr_r, !Z.div_mul by lia.
  split; [reflexivity|]. split; [reflexivity|]. split; [reflexivity|].
  split; [nia|]. split; [nia|]. nia.
Qed.

Lemma J0_le : J0 <= 2 ^ tb.
Proof.
  pose proof J0_mul. pose proof (base_le (tb + 1)). pose proof m_pos.
  assert (2 ^ tb * 2 ^ m_ = 65536).
  { rewrite <- Z.pow_add_r by (unfold m_; lia). unfold m_. replace (tb + (16 - tb)) with 16 by lia. reflexivity. }
  nia.
Qed.

Lemma fill_range t lo hi v : 0 <= lo <= hi -> hi <= alen t ->
  exists t', forZ lo hi (fun i t => aset t i v) t = Ok t' /\ alen t' = alen t /\
    (forall i, 0 <= i -> at_ t' i = if (lo <=? i) && (i <? hi) then v else at_ t i).
Proof.
  intros H1 H2.
  edestruct (forZ_inv (fun k t' => alen t' = alen t /\
     (forall i, 0 <= i -> at_ t' i = if (lo <=? i) && (i <? k) then v else at_ t i))) as [t' [E H]].
  4:{ exists t'. split; [exact E|exact H]. }
  - lia.
  - intros k t' Hk [A B]. rewrite aset_ok by lia. eexists. split; [reflexivity|]. split; [exact A|].
    intros i Hi. rewrite at_upd by lia. rewrite B by lia.
    destruct (Z.eqb_spec i k), (Z.leb_spec lo i), (Z.ltb_spec i (k + 1)), (Z.ltb_spec i k); cbn [andb]; auto; lia.
  - split; [reflexivity|]. intros i Hi. destruct (Z.leb_spec lo i), (Z.ltb_spec i lo); cbn [andb]; auto; lia.
Qed.

Lemma tbl_step_ok bitlen wt J start s : TI J start s -> 0 <= J < nchar -> tb <= 12 ->
  at_ bitlen J = len J -> J < alen bitlen -> alen wt = 17 ->
  (forall k, 1 <= k <= 16 -> at_ wt k = if k <=? tb then 2 ^ (16 - k) / 2 ^ m_ else 2 ^ (16 - k)) ->
  exists start' s', tbl_step bitlen m_ tb wt J (start, s) = Ok (Go (start', s')) /\ TI (J + 1) start' s'.
Proof.
  intros H HJ Ht12 Hb Hba Hwa Hw. destruct H as [Ha Hn [l HL] Hs].
  pose proof (Hlen J HJ) as HLJ. pose proof m_pos as M. pose proof J0_le as JL0.
  unfold tbl_step. cbv beta iota zeta. rewrite aget_ok by lia. cbn [bind]. rewrite Hb.
  destruct (Z.eqb_spec (len J) 0) as [Z0|NZ].
  - eexists _, _. split; [reflexivity|]. constructor; auto.
    + intros c Hc Hlc. rewrite nth_code_S by lia. destruct (Z.eqb_spec (len J) (len c)); [lia|].
      rewrite Z.add_0_r. apply Hn; auto; lia.
    + exists l. apply LI_skip; auto. intros [_ X]. lia.
    + intros c Hc HcJ. apply Hs; auto. destruct Hc as [_ Hc]. destruct (Z.eq_dec c J) as [->|]; lia.
  - rewrite aget_ok by lia. cbn [bind]. rewrite aget_ok by lia. cbn [bind].
    rewrite Hw by lia. pose proof (Hn J ltac:(lia) NZ) as HnJ. rewrite nth_code_canon in HnJ by auto. rewrite HnJ.
    rewrite <- (proj1 (weight_pos (len J) ltac:(lia))).
    pose proof (cn_range J HJ NZ) as RJ.
    pose proof (canon_le_kraft nchar len Hlen J HJ) as KJ.
    assert (NX : forall c, J + 1 <= c < nchar -> len c = len J -> nth_code (J + 1) (len J) = cn J + weight (len J) /\ cn J + weight (len J) < 65536).
    { intros c Hc E. rewrite nth_code_S by lia. rewrite Z.eqb_refl, nth_code_canon by auto.
      rewrite (proj1 (weight_pos (len J) ltac:(lia))). split; [reflexivity|].
      pose proof (canon_before nchar len Hlen J c HJ) as CB.
      rewrite <- (proj1 (weight_pos (len J) ltac:(lia))).
      assert (before len J c = true).
      { unfold before. rewrite E, Z.eqb_refl, Z.ltb_irrefl. cbn [orb andb]. apply Z.ltb_lt. lia. }
      specialize (CB H). pose proof (cn_range c ltac:(lia) ltac:(lia)). lia. }
    destruct (Z.leb_spec (len J) tb) as [Ls|Ls].
    + assert (SJ : short J) by (split; auto; lia).
      destruct (short_div J SJ) as [D1 [D2 [D3 [D4 [D5 D6]]]]].
      assert (P12 : 2 ^ tb <= 4096) by (change 4096 with (2 ^ 12); apply Z.pow_le_mono_r; lia).
      rewrite Z.min_l by lia.
      destruct (fill_range (t_table s) (cn J / 2 ^ m_) (cn J / 2 ^ m_ + weight (len J) / 2 ^ m_) (u16 J)) as [t' [Et [At Vt]]].
      { lia. } { rewrite (LI_table _ _ _ _ HL). lia. }
      rewrite Et. cbn [bind]. rewrite aset_ok by lia. cbn [bind].
      eexists _, _. split; [reflexivity|]. rewrite u16_id in Vt by lia. constructor.
      * rewrite alen_upd. exact Ha.
      * intros c Hc Hlc. pose proof (Hlen c ltac:(lia)) as HLc. rewrite at_upd by lia.
        destruct (Z.eqb_spec (len c) (len J)) as [E|E].
        -- rewrite E. destruct (NX c Hc E) as [N1 N2]. rewrite N1.
           destruct (Z.leb_spec (len J) tb); [|lia]. rewrite D3. apply u16_id. nia.
        -- rewrite nth_code_S by lia. destruct (Z.eqb_spec (len J) (len c)); [lia|]. rewrite Z.add_0_r. apply Hn; auto; lia.
      * exists l. apply LI_skip; [|intros [_ X]; lia].
        apply LI_low; auto. intros i Hi. rewrite Vt by (pose proof J0_nonneg; lia).
        destruct (Z.leb_spec (cn J / 2 ^ m_) i), (Z.ltb_spec i (cn J / 2 ^ m_ + weight (len J) / 2 ^ m_)); cbn [andb]; auto; lia.
      * intros c Hc HcJ i Hi. destruct (short_div c Hc) as [C1 [C2 [C3 [C4 [C5 C6]]]]]. cbn [t_table].
        rewrite Vt by lia.
        destruct (Z.leb_spec (cn J / 2 ^ m_) i), (Z.ltb_spec i (cn J / 2 ^ m_ + weight (len J) / 2 ^ m_)); cbn [andb].
        -- symmetry. destruct Hc as [Hc0 Hc1]. apply (canon_disjoint nchar len Hlen c J (i * 2 ^ m_)); auto; try lia; nia.
        -- apply Hs; auto. destruct (Z.eq_dec c J) as [->|]; [lia|lia].
        -- apply Hs; auto. destruct (Z.eq_dec c J) as [->|]; [lia|lia].
        -- apply Hs; auto. destruct (Z.eq_dec c J) as [->|]; [lia|lia].
    + assert (LJ : lng J) by (split; auto).
      destruct (Z.ltb_spec 4096 (Z.shiftr (cn J) m_)) as [B|_].
      { exfalso. rewrite shiftr_div in B by (unfold m_; lia).
        pose proof (long_entry J LJ) as LE. unfold pre in LE. replace (16 - tb - Z.of_nat 0) with m_ in LE by (unfold m_; lia).
        assert (2 ^ tb <= 4096) by (change 4096 with (2 ^ 12); apply Z.pow_le_mono_r; lia). lia. }
      destruct (insert_long_ok J s l HL LJ) as [s' [l' [Ei [HL' Hpres]]]].
      rewrite Ei. cbn [bind]. rewrite aset_ok by lia. cbn [bind].
      eexists _, _. split; [reflexivity|]. constructor.
      * rewrite alen_upd. exact Ha.
      * intros c Hc Hlc. pose proof (Hlen c ltac:(lia)) as HLc. rewrite at_upd by lia.
        destruct (Z.eqb_spec (len c) (len J)) as [E|E].
        -- rewrite E. destruct (NX c Hc E) as [N1 N2]. rewrite N1.
           destruct (Z.leb_spec (len J) tb); [lia|]. apply u16_id. pose proof (proj2 (weight_pos (len J) ltac:(lia))). lia.
        -- rewrite nth_code_S by lia. destruct (Z.eqb_spec (len J) (len c)); [lia|]. rewrite Z.add_0_r. apply Hn; auto; lia.
      * exists l'. exact HL'.
      * intros c Hc HcJ i Hi. destruct (short_div c Hc) as [C1 [C2 [C3 [C4 [C5 C6]]]]].
        rewrite Hpres by lia. apply Hs; auto. destruct Hc as [_ Hc]. destruct (Z.eq_dec c J) as [->|]; lia.
Qed.

End Trie.

(** ** The whole of [makeTable] *)

Lemma tbl_count_ok nchar bitlen : 0 <= nchar <= 65535 -> nchar <= alen bitlen ->
  (forall c, 0 <= c < nchar -> 0 <= at_ bitlen c) ->
  (lengths_ok nchar (at_ bitlen) /\ exists count, tbl_count nchar bitlen = Ok (Go count) /\ alen count = 17 /\
     forall j, 0 <= j <= 16 -> at_ count j = cnt nchar (at_ bitlen) j) \/
  (~ lengths_ok nchar (at_ bitlen) /\ tbl_count nchar bitlen = Ok (Stop tt)).
Proof.
  intros Hn Ha Hp. unfold tbl_count.
  edestruct (for_ctl_inv (T := unit)
    (fun i count => alen count = 17 /\ (forall c, 0 <= c < i -> at_ bitlen c <= 16) /\
       forall j, 0 <= j <= 16 -> at_ count j = cnt i (at_ bitlen) j)
    (fun _ => exists c, 0 <= c < nchar /\ 16 < at_ bitlen c)) as [r [E H]].
  3:{ rewrite E. destruct r as [count|[]].
    - left. destruct H as [A [B C]]. rewrite Z.add_0_l, Z2Nat.id in * by lia.
      split; [intros c Hc; split; [auto|apply B; lia]|]. exists count. auto.
    - right. destruct H as [c [Hc L]]. split; [|reflexivity]. intros X. specialize (X c Hc). lia. }
  - intros i count Hi [A [B C]]. rewrite aget_ok by lia. cbn [bind].
    destruct (Z.ltb_spec 16 (at_ bitlen i)) as [L|L].
    + eexists. split; [reflexivity|]. cbv beta iota. exists i. split; [lia|exact L].
    + pose proof (Hp i ltac:(lia)). rewrite aget_ok by lia. cbn [bind]. rewrite aset_ok by lia. cbn [bind].
      eexists. split; [reflexivity|]. cbv beta iota. split; [exact A|]. split.
      * intros c Hc. destruct (Z.eq_dec c i) as [->|]; [lia|apply B; lia].
      * intros j Hj. rewrite at_upd by lia.
        assert (CS : cnt (i + 1) (at_ bitlen) j = cnt i (at_ bitlen) j + (if at_ bitlen i =? j then 1 else 0)).
        { unfold cnt. replace (Z.to_nat (i + 1)) with (S (Z.to_nat i)) by lia. rewrite sumn_S, Z2Nat.id by lia. reflexivity. }
        rewrite CS. rewrite (Z.eqb_sym (at_ bitlen i)). destruct (Z.eqb_spec j (at_ bitlen i)) as [->|].
        -- rewrite C by lia. apply u16_id.
           assert (0 <= cnt i (at_ bitlen) (at_ bitlen i) <= i); [|lia].
           unfold cnt. split; [apply sumn_nonneg; intros k _; cbv beta; destruct (at_ bitlen k =? at_ bitlen i); lia|].
           eapply Z.le_trans; [apply sumn_le with (g := fun _ => 1); intros k _; cbv beta; destruct (at_ bitlen k =? at_ bitlen i); lia|].
           rewrite sumn_const. lia.
        -- rewrite C by lia. lia.
  - split; [reflexivity|]. split; [intros; lia|]. intros j Hj. rewrite at_amake. reflexivity.
Qed.

Lemma tbl_start_ok nchar len count : 0 <= nchar -> lengths_ok nchar len -> alen count = 17 ->
  (forall j, 0 <= j <= 16 -> at_ count j = cnt nchar len j) ->
  exists start wt, tbl_start count = Ok (start, wt, u16 (kraft nchar len)) /\ alen start = 17 /\ alen wt = 17 /\
    (forall j, 1 <= j <= 16 -> at_ start j = u16 (base nchar len j) /\ at_ wt j = 2 ^ (16 - j)).
Proof.
  intros Hn Hok Hc Hcnt. unfold tbl_start.
  set (I1 := fun i '(start, weight, total) => alen start = 17 /\ alen weight = 17 /\
     total = u16 (base nchar len i) /\
     (forall j, 1 <= j < i -> at_ start j = u16 (base nchar len j) /\ at_ weight j = 2 ^ (16 - j))).
  edestruct (forZ_inv I1) as [[[start wt] total] [E1 H1]].
  4:{ rewrite E1. destruct H1 as [A1 [A2 [A3 A4]]]. exists start, wt. rewrite A3, base_17 by auto.
      split; [reflexivity|]. split; auto. split; auto. intros j Hj. apply A4. lia. }
  - lia.
  - intros i [[start wt] total] Hi [A1 [A2 [A3 A4]]].
    rewrite aset_ok by lia. cbn [bind]. rewrite aset_ok by lia. cbn [bind]. rewrite aget_ok by lia. cbn [bind].
    rewrite shiftl_mul by lia. rewrite Z.mul_1_l. eexists. split; [reflexivity|]. unfold I1. rewrite !alen_upd.
    split; auto. split; auto. split.
    + rewrite base_S by lia. rewrite Hcnt by lia. rewrite A3. unfold u16. rewrite <- Z.add_mod by lia. reflexivity.
    + intros j Hj. rewrite !at_upd by lia. destruct (Z.eqb_spec j i) as [->|]; [auto|]. apply A4. lia.
  - unfold I1. split; [reflexivity|]. split; [reflexivity|]. rewrite base_1 by auto. split; [reflexivity|]. intros; lia.
Qed.

(** The table is rejected exactly when the lengths do not form a complete
    code modulo 2^16. *)
Theorem makeTable_reject nchar bitlen tb table left right : 0 <= nchar <= 65535 -> nchar <= alen bitlen ->
  (forall c, 0 <= c < nchar -> 0 <= at_ bitlen c) -> tb <= 16 ->
  ~ lengths_ok nchar (at_ bitlen) \/ kraft nchar (at_ bitlen) mod 65536 <> 0 ->
  makeTable nchar bitlen tb table left right = Ok (false, TB table left right nchar).
Proof.
  intros Hn Ha Hp Ht R. unfold makeTable.
  destruct (tbl_count_ok nchar bitlen Hn Ha Hp) as [[Hok [count [E [Ec Hc]]]]|[_ E]]; rewrite E; cbn [bind]; [|reflexivity].
  destruct R as [R|R]; [contradiction|].
  destruct (tbl_start_ok nchar (at_ bitlen) count ltac:(lia) Hok Ec Hc) as (start & wt & E2 & _).
  rewrite E2. cbn [bind]. change 65535 with (Z.ones 16). rewrite Z.land_ones by lia. change (2 ^ 16) with 65536.
  unfold u16. rewrite Z.mod_mod by lia. destruct (Z.eqb_spec (kraft nchar (at_ bitlen) mod 65536) 0); [contradiction|]. reflexivity.
Qed.

(** What the decoder needs to know about a table. *)
Record tbl_spec (nchar : Z) (len : Z -> Z) (tb : Z) (left0 right0 : arr) (s : tbl) : Prop := {
  tbs_short : forall c, short nchar len tb c -> forall i,
     canon nchar len c / 2 ^ (16 - tb) <= i < (canon nchar len c + weight (len c)) / 2 ^ (16 - tb) ->
     at_ (t_table s) i = c;
  tbs_long : forall c, lng nchar len tb c -> slotv nchar len tb s (lv len tb c) (pre nchar len tb c (lv len tb c)) = Some c;
  tbs_frame : forall i, 0 <= i -> ~ (nchar <= i < 2 * nchar - 1) ->
     at_ (t_left s) i = at_ left0 i /\ at_ (t_right s) i = at_ right0 i;
  tbs_ll : alen (t_left s) = alen left0;
  tbs_rl : alen (t_right s) = alen right0;
  tbs_node : forall e a n, slotv nchar len tb s e a = Some n -> 0 <= n < 2 * nchar - 1;
}.

Theorem makeTable_ok nchar bitlen tb table left right :
  1 <= nchar <= 32767 -> nchar <= alen bitlen -> 1 <= tb <= 12 ->
  lengths_ok nchar (at_ bitlen) -> kraft nchar (at_ bitlen) = 65536 ->
  nchar * 2 ^ (15 - tb) < 65536 ->
  alen table = 2 ^ tb -> 2 * nchar - 1 <= alen left -> 2 * nchar - 1 <= alen right ->
  exists s, makeTable nchar bitlen tb table left right = Ok (true, s) /\
    alen (t_table s) = alen table /\ tbl_spec nchar (at_ bitlen) tb left right s.
Proof.
  intros Hn Ha Ht Hok Hk Hbig Htl Hll Hrl. unfold makeTable. set (len := at_ bitlen) in *.
  destruct (tbl_count_ok nchar bitlen ltac:(lia) Ha) as [[_ [count [E [Ec Hc]]]]|[X _]]; [intros c Hc; apply Hok; lia| |contradiction].
  rewrite E. cbn [bind]. fold len in Hc.
  destruct (tbl_start_ok nchar len count ltac:(lia) Hok Ec Hc) as (start & wt & E2 & S1 & S2 & S3).
  rewrite E2. cbn [bind]. rewrite Hk. change (u16 65536) with 0. change (Z.land 0 65535) with 0. cbn [Z.eqb negb orb].
  destruct (Z.ltb_spec 16 tb) as [|_]; [lia|]. cbv zeta.
  set (m := 16 - tb).
  assert (Mp : 0 < 2 ^ m) by (apply Z.pow_pos_nonneg; unfold m; lia).
  set (I1 := fun i '(st, w) => alen st = 17 /\ alen w = 17 /\
    (forall j, 1 <= j <= 16 -> at_ st j = (if j <? i then u16 (base nchar len j) / 2 ^ m else u16 (base nchar len j)) /\
                               at_ w j = (if j <? i then 2 ^ (16 - j) / 2 ^ m else 2 ^ (16 - j)))).
  edestruct (forZ_inv I1) as [[st w] [E1 H1]].
  4:{ rewrite E1. cbn [bind]. destruct H1 as [A1 [A2 A3]].
    rewrite aget_ok by lia. cbn [bind]. rewrite (proj1 (A3 (tb + 1) ltac:(lia))).
    destruct (Z.ltb_spec (tb + 1) (tb + 1)); [lia|].
    rewrite shiftr_div by (unfold m; lia). rewrite shiftl_mul by lia. rewrite Z.mul_1_l.
    assert (P12 : 2 ^ tb <= 4096) by (change 4096 with (2 ^ 12); apply Z.pow_le_mono_r; lia).
    rewrite Z.min_l by exact P12.
    pose proof (J0_le nchar len tb ltac:(lia) ltac:(lia) Hok Hk) as HJL.
    pose proof (J0_nonneg nchar len tb ltac:(lia) ltac:(lia) Hok) as HJ0.
    pose proof (J0_mul nchar len tb ltac:(lia) ltac:(lia) Hok) as HJM. fold m in HJM. change (m_ tb) with m in HJM.
    pose proof (base_le nchar len ltac:(lia) Hok Hk (tb + 1)) as HB.
    assert (Clr : exists t, (if u16 (base nchar len (tb + 1)) / 2 ^ m =? 0 then Ok table
        else forZ (u16 (base nchar len (tb + 1)) / 2 ^ m) (2 ^ tb) (fun i t => aset t i 0) table) = Ok t /\
        alen t = alen table /\ forall i, J0 nchar len tb <= i < 2 ^ tb -> at_ t i = 0).
    { destruct (Z.eq_dec (base nchar len (tb + 1)) 65536) as [EB|NB].
      - rewrite EB. change (u16 65536) with 0. rewrite Z.div_0_l by lia. cbn [Z.eqb].
        exists table. split; [reflexivity|]. split; [reflexivity|]. intros i Hi. exfalso.
        assert (2 ^ tb * 2 ^ m = 65536).
        { rewrite <- Z.pow_add_r by (unfold m; lia). unfold m. replace (tb + (16 - tb)) with 16 by lia. reflexivity. }
        rewrite EB in HJM. nia.
      - rewrite u16_id by (pose proof HJM; nia).
        change (base nchar len (tb + 1) / 2 ^ m) with (J0 nchar len tb).
        assert (NZ : J0 nchar len tb <> 0).
        { intros Z0. rewrite Z0 in HJM. assert (HB0 : base nchar len (tb + 1) = 0) by lia.
          assert (K : kraft nchar len <= nchar * 2 ^ (15 - tb)); [|lia].
          unfold kraft. eapply Z.le_trans; [apply sumn_le with (g := fun _ => 2 ^ (15 - tb))|].
          - intros k Hk'. rewrite Z2Nat.id in Hk' by lia. pose proof (Hok k Hk') as HLk.
            pose proof (Z.pow_pos_nonneg 2 (15 - tb) ltac:(lia) ltac:(lia)).
            destruct (Z.eq_dec (len k) 0) as [->|N0]; [change (weight 0) with 0; lia|].
            destruct (Z_lt_ge_dec (len k) (tb + 1)) as [Lk|Lk].
            + exfalso. pose proof (canon_lt_base nchar len ltac:(lia) Hok k (tb + 1) Hk' N0 Lk).
              pose proof (canon_nonneg nchar len Hok k).
              pose proof (proj2 (weight_pos (len k) ltac:(lia))). lia.
            + rewrite (proj1 (weight_pos (len k) ltac:(lia))). apply Z.pow_le_mono_r; lia.
          - rewrite sumn_const. lia. }
        destruct (Z.eqb_spec (J0 nchar len tb) 0); [contradiction|].
        destruct (fill_range table (J0 nchar len tb) (2 ^ tb) 0) as [t [Et [At Vt]]]; [lia|lia|].
        exists t. split; [exact Et|]. split; [exact At|]. intros i Hi. rewrite Vt by lia.
        destruct (Z.leb_spec (J0 nchar len tb) i), (Z.ltb_spec i (2 ^ tb)); cbn [andb]; auto; lia. }
    destruct Clr as [t [Et [At Zt]]]. rewrite Et. cbn [bind].
    edestruct (for_ctl_inv (T := tbl) (fun J '(start, s) => TI nchar len tb left right J start s /\ alen (t_table s) = alen table) (fun _ => False)) as [r [E3 H3]].
    3:{ rewrite E3. cbn [bind]. destruct r as [[st' s]|]; [|contradiction]. destruct H3 as [H3 Hal].
      rewrite Z.add_0_l, Z2Nat.id in H3 by lia. exists s. split; [reflexivity|]. split; [exact Hal|].
      destruct H3 as [B1 B2 [l B3] B4]. constructor.
      - intros c Hsc i Hi. apply B4; auto. destruct Hsc; lia.
      - intros c Hlc. apply (LI_leaf _ _ _ _ _ _ _ _ _ B3); auto. destruct Hlc; lia.
      - intros i Hi Hni. pose proof (LI_avail_le nchar len tb ltac:(lia) ltac:(lia) Hok Hk left right _ _ _ _ B3).
        apply (LI_frame _ _ _ _ _ _ _ _ _ B3); [exact Hi|lia].
      - apply (LI_left _ _ _ _ _ _ _ _ _ B3).
      - apply (LI_right _ _ _ _ _ _ _ _ _ B3).
      - intros e a n Esl. pose proof (LI_rng _ _ _ _ _ _ _ _ _ B3 _ _ _ Esl).
        pose proof (LI_avail_le nchar len tb ltac:(lia) ltac:(lia) Hok Hk left right _ _ _ _ B3). lia. }
    - intros J [st' s] HJ [H3 Hal].
      destruct (tbl_step_ok nchar len tb ltac:(lia) ltac:(lia) Hok Hk left right ltac:(lia) ltac:(lia) bitlen w J st' s H3 ltac:(lia) ltac:(lia) eq_refl ltac:(lia) A2) as [st'' [s' [Es HT]]].
      { intros k Hk'. rewrite (proj2 (A3 k Hk')). change (m_ tb) with m.
        destruct (Z.ltb_spec k (tb + 1)), (Z.leb_spec k tb); auto; lia. }
      exists (Go (st'', s')). split; [exact Es|]. split; [exact HT|].
      destruct HT as [_ _ [l' HT] _]. rewrite (LI_table _ _ _ _ _ _ _ _ _ HT). congruence.
    - split; [|exact At]. constructor.
      + exact A1.
      + intros c Hc' Hl. pose proof (Hok c ltac:(lia)) as HLc. rewrite (proj1 (A3 (len c) ltac:(lia))).
        pose proof (nth_code_le nchar len ltac:(lia) Hok 0 c ltac:(lia) ltac:(lia) Hl) as NL.
        assert (N0 : nth_code nchar len 0 (len c) = base nchar len (len c)).
        { unfold nth_code. change (Z.to_nat 0) with 0%nat. cbn [sumn]. lia. }
        rewrite N0 in NL |- *. pose proof (cn_range nchar len Hok Hk c ltac:(lia) Hl).
        rewrite u16_id by lia. change (m_ tb) with m.
        destruct (Z.ltb_spec (len c) (tb + 1)), (Z.leb_spec (len c) tb); auto; lia.
      + exists []. apply LI_start; auto; lia.
      + intros c [Hc' _] HcJ. lia. }
  - lia.
  - intros i [st w] Hi [A1 [A2 A3]].
    rewrite aget_ok by lia. cbn [bind]. rewrite aset_ok by lia. cbn [bind]. rewrite aget_ok by lia. cbn [bind].
    rewrite aset_ok by lia. cbn [bind]. eexists. split; [reflexivity|]. unfold I1. rewrite !alen_upd.
    split; [exact A1|]. split; [exact A2|]. intros j Hj. rewrite !at_upd by lia.
    destruct (A3 j Hj) as [B1 B2]. destruct (A3 i ltac:(lia)) as [C1 C2].
    rewrite !shiftr_div by (unfold m; lia).
    destruct (Z.eqb_spec j i) as [->|].
    + rewrite C1, C2. destruct (Z.ltb_spec i i); [lia|]. destruct (Z.ltb_spec i (i + 1)); [|lia]. auto.
    + rewrite B1, B2. destruct (Z.ltb_spec j i), (Z.ltb_spec j (i + 1)); try lia; auto.
  - unfold I1. split; [exact S1|]. split; [exact S2|]. intros j Hj. destruct (Z.ltb_spec j 1); [lia|]. apply S3. exact Hj.
Qed.
