(** The doubly linked ring of pm2hist.go represents a move-to-front list. *)
From Verif Require Import Go GoLemmas M_Pm2hist S_Mtf.
From Coq Require Import Permutation.

(** Neighbours in a list are linked in both directions. *)
Fixpoint chain (p n : arr) (l : list Z) : Prop :=
  match l with
  | a :: t => match t with b :: _ => at_ p a = b /\ at_ n b = a /\ chain p n t | [] => True end
  | [] => True
  end.

Lemma chain_app p n : forall l x m, chain p n (l ++ x :: m) <-> chain p n (l ++ [x]) /\ chain p n (x :: m).
Proof.
  induction l as [|a l IH]; intros x m; cbn [app].
  - cbn [chain]. tauto.
  - destruct l as [|b l]; cbn [app] in *.
    + cbn [chain]. tauto.
    + change (chain p n (a :: b :: l ++ x :: m)) with (at_ p a = b /\ at_ n b = a /\ chain p n (b :: l ++ x :: m)).
      change (chain p n (a :: b :: l ++ [x])) with (at_ p a = b /\ at_ n b = a /\ chain p n (b :: l ++ [x])).
      rewrite (IH x m). tauto.
Qed.

(** Changes elsewhere keep a chain.  The last element has no successor and the first
    no predecessor. *)
Lemma chain_frame p n p' n' : forall l x y,
  (forall a, In a (x :: l) -> at_ p' a = at_ p a) -> (forall a, In a (l ++ [y]) -> at_ n' a = at_ n a) ->
  chain p n (x :: l ++ [y]) -> chain p' n' (x :: l ++ [y]).
Proof.
  induction l as [|a l IH]; intros x y HP HN; cbn [app].
  - intros [C1 [C2 _]]. cbn [chain]. rewrite HP, HN by (cbn; auto). auto.
  - change (chain p n (x :: a :: l ++ [y])) with (at_ p x = a /\ at_ n a = x /\ chain p n (a :: l ++ [y])).
    change (chain p' n' (x :: a :: l ++ [y])) with (at_ p' x = a /\ at_ n' a = x /\ chain p' n' (a :: l ++ [y])).
    intros [C1 [C2 C3]]. rewrite HP, HN by (cbn; auto). split; [exact C1|]. split; [exact C2|]. apply IH; auto.
    + intros b Hb. apply HP. now right.
    + intros b Hb. apply HN. now right.
Qed.

Definition byteset (l : list Z) : Prop := Permutation (run 0 255) l.

Lemma run_in x : In x (run 0 255) <-> 0 <= x < 256.
Proof.
  unfold run. rewrite in_map_iff. split.
  - intros [k [<- H]]. apply in_seq in H. cbn in H. lia.
  - intros H. exists (Z.to_nat x). split; [lia|]. apply in_seq. change (Z.to_nat 0) with 0%nat. change (Z.to_nat (255 - 0 + 1)) with 256%nat. lia.
Qed.
Lemma run_nodup : NoDup (run 0 255).
Proof. unfold run. apply FinFun.Injective_map_NoDup; [intros a b; lia|apply seq_NoDup]. Qed.
Lemma run_length : length (run 0 255) = 256%nat.
Proof. unfold run. now rewrite map_length, seq_length. Qed.

Record rep (h : hist) (l : list Z) : Prop := {
  rp_len : alen (hprev h) = 256 /\ alen (hnext h) = 256;
  rp_set : byteset l;
  rp_last : exists t, l = hlast h :: t /\ chain (hprev h) (hnext h) (l ++ [hlast h])
}.

Lemma byteset_in l x : byteset l -> (In x l <-> 0 <= x < 256).
Proof. intros H. rewrite <- run_in. split; apply Permutation_in; [now apply Permutation_sym|exact H]. Qed.
Lemma byteset_nodup l : byteset l -> NoDup l.
Proof. intros H. eapply Permutation_NoDup; [exact H|apply run_nodup]. Qed.
Lemma byteset_length l : byteset l -> length l = 256%nat.
Proof. intros H. rewrite <- (Permutation_length H). apply run_length. Qed.

Lemma remove_notin b l : ~ In b l -> remove Z.eq_dec b l = l.
Proof. induction l as [|a l IH]; cbn; [reflexivity|]. intros H. destruct (Z.eq_dec b a) as [->|]; [tauto|]. f_equal. tauto. Qed.

Lemma remove_mid b A B : NoDup (A ++ b :: B) -> remove Z.eq_dec b (A ++ b :: B) = A ++ B.
Proof.
  intros N. apply NoDup_remove_2 in N. rewrite in_app_iff in N. rewrite remove_app. cbn [remove]. destruct (Z.eq_dec b b); [|contradiction].
  rewrite !remove_notin by tauto. reflexivity.
Qed.

Lemma split_last {A} (l : list A) : l <> [] -> exists t x, l = t ++ [x].
Proof. intros H. destruct (exists_last H) as [t [x ->]]. eauto. Qed.

Lemma nodup_left {A} (a b : list A) : NoDup (a ++ b) -> NoDup a.
Proof.
  induction a as [|x a IH]; cbn [app]; intros H; [constructor|]. inversion H as [|? ? H1 H2]; subst. constructor; [|now apply IH].
  intros I. apply H1. apply in_app_iff. now left.
Qed.

(** One update moves the byte to the front. *)
Lemma update_rep h l data : rep h l -> 0 <= data < 256 -> exists h', histUpdate data h = Ok h' /\ rep h' (to_front data l).
Proof.
  intros [[LP LN] S [t [-> C]]] D. unfold histUpdate. pose proof (byteset_nodup _ S) as ND. destruct (Z.eqb_spec data (hlast h)) as [->|NE].
  { exists h. split; [reflexivity|]. unfold to_front. cbn [remove]. destruct (Z.eq_dec (hlast h) (hlast h)); [|contradiction]. inversion ND; subst.
    rewrite remove_notin by assumption. constructor; auto. exists t. auto. }
  assert (I : In data (hlast h :: t)) by now apply byteset_in. destruct I as [E|I]; [congruence|].
  apply in_split in I. destruct I as [A [B ->]]. set (la := hlast h) in *.
  (* the neighbours of data *)
  assert (EX : exists A' x, la :: A = A' ++ [x]) by (apply split_last; discriminate). destruct EX as [A' [x EX]].
  assert (EY : exists y B', B ++ [la] = y :: B') by (destruct B as [|b B]; cbn; eauto). destruct EY as [y [B' EY]].
  assert (RNG : forall a, In a (la :: A ++ data :: B) -> 0 <= a < 256) by (intros a Ha; apply (byteset_in _ a S), Ha).
  assert (C' : chain (hprev h) (hnext h) (A' ++ x :: data :: y :: B')).
  { replace (A' ++ x :: data :: y :: B') with ((la :: A ++ data :: B) ++ [la]); [exact C|]. cbn [app]. rewrite <- app_assoc. cbn [app]. rewrite EY.
    change (la :: A ++ data :: y :: B') with ((la :: A) ++ data :: y :: B'). rewrite EX, <- app_assoc. reflexivity. }
  apply chain_app in C'. destruct C' as [CA CX]. change (chain (hprev h) (hnext h) (x :: data :: y :: B')) with (at_ (hprev h) x = data /\ at_ (hnext h) data = x /\ (at_ (hprev h) data = y /\ at_ (hnext h) y = data /\ chain (hprev h) (hnext h) (y :: B'))) in CX.
  destruct CX as (X1 & X2 & X3 & X4 & CY).
  assert (Hx : 0 <= x < 256). { apply RNG. change (In x ((la :: A) ++ data :: B)). rewrite EX, !in_app_iff. cbn; auto. }
  assert (Hy : 0 <= y < 256). { apply RNG. destruct B as [|b B]; cbn in EY; injection EY as <- _; [now left|]. right. rewrite in_app_iff. cbn; auto. }
  assert (Hla : 0 <= la < 256) by (apply RNG; now left).
  rewrite (aget_ok (hnext h)), X2 by lia. cbn [bind]. rewrite (aget_ok (hprev h)), X3 by lia. cbn [bind].
  rewrite (aset_ok (hprev h)) by lia. cbn [bind]. rewrite (aset_ok (hnext h)) by lia. cbn [bind].
  set (p1 := upd (hprev h) x y). set (n1 := upd (hnext h) y x).
  assert (L1 : alen p1 = 256) by (unfold p1; rewrite alen_upd; exact LP). assert (L2 : alen n1 = 256) by (unfold n1; rewrite alen_upd; exact LN).
  rewrite (aget_ok n1) by lia. cbn [bind].
  (* the ring without data *)
  assert (ND1 : NoDup (la :: A ++ B) /\ ~ In data (la :: A ++ B)).
  { change (NoDup ((la :: A) ++ data :: B)) in ND. split; [exact (NoDup_remove_1 _ _ _ ND)|exact (NoDup_remove_2 _ _ _ ND)]. }
  destruct ND1 as [ND1 NI].
  assert (C1 : chain p1 n1 ((la :: A ++ B) ++ [la])).
  { replace ((la :: A ++ B) ++ [la]) with (A' ++ x :: y :: B'). 2: { cbn [app]. rewrite <- app_assoc, EY. change (la :: A ++ y :: B') with ((la :: A) ++ y :: B'). rewrite EX, <- app_assoc. reflexivity. }
    assert (NDA : NoDup (A' ++ [x])) by (rewrite <- EX; change (la :: A ++ B) with ((la :: A) ++ B) in ND1; apply nodup_left in ND1; exact ND1).
    assert (NXA : ~ In x A') by (apply NoDup_remove_2 in NDA; rewrite app_nil_r in NDA; exact NDA).
    assert (NDY : NoDup (A ++ B)) by now inversion ND1. assert (NLA : ~ In la (A ++ B)) by now inversion ND1.
    assert (BYTEA : forall a, In a (la :: A) -> 0 <= a < 256) by (intros a Ha; apply RNG; change (In a ((la :: A) ++ data :: B)); apply in_app_iff; now left).
    assert (BYTEB : forall a, In a B -> 0 <= a < 256) by (intros a Ha; apply RNG; right; apply in_app_iff; right; now right).
    apply chain_app. split.
    - destruct A' as [|a0 A'']; [cbn; auto|]. cbn [app] in EX. injection EX as <- EX'. change ((la :: A'') ++ [x]) with (la :: A'' ++ [x]).
      apply (chain_frame (hprev h) (hnext h)); [| |exact CA].
      + intros a Ha. unfold p1. apply at_upd_ne; [lia| |intros ->; contradiction]. apply BYTEA. rewrite EX'. destruct Ha as [->|Ha]; [now left|right; apply in_app_iff; now left].
      + intros a Ha. rewrite <- EX' in Ha. unfold n1. apply at_upd_ne; [lia|apply BYTEA; now right|]. intros ->.
        destruct B as [|b B]; cbn in EY; injection EY as <- _; [apply NLA; apply in_app_iff; now left|].
        apply (NoDup_remove_2 A B b NDY). apply in_app_iff. now left.
    - cbn [chain]. split; [apply at_upd_eq|]. split; [apply at_upd_eq|].
      destruct B as [|b B]; cbn in EY; injection EY as <- <-; [cbn; auto|].
      apply (chain_frame (hprev h) (hnext h)); [| |exact CY].
      + intros a Ha. unfold p1. apply at_upd_ne; [lia|now apply BYTEB|]. intros ->.
        assert (XA : In x (la :: A)) by (rewrite EX; apply in_app_iff; right; now left). 
        destruct XA as [<-|XA]; [apply NLA; apply in_app_iff; now right|]. revert NDY XA Ha. clear. intros N1 N2 N3. apply in_split in N2. destruct N2 as [u [v ->]].
        rewrite <- app_assoc in N1. cbn [app] in N1. apply NoDup_remove_2 in N1. apply N1. apply in_app_iff. right. apply in_app_iff. now right.
      + intros a Ha. unfold n1. assert (AR : 0 <= a < 256) by (apply in_app_iff in Ha; destruct Ha as [Ha|[<-|[]]]; [apply BYTEB; now right|exact Hla]).
        apply at_upd_ne; [lia|lia|]. intros ->. apply in_app_iff in Ha. destruct Ha as [Ha|[E|[]]].
        * apply (NoDup_remove_2 A B b NDY). apply in_app_iff. now right.
        * apply NLA. rewrite E. apply in_app_iff. right. now left. }
  (* attach *)
  assert (EZ : exists Z' z, la :: A ++ B = Z' ++ [z]) by (apply split_last; discriminate). destruct EZ as [Z' [z EZ]].
  assert (Hz : at_ n1 la = z). { rewrite EZ, <- app_assoc in C1. change (chain p1 n1 (Z' ++ z :: [la])) in C1. apply chain_app in C1. destruct C1 as [_ [_ [C1 _]]]. exact C1. }
  assert (IZ : forall a, In a (Z' ++ [z]) -> 0 <= a < 256 /\ a <> data).
  { rewrite <- EZ. intros a Ha. split; [|intros ->; contradiction]. destruct Ha as [<-|Ha]; [lia|]. apply RNG. right. apply in_app_iff in Ha. apply in_app_iff. cbn. tauto. }
  destruct (IZ z) as [Rz Nz]; [apply in_app_iff; right; now left|].
  rewrite Hz. rewrite (aset_ok p1) by lia. cbn [bind]. rewrite (aset_ok n1) by lia. cbn [bind].
  rewrite aset_ok by (rewrite alen_upd; lia). cbn [bind]. rewrite aset_ok by (rewrite alen_upd; lia). cbn [bind].
  eexists. split; [reflexivity|]. set (p2 := upd (upd p1 z data) data la). set (n2 := upd (upd n1 data z) la data).
  assert (TF : to_front data (la :: A ++ data :: B) = data :: la :: A ++ B).
  { unfold to_front. change (la :: A ++ data :: B) with ((la :: A) ++ data :: B). rewrite remove_mid; [reflexivity|exact ND]. }
  rewrite TF. constructor; cbn [hprev hnext hlast].
  - unfold p2, n2. rewrite !alen_upd. auto.
  - unfold byteset in *. eapply Permutation_trans; [exact S|]. change (Permutation ((la :: A) ++ data :: B) (data :: (la :: A) ++ B)). apply Permutation_sym, Permutation_middle.
  - exists (la :: A ++ B). split; [reflexivity|]. rewrite EZ. change ((data :: Z' ++ [z]) ++ [data]) with (data :: (Z' ++ [z]) ++ [data]). rewrite <- app_assoc. cbn [app].
    assert (NDZ : NoDup (Z' ++ [z])) by (rewrite <- EZ; exact ND1). assert (NZ : ~ In z Z') by (apply NoDup_remove_2 in NDZ; rewrite app_nil_r in NDZ; exact NDZ).
    change (data :: Z' ++ [z; data]) with ((data :: Z') ++ z :: [data]). apply chain_app. split.
    + destruct Z' as [|z0 Z'']; cbn [app] in EZ; injection EZ as E0 EZ'.
      * cbn. split; [|split; [|auto]]; [unfold p2; rewrite at_upd_eq; congruence|unfold n2; rewrite E0; apply at_upd_eq].
      * subst z0. cbn [app]. change (chain p2 n2 (data :: la :: Z'' ++ [z])) with (at_ p2 data = la /\ at_ n2 la = data /\ chain p2 n2 (la :: Z'' ++ [z])).
        split; [unfold p2; apply at_upd_eq|]. split; [unfold n2; apply at_upd_eq|].
        assert (C2 : chain p1 n1 (la :: Z'' ++ [z])).
        { replace ((la :: A ++ B) ++ [la]) with ((la :: Z'') ++ z :: [la]) in C1 by (cbn [app]; rewrite EZ', <- app_assoc; reflexivity). apply chain_app in C1. exact (proj1 C1). }
        apply (chain_frame p1 n1); [| |exact C2].
        -- intros a Ha. destruct (IZ a) as [Ra Na]; [change (In a ((la :: Z'') ++ [z])); apply in_app_iff; now left|]. unfold p2.
           rewrite at_upd_ne by lia. apply at_upd_ne; [lia|lia|intros ->; contradiction].
        -- intros a Ha. destruct (IZ a) as [Ra Na]; [now right|]. unfold n2. rewrite at_upd_ne; [|lia|lia|].
           2: { intros ->. inversion NDZ as [|? ? N3 N4]; subst. contradiction. }
           apply at_upd_ne; lia.
    + cbn [chain]. split; [|split; [|auto]].
      * unfold p2. rewrite at_upd_ne by lia. apply at_upd_eq.
      * unfold n2. rewrite at_upd_ne by lia. apply at_upd_eq.
Qed.

(** Walking. *)
Lemma walk_chain p n : alen p = 256 -> forall k l i d, chain p n l -> (forall a, In a l -> 0 <= a < 256) -> (k < length l)%nat -> nth 0 l d = i -> walk p k i = Ok (nth k l d).
Proof.
  intros LP. induction k as [|k IH]; intros l i d C R L <-; [reflexivity|]. destruct l as [|a [|b l]]; cbn [length] in L; [lia|lia|].
  change (nth 0 (a :: b :: l) d) with a. cbn [walk]. destruct C as [C1 [_ C]]. rewrite aget_ok by (rewrite LP; apply R; now left). cbn [bind]. rewrite C1.
  change (nth (S k) (a :: b :: l) d) with (nth k (b :: l) d). apply IH; auto; [intros x Hx; apply R; now right|cbn [length] in *; lia].
Qed.

Lemma walk_back p n : alen n = 256 -> forall k l i d, chain p n l -> (forall a, In a l -> 0 <= a < 256) -> (k < length l)%nat -> nth (length l - 1) l d = i -> walk n k i = Ok (nth (length l - 1 - k) l d).
Proof.
  intros LN. induction k as [|k IH]; intros l i d C R L <-.
  - now rewrite Nat.sub_0_r.
  - destruct (split_last l) as [t [x ->]]; [intros ->; cbn in L; lia|]. rewrite app_length in *. cbn [length] in *.
    destruct (split_last t) as [u [y ->]]; [intros ->; cbn in L; lia|]. rewrite app_length in *. cbn [length] in *.
    replace (length u + 1 + 1 - 1)%nat with (length (u ++ [y]) + 0)%nat by (rewrite app_length; cbn; lia). rewrite app_nth2_plus. cbn [nth].
    cbn [walk]. rewrite aget_ok by (rewrite LN; apply R; apply in_app_iff; right; now left). cbn [bind].
    rewrite <- app_assoc in C. cbn [app] in C. apply chain_app in C. destruct C as [C1 [_ [C2 _]]]. rewrite C2.
    rewrite (IH (u ++ [y]) y d C1); [|intros a Ha; apply R; apply in_app_iff; now left|rewrite app_length; cbn; lia|].
    + f_equal. rewrite !app_length. cbn [length]. rewrite (app_nth1 (u ++ [y]) [x]) by (rewrite app_length; cbn; lia). f_equal. lia.
    + rewrite app_length. cbn [length]. replace (length u + 1 - 1)%nat with (length u + 0)%nat by lia. now rewrite app_nth2_plus.
Qed.

Lemma lookup_rep h l n : rep h l -> 0 <= n < 256 -> histLookup n h = Ok (nth (Z.to_nat n) l 0).
Proof.
  intros [[LP LN] S [t [-> C]]] H. unfold histLookup. pose proof (byteset_length _ S) as LL.
  assert (R : forall a, In a ((hlast h :: t) ++ [hlast h]) -> 0 <= a < 256).
  { intros a Ha. apply (byteset_in _ a S). apply in_app_iff in Ha. destruct Ha as [Ha|[<-|[]]]; [exact Ha|now left]. }
  destruct (Z.leb_spec 128 n).
  - destruct (Z.ltb_spec (256 - n) 0); [lia|].
    rewrite (walk_back (hprev h) (hnext h) LN (Z.to_nat (256 - n)) ((hlast h :: t) ++ [hlast h]) (hlast h) 0 C R).
    + f_equal. rewrite app_length, LL. cbn [length]. replace (256 + 1 - 1 - Z.to_nat (256 - n))%nat with (Z.to_nat n) by lia. apply app_nth1. rewrite LL. lia.
    + rewrite app_length, LL. cbn [length]. lia.
    + rewrite app_length, LL. cbn [length]. replace (256 + 1 - 1)%nat with (length (hlast h :: t) + 0)%nat by (rewrite LL; reflexivity). now rewrite app_nth2_plus.
  - destruct (Z.ltb_spec n 0); [lia|].
    rewrite (walk_chain (hprev h) (hnext h) LP (Z.to_nat n) ((hlast h :: t) ++ [hlast h]) (hlast h) 0 C R).
    + f_equal. apply app_nth1. rewrite LL. lia.
    + rewrite app_length, LL. lia.
    + reflexivity.
Qed.
