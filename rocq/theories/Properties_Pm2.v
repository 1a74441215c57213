(** Property C38: the history of the -pm2- decoder.  [mtf_after] is defined in S_Mtf.v. *)
From Verif Require Import Go GoLemmas M_Pm2hist S_Mtf P_Pm2hist.
From Coq Require Import Permutation.

(** [histInit] and then [histUpdate] for each byte *)
Fixpoint updates (bs : list Z) (h : hist) : res hist :=
  match bs with
  | [] => Ok h
  | b :: bs' => h <- histUpdate b h ;; updates bs' h
  end.

Definition sized_hist (h : hist) : Prop := alen (hprev h) = 256 /\ alen (hnext h) = 256.

Definition P0 (k : Z) : Z :=
  if k =? 127 then 0 else if k =? 223 then 128 else if k =? 159 then 224 else if k =? 31 then 160 else if k =? 255 then 32 else Z.land (k + 1) 255.
Definition N0 (k : Z) : Z :=
  if k =? 0 then 127 else if k =? 128 then 223 else if k =? 224 then 159 else if k =? 160 then 31 else if k =? 32 then 255 else Z.land (255 + k) 255.

Fixpoint chainb (l : list Z) : bool :=
  match l with
  | a :: t => match t with b :: _ => (P0 a =? b) && (N0 b =? a) && chainb t | [] => true end
  | [] => true
  end.

Lemma chainb_chain p n : (forall k, 0 <= k < 256 -> at_ p k = P0 k /\ at_ n k = N0 k) -> forall l, (forall a, In a l -> 0 <= a < 256) -> chainb l = true -> chain p n l.
Proof.
  intros H. induction l as [|a [|b l] IH]; intros R C; [exact I|exact I|]. cbn [chainb] in C. apply andb_true_iff in C. destruct C as [C C3]. apply andb_true_iff in C. destruct C as [C1 C2].
  apply Z.eqb_eq in C1, C2. destruct (H a) as [HP _]; [apply R; now left|]. destruct (H b) as [_ HN]; [apply R; right; now left|].
  change (at_ p a = b /\ at_ n b = a /\ chain p n (b :: l)). split; [congruence|]. split; [congruence|]. apply IH; [intros x Hx; apply R; now right|exact C3].
Qed.

Lemma land255 x : Z.land x 255 = x mod 256.
Proof. change 255 with (Z.ones 8). rewrite Z.land_ones by lia. reflexivity. Qed.

Lemma loop_init p0 n0 : alen p0 = 256 -> alen n0 = 256 -> exists p n, forZ 0 256 histInit_step (p0, n0) = Ok (p, n) /\ alen p = 256 /\ alen n = 256 /\
  forall k, 0 <= k < 256 -> at_ p k = Z.land (k + 1) 255 /\ at_ n k = Z.land (255 + k) 255.
Proof.
  intros LP LN.
  destruct (forZ_inv (fun i s => alen (fst s) = 256 /\ alen (snd s) = 256 /\ forall j, 0 <= j < i -> at_ (fst s) ((255 + j) mod 256) = j /\ at_ (snd s) ((1 + j) mod 256) = j)
    histInit_step 0 256 (p0, n0)) as [[p n] [E [I1 [I2 I3]]]].
  - lia.
  - intros i [p n] Hi [J1 [J2 J3]]. cbn [fst snd] in *. unfold histInit_step. cbn [fst snd]. rewrite !land255.
    pose proof (Z.mod_pos_bound (255 + i) 256 ltac:(lia)). pose proof (Z.mod_pos_bound (1 + i) 256 ltac:(lia)).
    rewrite aset_ok by lia. cbn [bind]. rewrite aset_ok by lia. cbn [bind]. eexists. split; [reflexivity|]. cbn [fst snd]. rewrite !alen_upd. split; [exact J1|]. split; [exact J2|].
    intros j Hj. rewrite u8_id by lia.
    pose proof (Z.mod_pos_bound (255 + j) 256 ltac:(lia)). pose proof (Z.mod_pos_bound (1 + j) 256 ltac:(lia)).
    destruct (Z.eq_dec j i) as [->|NE]; [now rewrite !at_upd_eq|].
    rewrite !at_upd_ne; [apply J3; lia|lia|lia| |lia|lia|]; intros E; [assert (D : (j - i) mod 256 = 0)|assert (D : (j - i) mod 256 = 0)].
    1: { replace (j - i) with ((1 + j) - (1 + i)) by lia. rewrite Zminus_mod, E, Z.sub_diag. reflexivity. }
    2: { replace (j - i) with ((255 + j) - (255 + i)) by lia. rewrite Zminus_mod, E, Z.sub_diag. reflexivity. }
    all: apply Z.mod_divide in D; [destruct D as [q D]; lia|lia].
  - split; [exact LP|]. split; [exact LN|]. intros j Hj. lia.
  - cbn [fst snd] in *. exists p, n. split; [exact E|]. split; [exact I1|]. split; [exact I2|]. intros k Hk. rewrite !land255. split.
    + pose proof (Z.mod_pos_bound (k + 1) 256 ltac:(lia)). destruct (I3 ((k + 1) mod 256)) as [X _]; [lia|]. 
      rewrite Zplus_mod_idemp_r in X. replace (255 + (k + 1)) with (k + 1 * 256) in X by lia. rewrite Z.mod_add, Z.mod_small in X by lia. exact X.
    + pose proof (Z.mod_pos_bound (255 + k) 256 ltac:(lia)). destruct (I3 ((255 + k) mod 256)) as [_ X]; [lia|].
      rewrite Zplus_mod_idemp_r in X. replace (1 + (255 + k)) with (k + 1 * 256) in X by lia. rewrite Z.mod_add, Z.mod_small in X by lia. exact X.
Qed.

Lemma start_perm : byteset mtf_start.
Proof.
  unfold byteset. apply NoDup_Permutation; [apply run_nodup| |].
  - assert (X : (fix nd l := match l with [] => true | x :: t => negb (existsb (Z.eqb x) t) && nd t end) mtf_start = true) by (vm_compute; reflexivity).
    revert X. generalize mtf_start. induction l as [|x l IH]; intros X; [constructor|]. apply andb_true_iff in X. destruct X as [X1 X2]. constructor; [|now apply IH].
    intros I. apply negb_true_iff in X1. assert (existsb (Z.eqb x) l = true) by (apply existsb_exists; exists x; split; [exact I|apply Z.eqb_refl]). congruence.
  - intros x. rewrite run_in. split.
    + intros H. assert (X : forallb (fun k => existsb (Z.eqb k) mtf_start) (run 0 255) = true) by (vm_compute; reflexivity).
      rewrite forallb_forall in X. specialize (X x (proj2 (run_in x) H)). apply existsb_exists in X. destruct X as [y [Y1 Y2]]. apply Z.eqb_eq in Y2. now subst.
    + intros H. assert (X : forallb (fun k => (0 <=? k) && (k <? 256)) mtf_start = true) by (vm_compute; reflexivity).
      rewrite forallb_forall in X. specialize (X x H). apply andb_true_iff in X. destruct X as [X1 X2]. apply Z.leb_le in X1. apply Z.ltb_lt in X2. lia.
Qed.

Lemma init_rep h : sized_hist h -> exists h', histInit h = Ok h' /\ rep h' mtf_start.
Proof.
  intros [LP LN]. unfold histInit. destruct (loop_init _ _ LP LN) as [p [n [E [L1 [L2 H]]]]]. rewrite E. cbn [bind].
  rewrite (aset_ok p) by lia. cbn [bind]. rewrite (aset_ok n) by lia. cbn [bind].
  do 8 (rewrite aset_ok by (rewrite ?alen_upd; lia); cbn [bind]). eexists. split; [reflexivity|]. constructor; cbn [hprev hnext hlast].
  - rewrite !alen_upd. auto.
  - exact start_perm.
  - exists (run 33 127 ++ run 0 31 ++ run 160 223 ++ run 128 159 ++ run 224 255). split; [vm_compute; reflexivity|].
    apply chainb_chain.
    + intros k Hk. destruct (H k Hk) as [HP HN]. unfold P0, N0. rewrite !at_upd, HP, HN by lia.
      split; repeat match goal with |- context [?a =? ?b] => destruct (Z.eqb_spec a b); subst; try lia; try reflexivity end.
    + intros a Ha. apply in_app_iff in Ha. destruct Ha as [Ha|[<-|[]]]; [|lia]. now apply (byteset_in _ a start_perm).
    + vm_compute. reflexivity.
Qed.

Lemma updates_rep bs : bytes bs -> forall h l, rep h l -> exists h', updates bs h = Ok h' /\ rep h' (fold_left (fun l b => to_front b l) bs l).
Proof.
  induction bs as [|b bs IH]; intros B h l R; [exists h; auto|]. inversion B as [|? ? B1 B2]; subst. cbn [updates fold_left].
  destruct (update_rep h l b R B1) as [h1 [E R1]]. rewrite E. cbn [bind]. now apply IH.
Qed.

(** For every sequence of bytes, starting from any state of the package variables:
    nothing panics, looking up position [n] gives the byte at position [n] of the
    move-to-front list, and that list contains every byte exactly once. *)
Theorem C38_history_is_move_to_front :
  forall h0 bs, sized_hist h0 -> bytes bs ->
    exists h1 h2, histInit h0 = Ok h1 /\ updates bs h1 = Ok h2 /\
      (forall n, 0 <= n < 256 -> histLookup n h2 = Ok (nth (Z.to_nat n) (mtf_after bs) 0)) /\
      Permutation (run 0 255) (mtf_after bs).
Proof.
  intros h0 bs S B. destruct (init_rep h0 S) as [h1 [E1 R1]]. destruct (updates_rep bs B h1 mtf_start R1) as [h2 [E2 R2]].
  exists h1, h2. split; [exact E1|]. split; [exact E2|]. split; [intros n Hn; now apply lookup_rep|exact (rp_set _ _ R2)].
Qed.

Example C38_example : sized_hist hist0 /\ bytes [65; 200; 65] /\
  firstn 4 (mtf_after [65; 200; 65]) = [65; 200; 32; 33] /\
  (match (h <- histInit hist0 ;; h <- updates [65; 200; 65] h ;; histLookup 255 h) with Ok x => x | _ => -1 end) = 255.
Proof. split; [split; reflexivity|]. split; [repeat constructor; unfold is_byte; lia|]. split; vm_compute; reflexivity. Qed.

Print Assumptions C38_history_is_move_to_front.
