(** Compression onto a disk that fills up: the run on the full disk does what the
    undisturbed run does, and writes the first bytes of what it writes. *)
From Verif Require Import Go GoLemmas M_Crc M_Bitio M_Maketree M_Maketbl M_Huf P_DecAny M_Slide P_EncKeep S_Writer M_Decode M_Lzhuf M_Writer M_Full P_ConcEnc.

(** ** What the undisturbed writer keeps *)

Definition um (w w' : wst) : Prop :=
  (unpackable w = true -> unpackable w' = true) /\ wcompsize w <= wcompsize w' /\
  worigsize w' = worigsize w /\ exists l, wout w' = l ++ wout w /\ wcompsize w' = wcompsize w + zlen l.

Lemma um_refl w : um w w.
Proof. split; [auto|]. split; [lia|]. split; [reflexivity|]. exists []. split; [reflexivity|]. change (zlen []) with 0. lia. Qed.
Lemma um_trans a b c : um a b -> um b c -> um a c.
Proof.
  intros (A1 & A2 & A3 & l & A4 & A5) (B1 & B2 & B3 & k & B4 & B5). split; [auto|]. split; [lia|]. split; [congruence|].
  exists (k ++ l). rewrite B4, A4, app_assoc. split; [reflexivity|]. rewrite zlen_app. lia.
Qed.

Lemma putcode_loop_um fuel : forall n x w w', putcode_loop fuel n x w = Ok w' -> um w w'.
Proof.
  induction fuel; intros n x w w' H; cbn [putcode_loop] in H; [discriminate|]. destruct (_ <=? n).
  - destruct (Z.ltb_spec (wcompsize w) (worigsize w)); apply IHfuel in H; (eapply um_trans; [|exact H]);
      (split; [cbn; auto|]; split; [cbn; lia|]; split; [reflexivity|]); cbn [wout wcompsize]; [exists [u8 (wsub w + u8 (Z.shiftr x (u8 (16 - wbitcount w))))]|exists []]; (split; [reflexivity|]); [reflexivity|change (zlen []) with 0; lia].
  - injection H as <-. split; [auto|]. split; [cbn; lia|]. split; [reflexivity|]. exists []. split; [reflexivity|]. cbn [wcompsize]. change (zlen []) with 0. lia.
Qed.

Lemma putcode_um n x w w' : putcode n x w = Ok w' -> um w w'.
Proof. apply putcode_loop_um. Qed.
Lemma putbits_um n x w w' : putbits n x w = Ok w' -> um w w'.
Proof. apply putcode_um. Qed.
Lemma putsym_um l c x w w' : putsym l c x w = Ok w' -> um w w'.
Proof. unfold putsym. intros H. inv. eapply putcode_um; eauto. Qed.

Ltac uk := repeat match goal with
  | H : bind _ _ = Ok _ |- _ => apply bind_ok in H; let E := fresh "E" in let x := fresh "x" in destruct H as [x [E H]]
  | H : (let '(_, _) := ?p in _) = Ok _ |- _ => destruct p
  | H : putbits _ _ _ = Ok _ |- _ => apply putbits_um in H
  | H : putcode _ _ _ = Ok _ |- _ => apply putcode_um in H
  | H : putsym _ _ _ _ = Ok _ |- _ => apply putsym_um in H
  | H : Ok _ = Ok _ |- _ => injection H; clear H; intros; subst
  end.
Ltac ut := first [eassumption | apply um_refl | eapply um_trans; [eassumption|ut]].

Lemma writePtLen_um a n nb i w w' : writePtLen a n nb i w = Ok w' -> um w w'.
Proof.
  unfold writePtLen. intros H. uk.
  eapply (loop_partial (fun s => um w (snd s)) (fun w' => um w w')) in H; [exact H| |exact E0].
  intros [j w2] c K X. cbn [snd] in K. destruct (j <? x).
  - cbv zeta in X. apply bind_ok in X. destruct X as [k [_ X]]. apply bind_ok in X. destruct X as [w3 [X1 X]].
    assert (K2 : um w w3) by (destruct (k <=? 6); uk; ut).
    destruct (_ =? i).
    + apply bind_ok in X. destruct X as [j2 [_ X]]. uk. cbn [snd]. ut.
    + uk. exact K2.
  - uk. exact K.
Qed.

Lemma writeCLen_um a b c0 w w' : writeCLen a b c0 w = Ok w' -> um w w'.
Proof.
  unfold writeCLen. intros H. uk.
  eapply (loop_partial (fun s => um w (snd s)) (fun w' => um w w')) in H; [exact H| |exact E0].
  intros [j w2] c K X. cbn [snd] in K. destruct (j <? x); [|uk; exact K].
  cbv zeta in X. apply bind_ok in X. destruct X as [k [_ X]]. destruct (k =? 0).
  - apply bind_ok in X. destruct X as [[i2 cnt] [_ X]]. apply bind_ok in X. destruct X as [w3 [X1 X]]. injection X as <-. cbn [snd].
    destruct (cnt <=? 2); [|destruct (cnt <=? 18); [|destruct (cnt =? 19)]]; try (uk; ut).
    apply (forZ_keep (fun w3 => um w w3)) in X1; auto. intros i3 s s' K2 Y. uk. ut.
  - uk. cbn [snd]. ut.
Qed.

Lemma encodeP_um a b p w w' : encodeP a b p w = Ok w' -> um w w'.
Proof. unfold encodeP. intros H. uk. destruct (1 <? x); uk; ut. Qed.

Lemma sendHead_um h w h' w' size : sendHead h w = Ok (h', w', size) -> um w w'.
Proof.
  unfold sendHead. cbv zeta. intros H. apply bind_ok in H. destruct H as [r [_ H]]. apply bind_ok in H. destruct H as [sz [_ H]].
  apply bind_ok in H. destruct H as [w1 [E1 H]]. apply putbits_um in E1. apply bind_ok in H. destruct H as [[h2 w2] [E2 H]].
  assert (K2 : um w1 w2).
  { destruct (Nc <=? _).
    - apply bind_ok in E2. destruct E2 as [t [_ E2]]. apply bind_ok in E2. destruct E2 as [r2 [_ E2]]. apply bind_ok in E2. destruct E2 as [w3 [E3 E2]].
      apply bind_ok in E2. destruct E2 as [w4 [E4 E2]]. injection E2 as _ <-. apply writeCLen_um in E4.
      eapply um_trans; [|exact E4]. destruct (Nt <=? _); [eapply writePtLen_um; eauto|uk; ut].
    - uk; ut. }
  apply bind_ok in H. destruct H as [r2 [_ H]]. apply bind_ok in H. destruct H as [w3 [E3 H]]. injection H as _ <- _.
  eapply um_trans; [exact E1|]. eapply um_trans; [exact K2|].
  match type of E3 with (if ?b then _ else _) = _ => destruct b end; [eapply writePtLen_um; eauto|uk; ut].
Qed.

Lemma send_sym_um h i f p w c : send_sym h i (f, p, w) = Ok c ->
  match c with Go (_, _, w') => um w w' | Stop w' => um w w' end.
Proof.
  unfold send_sym. intros H. apply bind_ok in H. destruct H as [[f1 p1] [_ H]]. apply bind_ok in H. destruct H as [[p2 w2] [E H]].
  assert (K : um w w2).
  { destruct (Z.testbit _ _).
    - cbv zeta in E. apply bind_ok in E. destruct E as [b [_ E]]. apply bind_ok in E. destruct E as [w3 [X1 E]]. apply putsym_um in X1.
      apply bind_ok in E. destruct E as [k1 [_ E]]. apply bind_ok in E. destruct E as [k2 [_ E]]. apply bind_ok in E. destruct E as [w4 [X2 E]].
      apply encodeP_um in X2. injection E as _ <-. eapply um_trans; eauto.
    - apply bind_ok in E. destruct E as [b [_ E]]. apply bind_ok in E. destruct E as [w3 [X1 E]]. apply putsym_um in X1. injection E as _ <-. exact X1. }
  destruct (unpackable w2); injection H as <-; exact K.
Qed.

Lemma sendBlock_um h w h' w' : sendBlock h w = Ok (h', w') -> um w w'.
Proof.
  unfold sendBlock. intros H. apply bind_ok in H. destruct H as [[[h1 w1] sz] [E1 H]]. apply sendHead_um in E1.
  apply bind_ok in H. destruct H as [c [E2 H]].
  apply (for_ctl_keep (fun s => um w (snd s)) (fun w2 => um w w2)) in E2; [| |exact E1].
  - destruct c as [[[f p] w2]|w2]; cbn [snd] in E2; uk; exact E2.
  - intros i [[f p] w2] c2 K X. cbn [snd] in K. apply send_sym_um in X. destruct c2 as [[[f2 p2] w3]|w3]; cbn [snd]; eapply um_trans; eauto.
Qed.

Lemma outputSt1_um c p h w h' w' : outputSt1 c p h w = Ok (h', w') -> um w w'.
Proof.
  unfold outputSt1. cbv zeta. intros H. apply bind_ok in H. destruct H as [x [E1 H]].
  assert (K : match x with Go hw | Stop hw => um w (snd hw) end).
  { destruct (_ =? 0).
    - apply bind_ok in E1. destruct E1 as [[[stop h1] w1] [E2 E1]].
      assert (K1 : um w w1).
      { destruct (_ <=? _).
        - apply bind_ok in E2. destruct E2 as [[h2 w2] [E3 E2]]. apply sendBlock_um in E3.
          destruct (unpackable w2); injection E2 as _ _ <-; exact E3.
        - injection E2 as _ _ <-. apply um_refl. }
      destruct stop; [injection E1 as <-; exact K1|]. apply bind_ok in E1. destruct E1 as [b [_ E1]]. injection E1 as <-. exact K1.
    - injection E1 as <-. apply um_refl. }
  destruct x as [[h1 w1]|hw]; [|injection H as ->; exact K]. cbn [snd] in K.
  apply bind_ok in H. destruct H as [b [_ H]]. apply bind_ok in H. destruct H as [f [_ H]]. destruct (256 <=? c); uk; exact K.
Qed.


(** ** Loops *)

Lemma for_up_two {S S'} (I : S -> Prop) (R : S -> S' -> Prop) (f : Z -> S -> res S) (f' : Z -> S' -> res S') :
  (forall i s t, f i s = Ok t -> I t -> I s) ->
  (forall i s s' t, R s s' -> f i s = Ok t -> I t -> exists t', f' i s' = Ok t' /\ R t t') ->
  forall n lo s s' t, R s s' -> for_up n lo f s = Ok t -> I t -> (exists t', for_up n lo f' s' = Ok t' /\ R t t') /\ I s.
Proof.
  intros B F. induction n; intros lo s s' t K H U; cbn [for_up] in *.
  - injection H as <-. eauto.
  - apply bind_ok in H. destruct H as (s1 & E & H).
    assert (U1 : I s1).
    { clear - B H U. revert lo s1 H. induction n; intros lo s1 H; cbn [for_up] in H; [injection H as ->; exact U|].
      apply bind_ok in H. destruct H as (s2 & E & H). eapply B; [exact E|]. eapply IHn. exact H. }
    destruct (F _ _ _ _ K E U1) as (s1' & E' & K1). rewrite E'. cbn [bind].
    destruct (IHn _ _ _ _ K1 H U) as [X _]. split; [exact X|]. eapply B; eauto.
Qed.

Lemma forZ_two {S S'} (I : S -> Prop) (R : S -> S' -> Prop) (f : Z -> S -> res S) (f' : Z -> S' -> res S') lo hi s s' t :
  (forall i s t, f i s = Ok t -> I t -> I s) ->
  (forall i s s' t, R s s' -> f i s = Ok t -> I t -> exists t', f' i s' = Ok t' /\ R t t') ->
  R s s' -> forZ lo hi f s = Ok t -> I t -> exists t', forZ lo hi f' s' = Ok t' /\ R t t'.
Proof. intros B F K H U. unfold forZ in *. destruct (for_up_two I R f f' B F _ _ _ _ _ K H U) as [X _]. exact X. Qed.

Definition cI {S T} (I : S -> Prop) (Q : T -> Prop) (c : ctl S T) : Prop := match c with Go s => I s | Stop t => Q t end.
Definition cR {S S' T T'} (R : S -> S' -> Prop) (Q : T -> T' -> Prop) (c : ctl S T) (c' : ctl S' T') : Prop :=
  match c, c' with Go s, Go s' => R s s' | Stop t, Stop t' => Q t t' | _, _ => False end.

Lemma for_ctl_two {S S' T T'} (I : S -> Prop) (J : T -> Prop) (R : S -> S' -> Prop) (Q : T -> T' -> Prop)
  (f : Z -> S -> res (ctl S T)) (f' : Z -> S' -> res (ctl S' T')) :
  (forall i s c, f i s = Ok c -> cI I J c -> I s) ->
  (forall i s s' c, R s s' -> f i s = Ok c -> cI I J c -> exists c', f' i s' = Ok c' /\ cR R Q c c') ->
  forall n lo s s' c, R s s' -> for_ctl n lo f s = Ok c -> cI I J c -> exists c', for_ctl n lo f' s' = Ok c' /\ cR R Q c c'.
Proof.
  intros B F. 
  assert (BB : forall n lo s c, for_ctl n lo f s = Ok c -> cI I J c -> I s).
  { induction n; intros lo s c H U; cbn [for_ctl] in H; [injection H as <-; exact U|].
    apply bind_ok in H. destruct H as (c1 & E & H). eapply B; [exact E|]. destruct c1; [|injection H as <-; exact U]. cbn. eapply IHn; eauto. }
  induction n; intros lo s s' c K H U; cbn [for_ctl] in *.
  - injection H as <-. eexists. split; [reflexivity|]. exact K.
  - apply bind_ok in H. destruct H as (c1 & E & H).
    assert (U1 : cI I J c1) by (destruct c1; [cbn; eapply BB; eauto|injection H as <-; exact U]).
    destruct (F _ _ _ _ K E U1) as (c1' & E' & K1). rewrite E'. cbn [bind]. destruct c1 as [s1|t1], c1' as [s1'|t1']; cbn [cR] in K1; try contradiction.
    + eapply IHn; eauto.
    + injection H as <-. eexists. split; [reflexivity|]. exact K1.
Qed.

Lemma loopN_two {S S' T T'} (I : S -> Prop) (J : T -> Prop) (R : S -> S' -> Prop) (Q : T -> T' -> Prop)
  (f : S -> res (ctl S T)) (f' : S' -> res (ctl S' T')) :
  (forall s c, f s = Ok c -> cI I J c -> I s) ->
  (forall s s' c, R s s' -> f s = Ok c -> cI I J c -> exists c', f' s' = Ok c' /\ cR R Q c c') ->
  forall n s s' c, R s s' -> loopN n f s = Ok c -> cI I J c -> exists c', loopN n f' s' = Ok c' /\ cR R Q c c'.
Proof.
  intros B F. 
  assert (BB : forall n s c, loopN n f s = Ok c -> cI I J c -> I s).
  { induction n; intros s c H U; cbn [loopN] in H; [injection H as <-; exact U|].
    apply bind_ok in H. destruct H as (c1 & E & H). eapply B; [exact E|]. destruct c1; [|injection H as <-; exact U]. cbn. eapply IHn; eauto. }
  induction n; intros s s' c K H U; cbn [loopN] in *.
  - injection H as <-. eexists. split; [reflexivity|]. exact K.
  - apply bind_ok in H. destruct H as (c1 & E & H).
    assert (U1 : cI I J c1) by (destruct c1; [cbn; eapply BB; eauto|injection H as <-; exact U]).
    destruct (F _ _ _ K E U1) as (c1' & E' & K1). rewrite E'. cbn [bind]. destruct c1 as [s1|t1], c1' as [s1'|t1']; cbn [cR] in K1; try contradiction.
    + eapply IHn; eauto.
    + injection H as <-. eexists. split; [reflexivity|]. exact K1.
Qed.

Lemma loop_two {S S' T T'} (I : S -> Prop) (J : T -> Prop) (R : S -> S' -> Prop) (Q : T -> T' -> Prop)
  (f : S -> res (ctl S T)) (f' : S' -> res (ctl S' T')) n s s' t :
  (forall s c, f s = Ok c -> cI I J c -> I s) ->
  (forall s s' c, R s s' -> f s = Ok c -> cI I J c -> exists c', f' s' = Ok c' /\ cR R Q c c') ->
  R s s' -> loop n f s = Ok t -> J t -> exists t', loop n f' s' = Ok t' /\ Q t t'.
Proof.
  intros B F K H U. destruct (Z_lt_le_dec 0 n) as [P|P].
  - rewrite loop_loopN in H by lia. rewrite loop_loopN by lia. apply bind_ok in H. destruct H as (c & E & H). destruct c as [c|c]; [discriminate|]. injection H as ->.
    destruct (loopN_two I J R Q f f' B F _ _ _ _ K E U) as (c' & E' & K'). rewrite E'. cbn [bind]. destruct c'; cbn [cR] in K'; [contradiction|]. eauto.
  - exfalso. unfold loop in H. destruct n; try discriminate H. lia.
Qed.

(** ** The two runs *)

Section Two.
Variable room : Z.

Definition fine (w : wst) : Prop := unpackable w = false \/ wcompsize w <= room.

Lemma fine_back w w' : um w w' -> fine w' -> fine w.
Proof. intros (A & B & _) [F|F]; [left; destruct (unpackable w); auto; rewrite A in F by reflexivity; discriminate|right; lia]. Qed.

Definition lost (w w' : wst) : Prop :=
  room < wcompsize w /\ wcompsize w' = room /\ zlen (wout w') = room /\ (exists l, wout w = l ++ wout w') /\
  worigsize w' = worigsize w /\ room < worigsize w' /\ unpackable w' = false.

Definition sim (w w' : wst) : Prop := (w' = w /\ wcompsize w <= room /\ wcompsize w = zlen (wout w)) \/ lost w w'.

Lemma lost_um a b w : lost a w -> um a b -> lost b w.
Proof.
  intros (A1 & A2 & A3 & (l & A4) & A5 & A6 & A7) (B1 & B2 & B3 & k & B4 & B5). repeat split; auto; try lia.
  exists (k ++ l). rewrite B4, A4, app_assoc. reflexivity.
Qed.

Lemma sim_unp w w' : sim w w' -> fine w -> unpackable w' = unpackable w.
Proof. intros [(-> & _)|(A & _ & _ & _ & _ & _ & B)] [F|F]; try reflexivity; [congruence|lia]. Qed.

Lemma disk_full file x : zlen file = room -> disk room file [x] = (true, file).
Proof.
  intros E. unfold disk. destruct (Z.leb_spec (zlen file + zlen [x]) room) as [L|L]; [unfold zlen in *; cbn in L; lia|].
  replace (room - zlen file) with 0 by lia. cbn. rewrite app_nil_r. reflexivity.
Qed.

Lemma disk_one file x : zlen file < room -> disk room file [x] = (false, file ++ [x]).
Proof. intros E. unfold disk. destruct (Z.leb_spec (zlen file + zlen [x]) room) as [L|L]; [reflexivity|unfold zlen in *; cbn in L; lia]. Qed.

Lemma zlen_rev (l : list Z) : zlen (rev l) = zlen l.
Proof. unfold zlen. rewrite rev_length. reflexivity. Qed.

Lemma putcode_loop_lost fuel n x w w' w2 : lost w w' -> putcode_loop fuel n x w = Ok w2 ->
  exists w2', putcode_loopF (disk room) fuel n x w' = Ok w2' /\ lost w2 w2'.
Proof.
  intros L H. pose proof (putcode_loop_um _ _ _ _ _ H) as M. apply (lost_um _ _ _ L) in M.
  destruct M as (A1 & A2 & A3 & A4 & A5 & A6 & A7). destruct fuel; [discriminate|]. cbn [putcode_loopF]. destruct (_ <=? n).
  - destruct (Z.ltb_spec (wcompsize w') (worigsize w')); [|lia]. rewrite disk_full by (rewrite zlen_rev; exact A3).
    eexists. split; [reflexivity|]. cbv iota. rewrite rev_involutive. repeat split; auto.
  - eexists. split; [reflexivity|]. repeat split; auto.
Qed.

Lemma putcode_loop_sim fuel : forall n x w w' w2, sim w w' -> putcode_loop fuel n x w = Ok w2 -> fine w2 ->
  exists w2', putcode_loopF (disk room) fuel n x w' = Ok w2' /\ sim w2 w2'.
Proof.
  induction fuel; intros n x w w' w2 K H U; [discriminate|].
  destruct K as [(-> & A1 & A2)|L].
  2:{ destruct (putcode_loop_lost _ _ _ _ _ _ L H) as (w2' & E & L2). exists w2'. split; [exact E|right; exact L2]. }
  cbn [putcode_loop putcode_loopF] in *. destruct (wbitcount w <=? n).
  - destruct (Z.ltb_spec (wcompsize w) (worigsize w)) as [O|O].
    + destruct (Z_lt_le_dec (wcompsize w) room) as [R|R].
      * rewrite disk_one by (rewrite zlen_rev; lia). cbv iota. rewrite rev_app_distr, rev_involutive. cbn [rev app].
        eapply IHfuel; [|exact H|exact U]. left. split; [reflexivity|]. cbn [wcompsize wout]. rewrite zlen_cons. lia.
      * rewrite disk_full by (rewrite zlen_rev; lia). cbv iota. rewrite rev_involutive.
        eexists. split; [reflexivity|]. right. apply putcode_loop_um in H. refine (lost_um _ _ _ _ H).
        unfold lost. cbn [wcompsize wout worigsize unpackable]. repeat split; try lia; [eexists [_]; reflexivity|].
        pose proof (fine_back _ _ H U) as [F|F]; cbn [unpackable wcompsize] in F; [exact F|lia].
    + eapply IHfuel; [|exact H|exact U]. left. split; [reflexivity|]. cbn [wcompsize wout]. lia.
  - injection H as <-. eexists. split; [reflexivity|]. left. split; [reflexivity|]. cbn [wcompsize wout]. lia.
Qed.

Lemma putcode_sim n x w w' w2 : sim w w' -> putcode n x w = Ok w2 -> fine w2 -> exists w2', putcodeF (disk room) n x w' = Ok w2' /\ sim w2 w2'.
Proof. apply putcode_loop_sim. Qed.
Lemma putbits_sim n x w w' w2 : sim w w' -> putbits n x w = Ok w2 -> fine w2 -> exists w2', putbitsF (disk room) n x w' = Ok w2' /\ sim w2 w2'.
Proof. apply putcode_sim. Qed.
Lemma putsym_sim l c x w w' w2 : sim w w' -> putsym l c x w = Ok w2 -> fine w2 -> exists w2', putsymF (disk room) l c x w' = Ok w2' /\ sim w2 w2'.
Proof.
  unfold putsym, putsymF. intros K H U. destruct (aget l x); cbn [bind] in *; [|discriminate|discriminate].
  destruct (aget c x); cbn [bind] in *; [|discriminate|discriminate]. eapply putcode_sim; eauto.
Qed.

(** A pure step, the same in both runs. *)
Ltac same_step :=
  match goal with
  | H : bind ?m _ = Ok _ |- exists _, bind ?m _ = Ok _ /\ _ =>
      let E := fresh "P" in let x := fresh "p" in destruct m as [x| |] eqn:E; cbn [bind] in H |- *; [|discriminate H|discriminate H]
  end.
(** The undisturbed run goes on. *)
Ltac um_auto :=
  repeat (uk; match goal with
    | H : (if ?b then _ else _) = Ok _ |- _ => destruct b
    | H : writePtLen _ _ _ _ _ = Ok _ |- _ => apply writePtLen_um in H
    | H : writeCLen _ _ _ _ = Ok _ |- _ => apply writeCLen_um in H
    | H : encodeP _ _ _ _ = Ok _ |- _ => apply encodeP_um in H
    end); uk; cbn [snd fst] in *; ut.
Ltac go_on L :=
  match goal with
  | H : bind ?m ?k = Ok ?a, U : fine ?w2, K : sim ?w ?w' |- exists _, bind _ _ = Ok _ /\ _ =>
      apply bind_ok in H; let w1 := fresh "w" in let E := fresh "E" in destruct H as (w1 & E & H);
      let F := fresh "F" in assert (F : fine w1) by (eapply fine_back; [|exact U]; clear - H; um_auto);
      let w1' := fresh "w" in let E' := fresh "E'" in let K' := fresh "K" in
      edestruct L as (w1' & E' & K'); [exact K|exact E|exact F|]; rewrite E'; cbn [bind]; clear E E' K F
  end.

Definition isim (s s' : Z * wst) : Prop := fst s' = fst s /\ sim (snd s) (snd s').

Lemma writePtLen_sim a n nb i w w' w2 : sim w w' -> writePtLen a n nb i w = Ok w2 -> fine w2 ->
  exists w2', writePtLenF (disk room) a n nb i w' = Ok w2' /\ sim w2 w2'.
Proof.
  unfold writePtLen, writePtLenF. intros K H U. same_step.
  apply bind_ok in H. destruct H as (w1 & E & H).
  assert (M : forall j w0 c, (if j <? p
       then k <- aget a j;; w3 <- (if k <=? 6 then putbits 3 k w0 else putbits (u8 (k - 3)) 65534 w0);;
            (if j + 1 =? i then i0 <- loop 8 (fun i0 : Z => if i0 <? 6 then b <- aget a i0;; (if b =? 0 then Ok (Go (i0 + 1)) else Ok (Stop i0)) else Ok (Stop i0)) (j + 1);;
                 w4 <- putbits 2 (u16 (i0 - 3)) w3;; Ok (Go (i0, w4)) else Ok (Go (j + 1, w3)))
       else Ok (Stop w0)) = Ok c -> cI (fun s : Z * wst => fine (snd s)) fine c -> fine w0).
  { intros j w0 c X C. assert (Y : match c with Go s => um w0 (snd s) | Stop t => um w0 t end).
    { clear - X. destruct (j <? p); [|uk; ut]. apply bind_ok in X. destruct X as (k & _ & X). apply bind_ok in X. destruct X as (w3 & X1 & X).
      assert (um w0 w3) by (destruct (k <=? 6); uk; ut). destruct (_ =? i); uk; cbn [snd]; ut. }
    destruct c; cbn [cI] in C; eapply fine_back; eauto. }
  assert (F : fine w1).
  { eapply (loop_partial (fun s => um w1 (snd s)) (fun t => um w1 t)) in H; [eapply fine_back; eauto| |apply um_refl].
    intros [j w0] c X C. cbn [snd] in X. clear - X C. destruct (j <? p); [|uk; ut]. apply bind_ok in C. destruct C as (k & _ & C).
    apply bind_ok in C. destruct C as (w3 & X1 & C). assert (um w1 w3) by (destruct (k <=? 6); uk; ut). destruct (_ =? i); uk; cbn [snd]; ut. }
  destruct (putbits_sim _ _ _ _ _ K E F) as (w1' & E' & K1). rewrite E'. cbn [bind].
  eapply (loop_two (fun s => fine (snd s)) fine isim sim) with (s := (0, w1)); [| |split; [reflexivity|exact K1]|exact H|exact U].
  - intros [j w0] c X C. eapply M; [exact X|exact C].
  - clear H U K K1 E E' F w w' w1 w1' w2 M. intros [j w] [j' w'] c [X K] H C. cbn [fst snd] in X, K. subst j'.
    destruct (j <? p).
    + same_step. apply bind_ok in H. destruct H as (w1 & E & H).
      assert (F : fine w1).
      { assert (Y : match c with Go s => um w1 (snd s) | Stop t => um w1 t end) by (clear - H; destruct (_ =? i); uk; cbn [snd]; ut).
        destruct c; cbn [cI] in C; eapply fine_back; eauto. }
      assert (X : exists w1', (if p0 <=? 6 then putbitsF (disk room) 3 p0 w' else putbitsF (disk room) (u8 (p0 - 3)) 65534 w') = Ok w1' /\ sim w1 w1')
        by (destruct (p0 <=? 6); eapply putbits_sim; eauto).
      destruct X as (w1' & E' & K1). rewrite E'. cbn [bind]. destruct (_ =? i).
      * same_step. apply bind_ok in H. destruct H as (w3 & E3 & H). injection H as <-.
        destruct (putbits_sim _ _ _ _ _ K1 E3 C) as (w3' & E4 & K3). rewrite E4. cbn [bind]. eexists. split; [reflexivity|]. split; [reflexivity|exact K3].
      * injection H as <-. eexists. split; [reflexivity|]. split; [reflexivity|exact K1].
    + injection H as <-. eexists. split; [reflexivity|]. exact K.
Qed.

Lemma putsyms_um l c x n w w2 : forZ 0 n (fun _ w => putsym l c x w) w = Ok w2 -> um w w2.
Proof. intros H. apply (forZ_keep (fun t => um w t)) in H; [exact H| |apply um_refl]. intros i s s' K X. uk. ut. Qed.

Definition clen_out (l c : arr) (count : Z) (w : wst) : res wst :=
  if count <=? 2 then forZ 0 count (fun _ w => putsym l c 0 w) w
  else if count <=? 18 then w <- putsym l c 1 w ;; putbits 4 (u16 (count - 3)) w
  else if count =? 19 then w <- putsym l c 0 w ;; w <- putsym l c 1 w ;; putbits 4 15 w
  else w <- putsym l c 2 w ;; putbits cbit (u16 (count - 20)) w.

Lemma clen_out_um l c n w w2 : clen_out l c n w = Ok w2 -> um w w2.
Proof.
  unfold clen_out. intros H. destruct (n <=? 2); [exact (putsyms_um _ _ _ _ _ _ H)|].
  destruct (n <=? 18); [uk; ut|]. destruct (n =? 19); uk; ut.
Qed.

Lemma clen_out_sim l c n w w' w2 : sim w w' -> clen_out l c n w = Ok w2 -> fine w2 ->
  exists w2', (if n <=? 2 then forZ 0 n (fun _ w => putsymF (disk room) l c 0 w) w'
    else if n <=? 18 then w <- putsymF (disk room) l c 1 w' ;; putbitsF (disk room) 4 (u16 (n - 3)) w
    else if n =? 19 then w <- putsymF (disk room) l c 0 w' ;; w <- putsymF (disk room) l c 1 w ;; putbitsF (disk room) 4 15 w
    else w <- putsymF (disk room) l c 2 w' ;; putbitsF (disk room) cbit (u16 (n - 20)) w) = Ok w2' /\ sim w2 w2'.
Proof.
  unfold clen_out. intros K H U. destruct (n <=? 2).
  - eapply (forZ_two fine sim); [| |exact K|exact H|exact U].
    + intros i0 s t X F. exact (fine_back _ _ (putsym_um _ _ _ _ _ X) F).
    + intros i0 s s0 t X Y F. eapply putsym_sim; eauto.
  - destruct (n <=? 18); [|destruct (n =? 19)]; repeat go_on putsym_sim; eapply putbits_sim; eauto.
Qed.

Lemma writeCLen_sim a b c0 w w' w2 : sim w w' -> writeCLen a b c0 w = Ok w2 -> fine w2 ->
  exists w2', writeCLenF (disk room) a b c0 w' = Ok w2' /\ sim w2 w2'.
Proof.
  unfold writeCLen, writeCLenF. intros K H U. same_step.
  apply bind_ok in H. destruct H as (w1 & E & H).
  set (f := fun '(i, w) => _) in H.
  assert (M : forall s c, f s = Ok c -> match c with Go s' => um (snd s) (snd s') | Stop t => um (snd s) t end).
  { intros [j w0] c X. unfold f in X. cbn [snd]. clear - X. destruct (j <? p); [|uk; ut]. apply bind_ok in X. destruct X as (k & _ & X). destruct (k =? 0).
    - apply bind_ok in X. destruct X as ([i2 cnt] & _ & X). apply bind_ok in X. destruct X as (w3 & X1 & X). apply clen_out_um in X1. uk. exact X1.
    - uk. cbn [snd]. ut. }
  assert (F : fine w1).
  { eapply (loop_partial (fun s => um w1 (snd s)) (fun t => um w1 t)) in H; [eapply fine_back; eauto| |apply um_refl].
    intros s c X C. apply M in C. destruct c; eapply um_trans; eauto. }
  destruct (putbits_sim _ _ _ _ _ K E F) as (w1' & E' & K1). rewrite E'. cbn [bind].
  eapply (loop_two (fun s => fine (snd s)) fine isim sim) with (s := (0, w1)); [| |split; [reflexivity|exact K1]|exact H|exact U].
  - intros s c X C. apply M in X. destruct c; cbn [cI] in C; eapply fine_back; eauto.
  - unfold f. clear H U K K1 E E' F w w' w1 w1' w2 M f. intros [j w] [j' w'] c [X K] H C. cbn [fst snd] in X, K. subst j'.
    destruct (j <? p).
    + same_step. destruct (p0 =? 0).
      * same_step. destruct p1 as [i2 cnt]. apply bind_ok in H. destruct H as (w1 & E & H). injection H as <-.
        destruct (clen_out_sim _ _ _ _ _ _ K E C) as (w1' & E' & K1). rewrite E'. cbn [bind]. eexists. split; [reflexivity|]. split; [reflexivity|exact K1].
      * apply bind_ok in H. destruct H as (w1 & E & H). injection H as <-.
        destruct (putsym_sim _ _ _ _ _ _ K E C) as (w1' & E' & K1). rewrite E'. cbn [bind]. eexists. split; [reflexivity|]. split; [reflexivity|exact K1].
    + injection H as <-. eexists. split; [reflexivity|]. exact K.
Qed.

Lemma encodeP_sim a b p w w' w2 : sim w w' -> encodeP a b p w = Ok w2 -> fine w2 ->
  exists w2', encodePF (disk room) a b p w' = Ok w2' /\ sim w2 w2'.
Proof.
  unfold encodeP, encodePF. intros K H U. same_step. go_on putsym_sim. destruct (1 <? p0); [eapply putbits_sim; eauto|].
  injection H as <-. eauto.
Qed.

Definition hsim (s s' : huf * wst) : Prop := fst s' = fst s /\ sim (snd s) (snd s').

(** the part of sendHead between the length of the block and the code of the positions *)
Lemma sendHead_sim h w w' h2 w2 n : sim w w' -> sendHead h w = Ok (h2, w2, n) -> fine w2 ->
  exists w2', sendHeadF (disk room) h w' = Ok (h2, w2', n) /\ sim w2 w2'.
Proof.
  unfold sendHead, sendHeadF. cbv zeta. intros K H U.
  destruct (makeTree Nc _ _ _ _ _) as [r| |]; cbn [bind] in H |- *; [|discriminate|discriminate].
  set (h1 := set_cFreq _ _) in *. clearbody h1.
  destruct (aget _ (r_root r)) as [size| |]; cbn [bind] in H |- *; [|discriminate|discriminate].
  apply bind_ok in H. destruct H as (w1 & E1 & H). apply bind_ok in H. destruct H as ([h3 w3] & E2 & H).
  apply bind_ok in H. destruct H as (r2 & E3 & H). apply bind_ok in H. destruct H as (w4 & E4 & H). injection H as <- <- <-.
  set (h4 := set_pFreq _ _) in *.
  assert (F3 : fine w3) by (eapply fine_back; [|exact U]; clear - E4; destruct (_ <=? _); [exact (writePtLen_um _ _ _ _ _ _ E4)|uk; ut]).
  assert (F1 : fine w1).
  { eapply fine_back; [|exact F3]. clear - E2. destruct (Nc <=? _); [|uk; ut].
    apply bind_ok in E2. destruct E2 as (t & _ & E2). apply bind_ok in E2. destruct E2 as (r2 & _ & E2). apply bind_ok in E2. destruct E2 as (w3' & E3 & E2).
    apply bind_ok in E2. destruct E2 as (w4 & E4 & E2). injection E2 as _ <-. apply writeCLen_um in E4.
    eapply um_trans; [|exact E4]. destruct (Nt <=? _); [eapply writePtLen_um; eauto|uk; ut]. }
  destruct (putbits_sim _ _ _ _ _ K E1 F1) as (w1' & E1' & K1). rewrite E1'. cbn [bind]. clear E1 E1' K F1 w w'.
  match type of E2 with ?e = _ => match goal with |- context [bind ?e' _] => assert (X : exists w3', e' = Ok (h3, w3') /\ sim w3 w3') end end.
  { destruct (Nc <=? r_root r).
    - destruct (countTFreq _ _) as [t| |]; cbn [bind] in E2 |- *; [|discriminate|discriminate].
      destruct (makeTree Nt _ _ _ _ _) as [r3| |]; cbn [bind] in E2 |- *; [|discriminate|discriminate].
      apply bind_ok in E2. destruct E2 as (w5 & X1 & E2). apply bind_ok in E2. destruct E2 as (w6 & X2 & E2). injection E2 as <- ->.
      assert (F5 : fine w5) by (eapply fine_back; [|exact F3]; eapply writeCLen_um; eauto).
      match type of X1 with ?e = _ => match goal with |- context [bind ?e' _] => assert (X : exists w5', e' = Ok w5' /\ sim w5 w5') end end.
      { destruct (Nt <=? r_root r3); [eapply writePtLen_sim; eauto|].
        apply bind_ok in X1. destruct X1 as (w7 & Y1 & Y2). assert (F7 : fine w7) by (eapply fine_back; [|exact F5]; eapply putbits_um; eauto).
        destruct (putbits_sim _ _ _ _ _ K1 Y1 F7) as (w7' & Y3 & K7). rewrite Y3. cbn [bind]. eapply putbits_sim; eauto. }
      destruct X as (w5' & Y1 & K5). rewrite Y1. cbn [bind]. destruct (writeCLen_sim _ _ _ _ _ _ K5 X2 F3) as (w6' & Y2 & K6). rewrite Y2. cbn [bind].
      eauto.
    - apply bind_ok in E2. destruct E2 as (a1 & X1 & E2). apply bind_ok in E2. destruct E2 as (a2 & X2 & E2).
      apply bind_ok in E2. destruct E2 as (a3 & X3 & E2). apply bind_ok in E2. destruct E2 as (a4 & X4 & E2). injection E2 as <- ->.
      assert (G3 : fine a3) by (eapply fine_back; [|exact F3]; eapply putbits_um; eauto).
      assert (G2 : fine a2) by (eapply fine_back; [|exact G3]; eapply putbits_um; eauto).
      assert (G1 : fine a1) by (eapply fine_back; [|exact G2]; eapply putbits_um; eauto).
      destruct (putbits_sim _ _ _ _ _ K1 X1 G1) as (b1 & Y1 & L1). rewrite Y1. cbn [bind].
      destruct (putbits_sim _ _ _ _ _ L1 X2 G2) as (b2 & Y2 & L2). rewrite Y2. cbn [bind].
      destruct (putbits_sim _ _ _ _ _ L2 X3 G3) as (b3 & Y3 & L3). rewrite Y3. cbn [bind].
      destruct (putbits_sim _ _ _ _ _ L3 X4 F3) as (b4 & Y4 & L4). rewrite Y4. cbn [bind]. eauto. }
  destruct X as (w3' & Y1 & K3). rewrite Y1. cbn [bind]. rewrite E3. cbn [bind]. fold h4.
  match type of E4 with ?e = _ => match goal with |- context [bind ?e' _] => assert (X : exists w4', e' = Ok w4' /\ sim w4 w4') end end.
  { destruct (np h4 <=? r_root r2); [eapply writePtLen_sim; eauto|].
    apply bind_ok in E4. destruct E4 as (w7 & Z1 & Z2). assert (F7 : fine w7) by (eapply fine_back; [|exact U]; eapply putbits_um; eauto).
    destruct (putbits_sim _ _ _ _ _ K3 Z1 F7) as (w7' & Z3 & K7). rewrite Z3. cbn [bind]. eapply putbits_sim; eauto. }
  destruct X as (w4' & Y4 & K4). rewrite Y4. cbn [bind]. eauto.
Qed.

Definition ssim (s s' : Z * Z * wst) : Prop := fst s' = fst s /\ sim (snd s) (snd s').

Lemma send_sym_sim h i s s' c : ssim s s' -> send_sym h i s = Ok c -> cI (fun s => fine (snd s)) fine c ->
  exists c', send_symF (disk room) h i s' = Ok c' /\ cR ssim sim c c'.
Proof.
  destruct s as [[f p] w], s' as [[f' p'] w']. intros [X K] H C. cbn [fst snd] in X, K. injection X as -> ->. unfold send_sym, send_symF in *.
  match goal with |- context [bind ?m _] => destruct m as [[f1 p1]| |] end; cbn [bind] in H |- *; [|discriminate|discriminate].
  apply bind_ok in H. destruct H as ([p2 w2] & E & H).
  assert (F : fine w2) by (destruct (unpackable w2); injection H as <-; exact C).
  match type of E with ?e = _ => match goal with |- context [bind ?e' _] => assert (X : exists w2', e' = Ok (p2, w2') /\ sim w2 w2') end end.
  { clear H C. destruct (Z.testbit f1 7).
    - destruct (aget (buf h) p1) as [b| |]; cbn [bind] in E |- *; [|discriminate|discriminate]. cbv zeta in E |- *.
      apply bind_ok in E. destruct E as (w3 & X1 & E).
      apply bind_ok in E. destruct E as (k1 & X2 & E). apply bind_ok in E. destruct E as (k2 & X3 & E). apply bind_ok in E. destruct E as (w4 & X4 & E).
      injection E as <- ->. assert (F3 : fine w3) by (eapply fine_back; [|exact F]; eapply encodeP_um; eauto).
      destruct (putsym_sim _ _ _ _ _ _ K X1 F3) as (w3' & Y1 & K3). rewrite Y1. cbn [bind]. rewrite X2. cbn [bind]. rewrite X3. cbn [bind].
      destruct (encodeP_sim _ _ _ _ _ _ K3 X4 F) as (w4' & Y4 & K4). rewrite Y4. cbn [bind]. eauto.
    - destruct (aget (buf h) p1) as [b| |]; cbn [bind] in E |- *; [|discriminate|discriminate].
      apply bind_ok in E. destruct E as (w3 & X1 & E). injection E as <- ->.
      destruct (putsym_sim _ _ _ _ _ _ K X1 F) as (w3' & Y1 & K3). rewrite Y1. cbn [bind]. eauto. }
  destruct X as (w2' & Y & K2). rewrite Y. cbn [bind]. rewrite (sim_unp _ _ K2 F). destruct (unpackable w2); injection H as <-; (eexists; split; [reflexivity|]).
  - exact K2.
  - split; [reflexivity|exact K2].
Qed.

Lemma sendBlock_sim h w w' h2 w2 : sim w w' -> sendBlock h w = Ok (h2, w2) -> fine w2 ->
  exists w2', sendBlockF (disk room) h w' = Ok (h2, w2') /\ sim w2 w2'.
Proof.
  unfold sendBlock, sendBlockF. intros K H U. apply bind_ok in H. destruct H as ([[h1 w1] n] & E1 & H).
  apply bind_ok in H. destruct H as (c & E2 & H).
  assert (C : cI (fun s : Z * Z * wst => fine (snd s)) fine c).
  { destruct c as [[[f p] w3]|w3]; cbn [cI snd]; [|injection H as _ ->; exact U]. 
    apply bind_ok in H. destruct H as (cf & _ & H). apply bind_ok in H. destruct H as (pf & _ & H). injection H as _ ->. exact U. }
  assert (B : forall i s c, send_sym h1 i s = Ok c -> cI (fun s => fine (snd s)) fine c -> fine (snd s)).
  { intros i [[f p] w0] c0 X C0. apply send_sym_um in X. cbn [snd]. destruct c0 as [[[f2 p2] w3]|w3]; cbn [cI snd] in C0; eapply fine_back; eauto. }
  assert (F1 : fine w1).
  { pose proof E2 as E3. apply (for_ctl_keep (fun s => um w1 (snd s)) (fun t => um w1 t)) in E3.
    - destruct c as [s|t]; cbn [cI] in C; eapply fine_back; eauto.
    - intros i [[f p] w3] c2 K2 X. cbn [snd] in K2. apply send_sym_um in X. destruct c2 as [[[f2 p2] w4]|w4]; cbn [snd]; eapply um_trans; eauto.
    - apply um_refl. }
  destruct (sendHead_sim _ _ _ _ _ _ K E1 F1) as (w1' & E1' & K1). rewrite E1'. cbn [bind].
  assert (KS : ssim (0, 0, w1) (0, 0, w1')) by (split; [reflexivity|exact K1]).
  destruct (for_ctl_two (fun s => fine (snd s)) fine ssim sim (send_sym h1) (send_symF (disk room) h1) B (send_sym_sim h1) _ _ _ _ _ KS E2 C)
    as (c' & E2' & K2). rewrite E2'. cbn [bind].
  destruct c as [[[f p] w3]|w3], c' as [[[f' p'] w3']|w3']; cbn [cR] in K2; try contradiction.
  - destruct K2 as [_ K2]. cbn [snd] in K2. same_step. same_step. injection H as <- <-. eauto.
  - injection H as <- <-. eauto.
Qed.

Lemma outputSt1_sim c p h w w' h2 w2 : sim w w' -> outputSt1 c p h w = Ok (h2, w2) -> fine w2 ->
  exists w2', outputSt1F (disk room) c p h w' = Ok (h2, w2') /\ sim w2 w2'.
Proof.
  unfold outputSt1, outputSt1F. cbv zeta. intros K H U. apply bind_ok in H. destruct H as (x & E & H).
  assert (F : cI (fun hw : huf * wst => fine (snd hw)) (fun hw => fine (snd hw)) x).
  { destruct x as [[h1 w1]|hw]; cbn [cI snd]; [|injection H as ->; exact U].
    apply bind_ok in H. destruct H as (b & _ & H). apply bind_ok in H. destruct H as (f & _ & H). destruct (256 <=? c); uk; exact U. }
  match type of E with ?e = _ => match goal with |- context [bind ?e' _] => assert (X : exists x', e' = Ok x' /\ cR hsim hsim x x') end end.
  { clear H. destruct (_ =? 0).
    - apply bind_ok in E. destruct E as ([[stop h1] w1] & E1 & E).
      assert (F1 : fine w1) by (destruct stop; [injection E as <-; exact F|]; apply bind_ok in E; destruct E as (b & _ & E); injection E as <-; exact F).
      match type of E1 with ?e = _ => match goal with |- context [bind ?e' _] => assert (X : exists w1', e' = Ok (stop, h1, w1') /\ sim w1 w1') end end.
      { clear E. destruct (_ <=? _).
        - apply bind_ok in E1. destruct E1 as ([h3 w3] & X1 & E1).
          assert (F3 : fine w3) by (destruct (unpackable w3); injection E1 as _ _ <-; exact F1).
          destruct (sendBlock_sim _ _ _ _ _ K X1 F3) as (w3' & Y1 & K3). rewrite Y1. cbn [bind]. rewrite (sim_unp _ _ K3 F3).
          destruct (unpackable w3); injection E1 as <- <- <-; eauto.
        - injection E1 as <- <- <-. eauto. }
      destruct X as (w1' & Y & K1). rewrite Y. cbn [bind]. destruct stop.
      + injection E as <-. eexists. split; [reflexivity|]. split; [reflexivity|exact K1].
      + destruct (aset _ _ 0) as [b| |]; cbn [bind] in E |- *; [|discriminate|discriminate]. injection E as <-. eexists. split; [reflexivity|]. split; [reflexivity|exact K1].
    - injection E as <-. eexists. split; [reflexivity|]. split; [reflexivity|exact K]. }
  destruct X as (x' & Y & KX). rewrite Y. cbn [bind].
  destruct x as [[h1 w1]|[h1 w1]], x' as [[h1' w1']|[h1' w1']]; cbn [cR] in KX; try contradiction; destruct KX as [KA KB]; cbn [fst snd] in KA, KB; subst h1'.
  - same_step. same_step. destruct (256 <=? c).
    + same_step. same_step. same_step. same_step. same_step. same_step. injection H as <- <-. eauto.
    + injection H as <- <-. eauto.
  - injection H as <- <-. eauto.
Qed.

Lemma encodeEndSt1_sim h w w' h2 w2 : sim w w' -> encodeEndSt1 h w = Ok (h2, w2) -> fine w2 ->
  exists w2', encodeEndSt1F (disk room) h w' = Ok (h2, w2') /\ sim w2 w2'.
Proof.
  unfold encodeEndSt1, encodeEndSt1F. intros K H U.
  assert (F : fine w).
  { destruct (unpackable w) eqn:UW; [injection H as _ ->; exact U|left; exact UW]. }
  rewrite (sim_unp _ _ K F). destruct (unpackable w). { injection H as <- <-. eauto. }
  apply bind_ok in H. destruct H as ([h1 w1] & E & H). apply bind_ok in H. destruct H as (w3 & E3 & H). injection H as <- <-.
  assert (F1 : fine w1) by (eapply fine_back; [|exact U]; eapply putbits_um; eauto).
  destruct (sendBlock_sim _ _ _ _ _ K E F1) as (w1' & E' & K1). rewrite E'. cbn [bind].
  destruct (putbits_sim _ _ _ _ _ K1 E3 U) as (w3' & Y & K3). rewrite Y. cbn [bind]. eauto.
Qed.

Definition esim (e e' : est) : Prop :=
  e' = EST (e_sl e) (e_huf e) (e_w e') (e_tok e) (e_pos e) (e_match e) (e_count e) /\ sim (e_w e) (e_w e').

Lemma encode_step_um P e c : encode_step P e = Ok c -> match c with Go e' | Stop e' => um (e_w e) (e_w e') end.
Proof.
  intros X. unfold encode_step in X. cbv zeta in X. match type of X with (if ?b then _ else _) = _ => destruct b end; [|injection X as <-; apply um_refl].
  apply bind_ok in X. destruct X as [[[t3 p3] s3] [_ X]]. apply bind_ok in X. destruct X as [[m4 s4] [_ X]]. apply bind_ok in X. destruct X as [s5 [_ X]].
  match type of X with (if ?b then _ else _) = _ => destruct b end.
  + apply bind_ok in X. destruct X as [ch [_ X]]. apply bind_ok in X. destruct X as [[h3 w3] [X1 X]]. apply outputSt1_um in X1. injection X as <-. cbn [e_w]. ut.
  + apply bind_ok in X. destruct X as [[h3 w3] [X1 X]]. apply outputSt1_um in X1.
    apply bind_ok in X. destruct X as [[[t6 p6] s6] [_ X]]. apply bind_ok in X. destruct X as [[[t7 p7] s7] [_ X]]. apply bind_ok in X. destruct X as [[m8 s8] [_ X]].
    apply bind_ok in X. destruct X as [s9 [_ X]]. injection X as <-. cbn [e_w]. ut.
Qed.

Lemma encode_step_sim P e e' c : esim e e' -> encode_step P e = Ok c -> cI (fun e => fine (e_w e)) (fun e => fine (e_w e)) c ->
  exists c', encode_stepF (disk room) P e' = Ok c' /\ cR esim esim c c'.
Proof.
  intros [EE K] H C. pose proof (encode_step_um _ _ _ H) as M.
  assert (F : fine (e_w e)) by (destruct c; cbn [cI] in C; eapply fine_back; eauto). clear M.
  set (w' := e_w e') in *. clearbody w'. subst e'. unfold encode_step, encode_stepF in *. cbv zeta in *.
  cbn [e_sl e_huf e_w e_tok e_pos e_match e_count]. rewrite (sim_unp _ _ K F).
  match type of H with (if ?b then _ else _) = _ => destruct b end.
  2:{ injection H as <-. eexists. split; [reflexivity|]. split; [reflexivity|exact K]. }
  same_step. destruct p as [[t p] s]. same_step. destruct p0 as [m s1]. same_step.
  match type of H with (if ?b then _ else _) = _ => destruct b end.
  - same_step. apply bind_ok in H. destruct H as ([h w] & E & H). injection H as <-. cbn [cI e_w] in C.
    destruct (outputSt1_sim _ _ _ _ _ _ _ K E C) as (w2' & Y & K2). rewrite Y. cbn [bind]. eexists. split; [reflexivity|]. split; [reflexivity|exact K2].
  - apply bind_ok in H. destruct H as ([h w] & E & H).
    assert (FW : fine w).
    { clear - H C. apply bind_ok in H. destruct H as [[[t6 p6] s6] [_ X]]. apply bind_ok in X. destruct X as [[[t7 p7] s7] [_ X]]. apply bind_ok in X. destruct X as [[m8 s8] [_ X]].
      apply bind_ok in X. destruct X as [s9 [_ X]]. injection X as <-. exact C. }
    destruct (outputSt1_sim _ _ _ _ _ _ _ K E FW) as (w2' & Y & K2). rewrite Y. cbn [bind].
    same_step. destruct p1 as [[t6 p6] s6]. same_step. destruct p1 as [[t7 p7] s7]. same_step. destruct p1 as [m8 s8]. same_step. injection H as <-.
    eexists. split; [reflexivity|]. split; [reflexivity|exact K2].
Qed.

Lemma sim_out w w' : 0 <= room -> sim w w' -> wcompsize w = zlen (wout w) ->
  rev (wout w') = take room (rev (wout w)) /\ wcompsize w' = Z.min room (wcompsize w).
Proof.
  intros R [(-> & A & B)|(A1 & A2 & A3 & (l & A4) & _)] Z.
  - split; [|lia]. unfold take. rewrite firstn_all2; [reflexivity|]. rewrite rev_length. unfold zlen in B. lia.
  - split; [|lia]. rewrite A4, rev_app_distr. unfold take. rewrite firstn_app, rev_length. unfold zlen in A3.
    rewrite firstn_all2 by (rewrite rev_length; lia). replace (Z.to_nat room - length (wout w'))%nat with 0%nat by lia. cbn [firstn]. rewrite app_nil_r. reflexivity.
Qed.


Theorem encode_disk k mx size body g er : 0 <= room -> encode k mx size body g = Ok er ->
  er_unpackable er = false \/ er_packed er <= room ->
  exists u, encodeF (disk room) k mx size body g = Ok (ER (er_glob er) (er_crc er) (take room (er_out er)) (Z.min room (er_packed er)) (er_original er) u (er_err er) (er_in er)).
Proof.
  unfold encode, encodeF. cbv zeta. intros R H U.
  match goal with |- context [bind ?m _] => destruct m as [[hp hf]| |] end; cbn [bind] in H |- *; [|discriminate|discriminate].
  match goal with |- context [bind ?m _] => destruct m as [h| |] end; cbn [bind] in H |- *; [|discriminate|discriminate].
  match goal with |- context [bind ?m _] => destruct m as [t| |] end; cbn [bind] in H |- *; [|discriminate|discriminate].
  destruct body as [|b0 body].
  { injection H as <-. cbn [er_glob er_crc er_out er_packed er_original er_err er_in]. exists false. rewrite Z.min_r by lia. unfold take. rewrite firstn_nil. reflexivity. }
  match goal with |- context [bind ?m _] => destruct m as [[[[t2 crc] v] inp]| |] end; cbn [bind] in H |- *; [|discriminate|discriminate].
  match goal with |- context [bind ?m _] => destruct m as [tk| |] end; cbn [bind] in H |- *; [|discriminate|discriminate].
  match goal with |- context [bind ?m _] => destruct m as [s| |] end; cbn [bind] in H |- *; [|discriminate|discriminate].
  apply bind_ok in H. destruct H as (e & E & H). apply bind_ok in H. destruct H as ([h2 w2] & E2 & H). injection H as <-. cbn [er_unpackable er_packed] in U.
  assert (M2 : um (e_w e) w2).
  { clear - E2. unfold encodeEndSt1 in E2. destruct (unpackable (e_w e)); [injection E2 as _ <-; apply um_refl|].
    apply bind_ok in E2. destruct E2 as [[h3 w3] [X E2]]. apply sendBlock_um in X. uk. ut. }
  assert (F : fine (e_w e)) by (eapply fine_back; [exact M2|exact U]).
  assert (M1 : um (initPutbits size) (e_w e)).
  { refine (loop_partial (fun e => um (initPutbits size) (e_w e)) (fun e => um (initPutbits size) (e_w e)) _ _ _ _ _ _ E); [|apply um_refl].
    intros e1 c K X. apply encode_step_um in X. destruct c; eapply um_trans; eauto. }
  assert (Z : wcompsize w2 = zlen (wout w2)).
  { destruct (um_trans _ _ _ M1 M2) as (_ & _ & _ & l & A & B). rewrite A, B. cbn [initPutbits wcompsize wout]. rewrite app_nil_r. reflexivity. }
  match type of E with loop _ (encode_step ?P) ?e0 = _ =>
    destruct (loop_two (fun e => fine (e_w e)) (fun e => fine (e_w e)) esim esim (encode_step P) (encode_stepF (disk room) P) (zlen (b0 :: body) + 2) e0 e0 e) as (e' & E' & KE) end.
  - intros e1 c X C. apply encode_step_um in X. destruct c; cbn [cI] in C; eapply fine_back; eauto.
  - intros e1 e1' c K X C. eapply encode_step_sim; eauto.
  - split; [reflexivity|]. left. split; [reflexivity|]. cbn [e_w initPutbits wcompsize wout]. split; [lia|reflexivity].
  - exact E.
  - exact F.
  - rewrite E'. cbn [bind]. destruct KE as [EE KE]. rewrite EE. cbn [e_huf e_w e_sl e_count].
    destruct (encodeEndSt1_sim _ _ _ _ _ KE E2 U) as (w2' & Y & K2). rewrite Y. cbn [bind].
    destruct (sim_out _ _ R K2 Z) as [O1 O2]. rewrite O1, O2. cbn [er_glob er_crc er_out er_packed er_original er_err er_in]. eauto.
Qed.


End Two.
