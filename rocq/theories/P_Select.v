(** Selecting entries by name: every accepted header has a NUL in its name. *)
From Verif Require Import Go GoLemmas M_Crc M_Bitio M_Maketree M_Maketbl M_Huf M_Slide M_Lzhuf S_Header S_Listing M_Header M_Os M_Archive S_Archive
  P_Bitio P_Header P_Os P_Single P_Extract P_Read1 P_Accept P_List.

Lemma set0_in l i l' : set0 l i = Ok l' -> In 0 l'.
Proof. unfold set0. destruct (_ && _); [|discriminate]. intros X; injection X as <-. apply in_or_app. right. now left. Qed.

Lemma finish_nul o h rest e ok h' rest' : finishHeader o h rest = Ok (e, ok, h', rest') -> In 0 (Name h) -> In 0 (Name h').
Proof.
  unfold finishHeader.
  set (fcase := if (ExtendType h =? ExtendHuman) || _ || _ || _ || _ || _ || _ then none else _). clearbody fcase.
  assert (C : forall from to hh, ~ In 0 from -> In 0 (Name hh) -> In 0 (convertFilename (Name hh) codeSJIS from to fcase)).
  { intros from to hh N I. unfold convertFilename. set (fc := if _ && _ && _ then none else fcase). clearbody fc.
    rewrite <- (conv_zero from to fc N). now apply in_map. }
  destruct (ExtendType h =? ExtendMacos); cbv iota.
  all: set (b0 := (ExtendType h =? ExtendAmiga) && _ && _ && _); clearbody b0.
  all: set (h1 := if b0 then _ else h); assert (N1 : Name h1 = Name h) by (unfold h1; destruct b0; reflexivity); clearbody h1.
  all: destruct (isSymlinkMode _); [destruct (find_byte _ _ _)|]; intros X Z; injection X as <- <- <- <-; cbn [Name set_Realname set_Name]; apply C; try (now rewrite N1); cbn; lia.
Qed.

Theorem accept_nul o h inp h' rest : GetHeader o h inp = Ok (ENil, true, h', rest) -> In 0 (Name h').
Proof.
  intros H. unfold GetHeader in H. destruct inp as [|b inp']; [discriminate|]. destruct (b =? 0); [discriminate|]. cbv zeta in H.
  unfold readInto in H. set (rr := drop 20 inp') in *. clearbody rr.
  destruct (_ =? 0) in H; [discriminate|]. bnd H. destruct a as [lv p]. bnd H. destruct a as [[[er ok] h1] r1]. destruct er; try discriminate. destruct ok; [|discriminate].
  eapply finish_nul; [exact H|]. clear H. destruct (lv =? 0).
  { unfold getHeaderLevel0, readInto in E0. bnd E0. destruct a. bnd E0. destruct a. destruct (_ <=? 0) in E0; [discriminate|]. destruct (_ =? 0) in E0; [discriminate|]. destruct (negb _) in E0; [discriminate|].
    bnd E0. destruct a as [[] ]. bnd E0. destruct a. bnd E0. destruct a. bnd E0. destruct a. bnd E0. destruct a. bnd E0. destruct a. bnd E0. destruct a. bnd E0. destruct a as [[] ]. bnd E0. apply set0_in in E11. cbv zeta in E0.
    destruct (_ <? 0) in E0; [destruct (_ =? -2) in E0; [|discriminate]; injection E0 as <- <-; exact E11|]. bnd E0. destruct a0. destruct (_ =? 0) in E0; [injection E0 as <- <-; exact E11|].
    bnd E0. apply level0_ext_name in E13. injection E0 as <- <-. cbn [Name set_HeaderSize]. rewrite E13. exact E11. }
  destruct (lv =? 1).
  { unfold getHeaderLevel1, readInto in E0. bnd E0. destruct a. bnd E0. destruct a. destruct (Z.leb_spec (z + 2 - 21) 0); [discriminate|]. destruct (_ =? 0) in E0; [discriminate|]. destruct (negb _) in E0; [discriminate|].
    bnd E0. destruct a as [[] ]. bnd E0. destruct a. bnd E0. destruct a. bnd E0. destruct a. bnd E0. destruct a. bnd E0. destruct a. bnd E0. destruct a. bnd E0. destruct a as [[] ]. bnd E0. apply set0_in in E11. bnd E0. destruct a0. bnd E0. destruct a0. cbv zeta in E0.
    bnd E0. destruct a0. match type of E0 with (if ?b then _ else _) = _ => destruct b end.
    - bnd E0. destruct a0 as [[x hx] rx]. destruct x as [t|]; [|discriminate]. exfalso. eapply ext_never; [|eassumption]. cbn. lia.
    - injection E0 as <- <-. exact E11. }
  destruct (lv =? 2).
  { unfold getHeaderLevel2, readInto in E0. bnd E0. destruct a. destruct (_ <? 0) in E0; [discriminate|]. destruct (_ =? 0) in E0; [discriminate|]. destruct (_ <? _) in E0; discriminate. }
  destruct (lv =? 3).
  { unfold getHeaderLevel3, readInto in E0. bnd E0. destruct a. destruct (_ =? 0) in E0; [discriminate|]. bnd E0. destruct a. destruct (_ <? 0) in E0; [discriminate|]. destruct (_ <? _) in E0; discriminate. }
  discriminate.
Qed.

Lemma need_nothing l name : l_filec l <> 0 -> (forall x, In x (l_filev l) -> ~ In 0 x) -> In 0 name -> needFile l name = false.
Proof.
  intros H F I. unfold needFile. apply Z.eqb_neq in H. rewrite H. apply not_true_is_false. intros X. apply existsb_exists in X. destruct X as [x [X1 X2]].
  apply list_eqb_eq in X2. subst. now apply (F name).
Qed.

Lemma list_nothing E l : l_filec l <> 0 -> (forall x, In x (l_filev l) -> ~ In 0 x) -> forall fuel h inp acc hs err,
  list_loop E l fuel h inp acc = Ok (hs, err) -> hs = acc.
Proof.
  intros H F. induction fuel as [|fuel IH]; intros h inp acc hs err; cbn [list_loop]; [discriminate|]. intros X. apply bind_ok in X. destruct X as [[[[e ok] h'] rest] [G X]].
  destruct ok; cbn [negb] in X; [|now injection X]. pose proof (accept_nil _ _ _ _ _ _ G) as ->. rewrite (need_nothing l _ H F (accept_nul _ _ _ _ _ G)) in X. eapply IH, X.
Qed.

Lemma extract_nothing {A} E one : forall fuel h inp (acc : A) w r, l_filec (w_lha w) <> 0 -> (forall x, In x (l_filev (w_lha w)) -> ~ In 0 x) ->
  extract_loop E fuel (fun h => bindIO (get w_lha) (fun l => ret (needFile l (Name h)))) one h inp acc w = r -> r = Unknown \/ r = Crash w \/ exists err, r = Done (acc, err) w.
Proof.
  induction fuel as [|fuel IH]; intros h inp acc w r H F; cbn [extract_loop]; [intros <-; now left|].
  destruct (GetHeader _ _ _) as [[[[e ok] h'] rest]| |] eqn:G; [rewrite bind_lift|intros <-; right; left; reflexivity|intros <-; left; reflexivity]. cbv beta iota.
  destruct e; [|intros <-; right; right; eauto..]. destruct ok; cbn [negb]; [|intros <-; right; right; eexists; reflexivity].
  rewrite bind_assoc, bind_get, bind_ret. rewrite (need_nothing _ _ H F (accept_nul _ _ _ _ _ G)). destruct (skipToNextpos _ _). apply IH; assumption.
Qed.
