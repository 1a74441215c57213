(** Properties of making archives from files on disk. *)
From Verif Require Import Go GoLemmas M_Crc M_Bitio M_Maketree M_Maketbl M_Huf M_Slide M_Lzhuf S_Header M_Header M_Os M_Archive S_History S_Archive S_Listing S_Add
  P_Bitio P_Crc P_Header P_Os P_Single P_RoundTrip P_Read1 P_Accept P_Extract P_List P_AddFiles Properties_Slide Properties_Archive Properties_Extract Properties_Listing.

(** The file is empty, or the coder makes it shorter. *)
Definition shrinks (w : world) (body : list Z) : Prop :=
  body = [] \/ (body <> [] /\ (l_method (w_lha w) = 5 \/ l_method (w_lha w) = 6 \/ l_method (w_lha w) = 7 /\ zlen body < 65536) /\ (exists cs, after cs (w_glob w)) /\
    exists eo, EncodeLzhuf (l_method (w_lha w)) (zlen body) body (w_glob w) = Ok eo /\ eo_packed eo < eo_original eo).

Lemma append_first E w name body : usual E -> source E w name body -> l_noexec (w_lha w) = false -> l_level (w_lha w) = 0 -> shrinks w body -> w_fs w (e_tmp E) = Some (NFile []) ->
  exists e data w', appendIt E name None w = Done None w' /\ same_but (e_tmp E) w w' /\ w_fs w' (e_tmp E) = Some (NFile (layout0 e ++ data)) /\ entry_for E name body e data /\
    e_mode e = u16 (e_perm E name + 33000).
Proof.
  intros U S H1 H2 [B|[Hne [Hm [[cs A] [eo [HE Hlt]]]]]] C.
  - destruct (append_empty E U name body w S H1 H2 [] B C) as (e & w' & R1 & R2 & R3 & R4 & R5 & R6). exists e, [], w'. rewrite app_nil_r. auto.
  - destruct (append_packed E U name body w S H1 H2 [] cs eo _ eq_refl Hm Hne A C HE Hlt) as (e & e' & w' & R1 & R2 & R3 & R4 & R5 & R6 & R7 & R8 & R9 & R10).
    cbn [app] in R4. rewrite write_at_0 in R4 by exact R6. exists e, (eo_out eo), w'. auto.
Qed.

Lemma making_made E a names w : making E a names w -> names <> [] ->
  let w0 := made E w a in
  l_filev (w_lha w0) = names /\ l_filec (w_lha w0) = Z.of_nat (length names) /\ l_archive (w_lha w0) = a /\ l_noexec (w_lha w0) = false /\ l_level (w_lha w0) = 0 /\
  l_exclude (w_lha w0) = l_exclude (w_lha w) /\ l_method (w_lha w0) = l_method (w_lha w) /\ w_glob w0 = w_glob w /\ w_fs w0 (e_tmp E) = Some (NFile []).
Proof.
  intros [U1 U2 U3 U4 U5 [U6 U7] U8 U9 U10 U11] NE. cbv zeta. unfold made. cbn [w_lha set_wlha w_glob w_fs].
  split; [exact U6|]. split; [exact U7|]. repeat split; auto. apply fs_set_same.
Qed.

(** ** C35: several files *)

(** What holds: if only the first file has contents (and shrinks), the archive has
    one intact entry per file, in the order given.  In particular this is so for
    one file.  [_partial]: false as soon as a file after the first has contents. *)
Theorem C35_only_first_with_contents_partial :
  forall E w a first body others,
    making E a (first :: others) w -> l_exclude (w_lha w) = [] -> ~ In a (first :: others) ->
    source E w first body -> shrinks w body -> Forall (fun name => source E w name []) others ->
    exists w' es, CommandAdd E a w = Done false w' /\ w_fs w' a = Some (NFile (archive_bytes es)) /\
      Forall2 (fun f x => entry_for E (fst f) (snd f) (fst x) (snd x)) ((first, body) :: map (fun name => (name, [])) others) es /\
      w_fs w' (e_tmp E) = None /\ forall q, q <> a -> q <> e_tmp E -> w_fs w' q = w_fs w q.
Proof.
  intros E w a first body others M EX NI S SH F. pose proof (mk_usual _ _ _ _ M) as U.
  destruct (making_made E a _ w M) as (L1 & L2 & L3 & L4 & L5 & L6 & L7 & L8 & L9); [discriminate|]. set (w0 := made E w a) in *.
  pose proof (mk_files _ _ _ _ M) as [MF _]. assert (M' : making E a (l_filev (w_lha w)) w) by (rewrite MF; exact M).
  destruct (made_source E w a first body M' S) as [NT S0].
  assert (SH0 : shrinks w0 body) by (unfold shrinks; rewrite L7, L8; exact SH).
  destruct (append_first E w0 first body U S0 L4 L5 SH0 L9) as (e & data & w1 & R1 & R2 & R3 & R4 & _). pose proof (sb_lha _ _ _ R2) as LL.
  assert (F1 : Forall (fun name => source E w1 name [] /\ name <> a /\ name <> e_tmp E) others).
  { rewrite Forall_forall in F |- *. intros x Hx. destruct (made_source E w a x [] M' (F x Hx)) as [X1 X2]. split; [now apply (source_same E w0)|]. split; [intros ->; apply NI; now right|exact X1]. }
  destruct (add_empties E U a others [first] w1 (layout0 e ++ data)) as (es & w2 & Q1 & Q2 & Q3 & Q4 & Q5); rewrite ?LL; auto.
  destruct (add_command_fresh E (appendIt E) a w None w2 (flat_map (fun x => layout0 (fst x) ++ snd x) ((e, data) :: es)) (first :: others) M) as (w' & P1 & P2 & P3 & P4 & P5 & P6).
  - discriminate.
  - fold w0. cbn [length]. change 0 with (Z.of_nat (length (@nil path))). rewrite (add_files_step (appendIt E) w0 first [] others a w1); auto.
    intros ->. apply NI. now left.
  - eapply sb_trans; eassumption.
  - exact Q4.
  - exists w', ((e, data) :: es). split; [exact P1|]. split; [exact P4|]. split; [|split; [exact P5|exact P6]]. constructor; [exact R4|].
    clear -Q5. induction Q5; cbn [map]; constructor; auto.
Qed.

(** The claim is false.  Whenever two files that shrink are added, CommandAdd reports
    success, and the archive starts with the header of the second file; so does
    every listing of it. *)
Theorem C35_two_files_refuted :
  forall E w cs a first body1 second body2 eo1 eo2,
    making E a [first; second] w -> l_exclude (w_lha w) = [] -> first <> a -> second <> a ->
    source E w first body1 -> source E w second body2 -> body1 <> [] -> body2 <> [] ->
    l_method (w_lha w) = 5 \/ l_method (w_lha w) = 6 \/ l_method (w_lha w) = 7 /\ zlen body1 < 65536 /\ zlen body2 < 65536 -> after cs (w_glob w) ->
    EncodeLzhuf (l_method (w_lha w)) (zlen body1) body1 (w_glob w) = Ok eo1 -> eo_packed eo1 < eo_original eo1 ->
    EncodeLzhuf (l_method (w_lha w)) (zlen body2) body2 (eo_glob eo1) = Ok eo2 -> eo_packed eo2 < eo_original eo2 ->
    exists w' e rest, CommandAdd E a w = Done false w' /\ w_fs w' a = Some (NFile (layout0 e ++ rest)) /\ entry_for E second body2 e (eo_out eo2) /\
      forall w2 hs err w3, w_fs w2 a = Some (NFile (layout0 e ++ rest)) -> reader E a w2 -> CommandList E a w2 = Done (hs, err) w3 ->
        exists h t, hs = h :: t /\ describes e h.
Proof.
  intros E w cs a first body1 second body2 eo1 eo2 M EX N1 N2 S1 S2 B1 B2 Hm A E1 T1 E2 T2. pose proof (mk_usual _ _ _ _ M) as U.
  destruct (making_made E a _ w M) as (L1 & L2 & L3 & L4 & L5 & L6 & L7 & L8 & L9); [discriminate|]. set (w0 := made E w a) in *.
  pose proof (mk_files _ _ _ _ M) as [MF _]. assert (M' : making E a (l_filev (w_lha w)) w) by (rewrite MF; exact M).
  destruct (made_source E w a first body1 M' S1) as [NT1 S10]. destruct (made_source E w a second body2 M' S2) as [NT2 S20].
  assert (A0 : after cs (w_glob w0)) by (rewrite L8; exact A).
  destruct (append_packed E U first body1 w0 S10 L4 L5 [] cs eo1 _ L7 ltac:(tauto) B1 A0 L9) as (e1 & e1' & w1 & R1 & R2 & R3 & R4 & R5 & R6 & _); [rewrite L8; exact E1|exact T1|].
  cbn [app] in R4. rewrite write_at_0 in R4 by exact R6. pose proof (sb_lha _ _ _ R2) as LL.
  assert (A1 : exists cs1, after cs1 (w_glob w1)).
  { exists (cs ++ [CallEnc (l_method (w_lha w)) (zlen body1) body1]). eapply after_snoc; [exact A|..].
    - cbn [call_ok]. split; [apply zlen_nonneg|exact (proj1 (so_body _ _ _ _ S1))].
    - cbn [run_call]. rewrite E1. now rewrite R3. }
  destruct A1 as [cs1 A1]. pose proof (source_same E w0 w1 second body2 NT2 R2 S20) as S21.
  assert (NX : l_noexec (w_lha w1) = false) by (rewrite LL; exact L4). assert (LV : l_level (w_lha w1) = 0) by (rewrite LL; exact L5). assert (LM : l_method (w_lha w1) = l_method (w_lha w)) by (rewrite LL; exact L7).
  destruct (append_packed E U second body2 w1 S21 NX LV _ cs1 eo2 _ LM ltac:(tauto) B2 A1 R4) as (e2 & e2' & w2 & Q1 & Q2 & Q3 & Q4 & Q5 & Q6 & _); [rewrite R3; exact E2|exact T2|].
  match type of Q4 with _ = Some (NFile ?c) => destruct (add_command_fresh E (appendIt E) a w None w2 c [first; second] M) as (w' & P1 & P2 & P3 & P4 & P5 & P6) end.
  - discriminate.
  - fold w0. change (length [first; second]) with (S (length [second])). change 0 with (Z.of_nat (length (@nil path))). rewrite (add_files_step (appendIt E) w0 first [] [second] a w1); auto.
    change (length [second]) with (S (length (@nil path))). change (Z.of_nat (S (length (@nil path)))) with (Z.of_nat (length [first])).
    rewrite (add_files_step (appendIt E) w1 second [first] [] a w2); auto; rewrite ?LL; auto.
  - eapply sb_trans; eassumption.
  - exact Q4.
  - unfold write_at in P4. change (take 0 _) with (@nil Z) in P4. cbn [app] in P4. rewrite <- app_assoc in P4.
    eexists w', e2, _. split; [exact P1|]. split; [exact P4|]. split; [exact Q5|].
    intros w3 hs err w4 F3 [D1 D2 [D3 D3'] D4 D5] CL. apply has_nul_in in D3'. pose proof (open_file E (w_fs w3) a _ D3 D3' F3 D4) as OF.
    rewrite (list_run E a w3 _ OF) in CL. rewrite D1 in CL. change (set_archive a (NewLha a)) with (NewLha a) in CL.
    cbn [list_loop] in CL. rewrite (fe_get_new E e2 (ef_file _ _ _ _ _ Q5)) in CL. cbn [bind negb] in CL. change (needFile (NewLha a) _) with true in CL. cbv iota in CL.
    match type of CL with lift ?r _ = _ => destruct r as [[hs' err']| |] eqn:LR; [|discriminate..] end. injection CL as <- <- <-.
    apply list_loop_grows in LR. destruct LR as [t ->]. cbn [app]. do 2 eexists. split; [reflexivity|].
    eapply (describes_read0 e2 [] (Base second)); [exact (ef_file _ _ _ _ _ Q5)|].
    destruct (so_name _ _ _ _ S2) as [X1 X2]. constructor; [|now left|].
    + rewrite (ef_name _ _ _ _ _ Q5). apply (base_slashes _ X1).
    + split; [exact X2|]. intros I. destruct X1 as [_ X1]. rewrite Forall_forall in X1. specialize (X1 47 I). lia.
Qed.

(** ** C36: exclusion patterns *)

Lemma add_one_excluded E w a name ex o w1 : l_exclude (w_lha w) = ex -> ex <> [] -> l_filev (w_lha w) = [name] -> l_filec (w_lha w) = 1 -> l_archive (w_lha w) = a -> name <> a ->
  add_excluded (appendIt E) name ex None w = Done o w1 -> add_files (appendIt E) 1 0 None w = Done o w1.
Proof.
  intros X1 X2 X3 X4 X5 X6 X7. cbn [add_files]. istep. rewrite X1, X3, X4, X5. change (0 <? 1) with true. cbv iota. change (nth_error [name] (Z.to_nat 0)) with (Some name). cbv iota.
  apply list_eqb_neq in X6. rewrite X6. destruct ex; [contradiction|]. rewrite (bindIO_done _ _ _ _ _ X7). reflexivity.
Qed.

Lemma excluded_dec x name : {excludes x name} + {~ excludes x name}.
Proof. unfold excludes. apply list_eq_dec, Z.eq_dec. Defined.

Lemma add_excluded_step E x ex name w : add_excluded (appendIt E) name (x :: ex) None w =
  if excluded_dec x name then add_excluded (appendIt E) name ex None w else bindIO (appendIt E name None) (fun o => add_excluded (appendIt E) name ex o) w.
Proof.
  cbn [add_excluded]. destruct (excluded_dec x name) as [Y|Y].
  - unfold excludes in Y. rewrite Y, list_eqb_refl. reflexivity.
  - unfold excludes in Y. apply list_eqb_neq in Y. rewrite Y. reflexivity.
Qed.

(** How many of the patterns are not the name of the file. *)
Definition misses (ex : list path) (name : path) : nat := length (filter (fun x => if excluded_dec x name then false else true) ex).

Lemma add_excluded_empty E name : usual E -> name <> e_tmp E -> forall ex w c, source E w name [] -> l_noexec (w_lha w) = false -> l_level (w_lha w) = 0 -> w_fs w (e_tmp E) = Some (NFile c) ->
  exists es w', add_excluded (appendIt E) name ex None w = Done None w' /\ same_but (e_tmp E) w w' /\
    w_fs w' (e_tmp E) = Some (NFile (c ++ flat_map (fun x => layout0 (fst x) ++ snd x) es)) /\
    Forall (fun x => entry_for E name [] (fst x) (snd x)) es /\ length es = misses ex name.
Proof.
  intros U NT. induction ex as [|x ex IH]; intros w c S H1 H2 C.
  - exists [], w. split; [reflexivity|]. split; [apply sb_refl|]. cbn [flat_map]. rewrite app_nil_r. split; [exact C|]. split; [constructor|reflexivity].
  - rewrite add_excluded_step. unfold misses. cbn [filter]. destruct (excluded_dec x name) as [Y|Y]; [now apply IH|].
    destruct (append_empty E U name [] w S H1 H2 c eq_refl C) as (e & w1 & R1 & R2 & R3 & R4 & R5 & _). rewrite (bindIO_done _ _ _ _ _ R1).
    destruct (IH w1 (c ++ layout0 e)) as (es & w' & Q1 & Q2 & Q3 & Q4 & Q5); [now apply (source_same E w)|rewrite (sb_lha _ _ _ R2); assumption|rewrite (sb_lha _ _ _ R2); assumption|exact R4|].
    exists ((e, []) :: es), w'. split; [exact Q1|]. split; [eapply sb_trans; eassumption|]. split; [rewrite Q3; cbn [flat_map fst snd]; now rewrite app_nil_r, <- app_assoc|].
    split; [now constructor|]. cbn [length]. now rewrite Q5.
Qed.

(** The claim is false.  An empty file is added once for each pattern that is not its
    name: twice if there are two patterns that have nothing to do with it, and once
    if it is excluded by one of two patterns. *)
Theorem C36_exclusion_refuted :
  forall E w a name,
    making E a [name] w -> l_exclude (w_lha w) <> [] -> name <> a -> source E w name [] ->
    exists w' es, CommandAdd E a w = Done false w' /\ w_fs w' a = Some (NFile (archive_bytes es)) /\
      Forall (fun x => entry_for E name [] (fst x) (snd x)) es /\ length es = misses (l_exclude (w_lha w)) name.
Proof.
  intros E w a name M EX NI S. pose proof (mk_usual _ _ _ _ M) as U.
  destruct (making_made E a _ w M) as (L1 & L2 & L3 & L4 & L5 & L6 & L7 & L8 & L9); [discriminate|]. set (w0 := made E w a) in *.
  pose proof (mk_files _ _ _ _ M) as [MF _]. assert (M' : making E a (l_filev (w_lha w)) w) by (rewrite MF; exact M).
  destruct (made_source E w a name [] M' S) as [NT S0].
  destruct (add_excluded_empty E name U NT (l_exclude (w_lha w)) w0 [] S0 L4 L5 L9) as (es & w1 & Q1 & Q2 & Q3 & Q4 & Q5).
  destruct (add_command_fresh E (appendIt E) a w None w1 (flat_map (fun x => layout0 (fst x) ++ snd x) es) [name] M) as (w' & P1 & P2 & P3 & P4 & P5 & P6).
  - discriminate.
  - fold w0. cbn [length]. apply (add_one_excluded E w0 a name (l_exclude (w_lha w))); auto.
  - exact Q2.
  - exact Q3.
  - exists w', es. auto.
Qed.

(** What holds: with one pattern, a file that is its name is not added (the archive
    has no entries), and any other file (empty or shrinking) is added once.
    [_partial]: one file, at most one pattern. *)
Theorem C36_one_pattern_partial :
  forall E w a name body x,
    making E a [name] w -> l_exclude (w_lha w) = [x] -> name <> a -> source E w name body ->
    (excludes x name -> exists w', CommandAdd E a w = Done false w' /\ w_fs w' a = Some (NFile (archive_bytes []))) /\
    (~ excludes x name -> shrinks w body ->
       exists w' e data, CommandAdd E a w = Done false w' /\ w_fs w' a = Some (NFile (archive_bytes [(e, data)])) /\ entry_for E name body e data).
Proof.
  intros E w a name body x M EX NI S. pose proof (mk_usual _ _ _ _ M) as U.
  destruct (making_made E a _ w M) as (L1 & L2 & L3 & L4 & L5 & L6 & L7 & L8 & L9); [discriminate|]. set (w0 := made E w a) in *.
  pose proof (mk_files _ _ _ _ M) as [MF _]. assert (M' : making E a (l_filev (w_lha w)) w) by (rewrite MF; exact M).
  destruct (made_source E w a name body M' S) as [NT S0]. rewrite EX in L6. split.
  - intros Y. destruct (add_command_fresh E (appendIt E) a w None w0 [] [name] M) as (w' & P1 & P2 & P3 & P4 & P5 & P6).
    + discriminate.
    + fold w0. cbn [length]. apply (add_one_excluded E w0 a name [x]); auto; [discriminate|]. rewrite add_excluded_step. destruct (excluded_dec x name); [reflexivity|contradiction].
    + apply sb_refl.
    + exact L9.
    + exists w'. auto.
  - intros Y SH. assert (SH0 : shrinks w0 body) by (unfold shrinks; rewrite L7, L8; exact SH).
    destruct (append_first E w0 name body U S0 L4 L5 SH0 L9) as (e & data & w1 & R1 & R2 & R3 & R4 & _).
    destruct (add_command_fresh E (appendIt E) a w None w1 (layout0 e ++ data) [name] M) as (w' & P1 & P2 & P3 & P4 & P5 & P6).
    + discriminate.
    + fold w0. cbn [length]. apply (add_one_excluded E w0 a name [x]); auto; [discriminate|]. rewrite add_excluded_step. destruct (excluded_dec x name); [contradiction|].
      rewrite (bindIO_done _ _ _ _ _ R1). reflexivity.
    + exact R2.
    + exact R3.
    + exists w', e, data. split; [exact P1|]. split; [unfold archive_bytes; cbn [flat_map fst snd]; rewrite app_nil_r; exact P4|exact R4].
Qed.

(** ** C58: a file in, a file out *)

(** Compress on a new archive, then Decompress in any process, gives the bytes of
    the file back under its base name; nothing else is changed. *)
Theorem C58_file_compress_decompress :
  forall E w cs a filename body method eo,
    usual E -> file_path a -> w_lha w = NewLha a -> w_fs w a = None -> w_fs w (e_tmp E) = None -> e_tmp E <> a -> filename <> a ->
    source E w filename body -> body <> [] -> method = 5 \/ method = 6 \/ method = 7 /\ zlen body < 65536 -> after cs (w_glob w) ->
    EncodeLzhuf method (zlen body) body (w_glob w) = Ok eo -> eo_packed eo < eo_original eo ->
    exists w' c,
      Compress E filename method 0 w = Done false w' /\ w_fs w' a = Some (NFile c) /\ w_fs w' filename = Some (NFile body) /\
      (forall q, q <> a -> q <> e_tmp E -> w_fs w' q = w_fs w q) /\
      forall cs' w2 header,
        w_fs w2 a = Some (NFile c) -> reader E a w2 -> after cs' (w_glob w2) -> w_fs w2 (Base filename) = None -> asks_for header (Base filename) ->
        exists w3, Decompress E header w2 = Done false w3 /\ w_fs w3 (Base filename) = Some (NFile body) /\
          forall q, q <> Base filename -> w_fs w3 q = w_fs w2 q.
Proof.
  intros E w cs a filename body method eo U Ha Hl Fa Ft Ht Hf S Hne Hm A HE Hlt.
  set (l1 := set_files [filename] 1 (set_method method (set_level 0 (set_new true (NewLha a))))).
  assert (R : Compress E filename method 0 w = CommandAdd E a (set_wlha l1 w)).
  { unfold Compress, archive_test. rewrite bind_assoc, bind_get, bind_assoc, bind_getl, Hl. change (l_archive (NewLha a)) with a. destruct Ha as [Ha1 Ha2]. apply has_nul_in in Ha2. rewrite stat_none by assumption.
    rewrite bind_assoc, bind_modl, bind_ret, bind_modl, bind_getl. cbn [w_lha set_wlha]. rewrite Hl. reflexivity. }
  assert (M : making E a [filename] (set_wlha l1 w)) by (constructor; auto; split; reflexivity).
  assert (S1 : source E (set_wlha l1 w) filename body) by (destruct S; constructor; assumption).
  destruct (C35_only_first_with_contents_partial E (set_wlha l1 w) a filename body [] M) as (w' & es & P1 & P2 & P3 & P4 & P5); auto.
  { intros [X|[]]. now apply Hf. }
  { right. split; [exact Hne|]. split; [exact Hm|]. split; [exists cs; exact A|exists eo; split; [exact HE|exact Hlt]]. }
  inversion P3 as [|f0 x fs es' EF NO]; subst. inversion NO; subst. destruct x as [e data]. cbn [fst snd] in EF.
  exists w', (archive_bytes [(e, data)]). rewrite R. split; [exact P1|]. split; [exact P2|].
  split; [rewrite P5; [exact (so_file _ _ _ _ S)|exact Hf|]|].
  { intros X. pose proof (so_file _ _ _ _ S) as Y. rewrite X, Ft in Y. discriminate. }
  split; [exact P5|]. intros cs' w2 header F2 Rd A2 Nb Hh. destruct EF as [FE EN ET [PK|[Z _]]]; [|contradiction].
  destruct PK as (m1 & cs1 & g1 & eo1 & X1 & X2 & X3 & X4 & X5 & X6 & X7 & X8 & X9 & X10 & X11).
  destruct (so_name _ _ _ _ S) as [NM NB].
  apply (extract_any E w2 cs' a e [] (Base filename) header body m1 (archive_bytes [(e, data)])); auto.
  - constructor; [rewrite EN; apply (base_slashes _ NM)|now left|]. split; [exact NB|]. intros I. destruct NM as [_ F]. rewrite Forall_forall in F. specialize (F 47 I). lia.
  - exists cs1, g1, eo1. split; [exact X4|]. split; [exact X5|]. split; [exact X6|]. split; [exact X8|].
    destruct (round_trip_567 cs1 g1 [] glob0 m1 body eo1 []) as [_ [_ [_ [M4 _]]]]; auto; [split; [constructor|reflexivity]|constructor|].
    split; [rewrite X9, X7; exact M4|]. split; [exact X10|]. unfold archive_bytes. cbn [flat_map fst snd]. rewrite app_nil_r, <- app_assoc, X7. reflexivity.
Qed.

(** ** C59: permissions *)

(** The claim is false, for every file: 33000 is added to the permissions, whose low
    nine bits are not those of the type "regular file", so that the bits stored are
    never the bits of the file. *)
Theorem C59_permissions_recorded_refuted :
  forall E w a name body,
    making E a [name] w -> l_exclude (w_lha w) = [] -> name <> a -> source E w name body -> shrinks w body ->
    exists w' e data, CommandAdd E a w = Done false w' /\ w_fs w' a = Some (NFile (archive_bytes [(e, data)])) /\ entry_for E name body e data /\
      Z.land (e_mode e) 511 <> e_perm E name.
Proof.
  intros E w a name body M EX NI S SH. pose proof (mk_usual _ _ _ _ M) as U.
  destruct (making_made E a _ w M) as (L1 & L2 & L3 & L4 & L5 & L6 & L7 & L8 & L9); [discriminate|]. set (w0 := made E w a) in *.
  pose proof (mk_files _ _ _ _ M) as [MF _]. assert (M' : making E a (l_filev (w_lha w)) w) by (rewrite MF; exact M).
  destruct (made_source E w a name body M' S) as [NT S0].
  assert (SH0 : shrinks w0 body) by (unfold shrinks; rewrite L7, L8; exact SH).
  destruct (append_first E w0 name body U S0 L4 L5 SH0 L9) as (e & data & w1 & R1 & R2 & R3 & R4 & R5).
  destruct (add_command_fresh E (appendIt E) a w None w1 (layout0 e ++ data) [name] M) as (w' & P1 & P2 & P3 & P4 & P5 & P6).
  - discriminate.
  - fold w0. change (length [name]) with (Datatypes.S (length (@nil path))). change 0 with (Z.of_nat (length (@nil path))). rewrite (add_files_step (appendIt E) w0 name [] [] a w1); auto.
  - exact R2.
  - exact R3.
  - exists w', e, data. split; [exact P1|]. split; [unfold archive_bytes; cbn [flat_map fst snd]; rewrite app_nil_r; exact P4|]. split; [exact R4|].
    rewrite R5. pose proof (us_perm _ U name) as B. change 511 with (Z.ones 9). rewrite Z.land_ones by lia. change (2 ^ 9) with 512. unfold u16. rewrite (Z.mod_small (e_perm E name + 33000)) by lia.
    destruct (Z_lt_ge_dec (e_perm E name) 280).
    + rewrite <- (Z.mod_unique (e_perm E name + 33000) 512 64 (e_perm E name + 232)); lia.
    + rewrite <- (Z.mod_unique (e_perm E name + 33000) 512 65 (e_perm E name - 280)); lia.
Qed.

(** ** The hypotheses can be met *)

(** "z" and "y" hold a hundred zero bytes each, "e" is empty. *)
Definition ex_files : fs := fun p =>
  if list_eqb p [122] then Some (NFile (repeat 0 100)) else if list_eqb p [121] then Some (NFile (repeat 0 100)) else if list_eqb p [101] then Some (NFile []) else None.
Definition ex_adder (names ex : list path) : world :=
  W ex_files [] glob0 false [] (LHA [98] false false false false false false false false false false false false false 0 5 [] ex names (Z.of_nat (length names)) []) [].

Lemma ex_making names ex : making ex_env [98] names (ex_adder names ex).
Proof.
  constructor; try reflexivity.
  - constructor; [reflexivity|cbn; lia|cbn; lia|intros [X|[]]; discriminate X].
  - split; [discriminate|intros [X|[]]; discriminate X].
  - discriminate.
  - split; reflexivity.
Qed.

Lemma ex_source names ex c : c = 122 \/ c = 121 -> source ex_env (ex_adder names ex) [c] (repeat 0 100).
Proof.
  intros H. constructor.
  - split; [discriminate|]. intros [X|[]]. lia.
  - destruct H as [-> | ->]; reflexivity.
  - reflexivity.
  - destruct H as [-> | ->]; (split; [split; [vm_compute; discriminate|repeat constructor; lia]|vm_compute; discriminate]).
  - cbn. lia.
  - change (zlen (repeat 0 100)) with 100. split; [|lia]. apply Forall_forall. intros x X. apply repeat_spec in X. subst. unfold is_byte. lia.
Qed.

Lemma ex_empty names ex : source ex_env (ex_adder names ex) [101] [].
Proof.
  constructor; try reflexivity.
  - split; [discriminate|]. intros [X|[]]. discriminate X.
  - split; [split; [vm_compute; discriminate|repeat constructor; lia]|vm_compute; discriminate].
  - cbn. lia.
  - split; [constructor|reflexivity].
Qed.

Lemma ex_shrinks names ex : shrinks (ex_adder names ex) (repeat 0 100).
Proof.
  right. split; [discriminate|]. split; [now left|]. split; [exists []; split; [constructor|reflexivity]|].
  destruct C14_example as [eo [X1 [X2 X3]]]. exists eo. change (zlen (repeat 0 100)) with 100. split; [exact X1|]. lia.
Qed.

Example C35_example :
  making ex_env [98] [[122]; [101]] (ex_adder [[122]; [101]] []) /\ source ex_env (ex_adder [[122]; [101]] []) [122] (repeat 0 100) /\
  shrinks (ex_adder [[122]; [101]] []) (repeat 0 100) /\ source ex_env (ex_adder [[122]; [101]] []) [101] [].
Proof. split; [apply ex_making|]. split; [apply ex_source; auto|]. split; [apply ex_shrinks|apply ex_empty]. Qed.

Example C35_two_example : exists eo1 eo2, let w := ex_adder [[122]; [121]] [] in
  making ex_env [98] [[122]; [121]] w /\ source ex_env w [122] (repeat 0 100) /\ source ex_env w [121] (repeat 0 100) /\
  EncodeLzhuf (l_method (w_lha w)) 100 (repeat 0 100) (w_glob w) = Ok eo1 /\ eo_packed eo1 < eo_original eo1 /\
  EncodeLzhuf (l_method (w_lha w)) 100 (repeat 0 100) (eo_glob eo1) = Ok eo2 /\ eo_packed eo2 < eo_original eo2.
Proof.
  assert (X : match EncodeLzhuf 5 100 (repeat 0 100) glob0 with
              | Ok eo1 => match EncodeLzhuf 5 100 (repeat 0 100) (eo_glob eo1) with
                          | Ok eo2 => (eo_packed eo1 <? eo_original eo1) && (eo_packed eo2 <? eo_original eo2)
                          | _ => false
                          end
              | _ => false
              end = true) by (vm_compute; reflexivity).
  cbv zeta. change (l_method (w_lha (ex_adder [[122]; [121]] []))) with 5. change (w_glob (ex_adder [[122]; [121]] [])) with glob0.
  destruct (EncodeLzhuf 5 100 (repeat 0 100) glob0) as [eo1| |]; try discriminate. destruct (EncodeLzhuf 5 100 (repeat 0 100) (eo_glob eo1)) as [eo2| |] eqn:E2; try discriminate.
  apply andb_prop in X. destruct X as [X1 X2]. apply Z.ltb_lt in X1, X2. exists eo1, eo2.
  split; [apply ex_making|]. split; [apply ex_source; auto|]. split; [apply ex_source; auto|]. auto.
Qed.

(** The file "e" with the patterns "x", "y" (added twice) and "E", "y" (added once
    although the first excludes it). *)
Example C36_example :
  source ex_env (ex_adder [[101]] [[120]; [121]]) [101] [] /\ misses [[120]; [121]] [101] = 2%nat /\
  excludes [69] [101] /\ misses [[69]; [121]] [101] = 1%nat.
Proof. split; [apply ex_empty|]. split; [vm_compute; reflexivity|]. split; vm_compute; reflexivity. Qed.

Example C36_one_example : ~ excludes [120] [122] /\ shrinks (ex_adder [[122]] [[120]]) (repeat 0 100) /\ source ex_env (ex_adder [[122]] [[120]]) [122] (repeat 0 100).
Proof. split; [vm_compute; discriminate|]. split; [apply ex_shrinks|apply ex_source; auto]. Qed.

Print Assumptions C35_only_first_with_contents_partial.
Print Assumptions C35_two_files_refuted.
Print Assumptions C36_exclusion_refuted.
Print Assumptions C36_one_pattern_partial.
Print Assumptions C58_file_compress_decompress.
Print Assumptions C59_permissions_recorded_refuted.
