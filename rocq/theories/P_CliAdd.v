(** The command line program making an archive. *)
From Verif Require Import Go GoLemmas M_Crc M_Bitio P_Bitio M_Maketree M_Maketbl M_Huf M_Slide M_Lzhuf S_Header S_Listing M_Header M_Os M_Archive S_History S_Archive S_Add M_Cli S_Cli
  P_Header P_Os P_Backup P_Single P_Extract P_Read1 P_Accept P_List P_RoundTrip P_ExtractAll P_Verify P_Still P_Add P_AddFiles P_Cli.

(** The object the program works with when it adds the file. *)
Record adding (fl : flags) (file : path) (l : lha) : Prop := {
  ag_filev : l_filev l = [file]; ag_filec : l_filec l = 1; ag_exclude : l_exclude l = []; ag_update : l_update l = false; ag_delete : l_delete l = false;
  ag_noexec : l_noexec l = false; ag_new : l_new l = false; ag_sort : l_sort l = true; ag_level : l_level l = asked_level fl; ag_method : l_method l = asked_method fl
}.

Lemma sub_asked fl c : c_generic c = false -> f_x fl = [] -> l_level (c_lha c) = 0 -> l_method (c_lha c) = 5 -> l_exclude (c_lha c) = [] ->
  l_level (c_lha (parseSubOption fl c)) = asked_level fl /\ l_method (c_lha (parseSubOption fl c)) = asked_method fl /\ l_exclude (c_lha (parseSubOption fl c)) = [] /\
  c_generic (parseSubOption fl c) = negb (f_g fl =? 5).
Proof.
  intros G X L M Ex. unfold parseSubOption, asked_level, asked_method. rewrite X. cbv zeta. cbn [is_empty].
  destruct (Z.eqb_spec (f_g fl) 5); destruct (Z.eqb_spec (f_o fl) 0); destruct (Z.eqb_spec (f_o fl) 5); destruct (Z.eqb_spec (f_o fl) 6); destruct (Z.eqb_spec (f_o fl) 7);
    destruct (Z.eqb_spec (f_h fl) 2); destruct (Z.eqb_spec (f_h fl) 0); destruct (Z.eqb_spec (f_h fl) 1); try lia; cbn; rewrite ?G, ?L, ?M, ?Ex; repeat split; auto.
Qed.

Lemma main_add E a file fl w : asks_add a file fl -> a <> [] -> file <> [] -> exists l, adding fl file l /\
  main E fl w = (err <~ CommandAdd (with_generic (negb (f_g fl =? 5)) E) a ;;; ret (if (err : bool) then 1 else 0, [])) (started false l w).
Proof.
  intros [A L X P LV T D XX F] NE NF. unfold main. rewrite A. destruct a as [|x a]; [contradiction|]. cbn [is_empty]. cbv zeta. unfold parseOption. rewrite L, X, P, LV, T, D.
  set (c0 := add_name file (set_cmd CmdAdd (initVariable (NewLha (x :: a))))).
  assert (C : (let c := if is_empty (f_c fl) then initVariable (NewLha (x :: a)) else add_name (f_c fl) (set_cmd CmdAdd (initVariable (NewLha (x :: a)))) in
               if is_empty (f_a fl) then c else add_name (f_a fl) (set_cmd CmdAdd c)) = c0).
  { cbv zeta. destruct file as [|y f]; [contradiction|]. destruct F as [[-> ->]|[-> ->]]; reflexivity. }
  cbv zeta in C. rewrite C. clear C.
  assert (C1 : (if f_m fl then set_cmd CmdAdd (if f_u fl then set_cmd CmdAdd c0 else c0) else if f_u fl then set_cmd CmdAdd c0 else c0) = c0) by (destruct (f_m fl), (f_u fl); reflexivity).
  rewrite C1. clear C1. pose proof (sub_same fl c0) as S. destruct (sub_asked fl c0 eq_refl XX eq_refl eq_refl eq_refl) as (Q1 & Q2 & Q3 & Q4).
  set (c := parseSubOption fl c0) in *.
  assert (SF : sortFiles c = set_clha (set_files [file] 1 (c_lha c)) c).
  { unfold sortFiles. rewrite (sw_sort _ _ S). change (l_sort (c_lha c0)) with true. cbv iota. rewrite (sw_filev _ _ S), (sw_filec _ _ S). reflexivity. }
  rewrite SF. exists (set_files [file] 1 (c_lha c)). split.
  - constructor; cbn [set_files l_filev l_filec l_exclude l_update l_delete l_noexec l_new l_sort l_level l_method]; auto; [rewrite (sw_update _ _ S)|rewrite (sw_delete _ _ S)|rewrite (sw_noexec _ _ S)|rewrite (sw_new _ _ S)|rewrite (sw_sort _ _ S)]; reflexivity.
  - rewrite bind_modify. cbn [c_cmd c_lha c_verify c_generic set_clha]. rewrite (sw_cmd _ _ S), (sw_verify _ _ S), Q4. reflexivity.
Qed.

(** Making a new archive, whatever the headers are like. *)
Lemma add_command_new E append a w o w1 c file : creatable E a w -> l_filec (w_lha w) = 1 -> l_update (w_lha w) = false -> l_noexec (w_lha w) = false -> l_delete (w_lha w) = false ->
  add_files append 1 0 None (made E w a) = Done o w1 -> same_but (e_tmp E) (made E w a) w1 -> w_fs w1 (e_tmp E) = Some (NFile c) -> l_filev (w_lha w) = [file] ->
  exists w', add_command E append a w = Done false w' /\ w_glob w' = w_glob w1 /\
    w_fs w' a = Some (NFile (c ++ [0])) /\ w_fs w' (e_tmp E) = None /\ (forall q, q <> a -> q <> e_tmp E -> w_fs w' q = w_fs w q).
Proof.
  intros [[F0 F13] F10 F11 F12 U4 _ _] F8 F1 F2 F4 HA HS HC _. apply has_nul_notin in F13. apply has_nul_notin in U4. set (tmp := e_tmp E) in *.
  unfold add_command. istep. istep.
  set (w0 := set_wlha (set_archive a (w_lha w)) w). set (l := w_lha w0).
  change (l_update l) with (l_update (w_lha w)). change (l_filec l) with (l_filec (w_lha w)). change (l_noexec l) with (l_noexec (w_lha w)).
  rewrite F1, F2, F8. change (1 =? 0) with false. cbn [negb andb]. istep. cbv zeta.
  change (w_fs w0) with (w_fs w). rewrite open_none by assumption. cbn [andb]. istep.
  unfold os_createtemp. istep. change (w_fs w0 (e_tmp E)) with (w_fs w (e_tmp E)). fold tmp. rewrite F11.
  rewrite bind_assoc. rewrite (bindIO_done (emit (OCreate tmp tmp)) _ w0 tt (made E w a) eq_refl). istep. cbn [negb]. istep.
  change (Z.to_nat 1) with 1%nat. rewrite (bindIO_done _ _ _ _ _ HA). istep.
  destruct (append_run tmp [0] c w1 HC) as [w2 [R2 [S2 [G2 C2]]]]. rewrite (bindIO_done _ _ _ _ _ R2), bind_backup.
  pose proof (sb_trans _ _ _ _ HS S2) as S3.
  assert (A2 : w_fs w2 a = None).
  { rewrite (sb_fs _ _ _ S3) by congruence. cbn [made w_fs set_wlha]. rewrite fs_set_other by (fold tmp; congruence). exact F10. }
  unfold os_rename. istep. rewrite U4, F13. cbn [orb]. rewrite C2, A2. rewrite bind_assoc.
  set (w3 := W (run_op (ORename tmp a) (w_fs w2)) (ORename tmp a :: w_ops w2) (w_glob w2) (w_verify w2) (w_stdin w2) (w_lha w2) (w_out w2)).
  rewrite (bindIO_done (emit (ORename tmp a)) _ w2 tt w3 eq_refl). istep. cbn [negb]. istep.
  assert (L3 : w_lha w3 = set_archive a (w_lha w)) by (cbn [w3 w_lha]; rewrite (sb_lha _ _ _ S3); reflexivity).
  rewrite L3. change (l_delete (set_archive a (w_lha w))) with (l_delete (w_lha w)). rewrite F4. istep.
  exists w3. split; [reflexivity|]. split; [exact G2|]. cbn [w3 w_fs run_op].
  split; [rewrite fs_set_other by congruence; rewrite fs_set_same; exact C2|]. split; [apply fs_set_same|].
  intros q Q1 Q2. rewrite !fs_set_other by assumption. rewrite (sb_fs _ _ _ S3) by assumption. cbn [made w_fs set_wlha]. fold tmp. now rewrite fs_set_other.
Qed.

Lemma bind_ext {A B} (m : IO A) (k k' : A -> IO B) w : (forall a w', m w = Done a w' -> k a w' = k' a w') -> bindIO m k w = bindIO m k' w.
Proof. intros H. unfold bindIO. destruct (m w); auto. Qed.

(** The other direction: when adding the file does not end, neither does making
    the archive. *)
Lemma add_command_not E append a w file : creatable E a w -> l_filec (w_lha w) = 1 -> l_update (w_lha w) = false -> l_noexec (w_lha w) = false -> l_filev (w_lha w) = [file] ->
  (forall w1, add_files append 1 0 None (made E w a) = Crash w1 -> add_command E append a w = Crash w1) /\
  (add_files append 1 0 None (made E w a) = Unknown -> add_command E append a w = Unknown).
Proof.
  intros [[F0 F13] F10 F11 F12 U4 _ _] F8 F1 F2 _. apply has_nul_notin in F13. apply has_nul_notin in U4. set (tmp := e_tmp E) in *.
  assert (X : add_command E append a w = (o <~ add_files append 1 0 None ;;;
       (_ <~ os_append (e_tmp E) [0] ;;;
            ok <~ os_rename (e_tmp E) a ;;;
            if negb ok then ret true
            else
              l <~ get w_lha ;;;
              _ <~ (if l_delete l then removeFiles (Z.to_nat (l_filec l)) 0 (l_filev l) else ret tt) ;;;
              ret false)) (made E w a)).
  { unfold add_command. istep. istep.
    set (w0 := set_wlha (set_archive a (w_lha w)) w). set (l := w_lha w0).
    change (l_update l) with (l_update (w_lha w)). change (l_filec l) with (l_filec (w_lha w)). change (l_noexec l) with (l_noexec (w_lha w)).
    rewrite F1, F2, F8. change (1 =? 0) with false. cbn [negb andb]. istep. cbv zeta.
    change (w_fs w0) with (w_fs w). rewrite open_none by assumption. cbn [andb]. istep.
    unfold os_createtemp. istep. change (w_fs w0 (e_tmp E)) with (w_fs w (e_tmp E)). fold tmp. rewrite F11.
    rewrite bind_assoc. rewrite (bindIO_done (emit (OCreate tmp tmp)) _ w0 tt (made E w a) eq_refl). istep. cbn [negb]. istep.
    change (Z.to_nat 1) with 1%nat. apply bind_ext. intros o w1 _. istep. reflexivity. }
  rewrite X. split; [intros w1 Y|intros Y]; unfold bindIO at 1; rewrite Y; reflexivity.
Qed.

(** ** Bytes *)
Lemma le_bytes v : bytes (le16 v) /\ bytes (le32 v).
Proof. unfold le16, le32, bytes, is_byte. split; repeat constructor; apply Z.mod_pos_bound; lia. Qed.

Lemma layout0_bytes e : legal0 e -> bytes (layout0 e).
Proof.
  intros [[LM BM] ? ? ? ? [LN BN] ? ? ? ? ? ?]. unfold layout0. pose proof (body0_len e LM) as L. assert (Z.of_nat (length (e_name e)) <= 221) by lia.
  assert (N0 : 0 <= zlen (e_name e) <= 221) by (split; [apply zlen_nonneg|exact H]).
  constructor; [fold (zlen (body0 e)); unfold is_byte; lia|]. constructor; [unfold checksum, is_byte; apply Z.mod_pos_bound; lia|].
  unfold body0. repeat (apply Forall_app; split); try apply le_bytes; try exact BM; try exact BN; repeat constructor; unfold is_byte; lia.
Qed.

(** ** Headers of level 2 *)
Lemma zlen_put l n r : putBytes l n = Ok r -> zlen r <= zlen l.
Proof. unfold putBytes. destruct (n <=? zlen l); [|discriminate]. intros H. injection H as <-. unfold take, zlen. rewrite firstn_length. lia. Qed.

Lemma zlen_unixinfo h : zlen (writeUnixInfo h) <= 100 + zlen (Group h) + zlen (User h).
Proof.
  unfold writeUnixInfo, putWord, putLongWord. pose proof (zlen_nonneg (Group h)). pose proof (zlen_nonneg (User h)).
  destruct (hd 0 (Group h) =? 0), (hd 0 (User h) =? 0), (HeaderLevel h =? 1); rewrite ?zlen_app, ?zlen_cons, ?zlen_nil; lia.
Qed.

Lemma write_level2 o stamp h l : HeaderLevel h = 2 -> zlen (Method h) = 5 -> zlen (Name h) <= 2000 -> zlen (Realname h) <= 2000 -> zlen (Group h) <= 2000 -> zlen (User h) <= 2000 ->
  WriteHeader o stamp h = Ok (Some l) -> zlen l < 65536.
Proof.
  intros HL HM HN HR HG HU H. unfold WriteHeader in H. rewrite HL in H. change (2 =? 0) with false in H. change (2 =? 1) with false in H. change (2 =? 2) with true in H. cbv iota in H.
  set (path := if isSymlinkMode _ then _ else _) in H.
  assert (ZP : forall p, path = Some p -> zlen p <= 4001).
  { intros p. unfold path. destruct (isSymlinkMode _); [destruct (has_bar _); [|discriminate]|]; intros X; injection X as <-; rewrite ?zlen_app, ?zlen_cons, ?zlen_nil; lia. }
  destruct path as [path|]; [|discriminate H]. specialize (ZP path eq_refl).
  set (pt := convertFilename _ _ _ _ _) in H. assert (ZT : zlen pt <= 4001) by (unfold pt, convertFilename; rewrite zlen_map; exact ZP).
  destruct (writeHeaderLevel2 o h pt) as [l0| |] eqn:E; cbn [bind] in H; [|discriminate H..]. injection H as ->. unfold writeHeaderLevel2 in E.
  set (q := if negb _ then _ else _) in E. assert (ZQ : zlen (fst (fst (fst q))) <= 4001 /\ zlen (snd (fst q)) <= 4001).
  { unfold q. destruct (negb _); cbn [fst snd]; [|rewrite zlen_nil; lia]. split; [|exact ZT]. unfold take, zlen in *. rewrite firstn_length. lia. }
  destruct q as [[[bn nl] dn] dl]. cbn [fst snd] in ZQ. destruct ZQ as [Z1 Z2].
  destruct (putBytes (Method h) 5) as [m| |] eqn:P1; cbn [bind] in E; [|discriminate E..]. apply zlen_put in P1.
  destruct (putBytes bn nl) as [nm| |] eqn:P2; cbn [bind] in E; [|discriminate E..]. apply zlen_put in P2.
  assert (ZE : forall e2, (if 0 <? dl then l <- putBytes dn dl;; Ok (putWord (dl + 3) ++ [2] ++ l) else Ok []) = Ok e2 -> zlen e2 <= 4100).
  { intros e2. destruct (0 <? dl); [|intros X; injection X as <-; rewrite zlen_nil; lia]. destruct (putBytes dn dl) as [d| |] eqn:P3; cbn [bind]; [|discriminate..].
    apply zlen_put in P3. intros X. injection X as <-. unfold putWord. rewrite ?zlen_app, ?zlen_cons, ?zlen_nil. lia. }
  match type of E with bind ?a _ = _ => destruct a as [e2| |]; cbn [bind] in E; [|discriminate E..] end. specialize (ZE e2 eq_refl).
  pose proof (zlen_unixinfo h) as ZI. injection E as <-. unfold putWord, putLongWord.
  rewrite ?zlen_app, ?zlen_cons, ?zlen_nil; destruct (Z.land _ 255 =? 0); destruct (GenericFormat o); repeat (rewrite zlen_app || rewrite zlen_cons || rewrite zlen_nil); lia.
Qed.

(** A header all of whose parts are of the usual size. *)
Record small (h : hdr) : Prop := {
  sm_level : HeaderLevel h = 2; sm_method : zlen (Method h) = 5; sm_name : zlen (Name h) <= 2000; sm_real : zlen (Realname h) <= 2000;
  sm_group : zlen (Group h) <= 2000; sm_user : zlen (User h) <= 2000; sm_mode : isSymlinkMode (UnixMode h) = false
}.

Lemma small_write o stamp h : small h -> WriteHeader o stamp h = Panic \/ WriteHeader o stamp h = NoFuel \/
  exists l, WriteHeader o stamp h = Ok (Some l) /\ forall o' h' rest, GetHeader o' h' (l ++ rest) = Panic.
Proof.
  intros []. destruct (WriteHeader o stamp h) as [[l|]| |] eqn:W; auto.
  - right. right. exists l. split; [reflexivity|]. intros. eapply write_level2_unreadable; eauto. eapply write_level2; eauto.
  - exfalso. unfold WriteHeader in W. rewrite sm_mode0, sm_level0 in W. change (2 =? 0) with false in W. change (2 =? 1) with false in W. change (2 =? 2) with true in W. cbv iota in W.
    match type of W with bind ?a _ = _ => destruct a end; discriminate W.
Qed.

(** Adding an entry with such a header at the beginning of the file. *)
Lemma addOne_small E h body w w' : small h -> w_fs w (e_tmp E) = Some (NFile []) -> addOne E h body w = Done tt w' ->
  same_but (e_tmp E) w w' /\ exists l rest, w_fs w' (e_tmp E) = Some (NFile (l ++ rest)) /\ forall o' h' rest, GetHeader o' h' (l ++ rest) = Panic.
Proof.
  intros Sm C R. unfold addOne in R. destruct (small_write (e_opts E) (e_stamp E) h Sm) as [X|[X|(l & X & U)]]; rewrite X in R; try discriminate R.
  rewrite bind_lift in R. cbn [put_header] in R. destruct (append_run (e_tmp E) l [] w C) as (w1 & R1 & S1 & G1 & C1). rewrite (bindIO_done _ _ _ _ _ R1) in R. cbn [app] in C1.
  destruct (OriginalSize h =? 0). { injection R as <-. split; [exact S1|]. exists l, []. rewrite app_nil_r. auto. }
  unfold run_encode in R. rewrite !bind_assoc, bind_get, !bind_assoc, bind_getl, !bind_assoc in R.
  destruct (EncodeLzhuf _ _ _ _) as [eo| |]; [|discriminate R..]. rewrite bind_lift, !bind_assoc, bind_modify, bind_ret in R.
  set (w2 := set_wglob (eo_glob eo) w1) in R. assert (C2 : w_fs w2 (e_tmp E) = Some (NFile l)) by exact C1.
  assert (S2 : same_but (e_tmp E) w w2) by (eapply sb_trans; [exact S1|constructor; auto]).
  destruct (append_run (e_tmp E) (eo_out eo) _ w2 C2) as (w3 & R3 & S3 & _ & C3). rewrite (bindIO_done _ _ _ _ _ R3) in R. cbv zeta in R.
  assert (F : forall h' w4 c4 w5, small h' -> same_but (e_tmp E) w w4 -> w_fs w4 (e_tmp E) = Some (NFile c4) ->
    bindIO (lift (WriteHeader (e_opts E) (e_stamp E) h')) (fun r => put_header (e_tmp E) (Some 0) r) w4 = Done tt w5 ->
    same_but (e_tmp E) w w5 /\ exists l rest, w_fs w5 (e_tmp E) = Some (NFile (l ++ rest)) /\ forall o' h' rest, GetHeader o' h' (l ++ rest) = Panic).
  { intros h' w4 c4 w5 Sm' S4 C4 R4. destruct (small_write (e_opts E) (e_stamp E) h' Sm') as [Y|[Y|(l' & Y & U')]]; rewrite Y in R4; try discriminate R4.
    rewrite bind_lift in R4. cbn [put_header] in R4. destruct (emit_write (e_tmp E) 0 l' c4 w4 C4) as (w6 & R6 & S6 & _ & C6). rewrite R6 in R4. injection R4 as <-.
    split; [eapply sb_trans; eassumption|]. unfold write_at in C6. change (take 0 c4) with (@nil Z) in C6. cbn [app] in C6. eauto. }
  assert (ZM : forall a b, zlen (meth a b) = 5) by (intros; reflexivity).
  destruct (eo_packed eo <? eo_original eo).
  - rewrite bind_ret in R. apply F with (c4 := l ++ eo_out eo) in R; [exact R| |eapply sb_trans; eassumption|exact C3].
    destruct Sm. constructor; auto; apply ZM.
  - match type of R with context [encodeStoredCrc ?a ?b] => destruct (encodeStoredCrc a b) as [[[out crc] r]| |] end; [|discriminate R..].
    rewrite bind_assoc, bind_lift in R. rewrite bind_assoc in R. destruct (append_run (e_tmp E) out _ w3 C3) as (w4 & R4 & S4 & _ & C4). rewrite (bindIO_done _ _ _ _ _ R4), bind_ret in R.
    apply F with (c4 := (l ++ eo_out eo) ++ out) in R; [exact R| |eapply sb_trans; [exact S2|eapply sb_trans; eassumption]|exact C4].
    destruct Sm. constructor; auto; reflexivity.
Qed.

(** ** What adding leaves alone *)
Section Calm.
  Variables (E : env) (a : path).

  (** Only the archive and the temporary file change; the option to delete stays off. *)
  Definition calm {A} (m : IO A) : Prop := forall w, l_delete (w_lha w) = false ->
    match m w with Done _ w' | Crash w' => l_delete (w_lha w') = false /\ forall q, q <> a -> q <> e_tmp E -> w_fs w' q = w_fs w q | Unknown => True end.

  Lemma calm_bind {A B} (m : IO A) (k : A -> IO B) : calm m -> (forall x, calm (k x)) -> calm (bindIO m k).
  Proof.
    intros Hm Hk w D. specialize (Hm w D). unfold bindIO. destruct (m w) as [x w'|w'|]; auto. destruct Hm as [D' F']. specialize (Hk x w' D').
    destruct (k x w') as [y w''|w''|]; auto; destruct Hk as [D'' F'']; (split; [exact D''|]); intros q Q1 Q2; rewrite F'', F'; auto.
  Qed.

  Lemma tmp_ops ops : Forall (tmpop E) ops -> forall f q, q <> e_tmp E -> run_ops ops f q = f q.
  Proof.
    induction 1 as [|o ops H F IH]; intros f q Q; [reflexivity|]. change (run_ops (o :: ops) f) with (run_ops ops (run_op o f)). rewrite IH by exact Q.
    destruct o; try destruct H; cbn [run_op]; subst; now rewrite fs_set_other.
  Qed.

  Lemma calm_does {A} (m : IO A) : does (tmpop E) eq m -> calm m.
  Proof.
    intros H w D. specialize (H w). unfold eff in H. destruct (m w) as [x w'|w'|]; auto; destruct H as (ops & _ & P & F & L); rewrite <- L, F; (split; [exact D|]); intros q _ Q; now apply tmp_ops.
  Qed.

  Lemma calm_same {A} (m : IO A) : (forall w, match m w with Done _ w' | Crash w' => w_fs w' = w_fs w /\ l_delete (w_lha w') = l_delete (w_lha w) | Unknown => True end) -> calm m.
  Proof. intros H w D. specialize (H w). destruct (m w); auto; destruct H as [-> ->]; auto. Qed.

  Ltac cs := apply calm_same; intros ?; cbn; auto.

  Lemma calm_files : forall k i o, calm (add_files (appendIt E) k i o).
  Proof.
    induction k as [|k IH]; intros i o; cbn [add_files]; [cs|]. apply calm_bind; [cs|intros l]. destruct (i <? l_filec l); [|cs]. destruct (nth_error _ _) as [name|]; [|cs].
    destruct (list_eqb _ _); [apply calm_bind; [cs|intros _; apply IH]|]. apply calm_bind; [|intros o'; apply IH].
    assert (X : forall nm o, calm (appendIt E nm o)) by (intros; apply calm_does, d_appendIt). destruct (l_exclude l) as [|x ex]; [apply X|].
    generalize (x :: ex). clear x ex. intros ex. revert o. induction ex as [|x ex IHe]; intros o; cbn [add_excluded]; [cs|]. apply calm_bind; [|intros; apply IHe]. destruct (list_eqb _ _); [cs|apply X].
  Qed.

  Lemma calm_lha {B} (k : lha -> IO B) : (forall l, l_delete l = false -> calm (k l)) -> calm (bindIO (get w_lha) k).
  Proof. intros H w D. rewrite bind_get. apply H; exact D. Qed.

  Lemma calm_ret {A B} (x : A) (k : A -> IO B) : calm (k x) -> calm (bindIO (ret x) k).
  Proof. intros H w D. rewrite bind_ret. now apply H. Qed.

  Lemma calm_rename : calm (os_rename (e_tmp E) a).
  Proof.
    intros w D. unfold os_rename. rewrite bind_get. destruct (_ || _); [cbn; auto|]. destruct (w_fs w (e_tmp E)) as [n|]; [|cbn; auto].
    destruct (w_fs w a) as [[]|]; cbn; (split; [exact D|]); auto; intros q Q1 Q2; now rewrite !fs_set_other.
  Qed.

  Lemma calm_temp : calm (os_createtemp E).
  Proof.
    intros w D. unfold os_createtemp. rewrite bind_get. destruct (w_fs w (e_tmp E)) as [n|]; cbn; (split; [exact D|]); auto; intros q Q1 Q2; now rewrite !fs_set_other.
  Qed.

  Lemma calm_add : archiveIsMsdosSfx1 a = false -> calm (CommandAdd E a).
  Proof.
    intros SX. unfold CommandAdd, add_command. apply calm_bind; [cs|intros _]. apply calm_lha. intros l LD. destruct (negb _ && _); [cs|]. apply calm_bind; [cs|intros f]. cbv zeta.
    destruct (l_update l && _ && _); [cs|]. rewrite SX, andb_false_r. apply calm_ret. apply calm_bind; [destruct (l_noexec l); [cs|apply calm_temp]|intros made]. destruct (negb made); [cs|].
    apply calm_bind; [destruct (_ && _); [apply calm_does, d_findUpdate|cs]|intros _]. destruct (_ =? 0); [cs|].
    apply calm_bind; [apply calm_files|intros o]. apply calm_bind; [destruct (match os_open E f a with Some _ => true | None => false end), o; first [apply calm_does, d_copy_rest|cs]|intros _].
    destruct (l_noexec l).
    - apply calm_bind; [intros w D; rewrite backup_run; auto|intros _]. apply calm_lha. intros l' ->. apply calm_bind; [cs|intros _; cs].
    - apply calm_bind; [apply calm_does, d_append|intros _]. apply calm_bind; [intros w D; rewrite backup_run; auto|intros _]. apply calm_bind; [apply calm_rename|intros ok]. destruct (negb ok); [cs|]. apply calm_lha. intros l' ->. apply calm_bind; [cs|intros _; cs].
  Qed.
End Calm.
