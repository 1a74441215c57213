(** Adding files to a new archive. *)
From Verif Require Import Go GoLemmas M_Crc M_Bitio M_Maketree M_Maketbl M_Huf M_Slide M_Lzhuf S_Header M_Header M_Os M_Archive S_History S_Archive S_Listing S_Add
  P_Bitio P_Crc P_Header P_Os P_Backup P_Single P_RoundTrip P_Read1 P_Accept Properties_Slide Properties_Archive P_Extract P_List.

Lemma packed_mode h eo : UnixMode (packed_hdr h eo) = UnixMode h.
Proof. destruct h. reflexivity. Qed.

Section Add.
  Variable E : env.
  Hypothesis U : usual E.
  Let tmp := e_tmp E.

  Definition ent (h : hdr) (nm : list Z) : entry0 := entry_of (e_stamp E) h nm.

  Lemma add_command_fresh append a w o w1 c names : making E a names w -> names <> [] ->
    add_files append (length names) 0 None (made E w a) = Done o w1 -> same_but tmp (made E w a) w1 -> w_fs w1 tmp = Some (NFile c) ->
    exists w', add_command E append a w = Done false w' /\ w_glob w' = w_glob w1 /\ w_lha w' = set_archive a (w_lha w) /\
      w_fs w' a = Some (NFile (c ++ [0])) /\ w_fs w' tmp = None /\ (forall q, q <> a -> q <> tmp -> w_fs w' q = w_fs w q).
  Proof.
    intros [[U1 U2 U3 U4] [F0 F13] F10 F11 F12 [F7 F8] F6 F1 F2 F4] NE HA HS HC. apply has_nul_in in F13. apply has_nul_in in U4. fold tmp in F12.
    assert (LN : 0 < Z.of_nat (length names)) by (destruct names; [contradiction|cbn [length]; lia]).
    unfold add_command. istep. istep.
    set (w0 := set_wlha (set_archive a (w_lha w)) w). set (l := w_lha w0).
    change (l_update l) with (l_update (w_lha w)). change (l_filec l) with (l_filec (w_lha w)). change (l_noexec l) with (l_noexec (w_lha w)).
    rewrite F1, F2, F8. assert (LE : (Z.of_nat (length names) =? 0) = false) by (apply Z.eqb_neq; lia). rewrite LE. cbn [negb andb]. istep. cbv zeta.
    change (w_fs w0) with (w_fs w). rewrite open_none by assumption. cbn [andb]. istep.
    unfold os_createtemp. istep. change (w_fs w0 (e_tmp E)) with (w_fs w (e_tmp E)). fold tmp. fold tmp in F11. rewrite F11.
    rewrite bind_assoc. rewrite (bindIO_done (emit (OCreate tmp tmp)) _ w0 tt (made E w a) eq_refl). istep. cbn [negb]. istep.
    rewrite Nat2Z.id. rewrite (bindIO_done _ _ _ _ _ HA). istep.
    destruct (append_run tmp [0] c w1 HC) as [w2 [R2 [S2 [G2 C2]]]]. rewrite (bindIO_done _ _ _ _ _ R2), bind_backup.
    pose proof (sb_trans _ _ _ _ HS S2) as S3.
    assert (A2 : w_fs w2 a = None).
    { rewrite (sb_fs _ _ _ S3) by congruence. cbn [made w_fs set_wlha]. rewrite fs_set_other by (fold tmp; congruence). exact F10. }
    unfold os_rename. istep. fold tmp in U4. rewrite U4, F13. cbn [orb]. rewrite C2, A2. rewrite bind_assoc.
    set (w3 := W (run_op (ORename tmp a) (w_fs w2)) (ORename tmp a :: w_ops w2) (w_glob w2) (w_verify w2) (w_stdin w2) (w_lha w2) (w_out w2)).
    rewrite (bindIO_done (emit (ORename tmp a)) _ w2 tt w3 eq_refl). istep. cbn [negb]. istep.
    assert (L3 : w_lha w3 = set_archive a (w_lha w)) by (cbn [w3 w_lha]; rewrite (sb_lha _ _ _ S3); reflexivity).
    rewrite L3. change (l_delete (set_archive a (w_lha w))) with (l_delete (w_lha w)). rewrite F4. istep.
    exists w3. split; [reflexivity|]. split; [exact G2|]. split; [exact L3|]. cbn [w3 w_fs run_op].
    split; [rewrite fs_set_other by congruence; rewrite fs_set_same; exact C2|]. split; [apply fs_set_same|].
    intros q Q1 Q2. rewrite !fs_set_other by assumption. rewrite (sb_fs _ _ _ S3) by assumption. cbn [made w_fs set_wlha]. now rewrite fs_set_other.
  Qed.

  (** One round of the loop over the names. *)
  Lemma add_files_step append w name pre names a w1 : l_exclude (w_lha w) = [] -> l_filev (w_lha w) = pre ++ name :: names ->
    l_filec (w_lha w) = Z.of_nat (length pre + S (length names)) -> l_archive (w_lha w) = a -> name <> a -> append name None w = Done None w1 ->
    add_files append (S (length names)) (Z.of_nat (length pre)) None w = add_files append (length names) (Z.of_nat (S (length pre))) None w1.
  Proof.
    intros X1 X2 X3 X4 X5 X6. cbn [add_files]. istep. rewrite X1, X2, X3, X4, Nat2Z.id.
    destruct (Z.ltb_spec (Z.of_nat (length pre)) (Z.of_nat (length pre + S (length names)))); [|lia].
    rewrite nth_error_app2, Nat.sub_diag by lia. cbn [nth_error]. apply list_eqb_neq in X5. rewrite X5. rewrite (bindIO_done _ _ _ _ _ X6). f_equal. lia.
  Qed.

  Lemma base_slashes nm : entry_name nm -> slashes nm = nm /\ to_backslash nm = nm.
  Proof.
    intros [_ F]. rewrite Forall_forall in F. unfold slashes, to_backslash. rewrite <- (map_id nm) at 2 4.
    split; apply map_ext_in; intros c Hc; specialize (F c Hc); [destruct (Z.eqb_spec c 92)|destruct (Z.eqb_spec c 47)]; try lia; reflexivity.
  Qed.

  Section Source.
    Variables (name : path) (body : list Z) (w : world).
    Hypothesis S : source E w name body.
    Hypothesis Hx : l_noexec (w_lha w) = false.
    Hypothesis Hl : l_level (w_lha w) = 0.
    Let h := initHeader E (w_lha w) (w_fs w) name (NFile body).

    Lemma src_plain : plain h (Base name).
    Proof.
      destruct S as [_ _ _ [[N1 N2] _] T [B L]]. apply initHeader_plain; [apply U|exact Hl|split; assumption| |exact T]. pose proof (zlen_nonneg body). lia.
    Qed.

    Lemma src_regular : Z.land (UnixMode h) UnixFileTypemask = UnixFileRegular.
    Proof. unfold h, initHeader, initHeader_file. cbn [UnixMode set_UnixMode]. apply mode_plain. destruct (stat (w_fs w) name); try lia; apply U. Qed.

    Lemma src_append : appendIt E name None w = append_new E None h body w.
    Proof.
      destruct S as [[P1 P2] F R _ _ _]. apply has_nul_in in P2. unfold appendIt. rewrite bind_get, bind_get.
      assert (LS : lstat (w_fs w) name = SNode (NFile body)) by (unfold lstat; rewrite P2, F; destruct name; [contradiction|reflexivity]).
      rewrite LS, Hx. rewrite (open_file E (w_fs w) name body P1 P2 F R). reflexivity.
    Qed.

    Lemma ent_facts h' : plain h' (Base name) -> UnixMode h' = UnixMode h -> UnixLastModifiedStamp h' = e_mtime E name ->
      file_entry (ent h' (Base name)) /\ e_name (ent h' (Base name)) = Base name /\ e_time (ent h' (Base name)) = e_mtime E name.
    Proof.
      intros P M T. destruct S as [_ _ _ [N N0] _ _]. destruct (base_slashes _ N) as [_ N2].
      split; [|split; [exact N2|exact T]]. constructor; [now apply plain_legal| |].
      - change (e_name (ent h' (Base name))) with (to_backslash (Base name)). rewrite N2. intros I. destruct N as [_ F]. rewrite Forall_forall in F. specialize (F 0 I). lia.
      - change (e_mode (ent h' (Base name))) with (UnixMode h'). rewrite M. exact src_regular.
    Qed.

    Lemma src_mode : UnixMode h = u16 (e_perm E name + 33000).
    Proof.
      destruct S as [[P1 P2] F _ _ _ _]. apply has_nul_in in P2. unfold h, initHeader, initHeader_file. cbn [UnixMode set_UnixMode].
      assert (ST : stat (w_fs w) name = SNode (NFile body)).
      { unfold stat. rewrite P2. destruct name as [|x p]; [contradiction|]. unfold follow. cbn [resolve]. now rewrite F, F. }
      now rewrite ST.
    Qed.

    (** An empty file. *)
    Lemma append_empty c : body = [] -> w_fs w tmp = Some (NFile c) ->
      exists e w', appendIt E name None w = Done None w' /\ same_but tmp w w' /\ w_glob w' = w_glob w /\ w_fs w' tmp = Some (NFile (c ++ layout0 e)) /\ entry_for E name body e [] /\ e_mode e = u16 (e_perm E name + 33000).
    Proof.
      intros B C. destruct (addOne_empty E (us_format _ U) h (Base name) body c w src_plain) as [w' [R1 [R2 [R3 R4]]]]; [unfold h; rewrite B; reflexivity|exact C|].
      exists (ent h (Base name)), w'. split; [rewrite src_append; now apply append_new_none|]. split; [exact R2|]. split; [exact R3|]. split; [exact R4|].
      destruct (ent_facts h src_plain eq_refl eq_refl) as [X1 [X2 X3]]. split; [|exact src_mode]. constructor; try assumption. right. split; [exact B|].
      unfold h. rewrite B. repeat split; reflexivity.
    Qed.

    (** A file that shrinks. *)
    Lemma append_packed c cs eo method : l_method (w_lha w) = method -> method = 5 \/ method = 6 \/ method = 7 /\ zlen body < 65536 -> body <> [] -> after cs (w_glob w) -> w_fs w tmp = Some (NFile c) ->
      EncodeLzhuf method (zlen body) body (w_glob w) = Ok eo -> eo_packed eo < eo_original eo ->
      exists e e' w', appendIt E name None w = Done None w' /\ same_but tmp w w' /\ w_glob w' = eo_glob eo /\
        w_fs w' tmp = Some (NFile (write_at 0 (layout0 e) (c ++ layout0 e' ++ eo_out eo))) /\ entry_for E name body e (eo_out eo) /\ zlen (layout0 e') = zlen (layout0 e) /\
        file_entry e' /\ e_name e' = Base name /\ e_packed e' = 0 /\ e_mode e = u16 (e_perm E name + 33000).
    Proof.
      intros Hm Hm2 Hne A C HE Hlt. pose proof (so_body _ _ _ _ S) as [HB HL]. pose proof src_plain as P.
      destruct (round_trip_567 cs (w_glob w) [] glob0 method body eo []) as [M1 [M2 [M3 [M4 _]]]]; auto; [split; [constructor|reflexivity]|constructor|].
      assert (B4 : 0 <= eo_crc eo < 2 ^ 16) by (rewrite M3; apply calcCrc_range; [lia|exact HB]).
      pose proof (zlen_nonneg body) as Z0. pose proof (zlen_nonneg (eo_out eo)) as Z1.
      assert (P' : plain (packed_hdr h eo) (Base name)) by (apply plain_packed; [exact P|lia|lia|exact B4|lia]).
      assert (Zb : zlen body <> 0) by (destruct body as [|x b]; [contradiction|rewrite zlen_cons; pose proof (zlen_nonneg b); lia]).
      destruct (addOne_packed E (us_format _ U) h (Base name) body c w eo P Zb C) as [w' [R1 [R2 [R3 R4]]]]; [rewrite Hm; exact HE|exact Hlt|exact P'|].
      exists (ent (packed_hdr h eo) (Base name)), (ent h (Base name)), w'. split; [rewrite src_append; now apply append_new_none|]. split; [exact R2|]. split; [exact R3|]. split; [exact R4|].
      destruct (ent_facts (packed_hdr h eo) P' eq_refl eq_refl) as [X1 [X2 X3]]. destruct (ent_facts h P eq_refl eq_refl) as [Y1 [Y2 Y3]].
      split; [|split; [unfold ent; now rewrite !plain_size|split; [exact Y1|split; [exact Y2|split; [reflexivity|]]]]]. 2: { unfold ent. cbn [entry_of e_mode]. rewrite packed_mode. exact src_mode. }
      constructor; try assumption. left.
      exists method, cs, (w_glob w), eo. split; [exact Hm2|]. split; [exact HB|]. split; [exact Hne|]. split; [exact A|]. split; [exact HE|]. split; [exact Hlt|]. split; [reflexivity|].
      split; [unfold ent; cbn [entry_of e_method packed_hdr set_PackedSize set_OriginalSize set_Method Method]; rewrite M1, Z.add_comm; reflexivity|].
      split; [unfold ent; cbn [entry_of e_packed packed_hdr set_PackedSize PackedSize]; lia|]. split; [exact M2|exact M3].
    Qed.
  End Source.

  Lemma write_at_0 l l' rest : zlen l' = zlen l -> write_at 0 l (l' ++ rest) = l ++ rest.
  Proof. intros H. unfold write_at. change (take 0 (l' ++ rest)) with (@nil Z). cbn [app]. f_equal. rewrite Z.add_0_l. now apply drop_app. Qed.

  Lemma made_source w a name body : making E a (l_filev (w_lha w)) w -> source E w name body -> name <> tmp /\ source E (made E w a) name body.
  Proof.
    intros M [S1 S2 S3 S4 S5 S6]. assert (X : name <> tmp) by (intros ->; unfold tmp in S2; rewrite (mk_tmp _ _ _ _ M) in S2; discriminate).
    split; [exact X|]. constructor; try assumption. cbn [made w_fs set_wlha]. now rewrite fs_set_other.
  Qed.

  Lemma source_same w w' name body : name <> tmp -> same_but tmp w w' -> source E w name body -> source E w' name body.
  Proof. intros X SB [S1 S2 S3 S4 S5 S6]. constructor; try assumption. now rewrite (sb_fs _ _ _ SB). Qed.

  (** Empty files one after the other. *)
  Lemma add_empties a : forall names pre w c,
    l_exclude (w_lha w) = [] -> l_filev (w_lha w) = pre ++ names -> l_filec (w_lha w) = Z.of_nat (length pre + length names) -> l_archive (w_lha w) = a ->
    l_noexec (w_lha w) = false -> l_level (w_lha w) = 0 -> Forall (fun name => source E w name [] /\ name <> a /\ name <> tmp) names -> w_fs w tmp = Some (NFile c) ->
    exists es w', add_files (appendIt E) (length names) (Z.of_nat (length pre)) None w = Done None w' /\ same_but tmp w w' /\ w_glob w' = w_glob w /\
      w_fs w' tmp = Some (NFile (c ++ flat_map (fun x => layout0 (fst x) ++ snd x) es)) /\ Forall2 (fun name x => entry_for E name [] (fst x) (snd x)) names es.
  Proof.
    induction names as [|name names IH]; intros pre w c H1 H2 H3 H4 H5 H6 F C.
    - exists [], w. split; [reflexivity|]. split; [apply sb_refl|]. split; [reflexivity|]. split; [cbn [flat_map]; now rewrite app_nil_r|constructor].
    - inversion F as [|? ? [S [N1 N2]] F']; subst.
      destruct (append_empty name [] w S H5 H6 c eq_refl C) as (e & w1 & R1 & R2 & R3 & R4 & R5 & _).
      cbn [length] in *. rewrite (add_files_step (appendIt E) w name pre names (l_archive (w_lha w)) w1); auto.
      pose proof (sb_lha _ _ _ R2) as L1.
      destruct (IH (pre ++ [name]) w1 (c ++ layout0 e)) as (es & w' & Q1 & Q2 & Q3 & Q4 & Q5); rewrite ?L1; auto.
      + now rewrite <- app_assoc.
      + rewrite app_length. cbn [length]. rewrite H3. f_equal. lia.
      + eapply Forall_impl; [|exact F']. cbv beta. intros n [X1 [X2 X3]]. split; [eapply source_same; eauto|auto].
      + rewrite app_length in Q1. cbn [length] in Q1. rewrite Nat.add_comm in Q1. exists ((e, []) :: es), w'. split; [exact Q1|]. split; [eapply sb_trans; eassumption|]. split; [congruence|].
        split; [rewrite Q4; cbn [flat_map fst snd]; now rewrite app_nil_r, <- app_assoc|]. now constructor.
  Qed.
End Add.
