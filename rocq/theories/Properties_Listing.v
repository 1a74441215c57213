(** Properties C24, C28, C56 and C57: listing archives, and the CRC of data extracted
    to memory.  [header_at], [archive_bytes] and [names_shrink] are defined in
    S_Listing.v, [describes], [packs] and [data_of] in S_Archive.v. *)
From Verif Require Import Go GoLemmas M_Crc M_Bitio M_Maketree M_Maketbl M_Huf M_Slide M_Lzhuf S_Header S_Listing M_Header M_Os M_Archive S_Archive
  P_Header P_Accept P_List P_Os P_RoundTrip P_Single P_Read1 Properties_Slide Properties_Archive Properties_Extract.

(** ** C24: listing always ends *)

Lemma list_run E archive w c : os_open E (w_fs w) archive = Some c ->
  CommandList E archive w = lift (list_loop E (set_archive archive (w_lha w)) (S (length c)) NewLzHeader c []) (set_wlha (set_archive archive (w_lha w)) w).
Proof. intros H. unfold CommandList. rewrite bind_modl. istep. istep. cbn [w_fs w_lha set_wlha]. rewrite H. reflexivity. Qed.

(** For all files, headers of all levels included, the listing does not run forever. *)
Theorem C24_listing_ends :
  forall E archive w, CommandList E archive w <> Unknown.
Proof.
  intros E archive w. destruct (os_open E (w_fs w) archive) as [c|] eqn:O.
  - rewrite (list_run E archive w c O). pose proof (list_loop_ends E (set_archive archive (w_lha w)) (S (length c)) NewLzHeader c [] ltac:(lia)) as H.
    destruct (list_loop _ _ _ _ _ _); cbn; [discriminate..|]. contradiction.
  - unfold CommandList. rewrite bind_modl. istep. istep. cbn [w_fs set_wlha]. rewrite O. discriminate.
Qed.

(** If no header has level 1, 2 or 3, it does not panic either, whatever the file. *)
Theorem C24_level0_listing_returns_partial :
  forall E archive w,
    (forall c, os_open E (w_fs w) archive = Some c -> bytes c /\ forall k, header_at c k -> ~ In (byte_at c (k + 20)) [1; 2; 3]) ->
    exists headers err w', CommandList E archive w = Done (headers, err) w'.
Proof.
  intros E archive w H. destruct (os_open E (w_fs w) archive) as [c|] eqn:O.
  - rewrite (list_run E archive w c O). destruct (H c eq_refl) as [B L].
    destruct (list_loop_level0 E (set_archive archive (w_lha w)) c B L (S (length c)) NewLzHeader 0 []) as [[hs err] X]; [apply ha_first|change (drop 0 c) with c; apply Nat.lt_succ_diag_r|vm_compute; discriminate|reflexivity|].
    change (drop 0 c) with c in X. rewrite X. cbn. eauto.
  - unfold CommandList. rewrite bind_modl. istep. istep. cbn [w_fs set_wlha]. rewrite O. do 3 eexists. reflexivity.
Qed.

(** A truncated archive: the header and half of the data. *)
Example C24_example :
  let c := layout0 (ex_entry 1) ++ [1; 2; 3; 4] in
  bytes c /\ (forall k, header_at c k -> ~ In (byte_at c (k + 20)) [1; 2; 3]) /\ length c = 41%nat.
Proof.
  split; [|split].
  - change (Forall (fun b => 0 <= b < 256) (layout0 (ex_entry 1) ++ [1; 2; 3; 4])). repeat constructor; vm_compute; intuition discriminate.
  - assert (X : forall k, header_at (layout0 (ex_entry 1) ++ [1; 2; 3; 4]) k -> k = 0 \/ 46 <= k).
    { intros k H. induction H as [|k H IH N]; [now left|right]. destruct IH as [-> | IH]; [vm_compute; discriminate|].
      assert (Y : byte_at (layout0 (ex_entry 1) ++ [1; 2; 3; 4]) k = 0) by (apply nth_overflow; change (length _) with 41%nat; lia). contradiction. }
    intros k H. destruct (X k H) as [-> | K]; [vm_compute; intuition discriminate|].
    assert (Y : byte_at (layout0 (ex_entry 1) ++ [1; 2; 3; 4]) (k + 20) = 0) by (apply nth_overflow; change (length _) with 41%nat; lia). rewrite Y. cbn. intuition discriminate.
  - reflexivity.
Qed.

(** Headers, the listing function that returns the headers, decompresses the data and
    can panic. *)
Definition ex_bad_entry : entry0 := E0 [45; 108; 104; 53; 45] 5 100 0 32 [122] 0 0 1000000 33188 0 0.
Definition ex_bad : list Z := layout0 ex_bad_entry ++ [0; 1; 33; 36; 32] ++ [0].
Theorem C24_headers_refuted :
  exists E w c, os_open E (w_fs w) (l_archive (w_lha w)) = Some c /\ bytes c /\ (forall k, header_at c k -> ~ In (byte_at c (k + 20)) [1; 2; 3]) /\
    exists w', Headers E w = Crash w'.
Proof.
  set (w := W (fun p => if list_eqb p [98] then Some (NFile ex_bad) else None) [] glob0 false [] (NewLha [98]) []).
  exists ex_env, w, ex_bad. split; [reflexivity|]. split; [|split].
  - change (Forall (fun b => 0 <= b < 256) ex_bad). repeat constructor; vm_compute; intuition discriminate.
  - assert (X : forall k, header_at ex_bad k -> k = 0 \/ 42 <= k).
    { intros k H. induction H as [|k H IH N]; [now left|right]. destruct IH as [-> | IH]; [vm_compute; discriminate|].
      assert (Y : byte_at ex_bad k = 0). { assert (k = 42 \/ 43 <= k) as [-> | L] by lia; [reflexivity|]. apply nth_overflow. change (length ex_bad) with 43%nat. lia. }
      contradiction. }
    intros k H. destruct (X k H) as [-> | K]; [vm_compute; intuition discriminate|].
    assert (Y : byte_at ex_bad (k + 20) = 0) by (apply nth_overflow; change (length ex_bad) with 43%nat; lia). rewrite Y. cbn. intuition discriminate.
  - assert (X : match Headers ex_env w with Crash _ => true | _ => false end = true) by (vm_compute; reflexivity).
    destruct (Headers ex_env w) as [r w'|w'|]; try discriminate X. exists w'. reflexivity.
Qed.

(** ** C56: CommandList shows every entry *)

Lemma entries_length es : (length es < S (length (archive_bytes es)))%nat.
Proof.
  unfold archive_bytes. rewrite app_length. assert (H : (length es <= length (flat_map (fun x : entry0 * list Z => layout0 (fst x) ++ snd x) es))%nat); [|lia].
  induction es as [|x es IH]; cbn [flat_map length]; [lia|]. rewrite !app_length. unfold layout0 at 1. cbn [length]. lia.
Qed.

(** Proved when no name is longer than the previous one. *)
Theorem C56_listing_complete_partial :
  forall E archive w es,
    os_open E (w_fs w) archive = Some (archive_bytes es) -> l_filec (w_lha w) = 0 ->
    Forall (fun x => file_entry (fst x)) es -> sized es -> names_shrink 221 es ->
    exists headers w', CommandList E archive w = Done (headers, false) w' /\ Forall2 describes (map fst es) headers.
Proof.
  intros E archive w es O FC F S N. rewrite (list_run E archive w _ O).
  rewrite (list_loop_all E (set_archive archive (w_lha w)) FC es NewLzHeader 221 [] _ F S N eq_refl ltac:(reflexivity)).
  2: { apply entries_length. }
  cbn [app]. eexists _, _. split; [reflexivity|].
  assert (X : forall es h, Forall (fun x => file_entry (fst x)) es -> Forall2 describes (map fst es) (reads h es)); [|now apply X].
  clear. induction es as [|[e d] es IH]; intros h F; cbn [reads map fst]; constructor; inversion F; subst; [|now apply IH].
  constructor; try (repeat split; reflexivity). cbn [read0 Name]. now rewrite slash_back_slashes.
Qed.

Lemma list_loop_grows E l : forall fuel h inp acc hs err, list_loop E l fuel h inp acc = Ok (hs, err) -> exists t, hs = acc ++ t.
Proof.
  induction fuel as [|fuel IH]; intros h inp acc hs err; cbn [list_loop]; [discriminate|]. intros H. apply bind_ok in H. destruct H as [[[[e ok] h'] rest] [_ H]].
  destruct ok; cbn [negb] in H; [|injection H as <- _; exists []; now rewrite app_nil_r]. apply IH in H. destruct H as [t ->]. destruct (needFile l (Name h')); [|eauto].
  exists (h' :: t). rewrite <- app_assoc. reflexivity.
Qed.

(** The claim is false of every archive whose second name is longer than the first:
    the header object is reused with the length of the first name. *)
Theorem C56_listing_complete_refuted :
  forall E archive w e1 data1 e2 data2 es,
    os_open E (w_fs w) archive = Some (archive_bytes ((e1, data1) :: (e2, data2) :: es)) -> l_filec (w_lha w) = 0 ->
    file_entry e1 -> file_entry e2 -> sized [(e1, data1)] -> (length (e_name e1) < length (e_name e2))%nat ->
    forall headers err w', CommandList E archive w = Done (headers, err) w' -> ~ Forall2 describes (map fst ((e1, data1) :: (e2, data2) :: es)) headers.
Proof.
  intros E archive w e1 data1 e2 data2 es O FC F1 F2 S LT headers err w'. rewrite (list_run E archive w _ O).
  unfold archive_bytes. cbn [flat_map fst snd]. rewrite <- !app_assoc. set (rest := data2 ++ flat_map _ es ++ [0]).
  destruct (l0_name _ (fe_legal _ F1)) as [LN1 _]. destruct (l0_method _ (fe_legal _ F1)) as [LM1 _].
  destruct (list_loop _ _ _ _ _ _) as [[hs er]| |] eqn:X; cbn; intros Y; try discriminate. injection Y as -> -> _. intros Q.
  rewrite list_loop_entry in X; [|exact F1|reflexivity|change (zlen (Name NewLzHeader)) with FilenameLength; unfold FilenameLength, zlen; lia|inversion S; assumption].
  unfold needFile in X at 1. cbn [l_filec set_archive] in X. rewrite FC in X. change (0 =? 0) with true in X. cbv iota in X. cbn [app] in X.
  remember (length (layout0 e1 ++ data1 ++ layout0 e2 ++ rest)) as n eqn:Hn. destruct n as [|n]; [discriminate X|]. cbn [list_loop] in X.
  apply bind_ok in X. destruct X as [[[[e ok] h'] rest'] [G X]]. destruct ok; cbn [negb] in X.
  - pose proof (accept_nil _ _ _ _ _ _ G) as ->.
    assert (L20 : byte_at (layout0 e2 ++ rest) 20 = 0 /\ byte_at (layout0 e2 ++ rest) 21 = zlen (e_name e2)).
    { destruct (l0_method _ (fe_legal _ F2)) as [LM2 _]. unfold layout0, body0. destruct (e_method e2) as [|m1 [|m2 [|m3 [|m4 [|m5 [|]]]]]]; try discriminate LM2. split; reflexivity. }
    destruct L20 as [L20 L21]. apply accept_name_cut in G; [|change (Method (read0 NewLzHeader e1)) with (e_method e1); unfold zlen; rewrite LM1; reflexivity|exact L20].
    rewrite L21 in G. replace (zlen (Name (read0 NewLzHeader e1))) with (zlen (e_name e1) + 1) in G.
    2: { cbn [read0 Name]. rewrite zlen_app. unfold slash_back. rewrite zlen_map. reflexivity. }
    replace (Z.min (zlen (e_name e2) + 1) (zlen (e_name e1) + 1) - 1) with (zlen (e_name e1)) in G by (unfold zlen; lia).
    unfold needFile in X. cbn [l_filec set_archive] in X. rewrite FC in X. change (0 =? 0) with true in X. cbv iota in X. apply list_loop_grows in X. destruct X as [t ->].
    cbn [map fst app] in Q. inversion Q as [|? ? ? ? _ Q2]; subst. inversion Q2 as [|? ? ? ? Q3 _]; subst.
    rewrite (ds_name _ _ Q3) in G. unfold byte_at, slashes, zlen in G. rewrite Nat2Z.id, app_nth1 in G by (rewrite map_length; lia).
    apply (fe_name _ F2). set (x := nth (length (e_name e1)) (e_name e2) 0).
    replace 0 with x; [apply nth_In; exact LT|]. change 0 with ((fun c => if c =? 92 then 47 else c) 0) in G. rewrite map_nth in G. fold x in G.
    destruct (x =? 92); [discriminate G|exact G].
  - injection X as <- _. cbn [map fst] in Q. inversion Q as [|? ? ? ? _ Q2]; subst. inversion Q2.
Qed.

Definition ex_short : entry0 := E0 [45; 108; 104; 53; 45] 2 2 0 32 [122] 0 0 1000000 33188 0 0.
Definition ex_long : entry0 := E0 [45; 108; 104; 53; 45] 1 2 0 32 [97; 98; 99] 0 0 1000000 33188 0 0.
Definition ex_listing (c : list Z) : world := W (fun p => if list_eqb p [98] then Some (NFile c) else None) [] glob0 false [] (NewLha [98]) [].
(** Both theorems apply: the long name first and last. *)
Example C56_example :
  file_entry ex_short /\ file_entry ex_long /\ sized [(ex_long, [1]); (ex_short, [1; 2])] /\ names_shrink 221 [(ex_long, [1]); (ex_short, [1; 2])] /\
  os_open ex_env (w_fs (ex_listing (archive_bytes [(ex_long, [1]); (ex_short, [1; 2])]))) [98] = Some (archive_bytes [(ex_long, [1]); (ex_short, [1; 2])]) /\
  match CommandList ex_env [98] (ex_listing (archive_bytes [(ex_long, [1]); (ex_short, [1; 2])])) with
  | Done (hs, false) _ => map Name hs = [[97; 98; 99; 0]; [122; 0]] | _ => False end /\
  match CommandList ex_env [98] (ex_listing (archive_bytes [(ex_short, [1; 2]); (ex_long, [1])])) with
  | Done (hs, false) _ => map Name hs = [[122; 0]; [97; 0; 0; 0]] | _ => False end.
Proof.
  split. { constructor; [constructor; cbn; try lia; split; auto; repeat constructor; lia|cbn; lia|reflexivity]. }
  split. { constructor; [constructor; cbn; try lia; split; auto; repeat constructor; lia|cbn; lia|reflexivity]. }
  split; [repeat constructor|]. split; [cbn; lia|]. split; [reflexivity|]. split; vm_compute; reflexivity.
Qed.

(** ** C57: Headers returns every entry *)

Theorem C57_headers_complete :
  forall E w cs a es,
    reader E a w -> after cs (w_glob w) -> w_fs w a = Some (NFile (archive_bytes es)) -> bytes (archive_bytes es) ->
    Forall (fun x => file_entry (fst x) /\ (exists dir base, named (fst x) dir base) /\ exists body, packs (fst x) (snd x) body) es ->
    exists headers w', Headers E w = Done (headers, false) w' /\ Forall2 describes (map fst es) headers.
Proof.
  intros E w cs a es [Hl Hv [Ha Hn] Hr Hs] A Hf B F. apply has_nul_notin in Hn.
  destruct (headers_all E es (set_wverify true w) [] cs (S (length (archive_bytes es))) F) as [w' W]; try (cbn [w_lha set_wverify]; rewrite Hl; reflexivity); auto.
  { apply entries_length. }
  exists (map (fun x => read0 NewLzHeader (fst x)) es), (set_wverify false w'). split.
  - unfold Headers, with_verify. istep. istep. cbn [w_fs w_lha set_wverify]. rewrite Hl. cbn [l_archive NewLha]. rewrite (open_file E _ a _ Ha Hn Hf Hr). rewrite W. reflexivity.
  - clear W Hf B. induction es as [|[e d] es IH]; cbn [map fst]; constructor; inversion F as [|? ? F1 F2]; subst.
    + destruct F1 as [FE [[dir [base ND]] _]]. exact (describes_read0 e dir base NewLzHeader FE ND).
    + now apply IH.
Qed.

(** Two entries. *)
Example C57_example : exists data, let es := [(ex_entry 0, data); (ex_entry 0, data)] in
  Forall (fun x => file_entry (fst x) /\ (exists dir base, named (fst x) dir base) /\ exists body, packs (fst x) (snd x) body) es /\ zlen data = 9.
Proof.
  destruct C14_example as [eo [X1 [X2 X3]]]. exists (eo_out eo). cbv zeta.
  assert (A0 : after [] glob0) by (split; [constructor|reflexivity]).
  assert (B0 : bytes (repeat 0 100)) by (apply Forall_forall; intros x Hx; apply repeat_spec in Hx; subst; unfold is_byte; lia).
  destruct (C14_round_trip_lh5_lh6 [] glob0 [] glob0 5 (repeat 0 100) eo []) as [_ [_ [_ [Y _]]]]; [exact A0|exact A0|now left|exact B0|discriminate|constructor|change (zlen (repeat 0 100)) with 100; exact X1|lia|].
  split; [|lia].
  assert (P : file_entry (ex_entry 0) /\ (exists dir base, named (ex_entry 0) dir base) /\ exists body, packs (ex_entry 0) (eo_out eo) body); [|repeat constructor; apply P].
  split. { constructor; [constructor; cbn; try lia; split; auto; repeat constructor; lia|cbn; lia|reflexivity]. }
  split. { exists [], [122]. constructor; [reflexivity|now left|split; [discriminate|cbn; lia]]. }
  exists (repeat 0 100), 5, [], glob0, eo. split; [now left|]. split; [exact B0|]. split; [discriminate|].
  split; [exact A0|]. change (zlen (repeat 0 100)) with 100. split; [exact X1|]. rewrite X2, X3, Y, X2. repeat split; lia.
Qed.

(** ** C28: the CRC of data extracted to memory *)

(** For every archive, request and history.  The data are those of an entry with the
    requested name, and their CRC is right; or nothing, and then the first header is
    not one with that name. *)
Theorem C28_bytes_crc_checked :
  forall E w cs header c data w',
    os_open E (w_fs w) (l_archive (w_lha w)) = Some c -> archiveIsMsdosSfx1 (l_archive (w_lha w)) = false -> bytes c ->
    after cs (w_glob w) -> l_noexec (w_lha w) = false -> w_verify w = false ->
    DecompresBytes E header w = Done (data, false) w' ->
    (data = [] \/ data_of (e_opts E) header c data) /\
    ((exists h rest, GetHeader (e_opts E) NewLzHeader c = Ok (ENil, true, h, rest) /\ Name h = Name header) -> data_of (e_opts E) header c data).
Proof.
  intros E w cs header c data w' O S B A NX VF. unfold DecompresBytes. rewrite bind_modl. unfold open_archive. istep. istep. cbn [w_fs w_lha set_wlha]. change (l_archive (set_level 2 (w_lha w))) with (l_archive (w_lha w)).
  rewrite O, S. istep. intros X. change c with (drop 0 c) in X at 2. split.
  - refine (stream_loop_checked E header c (fun d => d = [] \/ data_of (e_opts E) header c d) B _ _ _ 0 _ _ cs _ _ _ _ _ _ _ _ X); auto; lia.
  - intros G. refine (stream_loop_checked E header c (data_of (e_opts E) header c) B _ _ _ 0 _ _ cs _ _ _ _ _ _ _ (or_intror _) X); auto; lia.
Qed.

(** A right and a wrong CRC. *)
Definition ex_two (crc : Z) : list Z := match EncodeLzhuf 5 100 (repeat 0 100) glob0 with Ok eo => archive_bytes [(ex_entry crc, eo_out eo)] | _ => [] end.
Example C28_example :
  match DecompresBytes ex_env ex_ask (ex_listing (ex_two 0)) with Done (data, false) _ => data = repeat 0 100 | _ => False end /\
  match DecompresBytes ex_env ex_ask (ex_listing (ex_two 1)) with Done (_, true) _ => True | _ => False end.
Proof. split; vm_compute; auto. Qed.

Print Assumptions C24_listing_ends.
Print Assumptions C24_level0_listing_returns_partial.
Print Assumptions C24_headers_refuted.
Print Assumptions C28_bytes_crc_checked.
Print Assumptions C56_listing_complete_partial.
Print Assumptions C56_listing_complete_refuted.
Print Assumptions C57_headers_complete.
