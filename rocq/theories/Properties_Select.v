(** Properties C37 and C60: choosing entries by name, and extracting all of them. *)
From Verif Require Import Go GoLemmas M_Crc M_Bitio M_Maketree M_Maketbl M_Huf M_Slide M_Lzhuf S_Header S_Listing M_Header M_Os M_Archive S_History S_Archive
  P_Bitio P_Header P_Accept P_List P_Os P_RoundTrip P_Single P_Read1 P_Select P_ExtractAll Properties_Slide Properties_Archive Properties_Extract Properties_Listing.

(** ** C37: names on the command line *)

(** The claim is false: for every file given as an archive, names without a NUL (all
    names a user can type) select nothing.  The listing is empty, and extraction
    does nothing at all. *)
Theorem C37_names_select_nothing_refuted :
  forall E a w, l_filec (w_lha w) <> 0 -> (forall x, In x (l_filev (w_lha w)) -> ~ In 0 x) ->
    (forall hs err w', CommandList E a w = Done (hs, err) w' -> hs = []) /\
    (forall w', final (CommandExtract E a w) = Some w' -> w_fs w' = w_fs w /\ w_ops w' = w_ops w).
Proof.
  intros E a w H F. split.
  - intros hs err w' X. destruct (os_open E (w_fs w) a) as [c|] eqn:O.
    + rewrite (list_run E a w c O) in X. destruct (list_loop _ _ _ _ _ _) as [[hs' err']| |] eqn:L; [|discriminate..]. injection X as <- <- <-.
      exact (list_nothing E (set_archive a (w_lha w)) H F _ _ _ _ _ _ L).
    + unfold CommandList in X. rewrite bind_modl in X. unfold bindIO, get in X. cbn [w_fs set_wlha] in X. rewrite O in X. now injection X.
  - intros w' X. unfold CommandExtract in X. rewrite bind_modl in X. unfold open_archive in X. rewrite bind_assoc, bind_get, bind_assoc, bind_getl in X.
    cbn [w_fs w_lha set_wlha set_archive l_archive] in X. set (w1 := set_wlha (set_archive a (w_lha w)) w) in *.
    assert (K : forall c, final (bindIO (extract_loop E (S (length c)) everything (one_file E) NewLzHeader c tt) (fun x => let '(_, err) := x in ret err) w1) = Some w' -> w' = w1).
    { intros c Y. unfold bindIO in Y.
      destruct (extract_nothing E (one_file E) (S (length c)) NewLzHeader c tt w1 _ H F eq_refl) as [Z|[Z|[err Z]]]; unfold everything in Y; rewrite Z in Y; [discriminate|now injection Y|now injection Y]. }
    destruct (os_open E (w_fs w) a) as [c|]; [|rewrite bind_ret in X; injection X as <-; auto].
    destruct (archiveIsMsdosSfx1 a).
    + destruct (SeekLhaHeader c) as [rest| |]; [|rewrite bind_assoc in X; cbn in X; injection X as <-; auto|discriminate].
      rewrite bind_assoc, bind_lift, bind_ret in X. apply K in X. subst. auto.
    + rewrite bind_ret in X. apply K in X. subst. auto.
Qed.

Lemma list_loop_some E l : forall es h n acc fuel, Forall (fun x => file_entry (fst x)) es -> sized es -> names_shrink n es ->
  zlen (Method h) = 5 -> Z.of_nat n < zlen (Name h) -> (length es < fuel)%nat ->
  exists hs, list_loop E l fuel h (archive_bytes es) acc = Ok (acc ++ hs, false) /\
    Forall2 describes (filter (fun e => needFile l (slashes (e_name e) ++ [0])) (map fst es)) hs.
Proof.
  induction es as [|[e data] es IH]; intros h n acc fuel FF SZ NS HM HN Hf.
  - destruct fuel; [cbn in Hf; lia|]. exists []. rewrite app_nil_r. split; [reflexivity|constructor].
  - destruct fuel; [cbn in Hf; lia|]. inversion FF as [|? ? F1 F2]; subst. inversion SZ as [|? ? S1 S2]; subst. cbn [names_shrink fst snd] in *. destruct NS as [N1 N2].
    unfold archive_bytes. cbn [flat_map fst snd]. rewrite <- !app_assoc. change (flat_map _ es ++ [0]) with (archive_bytes es).
    destruct (l0_method _ (fe_legal _ F1)) as [LM _].
    rewrite list_loop_entry; [|exact F1|exact HM|unfold zlen at 1; lia|exact S1].
    assert (NM : Name (read0 h e) = slashes (e_name e) ++ [0]) by (cbn [read0 Name]; now rewrite slash_back_slashes).
    destruct (IH (read0 h e) (length (e_name e)) (if needFile l (Name (read0 h e)) then acc ++ [read0 h e] else acc) fuel) as [hs [X1 X2]]; auto.
    { change (Method (read0 h e)) with (e_method e). unfold zlen. rewrite LM. reflexivity. }
    { rewrite NM, zlen_app. unfold slashes. rewrite zlen_map. unfold zlen. cbn [length]. lia. }
    { cbn [length] in Hf. lia. }
    rewrite X1. cbn [map filter fst]. rewrite NM. destruct (needFile l (slashes (e_name e) ++ [0])).
    + exists (read0 h e :: hs). split; [now rewrite <- app_assoc|]. constructor; [|exact X2].
      constructor; try (repeat split; reflexivity). exact NM.
    + exists hs. auto.
Qed.

(** What holds: names given with a NUL at the end select exactly the entries with
    those names, in the order of the archive; with no names all are listed.
    [_partial]: names with a NUL; no name longer than the one before it (see C56). *)
Theorem C37_terminated_names_partial :
  forall E a w es names,
    os_open E (w_fs w) a = Some (archive_bytes es) -> Forall (fun x => file_entry (fst x)) es -> sized es -> names_shrink 221 es ->
    l_filev (w_lha w) = map (fun nm => nm ++ [0]) names -> l_filec (w_lha w) = Z.of_nat (length names) ->
    exists hs w' chosen, CommandList E a w = Done (hs, false) w' /\ Forall2 describes (filter chosen (map fst es)) hs /\
      forall e, chosen e = true <-> names = [] \/ In (slashes (e_name e)) names.
Proof.
  intros E a w es names O F S N V C. rewrite (list_run E a w _ O).
  destruct (list_loop_some E (set_archive a (w_lha w)) es NewLzHeader 221 [] (Datatypes.S (length (archive_bytes es))) F S N eq_refl ltac:(reflexivity) (entries_length es)) as [hs [X1 X2]].
  rewrite X1. eexists hs, _, _. split; [reflexivity|]. split; [exact X2|]. intros e. unfold needFile. cbn [set_archive l_filec l_filev]. rewrite V, C.
  destruct names as [|x names]; [split; auto|]. destruct (Z.eqb_spec (Z.of_nat (length (x :: names))) 0) as [Y|_]; [cbn [length] in Y; lia|].
  rewrite existsb_exists. split.
  - intros [y [Y1 Y2]]. apply list_eqb_eq in Y2. subst y. apply in_map_iff in Y1. destruct Y1 as [z [Y1 Y2]]. right. apply app_inj_tail in Y1. destruct Y1 as [<- _]. exact Y2.
  - intros [Y|Y]; [discriminate|]. exists (slashes (e_name e) ++ [0]). split; [apply in_map_iff; eauto|apply list_eqb_refl].
Qed.

Definition ex_named (names : list path) (c : list Z) : world := W (fun p => if list_eqb p [98] then Some (NFile c) else None) [] glob0 false []
  (LHA [98] false false false false false false false false false false false false false 0 5 [] [] names (Z.of_nat (length names)) []) [].
(** "abc" and "z"; the name "z" lists nothing, "z" with a NUL lists the entry. *)
Example C37_example : let c := archive_bytes [(ex_long, [1]); (ex_short, [1; 2])] in
  (forall x, In x (l_filev (w_lha (ex_named [[122]] c))) -> ~ In 0 x) /\ l_filec (w_lha (ex_named [[122]] c)) <> 0 /\
  match CommandList ex_env [98] (ex_named [[122]] c) with Done (hs, false) _ => hs = [] | _ => False end /\
  match CommandList ex_env [98] (ex_named [[122; 0]] c) with Done (hs, false) _ => map Name hs = [[122; 0]] | _ => False end.
Proof.
  cbv zeta. split; [intros x [<-|[]] [X|[]]; discriminate|]. split; [discriminate|]. split; vm_compute; reflexivity.
Qed.

(** ** C60: CommandExtract extracts every entry *)

(** Proved for entries that hold compressed data, when their base names are different
    and new, and no name is longer than the one before it. *)
Theorem C60_extract_all_partial :
  forall E w cs a es files,
    reader E a w -> after cs (w_glob w) -> w_fs w a = Some (NFile (archive_bytes es)) -> bytes (archive_bytes es) ->
    Forall2 (fun x f => file_entry (fst x) /\ (exists dir, named (fst x) dir (fst f)) /\ packs (fst x) (snd x) (snd f)) es files ->
    NoDup (map fst files) -> (forall f, In f files -> w_fs w (fst f) = None) -> names_shrink 221 es ->
    exists w', CommandExtract E a w = Done false w' /\ (forall f, In f files -> w_fs w' (fst f) = Some (NFile (snd f))) /\
      (forall q, ~ In q (map fst files) -> w_fs w' q = w_fs w q).
Proof.
  intros E w cs a es files [Hl Hv Ha Hr Hs] A Hf B F ND NF NS. rewrite (CommandExtract_open E w a _ Hf Ha Hr Hs).
  rewrite Hl. set (w1 := set_wlha (set_archive a (NewLha a)) w).
  destruct (extract_all E es files NewLzHeader 221 w1 cs (S (length (archive_bytes es)))) as (w' & X1 & X2 & X3); auto; try reflexivity.
  { apply entries_length. }
  exists w'. split; [|split; [exact X2|exact X3]]. unfold everything in X1. rewrite (bindIO_done _ _ _ _ _ X1). reflexivity.
Qed.

(** The full claim is false: with a longer name in second place, the entry is left
    out and no error is reported. *)
Definition ex_packed : list Z := [0; 2; 32; 4; 54; 26; 151; 0; 64].
Definition ex_abc : entry0 := E0 [45; 108; 104; 53; 45] 9 100 0 32 [97; 98; 99] 0 0 1000000 33188 0 0.
Definition ex_pair : list (entry0 * list Z) := [(ex_entry 0, ex_packed); (ex_abc, ex_packed)].
Definition ex_pair_files : list (path * list Z) := [([122], repeat 0 100); ([97; 98; 99], repeat 0 100)].

Lemma ex_packs e : e_method e = [45; 108; 104; 53; 45] -> e_packed e = 9 -> e_original e = 100 -> e_crc e = 0 -> packs e ex_packed (repeat 0 100).
Proof.
  intros H1 H2 H3 H4.
  assert (X : match EncodeLzhuf 5 100 (repeat 0 100) glob0 with Ok eo => list_eqb (eo_out eo) ex_packed && (eo_packed eo <? eo_original eo) | _ => false end = true) by (vm_compute; reflexivity).
  exists 5, [], glob0. change (zlen (repeat 0 100)) with 100. destruct (EncodeLzhuf 5 100 (repeat 0 100) glob0) as [eo| |]; try discriminate. exists eo.
  apply andb_prop in X. destruct X as [X1 X2]. apply list_eqb_eq in X1. apply Z.ltb_lt in X2.
  split; [now left|]. split; [apply Forall_forall; intros x Hx; apply repeat_spec in Hx; subst; unfold is_byte; lia|]. split; [discriminate|].
  split; [split; [constructor|reflexivity]|]. split; [reflexivity|]. split; [exact X2|]. split; [now symmetry|]. split; [exact H1|]. split; [exact H2|]. split; [exact H3|]. rewrite H4. vm_compute. reflexivity.
Qed.

Lemma ex_pair_ok : Forall2 (fun x f => file_entry (fst x) /\ (exists dir, named (fst x) dir (fst f)) /\ packs (fst x) (snd x) (snd f)) ex_pair ex_pair_files.
Proof.
  constructor; [|constructor; [|constructor]]; cbn [fst snd].
  - split; [constructor; [constructor; cbn; try lia; split; auto; repeat constructor; lia|cbn; lia|reflexivity]|].
    split; [exists []; constructor; [reflexivity|now left|split; [discriminate|cbn; lia]]|now apply ex_packs].
  - split; [constructor; [constructor; cbn; try lia; split; auto; repeat constructor; lia|cbn; lia|reflexivity]|].
    split; [exists []; constructor; [reflexivity|now left|split; [discriminate|cbn; lia]]|now apply ex_packs].
Qed.

Theorem C60_extract_all_refuted :
  exists E w cs a es files,
    reader E a w /\ after cs (w_glob w) /\ w_fs w a = Some (NFile (archive_bytes es)) /\ bytes (archive_bytes es) /\
    Forall2 (fun x f => file_entry (fst x) /\ (exists dir, named (fst x) dir (fst f)) /\ packs (fst x) (snd x) (snd f)) es files /\
    NoDup (map fst files) /\ (forall f, In f files -> w_fs w (fst f) = None) /\
    exists w' f, CommandExtract E a w = Done false w' /\ In f files /\ w_fs w' (fst f) = None.
Proof.
  exists ex_env, (ex_listing (archive_bytes ex_pair)), [], [98], ex_pair, ex_pair_files.
  split. { constructor; try reflexivity. split; [discriminate|intros [X|[]]; discriminate X]. }
  split; [split; [constructor|reflexivity]|]. split; [reflexivity|].
  split. { apply Forall_forall. intros x Hx. assert (Y : forallb (fun b => (0 <=? b) && (b <? 256)) (archive_bytes ex_pair) = true) by (vm_compute; reflexivity).
    rewrite forallb_forall in Y. specialize (Y x Hx). unfold is_byte. lia. }
  split; [exact ex_pair_ok|]. split. { repeat constructor; cbn; try tauto. intros [X|[]]. discriminate X. }
  split. { intros f [<-|[<-|[]]]; reflexivity. }
  assert (X : match CommandExtract ex_env [98] (ex_listing (archive_bytes ex_pair)) with
              | Done false w' => match w_fs w' [97; 98; 99] with None => true | _ => false end | _ => false end = true) by (vm_compute; reflexivity).
  destruct (CommandExtract _ _ _) as [[] w'| |]; try discriminate. exists w', ([97; 98; 99], repeat 0 100). split; [reflexivity|]. split; [right; now left|].
  cbn [fst]. destruct (w_fs w' [97; 98; 99]); [discriminate|reflexivity].
Qed.

(** The longer name first meets the hypotheses of C60_extract_all_partial. *)
Example C60_example : names_shrink 221 (rev ex_pair) /\ Forall2 (fun x f => file_entry (fst x) /\ (exists dir, named (fst x) dir (fst f)) /\ packs (fst x) (snd x) (snd f)) (rev ex_pair) (rev ex_pair_files).
Proof.
  split; [cbn; lia|]. pose proof ex_pair_ok as H. unfold ex_pair, ex_pair_files in *. generalize dependent (repeat 0 100). intros body H. cbn [rev app].
  inversion H as [|? ? ? ? H1 H2]; subst. inversion H2 as [|? ? ? ? H3 H4]; subst. constructor; [exact H3|]. constructor; [exact H1|constructor].
Qed.

Print Assumptions C37_names_select_nothing_refuted.
Print Assumptions C37_terminated_names_partial.
Print Assumptions C60_extract_all_partial.
Print Assumptions C60_extract_all_refuted.
