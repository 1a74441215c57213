(** Properties C71 .. C73: what extraction does about times and permissions, directories
    and symbolic links.  [reader], [file_entry], [named] and [did] are defined in
    S_Archive.v, [archive_bytes] and [names_shrink] in S_Listing.v. *)
From Verif Require Import Go GoLemmas M_Crc M_Bitio P_Bitio M_Maketree M_Maketbl M_Huf M_Slide M_Larc M_Decode M_Lzhuf S_Bits S_Huff S_Lz S_Lh1 S_Larc P_Larc S_Header S_Listing M_Header M_Os M_Archive S_History S_Archive
  P_Header P_Accept P_List P_Os P_RoundTrip P_Single P_Extract P_Read1 P_ExtractAll P_Verify Properties_Slide Properties_Archive Properties_Extract Properties_Listing Properties_Larc Properties_Lh5 Properties_Lh1 Properties_Damage.

(** ** C71: times and permissions *)

(** The full claim: every extracted file gets the modification time and the permissions
    in its header.  It is false of all archives: the files are extracted, but no time,
    mode or owner is ever set. *)
Theorem C71_times_restored_refuted :
  forall E w cs a es files,
    reader E a w -> after cs (w_glob w) -> w_fs w a = Some (NFile (archive_bytes es)) -> bytes (archive_bytes es) ->
    Forall2 (fun x f => file_entry (fst x) /\ (exists dir, named (fst x) dir (fst f)) /\ holds (fst x) (snd x) (snd f)) es files ->
    names_shrink 221 es -> NoDup (map fst files) -> (forall f, In f files -> w_fs w (fst f) = None) ->
    exists w' ops, CommandExtract E a w = Done false w' /\ did ops w w' /\
      (forall f, In f files -> w_fs w' (fst f) = Some (NFile (snd f))) /\
      forall o, In o ops -> match o with OChtimes _ _ | OChmod _ _ | OChown _ _ _ => False | _ => True end.
Proof.
  intros E w cs a es files R A Hf B F NS NDp NF. pose proof R as [Hl Hv Ha Hr Hs].
  rewrite (CommandExtract_open E w a _ Hf Ha Hr Hs). rewrite Hl. set (w1 := set_wlha (set_archive a (NewLha a)) w).
  assert (F' : Forall2 (fun x f => file_entry (fst x) /\ (exists dir, named (fst x) dir (fst f)) /\ decodable (fst x) (snd x) (snd f)) es files).
  { clear -F. induction F as [|x f es files (X1 & X2 & X3) F IH]; constructor; auto using holds_decodable. }
  assert (L : exists k, S (length (archive_bytes es)) = (length es + S k)%nat).
  { pose proof (entries_length es). exists (length (archive_bytes es) - length es)%nat. lia. }
  destruct L as [k ->]. change (archive_bytes es) with (entries_bytes es ++ [0]) in *.
  destruct (extract_prefix E [0] es files NewLzHeader 221 w1 cs (S k)) as (h' & w' & cs' & X1 & X2 & X3 & X4 & X5 & X6 & X7 & X8 & ops & X9 & X10); auto; try reflexivity.
  exists w', ops. split; [|split; [exact X9|split; [exact X2|]]].
  - rewrite loop_end in X1. unfold everything in X1. rewrite (bindIO_done _ _ _ _ _ X1). reflexivity.
  - intros o Ho. rewrite Forall_forall in X10. specialize (X10 o Ho). destruct o; try exact I; destruct X10.
Qed.

(** The archive of C66 is such a case. *)
Example C71_example :
  Forall2 (fun x f => file_entry (fst x) /\ (exists dir, named (fst x) dir (fst f)) /\ holds (fst x) (snd x) (snd f)) ex_mix_es ex_mix_files /\
  names_shrink 221 ex_mix_es /\ NoDup (map fst ex_mix_files).
Proof. pose proof C66_example as (H1 & H2 & H3 & _). auto. Qed.

(** ** Entries that are not files *)

(** A directory and a symbolic link in the documented level 0 format.  The name of a
    link is followed by a bar and its target. *)
Definition dir_entry (e : entry0) : Prop :=
  legal0 e /\ ~ In 0 (e_name e) /\ Z.land (e_mode e) 61440 = 16384 /\ e_method e = [45; 108; 104; 100; 45] /\ e_packed e = 0.
Definition link_entry (e : entry0) (nm target : list Z) : Prop :=
  legal0 e /\ ~ In 0 (e_name e) /\ Z.land (e_mode e) 61440 = 40960 /\ e_method e = [45; 108; 104; 100; 45] /\ e_packed e = 0 /\ e_name e = nm ++ [124] ++ target.

Lemma back_slashes e : legal0 e -> slash_back (e_name e) = slashes (e_name e).
Proof.
  intros FE. unfold slash_back, slashes. apply map_ext_in. intros c Hc.
  destruct (l0_name _ FE) as [_ F]. rewrite Forall_forall in F. specialize (F c Hc). cbv beta in F.
  unfold conv_byte, delim_index. destruct (Z.ltb_spec c 128); cbn [index_of].
  - destruct (Z.eqb_spec 255 c); [lia|]. destruct (Z.eqb_spec 92 c), (Z.eqb_spec c 92); try lia; reflexivity.
  - destruct (Z.eqb_spec c 92); [lia|reflexivity].
Qed.

Lemma name_start_any l h dir base : l_ignoredir l = false -> ExtendType h = ExtendUnix -> Name h = (dir ++ base) ++ [0] ->
  dir = [] \/ (exists d, dir = d ++ [47]) -> Forall (fun c => c <> 47) base ->
  exists p, name_start l h = Ok (Some (h, p)) /\ drop p (Name h) = base ++ [0].
Proof.
  intros H ET HN HD FS. destruct HD as [X|[d X]].
  - exists 0. assert (N : Name h = base ++ [0]) by (rewrite HN, X; reflexivity). split; [|exact N]. now apply (name_start_plain l h base).
  - exists (zlen dir). assert (N : Name h = d ++ 47 :: base ++ [0]) by (rewrite HN, X, <- !app_assoc; reflexivity).
    assert (ZD : zlen dir = zlen d + 1) by (rewrite X, zlen_app; reflexivity). pose proof (zlen_nonneg d).
    assert (F' : Forall (fun c => c <> 47) (base ++ [0])) by (apply Forall_app1; [exact FS|discriminate]).
    assert (D1 : drop (zlen dir) (Name h) = base ++ [0]).
    { rewrite HN, <- app_assoc. now apply drop_app. }
    split; [|exact D1]. unfold name_start. rewrite N, H. unfold LastIndex. rewrite last_index_app by exact F'. rewrite Z.add_0_l.
    destruct (Z.eqb_spec (zlen d) (-1)); [lia|]. rewrite (drop_app (zlen d) d _ eq_refl).
    unfold isDirectoryTraversal. cbn [traversal]. change (0 =? 0) with true. change (47 =? 46) with false. cbv iota. rewrite traversal_plain by exact FS.
    rewrite nth_error_app2 by (unfold zlen; lia). replace (Z.to_nat (zlen d) - length d)%nat with 0%nat by (unfold zlen; lia). cbn [nth_error].
    change (47 =? 47) with true. cbv iota. rewrite app_length. cbn [length].
    replace (S (length d + S (length (base ++ [0%Z]))))%nat with (S (S (length d + length (base ++ [0%Z]))))%nat by lia. cbn [skip_slashes].
    rewrite nth_error_app2 by (unfold zlen; lia). replace (Z.to_nat (zlen d) - length d)%nat with 0%nat by (unfold zlen; lia). cbn [nth_error].
    change (47 =? 47) with true. cbv iota. rewrite nth_error_app2 by (unfold zlen; lia). replace (Z.to_nat (zlen d + 1) - length d)%nat with 1%nat by (unfold zlen; lia).
    destruct (base ++ [0]) as [|c b] eqn:EB; [destruct base; discriminate|]. cbn [nth_error]. inversion F' as [|? ? Hc]; subst. apply Z.eqb_neq in Hc. rewrite Hc. cbn [bind].
    rewrite ET, ZD. reflexivity.
Qed.

Lemma mode_bits m k : Z.land m 61440 = k -> Z.land m 40960 = Z.land k 40960.
Proof. intros <-. rewrite <- Z.land_assoc. reflexivity. Qed.

Lemma new_name e : legal0 e -> zlen (Name NewLzHeader) > zlen (e_name e).
Proof. intros L. change (zlen (Name NewLzHeader)) with 1024. destruct (l0_name _ L) as [N _]. unfold zlen. lia. Qed.

Lemma new_meth : zlen (Method NewLzHeader) >= 5.
Proof. change (zlen (Method NewLzHeader)) with 5. lia. Qed.

(** ** C72: directories *)

Lemma dir_extract E w e dir base h : dir_entry e -> slashes (e_name e) = dir ++ base -> dir = [] \/ (exists d, dir = d ++ [47]) -> ~ In 47 base ->
  h = read0 NewLzHeader e -> l_ignoredir (w_lha w) = false -> l_extractdir (w_lha w) = [] -> l_stdout (w_lha w) = false -> l_noexec (w_lha w) = false -> w_verify w = false ->
  forall inp, extractOne E h inp w = match lstat (w_fs w) base with SNode NDir => Crash w | _ => Done (false, 0, h, inp) w end.
Proof.
  intros (LE & NN & MO & ME & PK) HN HD N47 -> H1 H2 H3 H4 H5 inp. unfold extractOne. istep. istep. istep.
  assert (FS : Forall (fun c => c <> 47) base) by (apply Forall_forall; intros x I ->; contradiction).
  destruct (name_start_any (w_lha w) (read0 NewLzHeader e) dir base H1 eq_refl) as [p [NS DP]]; [cbn [read0 Name]; now rewrite back_slashes, HN|exact HD|exact FS|].
  rewrite NS. istep. rewrite DP, (pathcheck_plain (w_lha w) _ base H2 FS). istep. change (Method (read0 NewLzHeader e)) with (e_method e). rewrite ME. change (method_num [45; 108; 104; 100; 45]) with (Some 11).
  change (11 =? LzhdirsMethodNum) with true. cbn [negb]. rewrite andb_false_r, orb_true_r. cbv iota. rewrite H1, H3, H4, H5. cbn [negb andb].
  assert (SY : isSymlink (read0 NewLzHeader e) = false) by (unfold isSymlink; cbn [read0 UnixMode]; change UnixFileTypemask with 61440; rewrite MO; reflexivity). rewrite SY.
  unfold makeParentPath. rewrite bind_assoc, bind_get. destruct (lstat (w_fs w) base) as [[]| |]; rewrite bind_ret; reflexivity.
Qed.

(** The full claim: after extraction the directory exists.  It is false of every
    archive with one directory.  If the name ends in a separator, as it does in archives
    of other archivers, extraction succeeds and does nothing.  If it does not, the same
    happens when there is no such directory, and there is a panic when there is one. *)
Theorem C72_directories_refuted :
  forall E w a e, reader E a w -> w_fs w a = Some (NFile (archive_bytes [(e, [])])) -> dir_entry e ->
    (forall d, slashes (e_name e) = d ++ [47] -> exists w', CommandExtract E a w = Done false w' /\ w_fs w' = w_fs w) /\
    (forall dir base, named e dir base -> w_fs w base = None -> exists w', CommandExtract E a w = Done false w' /\ w_fs w' = w_fs w) /\
    (forall dir base, named e dir base -> w_fs w base = Some NDir -> exists w', CommandExtract E a w = Crash w').
Proof.
  intros E w a e R Hf DE. pose proof R as [Hl Hv Ha Hr Hs]. pose proof DE as (LE & NN & MO & ME & PK).
  rewrite (CommandExtract_open E w a _ Hf Ha Hr Hs). rewrite Hl. set (w1 := set_wlha (set_archive a (NewLha a)) w). fold everything.
  assert (SY : isSymlinkMode (e_mode e) = false) by (unfold isSymlinkMode; change UnixFileSymlink with 40960; rewrite (mode_bits _ _ MO); reflexivity).
  assert (G : forall o, extractOne E (read0 NewLzHeader e) [0] w1 = o ->
    extract_loop E (S (length (archive_bytes [(e, [])]))) everything (one_file E) NewLzHeader (archive_bytes [(e, [])]) tt w1 =
    match o with Done (err, n, h, rest) w2 =>
      (if (err : bool) then ret (tt, true)
       else if n =? PackedSize h then extract_loop E (length (archive_bytes [(e, [])])) everything (one_file E) h rest tt
       else let '(ok, rest) := skipToNextpos (PackedSize h) rest in
         if (ok : bool) then extract_loop E (length (archive_bytes [(e, [])])) everything (one_file E) h rest tt else ret (tt, true)) w2
      | Crash w2 => Crash w2 | Unknown => Unknown end).
  { intros o EO. remember (length (archive_bytes [(e, [])])) as n. unfold archive_bytes. cbn [flat_map fst snd]. rewrite !app_nil_r. cbn [extract_loop].
    rewrite (GetHeader_layout0 _ NewLzHeader e [0] LE new_meth (new_name e LE) SY). istep. cbn [negb]. unfold everything at 1. rewrite bind_assoc, bind_get, bind_ret.
    change (needFile (w_lha w1) (Name (read0 NewLzHeader e))) with true. cbv iota. unfold one_file at 1. rewrite bind_assoc. unfold bindIO at 1. rewrite EO.
    destruct o as [[[[err k] h] rest] w2|w2|]; reflexivity. }
  assert (LF : exists k, length (archive_bytes [(e, [])]) = S k) by (unfold archive_bytes; rewrite app_length; cbn [length]; eexists; rewrite Nat.add_1_r; reflexivity). destruct LF as [k LF].
  split; [|split].
  - intros d HN. rewrite app_nil_end in HN.
    assert (X := dir_extract E w1 e (d ++ [47]) [] _ DE HN (or_intror (ex_intro _ d eq_refl)) (fun I => I) eq_refl eq_refl eq_refl eq_refl eq_refl Hv [0]). change (lstat (w_fs w1) []) with SNotExist in X. cbv iota in X.
    pose proof (G _ X) as Y. cbv iota in Y. change (PackedSize (read0 NewLzHeader e)) with (e_packed e) in Y. rewrite PK in Y. change (0 =? 0) with true in Y. cbv iota in Y. rewrite LF in Y |- *. rewrite loop_end in Y. rewrite (bindIO_done _ _ _ _ _ Y). eexists. split; reflexivity.
  - intros dir base ND HB.
    assert (X := dir_extract E w1 e dir base _ DE (nd_name _ _ _ ND) (nd_dir _ _ _ ND) (proj2 (nd_base _ _ _ ND)) eq_refl eq_refl eq_refl eq_refl eq_refl Hv [0]).
    assert (LS : lstat (w_fs w1) base = SNotExist \/ lstat (w_fs w1) base = SErr). { unfold lstat. change (w_fs w1) with (w_fs w). rewrite HB. destruct (has_nul base); [now right|left; now destruct base]. }
    assert (X' : extractOne E (read0 NewLzHeader e) [0] w1 = Done (false, 0, read0 NewLzHeader e, [0]) w1) by (destruct LS as [LS|LS]; rewrite LS in X; exact X).
    pose proof (G _ X') as Y. cbv iota in Y. change (PackedSize (read0 NewLzHeader e)) with (e_packed e) in Y. rewrite PK in Y. change (0 =? 0) with true in Y. cbv iota in Y. rewrite LF in Y |- *. rewrite loop_end in Y. rewrite (bindIO_done _ _ _ _ _ Y). eexists. split; reflexivity.
  - intros dir base ND HB.
    assert (X := dir_extract E w1 e dir base _ DE (nd_name _ _ _ ND) (nd_dir _ _ _ ND) (proj2 (nd_base _ _ _ ND)) eq_refl eq_refl eq_refl eq_refl eq_refl Hv [0]).
    assert (NU : has_nul base = false).
    { apply has_nul_notin. intros I. assert (I2 : In 0 (slashes (e_name e))) by (rewrite (nd_name _ _ _ ND); apply in_or_app; now right).
      unfold slashes in I2. apply in_map_iff in I2. destruct I2 as [c [Y I2]]. destruct (c =? 92); [discriminate|]. subst c. contradiction. }
    assert (LS : lstat (w_fs w1) base = SNode NDir). { unfold lstat. change (w_fs w1) with (w_fs w). rewrite NU, HB. destruct base; [|reflexivity]. destruct (proj1 (nd_base _ _ _ ND)). reflexivity. }
    rewrite LS in X. pose proof (G _ X) as Y. cbv iota in Y. unfold bindIO. rewrite Y. eauto.
Qed.

(** Directories "d/" and "d". *)
Example C72_example :
  dir_entry (E0 [45; 108; 104; 100; 45] 0 0 0 32 [100; 92] 0 0 1000000 16877 0 0) /\ slashes [100; 92] = [100] ++ [47] /\
  dir_entry (E0 [45; 108; 104; 100; 45] 0 0 0 32 [100] 0 0 1000000 16877 0 0) /\ named (E0 [45; 108; 104; 100; 45] 0 0 0 32 [100] 0 0 1000000 16877 0 0) [] [100].
Proof.
  split. { split; [constructor; cbn; try lia; split; auto; repeat constructor; lia|]. split; [cbn; lia|]. repeat split. }
  split; [reflexivity|].
  split. { split; [constructor; cbn; try lia; split; auto; repeat constructor; lia|]. split; [cbn; lia|]. repeat split. }
  constructor; [reflexivity|now left|split; [discriminate|cbn; lia]].
Qed.

(** ** C73: symbolic links *)

Lemma find_byte_some c l1 l2 : forall i, exists p, find_byte c (l1 ++ c :: l2) i = Some p /\ i <= p.
Proof.
  induction l1 as [|x l1 IH]; intros i; cbn [app find_byte]; [rewrite Z.eqb_refl; exists i; split; [reflexivity|lia]|].
  destruct (x =? c); [exists i; split; [reflexivity|lia]|]. destruct (IH (i + 1)) as [p [X Y]]. exists p. split; [exact X|lia].
Qed.

Lemma copy_nul l : zlen l < 1024 -> has_nul (copy (zeros FilenameLength) l) = true.
Proof.
  intros H. unfold copy. change (zlen (zeros FilenameLength)) with 1024. rewrite Z.min_r by lia. unfold has_nul. rewrite existsb_app. apply orb_true_iff. right.
  apply existsb_exists. exists 0. split; [|reflexivity]. unfold drop, zeros. change (Z.to_nat FilenameLength) with 1024%nat.
  assert (LN : (length (skipn (Z.to_nat (zlen l)) (repeat 0%Z 1024)) > 0)%nat) by (rewrite skipn_length, repeat_length; unfold zlen in *; lia).
  destruct (skipn (Z.to_nat (zlen l)) (repeat 0 1024)) as [|x t] eqn:Q; [cbn in LN; lia|].
  assert (IX : In x (repeat 0 1024)) by (rewrite <- (firstn_skipn (Z.to_nat (zlen l)) (repeat 0 1024)), Q; apply in_or_app; right; now left).
  apply repeat_spec in IX. subst x. now left.
Qed.

(** The full claim: after extraction [nm] is a symbolic link to [target].  It is false
    of every archive with one symbolic link: extraction succeeds and does nothing. *)
Theorem C73_symlinks_refuted :
  forall E w a e nm target dir base, reader E a w -> w_fs w a = Some (NFile (archive_bytes [(e, [])])) -> link_entry e nm target ->
    named e dir base -> w_fs w base = None ->
    exists w', CommandExtract E a w = Done false w' /\ w_fs w' = w_fs w.
Proof.
  intros E w a e nm target dir base R Hf (LE & NN & MO & ME & PK & EN) ND HB. pose proof R as [Hl Hv Ha Hr Hs].
  rewrite (CommandExtract_open E w a _ Hf Ha Hr Hs). rewrite Hl. set (w1 := set_wlha (set_archive a (NewLha a)) w). fold everything.
  assert (SY : isSymlinkMode (e_mode e) = true) by (unfold isSymlinkMode; change UnixFileSymlink with 40960; rewrite (mode_bits _ _ MO); reflexivity).
  assert (NM : Name (read0 NewLzHeader e) = (dir ++ base) ++ [0]) by (cbn [read0 Name]; now rewrite back_slashes, (nd_name _ _ _ ND)).
  assert (SB : exists p, find_byte 124 (Name (read0 NewLzHeader e)) 0 = Some p /\ 0 <= p).
  { cbn [read0 Name]. rewrite back_slashes by exact LE. rewrite EN. unfold slashes. rewrite map_app. cbn [map app]. change (124 =? 92) with false. cbv iota. rewrite <- app_assoc. cbn [app]. apply find_byte_some. }
  destruct SB as (p & FB & P0).
  set (h := set_Realname (copy (Realname NewLzHeader) (take (zlen (Name (read0 NewLzHeader e)) - 1 - p) (drop p (Name (read0 NewLzHeader e))))) (read0 NewLzHeader e)).
  assert (G : GetHeader (e_opts E) NewLzHeader (layout0 e ++ [0]) = Ok (ENil, true, h, [0])).
  { rewrite (GetHeader_layout0_any _ NewLzHeader e [0] LE new_meth (new_name e LE)), SY, FB. reflexivity. }
  assert (FS : Forall (fun c => c <> 47) base) by (apply Forall_forall; intros x I ->; now apply (proj2 (nd_base _ _ _ ND))).
  assert (NU : has_nul base = false).
  { apply has_nul_notin. intros I. assert (I2 : In 0 (slashes (e_name e))) by (rewrite (nd_name _ _ _ ND); apply in_or_app; now right).
    unfold slashes in I2. apply in_map_iff in I2. destruct I2 as [c [Y I2]]. destruct (c =? 92); [discriminate|]. subst c. contradiction. }
  assert (NE : base <> []) by apply (nd_base _ _ _ ND).
  assert (LS : lstat (w_fs w) base = SNotExist) by (unfold lstat; rewrite NU, HB; now destruct base).
  assert (ST : stat (w_fs w) base = SNotExist) by (unfold stat; rewrite NU, (resolve_none _ _ HB), HB; now destruct base).
  assert (RN : has_nul (Realname h) = true).
  { unfold h. cbn [set_Realname Realname]. apply copy_nul. destruct (l0_name _ LE) as [L221 _]. cbn [read0 Name]. unfold take, drop. unfold zlen at 1. rewrite firstn_length, skipn_length, app_length. unfold slash_back. rewrite map_length. cbn [length]. lia. }
  assert (X : exists w2, extractOne E h [0] w1 = Done (false, 0, h, [0]) w2 /\ w_fs w2 = w_fs w).
  { unfold extractOne. istep. istep. istep.
    destruct (name_start_any (w_lha w1) h dir base eq_refl eq_refl NM (nd_dir _ _ _ ND) FS) as [p0 [NS DP]].
    rewrite NS. istep. rewrite DP, (pathcheck_plain (w_lha w1) _ base eq_refl FS). istep. change (Method h) with (e_method e). rewrite ME. change (method_num [45; 108; 104; 100; 45]) with (Some 11).
    change (11 =? LzhdirsMethodNum) with true. cbn [negb]. rewrite andb_false_r, orb_true_r. cbv iota. change (w_verify w1) with (w_verify w). rewrite Hv. change (l_ignoredir (w_lha w1)) with false. change (l_stdout (w_lha w1)) with false. change (l_noexec (w_lha w1)) with false. cbn [negb andb].
    assert (SL : isSymlink h = true) by (unfold isSymlink; change (UnixMode h) with (e_mode e); change UnixFileTypemask with 61440; rewrite MO; reflexivity). rewrite SL.
    unfold ask. rewrite bind_assoc, bind_getl. change (l_skip (w_lha w1)) with false. cbv iota. unfold inquireExtract. rewrite !bind_assoc, bind_modl, bind_assoc, bind_get, bind_assoc, bind_get.
    set (w2 := set_wlha (set_skip false (w_lha w1)) w1). change (w_fs w2) with (w_fs w). rewrite LS, bind_ret, bind_assoc, bind_getl, bind_ret. cbn [orb negb]. istep. istep.
    change (l_skip (w_lha w2)) with false. cbn [andb].
    assert (Y : symlinkWithMakePath (Realname h) base w2 = Done tt w2).
    { unfold symlinkWithMakePath, os_symlink. rewrite RN. cbn [orb]. rewrite bind_assoc, bind_get, bind_ret. unfold makeParentPath. rewrite bind_assoc, bind_get. change (w_fs w2) with (w_fs w). rewrite LS, bind_ret, bind_assoc, bind_get, bind_ret. reflexivity. }
    rewrite (bindIO_done _ _ _ _ _ Y).
    assert (Z0 : adjustInfo base h w2 = Done tt w2).
    { unfold adjustInfo. rewrite SL, bind_ret. change ((ExtendType h =? ExtendUnix) || (ExtendType h =? ExtendOs68k) || (ExtendType h =? ExtendXosk)) with true. cbv iota.
      assert (ME2 : forall o, os_meta base o w2 = Done tt w2) by (intros o; unfold os_meta; rewrite bind_get; change (w_fs w2) with (w_fs w); now rewrite ST).
      destruct (Z.land (UnixMode h) UnixFileTypemask =? UnixFileTypemask); [rewrite bind_ret|rewrite (bindIO_done _ _ _ _ _ (ME2 _))]; apply ME2. }
    rewrite (bindIO_done _ _ _ _ _ Z0). exists w2. split; reflexivity. }
  destruct X as (w2 & X & W2). unfold archive_bytes. cbn [flat_map fst snd]. rewrite !app_nil_r.
  destruct (layout_fuel e [0]) as [k Hk]. rewrite Hk. cbn [extract_loop]. rewrite G. unfold everything at 1. rewrite bind_assoc, bind_lift. cbn [negb]. rewrite !bind_assoc, bind_get, bind_ret.
  change (needFile (w_lha w1) (Name h)) with true. cbv iota. unfold one_file at 1. rewrite !bind_assoc, (bindIO_done _ _ _ _ _ X), bind_ret. cbv iota. change (PackedSize h) with (e_packed e). rewrite PK. change (0 =? 0) with true. cbv iota.
  fold everything. assert (LE2 := loop_end E (A := unit) k everything (one_file E) h tt w2).
  eexists. split; [|exact W2]. cbn [extract_loop] in LE2. unfold bindIO in LE2 |- *. cbn [extract_loop]. unfold bindIO.
  destruct (lift (GetHeader (e_opts E) h [0]) w2) as [[[[e0 ok] h2] r2] w3| |]; try discriminate. rewrite LE2. reflexivity.
Qed.

(** A link l to t. *)
Example C73_example :
  link_entry (E0 [45; 108; 104; 100; 45] 0 0 0 32 [108; 124; 116] 0 0 1000000 41471 0 0) [108] [116] /\
  named (E0 [45; 108; 104; 100; 45] 0 0 0 32 [108; 124; 116] 0 0 1000000 41471 0 0) [] [108; 124; 116].
Proof.
  split. { split; [constructor; cbn; try lia; split; auto; repeat constructor; lia|]. split; [cbn; lia|]. repeat split. }
  constructor; [reflexivity|now left|split; [discriminate|cbn; lia]].
Qed.

Print Assumptions C71_times_restored_refuted.
Print Assumptions C72_directories_refuted.
Print Assumptions C73_symlinks_refuted.
