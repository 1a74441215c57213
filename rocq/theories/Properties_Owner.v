(** Properties of the listing: users and groups that have names, symbolic links, and
    the permissions of OS-9. *)
From Coq Require Import String.
From Verif Require Import Go GoLemmas M_Crc M_Bitio P_Bitio M_Maketree M_Maketbl M_Huf M_Slide M_Larc M_Decode M_Lzhuf S_Bits S_Huff S_Lz S_Lh1 S_Larc P_Larc S_Text S_Header S_Listing S_Level0 S_ListText S_Owner M_Header M_Os M_Archive S_History S_Archive S_AnyEntry S_Add M_Cli S_Cli M_List S_CliList
  P_Header P_Accept P_List P_Os P_RoundTrip P_Single P_Extract P_Read1 P_ExtractAll P_Verify P_Still P_Add P_AddFiles P_Cli P_Level0 P_AnyEntry P_Ratio P_Text
  Properties_Slide Properties_Archive Properties_Extract Properties_Listing Properties_Larc Properties_Lh5 Properties_Lh1 Properties_Damage Properties_Stored Properties_Add Properties_Header Properties_Cli Properties_Level0 Properties_Kinds Properties_Text.

(** ** C117: users, groups and links in the listing *)

Lemma within_true lo hi x : lo <= x <= hi -> within lo hi x = true.
Proof. intros H. unfold within. apply andb_true_iff. split; apply Z.leb_le; lia. Qed.
Lemma within_false lo hi x : x < lo \/ hi < x -> within lo hi x = false.
Proof. intros H. unfold within. apply andb_false_iff. rewrite !Z.leb_gt. lia. Qed.

Lemma low_six x : 128 <= 128 + x mod 64 <= 191.
Proof. pose proof (Z.mod_pos_bound x 64). lia. Qed.

Lemma width_utf8 c s : character c -> rune_width (utf8 c ++ s) = length (utf8 c).
Proof.
  intros [B N]. unfold utf8.
  destruct (Z.ltb_spec c 128); [|destruct (Z.ltb_spec c 2048); [|destruct (Z.ltb_spec c 65536)]]; cbn [app rune_width length]; unfold rune_class.
  - rewrite !within_false by lia. destruct (Z.eqb_spec c 224); [lia|]. destruct (Z.eqb_spec c 237); [lia|]. destruct (Z.eqb_spec c 240); [lia|]. destruct (Z.eqb_spec c 244); [lia|]. reflexivity.
  - assert (A : 194 <= 192 + c / 64 <= 223) by (pose proof (Z.div_le_lower_bound c 64 2); pose proof (Z.div_lt_upper_bound c 64 32); lia).
    rewrite (within_true 194 223 _ A). change (2 =? 2) with true. cbv iota. now rewrite (within_true 128 191 _ (low_six c)).
  - assert (A : 224 <= 224 + c / 4096 <= 239) by (pose proof (Z.div_pos c 4096); pose proof (Z.div_lt_upper_bound c 4096 16); lia).
    rewrite (within_false 194 223) by lia. destruct (Z.eqb_spec (224 + c / 4096) 224) as [Q|Q].
    + change (3 =? 2) with false. change (3 =? 3) with true. cbv iota. rewrite (within_true 160 191); [now rewrite (within_true 128 191 _ (low_six c))|].
      assert (c < 4096) by (destruct (Z_lt_ge_dec c 4096); [assumption|pose proof (Z.div_le_lower_bound c 4096 1); lia]).
      rewrite Z.mod_small by (split; [apply Z.div_pos; lia|apply Z.div_lt_upper_bound; lia]). pose proof (Z.div_le_lower_bound c 64 32). pose proof (Z.div_lt_upper_bound c 64 64). lia.
    + destruct (Z.eqb_spec (224 + c / 4096) 237) as [R|R].
      * change (3 =? 2) with false. change (3 =? 3) with true. cbv iota. rewrite (within_true 128 159); [now rewrite (within_true 128 191 _ (low_six c))|].
        assert (D : c / 4096 = 13) by lia. pose proof (Z.div_mod c 4096 ltac:(lia)) as M. pose proof (Z.mod_pos_bound c 4096). rewrite D in M.
        assert (C : 53248 <= c < 55296) by lia. clear M.
        assert (G : (c / 64) mod 64 = c / 64 - 832).
        { pose proof (Z.div_le_lower_bound c 64 832). pose proof (Z.div_lt_upper_bound c 64 864). symmetry. apply (Z.mod_unique _ 64 13); lia. }
        rewrite G. pose proof (Z.div_le_lower_bound c 64 832). pose proof (Z.div_lt_upper_bound c 64 864). lia.
      * rewrite (within_true 225 239) by lia. change (3 =? 2) with false. change (3 =? 3) with true. cbv iota.
        rewrite (within_true 128 191 _ (low_six (c / 64))). now rewrite (within_true 128 191 _ (low_six c)).
  - assert (A : 240 <= 240 + c / 262144 <= 244) by (pose proof (Z.div_pos c 262144); pose proof (Z.div_lt_upper_bound c 262144 5); lia).
    rewrite (within_false 194 223) by lia. destruct (Z.eqb_spec (240 + c / 262144) 224); [lia|]. destruct (Z.eqb_spec (240 + c / 262144) 237); [lia|]. rewrite (within_false 225 239) by lia.
    assert (L2 := within_true 128 191 _ (low_six (c / 64))). assert (L3 := within_true 128 191 _ (low_six c)).
    destruct (Z.eqb_spec (240 + c / 262144) 240) as [Q|Q].
    + change (4 =? 2) with false. change (4 =? 3) with false. change (4 =? 4) with true. cbv iota. rewrite (within_true 144 191); [now rewrite L2, L3|].
      assert (c < 262144) by (destruct (Z_lt_ge_dec c 262144); [assumption|pose proof (Z.div_le_lower_bound c 262144 1); lia]).
      rewrite Z.mod_small by (split; [apply Z.div_pos; lia|apply Z.div_lt_upper_bound; lia]). pose proof (Z.div_le_lower_bound c 4096 16). pose proof (Z.div_lt_upper_bound c 4096 64). lia.
    + destruct (Z_le_gt_dec (c / 262144) 3) as [R|R].
      * rewrite (within_true 241 243) by lia. change (4 =? 2) with false. change (4 =? 3) with false. change (4 =? 4) with true. cbv iota. rewrite (within_true 128 191 _ (low_six (c / 4096))). now rewrite L2, L3.
      * rewrite (within_false 241 243) by lia. assert (D : c / 262144 = 4) by lia. rewrite D. change (240 + 4 =? 244) with true. change (4 =? 2) with false. change (4 =? 3) with false. change (4 =? 4) with true. cbv iota.
        rewrite (within_true 128 143); [now rewrite L2, L3|].
        pose proof (Z.div_mod c 262144 ltac:(lia)) as M. pose proof (Z.mod_pos_bound c 262144). rewrite D in M. assert (C : 1048576 <= c < 1114112) by lia. clear M.
        assert (G : (c / 4096) mod 64 = c / 4096 - 256).
        { pose proof (Z.div_le_lower_bound c 4096 256). pose proof (Z.div_lt_upper_bound c 4096 272). symmetry. apply (Z.mod_unique _ 64 4); lia. }
        rewrite G. pose proof (Z.div_le_lower_bound c 4096 256). pose proof (Z.div_lt_upper_bound c 4096 272). lia.
Qed.

Lemma utf8_some c : exists x t, utf8 c = x :: t.
Proof. unfold utf8. destruct (c <? 128); [eauto|]. destruct (c <? 2048); [eauto|]. destruct (c <? 65536); eauto. Qed.

Lemma width_nul s : rune_width (0 :: s) = 1%nat. Proof. reflexivity. Qed.

Lemma first_nuls : forall n k fuel, (n <= k)%nat -> (n <= fuel)%nat -> first_runes fuel n (repeat 0 k) = repeat 0 n.
Proof.
  induction n as [|n IH]; intros k fuel K F; destruct fuel as [|fuel]; try lia; [reflexivity|reflexivity|]. destruct k as [|k]; [lia|]. cbn [repeat first_runes]. rewrite width_nul. cbn [firstn skipn app]. f_equal. apply IH; lia.
Qed.

Lemma first_utf8 : forall us n k fuel, Forall character us -> (n <= k)%nat -> (length (utf8s us) + k <= fuel)%nat ->
  first_runes fuel n (utf8s us ++ repeat 0 k) = utf8s (firstn n us) ++ repeat 0 (n - length us).
Proof.
  induction us as [|c us IH]; intros n k fuel F K L.
  - cbn [utf8s flat_map app] in *. rewrite firstn_nil, Nat.sub_0_r. cbn [utf8s flat_map app length] in *. apply first_nuls; lia.
  - inversion F as [|? ? F1 F2]; subst. destruct n as [|n]; [destruct fuel; reflexivity|].
    unfold utf8s in *. cbn [flat_map firstn] in *. rewrite <- app_assoc. destruct (utf8_some c) as (x & t & U). destruct fuel as [|fuel]; [exfalso; rewrite U in L; cbn in L; lia|].
    assert (W := width_utf8 c (flat_map utf8 us ++ repeat 0 k) F1).
    replace (first_runes (S fuel) (S n) (utf8 c ++ flat_map utf8 us ++ repeat 0 k))
      with (firstn (rune_width (utf8 c ++ flat_map utf8 us ++ repeat 0 k)) (utf8 c ++ flat_map utf8 us ++ repeat 0 k) ++ first_runes fuel n (skipn (rune_width (utf8 c ++ flat_map utf8 us ++ repeat 0 k)) (utf8 c ++ flat_map utf8 us ++ repeat 0 k)))
      by (rewrite U; reflexivity).
    rewrite W, firstn_app, firstn_all, Nat.sub_diag, firstn_O, app_nil_r, skipn_app, skipn_all, Nat.sub_diag. cbn [skipn app]. rewrite IH; [|assumption|lia|rewrite app_length in L; rewrite U in L; cbn [length] in L; lia].
    rewrite <- app_assoc. reflexivity.
Qed.

Lemma count_utf8 : forall us k fuel, Forall character us -> (length (utf8s us) + k <= fuel)%nat -> rune_count fuel (utf8s us ++ repeat 0 k) = (length us + k)%nat.
Proof.
  induction us as [|c us IH]; intros k fuel F L.
  - cbn [utf8s flat_map app length] in *. revert fuel L. induction k as [|k IH]; intros fuel L; destruct fuel as [|fuel]; try lia; try reflexivity. cbn [repeat rune_count]. rewrite width_nul. cbn [skipn]. rewrite IH by lia. reflexivity.
  - inversion F as [|? ? F1 F2]; subst. unfold utf8s in *. cbn [flat_map] in *. rewrite <- app_assoc. destruct (utf8_some c) as (x & t & U). destruct fuel as [|fuel]; [exfalso; rewrite U in L; cbn in L; lia|].
    assert (W := width_utf8 c (flat_map utf8 us ++ repeat 0 k) F1).
    replace (rune_count (S fuel) (utf8 c ++ flat_map utf8 us ++ repeat 0 k))
      with (S (rune_count fuel (skipn (rune_width (utf8 c ++ flat_map utf8 us ++ repeat 0 k)) (utf8 c ++ flat_map utf8 us ++ repeat 0 k)))) by (rewrite U; reflexivity).
    rewrite W, skipn_app, skipn_all, Nat.sub_diag. cbn [skipn app length]. rewrite IH; [reflexivity|assumption|]. rewrite app_length in L. rewrite U in L. cbn [length] in L. lia.
Qed.

Lemma column_text us k : Forall character us -> (5 <= k)%nat ->
  let s := utf8s us ++ repeat 0 k in
  first_runes (length s) 5 s = utf8s (firstn 5 us) ++ repeat 0 (5 - length us) /\ fmt_5_5s s = utf8s (firstn 5 us) ++ repeat 0 (5 - length us) /\ fmt_m5_5s s = utf8s (firstn 5 us) ++ repeat 0 (5 - length us).
Proof.
  intros F K s. assert (X : first_runes (length s) 5 s = utf8s (firstn 5 us) ++ repeat 0 (5 - length us)).
  { unfold s. apply first_utf8; [exact F|exact K|]. rewrite app_length, repeat_length. lia. }
  split; [exact X|]. unfold fmt_5_5s, fmt_m5_5s, pad_left, pad_right. rewrite X.
  assert (F5 : Forall character (firstn 5 us)) by (rewrite <- (firstn_skipn 5 us) in F; apply Forall_app in F; apply F).
  rewrite count_utf8; [|exact F5|rewrite app_length, repeat_length; lia]. rewrite firstn_length.
  replace (5 - (Nat.min 5 (length us) + (5 - length us)))%nat with 0%nat by lia. cbn [spaces repeat app]. rewrite app_nil_r. split; reflexivity.
Qed.

Lemma name_set us k : Forall character us -> us <> [] -> (nth 0 (utf8s us ++ repeat 0 k) 0 =? 0) = false.
Proof.
  intros F N. destruct us as [|c us]; [contradiction|]. inversion F as [|? ? [B _] _]; subst. apply Z.eqb_neq. unfold utf8s. cbn [flat_map]. unfold utf8.
  destruct (c <? 128); [cbn; lia|]. destruct (c <? 2048); [cbn [app nth]; pose proof (Z.div_pos c 64); lia|]. destruct (c <? 65536); cbn [app nth]; [pose proof (Z.div_pos c 4096)|pose proof (Z.div_pos c 262144)]; lia.
Qed.

(** A header of a Unix entry whose fields for the user and the group hold names: the line
    shows the first five characters of each, between the permissions and the sizes.  The
    columns are filled up with NUL bytes in place of spaces, however, so that a name of
    fewer than five characters moves what follows to the left.  [_partial]: the columns. *)
Theorem C117_owners_shown_partial :
  forall v h us gs j k,
    ExtendType h = 85 -> Forall character us -> Forall character gs -> us <> [] -> gs <> [] -> (5 <= j)%nat -> (5 <= k)%nat ->
    User h = utf8s us ++ repeat 0 j -> Group h = utf8s gs ++ repeat 0 k ->
    exists perms rest, length perms = 10%nat /\ ~ In 0 perms /\
      listOne false v h = perms ++ [0] ++ text " " ++ (utf8s (firstn 5 us) ++ repeat 0 (5 - length us)) ++ text "/" ++ (utf8s (firstn 5 gs) ++ repeat 0 (5 - length gs)) ++ text " " ++ rest.
Proof.
  intros v h us gs j k T FU FG NU NG J K U G. unfold listOne. rewrite T. change (85 =? 85) with true. cbv iota. cbn [app]. unfold owner. rewrite U, G.
  rewrite (name_set us j FU NU), (name_set gs k FG NG). destruct (column_text us j FU J) as (_ & -> & _). destruct (column_text gs k FG K) as (_ & _ & ->).
  exists (firstn 10 (unix_modebits (UnixMode h))). eexists. split; [reflexivity|]. split.
  - unfold unix_modebits. cbn [firstn]. unfold mark. intros I. cbn [In] in I. repeat (destruct I as [I|I]; [repeat match type of I with context [if ?b then _ else _] => destruct b end; discriminate I|]). exact I.
  - unfold unix_modebits. cbn [firstn app]. rewrite <- !app_assoc. reflexivity.
Qed.

(** The permissions of an entry of OS-9. *)
Theorem C117_os9_permissions :
  forall v h, ExtendType h = 88 -> exists rest, listOne false v h = os9_permissions (UnixMode h) ++ text " " ++ rest.
Proof.
  intros v h T. unfold listOne. rewrite T. change (88 =? 85) with false. change (88 =? 75) with false. change (88 =? 88) with true. cbv iota. cbn [app]. eexists. rewrite <- !app_assoc. f_equal.
  unfold osk_modebits, os9_permissions, mark. cbn [map fst snd].
  change (has (UnixMode h) 1) with (has (UnixMode h) (2 ^ 0)). change (has (UnixMode h) 2) with (has (UnixMode h) (2 ^ 1)). change (has (UnixMode h) 4) with (has (UnixMode h) (2 ^ 2)). change (has (UnixMode h) 8) with (has (UnixMode h) (2 ^ 3)).
  change (has (UnixMode h) 16) with (has (UnixMode h) (2 ^ 4)). change (has (UnixMode h) 32) with (has (UnixMode h) (2 ^ 5)). change (has (UnixMode h) 64) with (has (UnixMode h) (2 ^ 6)). change (has (UnixMode h) 128) with (has (UnixMode h) (2 ^ 7)).
  rewrite !has_bit by lia. reflexivity.
Qed.

Lemma find_first c l1 l2 : ~ In c l1 -> forall i, find_byte c (l1 ++ c :: l2) i = Some (i + zlen l1).
Proof.
  induction l1 as [|x l1 IH]; intros N i; cbn [app find_byte].
  - rewrite Z.eqb_refl. f_equal. change (zlen (@nil Z)) with 0. lia.
  - destruct (Z.eqb_spec x c) as [->|]; [exfalso; apply N; now left|]. rewrite IH by (intros X; apply N; now right). f_equal. rewrite zlen_cons. lia.
Qed.

Lemma copy_zeros l : zlen l <= 1024 -> without_nul (copy (zeros FilenameLength) l) = without_nul l.
Proof.
  intros H. unfold copy. change (zlen (zeros FilenameLength)) with 1024. rewrite Z.min_r by lia. unfold take, drop, zlen. rewrite Nat2Z.id, firstn_all, without_app.
  replace (without_nul (skipn (length l) (zeros FilenameLength))) with (@nil Z); [apply app_nil_r|]. symmetry.
  assert (A : forall m, Forall (fun x => x = 0) m -> without_nul m = []) by (induction 1 as [|x m -> _ IH]; [reflexivity|exact IH]). apply A.
  apply Forall_forall. intros x X. unfold zeros in X. rewrite <- (firstn_skipn (length l) (repeat 0 (Z.to_nat FilenameLength))) in *.
  apply (repeat_spec (Z.to_nat FilenameLength) 0 x). rewrite <- (firstn_skipn (length l) (repeat 0 (Z.to_nat FilenameLength))). apply in_or_app. right.
  rewrite firstn_skipn in X. exact X.
Qed.

Lemma line_parts v h t : ExtendType h = 85 -> unix_modebits (UnixMode h) = 108 :: t -> exists X, listOne false v h = 108 :: X ++ text " " ++ shown_name h ++ newline.
Proof.
  intros T M. unfold listOne. rewrite T, M. change (85 =? 85) with true. cbv iota. generalize (owner h) (shown_name h) (printSize v (PackedSize h) (OriginalSize h)) (printStamp (UnixLastModifiedStamp h) false v). intros a b c d.
  match goal with |- context [if v then ?x else ?y] => generalize (if v then x else y) end. intros m.
  exists (t ++ text " " ++ a ++ c ++ m ++ text " " ++ d). cbn [app]. rewrite <- !app_assoc. reflexivity.
Qed.

(** The claim that a symbolic link is listed as "name -> target" is false.  For every
    link in the documented format, the line shows the whole of the field, and the
    target with the bar that separates it from the name. *)
Theorem C117_link_line_refuted :
  forall E fl w a e nm target v,
    asks_listing v a fl -> stored_at E a (archive_bytes [(e, [])]) w -> link_entry e nm target -> ~ In 124 nm ->
    exists out before rest, prints E fl w 0 out /\
      without_nul out = title v ++ bar v ++ [108] ++ before ++ text " " ++ slashes nm ++ text "|" ++ slashes target ++ text " -> |" ++ slashes target ++ newline ++ rest.
Proof.
  intros E fl w a e nm target v AS ST (LE & NN & MO & ME & PK & EN) NB. pose proof ST as [[P1 P2] S2 S3 S4]. apply has_nul_notin in P2.
  assert (X : exists g l, idle l /\ main E fl w = ('(hs, err) <~ CommandList (with_generic g E) a ;;; ret (if (err : bool) then 1 else 0, hs)) (started false l w)).
  { destruct v; cbn [asks_listing] in AS; [destruct (main_listv E a fl w AS P1) as (g & l & ID & _ & R)|destruct (main_list E a fl w AS P1) as (l & ID & _ & R)]; eauto. }
  destruct X as (g & l & ID & R). assert (O : os_open (with_generic g E) (w_fs (started false l w)) a = Some (archive_bytes [(e, [])])) by (now apply open_file).
  pose proof (list_run _ a _ _ O) as L.
  assert (SY : isSymlinkMode (e_mode e) = true) by (unfold isSymlinkMode; change UnixFileSymlink with 40960; rewrite (mode_bits _ _ MO); reflexivity).
  assert (SL : slashes (e_name e) = slashes nm ++ 124 :: slashes target) by (rewrite EN; unfold slashes; rewrite map_app; reflexivity).
  assert (NM : Name (read0 NewLzHeader e) = slashes nm ++ 124 :: slashes target ++ [0]) by (cbn [read0 Name]; rewrite back_slashes, SL by exact LE; rewrite <- app_assoc; reflexivity).
  assert (NB2 : ~ In 124 (slashes nm)) by (unfold slashes; intros I; apply in_map_iff in I; destruct I as (c & C1 & C2); destruct (c =? 92); [discriminate|subst; contradiction]).
  pose proof (GetHeader_layout0_any (e_opts (with_generic g E)) NewLzHeader e [0] LE new_meth (new_name e LE)) as G. rewrite SY, NM, (find_first 124 _ _ NB2 0) in G.
  set (real := take (zlen (slashes nm ++ 124 :: slashes target ++ [0]) - 1 - (0 + zlen (slashes nm))) (drop (0 + zlen (slashes nm)) (slashes nm ++ 124 :: slashes target ++ [0]))) in G.
  assert (RL : real = 124 :: slashes target).
  { unfold real. rewrite Z.add_0_l. unfold drop, zlen. rewrite Nat2Z.id, skipn_app, skipn_all, Nat.sub_diag. cbn [app skipn]. unfold take.
    replace (Z.to_nat (Z.of_nat (length (slashes nm ++ 124 :: slashes target ++ [0])) - 1 - Z.of_nat (length (slashes nm)))) with (length (124 :: slashes target)).
    - change (124 :: slashes target ++ [0]) with ((124 :: slashes target) ++ [0]). rewrite firstn_app, firstn_all, Nat.sub_diag, firstn_O. apply app_nil_r.
    - rewrite app_length. cbn [length]. rewrite app_length. cbn [length]. lia. }
  rewrite RL in G. clear real RL. set (h := set_Realname (copy (Realname NewLzHeader) (124 :: slashes target)) (read0 NewLzHeader e)) in *.
  assert (AB : archive_bytes [(e, [])] = layout0 e ++ [0]) by (unfold archive_bytes; cbn [flat_map fst snd]; now rewrite !app_nil_r).
  assert (Q : list_loop (with_generic g E) (set_archive a (w_lha (started false l w))) (S (length (archive_bytes [(e, [])]))) NewLzHeader (archive_bytes [(e, [])]) [] = Ok ([h], false)).
  { rewrite AB. destruct (layout_fuel e [0]) as [k Hk]. rewrite Hk. cbn [list_loop]. rewrite G. cbn [bind negb]. change (PackedSize h) with (e_packed e). rewrite PK. change (drop 0 [0]) with [0].
    assert (NF : needFile (set_archive a (w_lha (started false l w))) (Name h) = true) by (unfold needFile; change (l_filec (set_archive a (w_lha (started false l w)))) with (l_filec l); rewrite (id_filec _ ID); reflexivity).
    rewrite NF. change (GetHeader (e_opts (with_generic g E)) h [0]) with (@Ok lev_res (ENil, false, h, [])). reflexivity. }
  rewrite Q in L. clear Q.
  exists (list_text false v [h]).
  assert (TX : clean (title v) /\ clean (bar v)) by (unfold title, bar; destruct v; split; ctext). destruct TX as [T1 T2].
  assert (H1 : listHeader false v = title v ++ bar v) by (destruct v; reflexivity).
  assert (CL : forall l0, ~ In 0 l0 -> clean l0) by (intros l0 H0; apply Forall_forall; intros x X ->; contradiction).
  assert (C0 : ~ In 0 (slashes nm ++ 124 :: slashes target)).
  { rewrite <- SL. unfold slashes. intros I. apply in_map_iff in I. destruct I as (c & C1 & C2). destruct (c =? 92); [discriminate|]. subst. contradiction. }
  assert (C1 : clean (slashes nm)) by (apply CL; intros I; apply C0; apply in_or_app; now left).
  assert (C2 : clean (slashes target)) by (apply CL; intros I; apply C0; apply in_or_app; right; now right).
  assert (SN : without_nul (shown_name h) = slashes nm ++ text "|" ++ slashes target ++ text " -> |" ++ slashes target).
  { unfold shown_name. change (UnixMode h) with (e_mode e). unfold isSymlinkMode in SY. change UnixFileSymlink with 40960 in SY. rewrite SY. change (Name h) with (Name (read0 NewLzHeader e)). rewrite NM.
    change (Realname h) with (copy (zeros FilenameLength) (124 :: slashes target)). rewrite !without_app, copy_zeros.
    - rewrite (clean_id _ C1). change (124 :: slashes target ++ [0]) with (text "|" ++ slashes target ++ [0]). change (124 :: slashes target) with (text "|" ++ slashes target). rewrite !without_app, (clean_id _ C2). change (without_nul [0]) with (@nil Z).
      rewrite app_nil_r. change (without_nul (text "|")) with (text "|"). change (without_nul (text " -> ")) with (text " -> "). change (text " -> |") with (text " -> " ++ text "|"). rewrite <- !app_assoc. reflexivity.
    - destruct (l0_name _ LE) as [LL _]. rewrite EN in LL. unfold zlen. cbn [length]. unfold slashes. rewrite map_length. rewrite !app_length in LL. cbn [length] in LL. unfold zlen in LL. rewrite ?app_length in LL. cbn [length] in LL. lia. }
  assert (B0 : has (e_mode e) 16384 = false).
  { change 16384 with (2 ^ 14). rewrite has_bit by lia. apply (f_equal (fun x => Z.testbit x 14)) in MO. rewrite Z.land_spec in MO. change (Z.testbit 61440 14) with true in MO. rewrite andb_true_r in MO. exact MO. }
  assert (MB : exists t, unix_modebits (UnixMode h) = 108 :: t).
  { unfold unix_modebits. change (UnixMode h) with (e_mode e). rewrite B0. unfold isSymlinkMode in SY. change UnixFileSymlink with 40960 in SY. rewrite SY. eauto. }
  destruct MB as [t MB].
  destruct (line_parts v h t eq_refl MB) as [X LX].
  assert (LO : without_nul (listOne false v h) = [108] ++ without_nul X ++ text " " ++ (slashes nm ++ text "|" ++ slashes target ++ text " -> |" ++ slashes target) ++ newline).
  { rewrite LX. clear LX. change (108 :: X ++ text " " ++ shown_name h ++ newline) with ([108] ++ X ++ text " " ++ shown_name h ++ newline). rewrite !without_app, SN. reflexivity. }
  set (before := without_nul X) in LO.
  exists before. eexists. split.
  - eexists _, _. split; [rewrite R, (bindIO_done _ _ _ _ _ L); reflexivity|]. symmetry. eapply asked_text. exact AS.
  - unfold list_text. cbn [flat_map]. rewrite app_nil_r, H1, !without_app, (clean_id _ T1), (clean_id _ T2), LO. rewrite <- !app_assoc. reflexivity.
Qed.

(** ** The hypotheses can be met *)

(** A header with the user "jürgen" and the group "staff". *)
Example C117_example : exists h, ExtendType h = 85 /\ User h = utf8s [106; 252; 114; 103; 101; 110] ++ repeat 0 249 /\ Group h = utf8s [115; 116; 97; 102; 102] ++ repeat 0 251 /\ Forall character [106; 252; 114; 103; 101; 110].
Proof.
  exists (set_ExtendType 85 (set_User (utf8s [106; 252; 114; 103; 101; 110] ++ repeat 0 249) (set_Group (utf8s [115; 116; 97; 102; 102] ++ repeat 0 251) NewLzHeader))).
  split; [reflexivity|]. split; [reflexivity|]. split; [reflexivity|]. repeat constructor; lia.
Qed.

Example C117_link_example : link_entry (E0 [45; 108; 104; 100; 45] 0 0 0 32 [108; 124; 116] 0 0 1000000 41471 0 0) [108] [116] /\ ~ In 124 [108].
Proof. split; [apply C73_example|]. intros [X|[]]. discriminate X. Qed.

Print Assumptions C117_owners_shown_partial.
Print Assumptions C117_os9_permissions.
Print Assumptions C117_link_line_refuted.
