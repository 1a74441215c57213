(** Property C19: entries stored without compression.  The vocabulary is in S_Archive.v. *)
From Verif Require Import Go GoLemmas M_Crc M_Bitio P_Bitio M_Maketree M_Maketbl M_Huf M_Slide M_Decode M_Lzhuf S_Header S_Listing M_Header M_Os M_Archive S_History S_Archive
  P_Header P_Accept P_List P_Os P_RoundTrip P_Single P_Extract P_Read1 Properties_Slide Properties_Archive Properties_Extract Properties_Listing Properties_Larc.

(** The methods that store: -lh0-, -lz4- and -pm0-. *)
Definition stored_method (m : list Z) : Prop :=
  m = [45; 108; 104; 48; 45] \/ m = [45; 108; 122; 52; 45] \/ m = [45; 112; 109; 48; 45].

(** What copyfile writes: the input, filled up to whole buffers. *)
Lemma copy_loop_out : forall fuel buf inp r out r', copy_loop fuel buf inp r = Ok (out, r') -> zlen buf = buffersize ->
  r' = r + zlen inp /\ zlen out mod buffersize = 0 /\ exists junk, out = inp ++ junk.
Proof.
  induction fuel; intros buf inp r out r' H HB; cbn [copy_loop] in H; [discriminate|].
  set (chunk := take buffersize inp) in *. destruct (Z.eqb_spec (zlen chunk) 0) as [Z0|Z0].
  - injection H as <- <-. assert (inp = []).
    { destruct inp; [reflexivity|]. unfold chunk, take, zlen in Z0. rewrite firstn_length in Z0. cbn [length] in Z0. unfold buffersize in Z0. lia. }
    subst inp. rewrite zlen_nil. split; [lia|]. split; [reflexivity|]. exists []. reflexivity.
  - apply bind_ok in H. destruct H as [[o r1] [H E]]. injection E as <- <-.
    assert (LB : zlen (chunk ++ drop (zlen chunk) buf) = buffersize).
    { rewrite zlen_app. assert (zlen chunk <= buffersize) by (unfold chunk, take, zlen; rewrite firstn_length; unfold buffersize; lia).
      unfold drop, zlen in *. rewrite skipn_length. lia. }
    destruct (IHfuel _ _ _ _ _ H LB) as (X1 & X2 & junk & X3).
    assert (SP : inp = chunk ++ drop buffersize inp) by (unfold chunk, take, drop; symmetry; apply firstn_skipn).
    split; [rewrite X1; rewrite SP at 2; rewrite zlen_app; lia|].
    split. { rewrite zlen_app, LB. replace (buffersize + zlen o) with (zlen o + 1 * buffersize) by lia. rewrite Z.mod_add by (unfold buffersize; lia). exact X2. }
    destruct (Z_lt_ge_dec (zlen chunk) buffersize) as [L|L].
    + assert (DN : drop buffersize inp = []).
      { unfold drop. apply skipn_all2. unfold chunk, take, zlen in L. rewrite firstn_length in L. unfold buffersize in *. lia. }
      rewrite DN in *. rewrite app_nil_r in SP. rewrite SP. exists (drop (zlen chunk) buf ++ o). now rewrite app_assoc.
    + assert (DN : drop (zlen chunk) buf = []) by (apply drop_past; lia). rewrite DN, app_nil_r. rewrite X3. exists junk. rewrite app_assoc, <- SP. reflexivity.
Qed.

Lemma copyfile_out size inp : 0 < size -> exists out junk, copyfile size inp = Ok (out, zlen inp, []) /\ zlen out mod 2048 = 0 /\ out = inp ++ junk.
Proof.
  intros H. unfold copyfile. destruct (Z.ltb_spec 0 size); [|lia].
  destruct (copy_loop_size (S (length inp)) (repeat 0 (Z.to_nat buffersize)) inp 0) as [out E]; [lia|]. rewrite E. cbn [bind].
  destruct (copy_loop_out _ _ _ _ _ _ E) as (X1 & X2 & junk & X3); [reflexivity|]. exists out, junk. split; [|auto]. repeat f_equal; lia.
Qed.

Lemma stored_num m : stored_method m -> exists method, method_num m = Some method /\ dec_dicbit method = Some 0 /\ method <> LzhdirsMethodNum.
Proof. intros [-> | [-> | ->]]; eexists; (split; [reflexivity|]); split; try reflexivity; discriminate. Qed.

Lemma skip_nothing n : n <> 0 -> skipToNextpos n [] = (false, []).
Proof. intros H. unfold skipToNextpos. destruct (Z.eqb_spec n 0); [contradiction|reflexivity]. Qed.

(** The claim is false of every stored entry that is not empty, whatever follows: data
    extracted to memory are never the stored ones. *)
Theorem C19_stored_refuted :
  forall E w a e data es dir base header,
    reader E a w -> w_fs w a = Some (NFile (archive_bytes ((e, data) :: es))) -> file_entry e -> named e dir base -> asks_for header (dir ++ base) ->
    stored_method (e_method e) -> e_original e = zlen data -> e_packed e = zlen data -> data <> [] ->
    exists got w', DecompresBytes E header w = Done (got, true) w' /\ got <> data.
Proof.
  intros E w a e data es dir base header R Hf FE ND Hh HM EO EP NE. destruct (stored_num _ HM) as (method & MN & DB & MD).
  unfold archive_bytes in Hf. cbn [flat_map fst snd] in Hf. rewrite <- !app_assoc in Hf. change (flat_map _ es ++ [0]) with (archive_bytes es) in Hf.
  assert (Z0 : 0 < zlen data) by (destruct data; [contradiction|rewrite zlen_cons; pose proof (zlen_nonneg data); lia]).
  assert (ZA : 0 < zlen (archive_bytes es)) by (unfold archive_bytes; rewrite zlen_app; change (zlen [0]) with 1; pose proof (zlen_nonneg (flat_map (fun x : entry0 * list Z => layout0 (fst x) ++ snd x) es)); lia).
  destruct (copyfile_out (e_original e) (data ++ archive_bytes es)) as (out & junk & C1 & C2 & C3); [lia|].
  assert (D : DecodeLzhuf method false (e_original e) (e_packed e) (data ++ archive_bytes es) (w_glob w) = Ok (w_glob w, 0, out, zlen (data ++ archive_bytes es), [])).
  { unfold DecodeLzhuf. rewrite DB. change (0 =? 0) with true. cbv iota. rewrite C1. reflexivity. }
  destruct (Z.eq_dec (e_crc e) 0) as [K|K].
  - destruct (stream_first E e dir base method header w a _ _ _ _ _ _ FE ND MN MD Hf R Hh D ltac:(congruence)) as [k X]. rewrite X.
    rewrite zlen_app. destruct (Z.eqb_spec (zlen data + zlen (archive_bytes es)) (e_packed e)); [lia|]. rewrite skip_nothing by lia.
    eexists out, _. split; [reflexivity|]. intros ->. assert (L : zlen ((data ++ archive_bytes es) ++ junk) = zlen data) by congruence. rewrite !zlen_app in L. pose proof (zlen_nonneg junk). lia.
  - eexists [], _. split; [|intros X; now subst].
    rewrite (DecompresBytes_open E header w a _ Hf R). set (w1 := set_wlha (set_level 2 (NewLha a)) w).
    destruct (layout_fuel e (data ++ archive_bytes es)) as [k Hk]. rewrite Hk. rewrite (loop_entry E e FE). unfold by_name at 1. rewrite bind_ret.
    unfold asks_for in Hh. rewrite (r0_name e FE dir base ND), Hh, list_eqb_refl. unfold one_stream at 1.
    assert (EX : extractOneStream (read0 NewLzHeader e) (data ++ archive_bytes es) w1 = Done (true, 0, [], []) (set_wglob (w_glob w) w1)).
    { unfold extractOneStream. change (Method (read0 NewLzHeader e)) with (e_method e). rewrite MN, (r0_reg e FE). apply Z.eqb_neq in MD. rewrite MD. cbn [negb andb].
      istep. change (l_noexec (w_lha w1)) with false. cbv iota. unfold run_decode. istep. istep. istep. change (l_broken (w_lha w1)) with false. change (w_verify w1) with (w_verify w). rewrite (rd_verify _ _ _ R).
      change (OriginalSize (read0 NewLzHeader e)) with (e_original e). change (PackedSize (read0 NewLzHeader e)) with (e_packed e). change (w_glob w1) with (w_glob w). rewrite D.
      istep. istep. istep. change (HasCrc (read0 NewLzHeader e)) with true. change (Crc (read0 NewLzHeader e)) with (e_crc e). destruct (Z.eqb_spec 0 (e_crc e)); [congruence|]. reflexivity. }
    rewrite bind_assoc, (bindIO_done _ _ _ _ _ EX), bind_ret. reflexivity.
Qed.

(** Nor is a file that is extracted from it: it has the stored bytes, everything that
    follows them in the archive, and more, up to a multiple of 2048 bytes; and an error
    is reported. *)
Theorem C19_stored_file_refuted :
  forall E w a e data es dir base header,
    reader E a w -> w_fs w a = Some (NFile (archive_bytes ((e, data) :: es))) -> file_entry e -> named e dir base -> asks_for header (dir ++ base) ->
    stored_method (e_method e) -> e_original e = zlen data -> e_packed e = zlen data -> data <> [] -> w_fs w base = None ->
    exists got junk w', Decompress E header w = Done true w' /\ w_fs w' base = Some (NFile got) /\
      got = data ++ archive_bytes es ++ junk /\ zlen got mod 2048 = 0.
Proof.
  intros E w a e data es dir base header R Hf FE ND Hh HM EO EP NE HB. destruct (stored_num _ HM) as (method & MN & DB & MD).
  unfold archive_bytes in Hf. cbn [flat_map fst snd] in Hf. rewrite <- !app_assoc in Hf. change (flat_map _ es ++ [0]) with (archive_bytes es) in Hf.
  assert (Z0 : 0 < zlen data) by (destruct data; [contradiction|rewrite zlen_cons; pose proof (zlen_nonneg data); lia]).
  assert (ZA : 0 < zlen (archive_bytes es)) by (unfold archive_bytes; rewrite zlen_app; change (zlen [0]) with 1; pose proof (zlen_nonneg (flat_map (fun x : entry0 * list Z => layout0 (fst x) ++ snd x) es)); lia).
  destruct (copyfile_out (e_original e) (data ++ archive_bytes es)) as (out & junk & C1 & C2 & C3); [lia|].
  assert (D : DecodeLzhuf method false (e_original e) (e_packed e) (data ++ archive_bytes es) (w_glob w) = Ok (w_glob w, 0, out, zlen (data ++ archive_bytes es), [])).
  { unfold DecodeLzhuf. rewrite DB. change (0 =? 0) with true. cbv iota. rewrite C1. reflexivity. }
  rewrite (Decompress_open E header w a _ Hf R). set (w1 := set_wlha (set_level 2 (NewLha a)) w).
  destruct (extract_file E e FE dir base ND method MN MD w1 (data ++ archive_bytes es) (w_glob w) 0 out (zlen (data ++ archive_bytes es)) []) as (w' & X1 & X2 & X3 & X4 & X5 & X6 & X7); auto; [apply (rd_verify _ _ _ R)|].
  destruct (layout_fuel e (data ++ archive_bytes es)) as [k Hk]. rewrite Hk. exists out, junk, w'.
  split; [|split; [exact X2|split; [now rewrite app_assoc|exact C2]]].
  rewrite (bindIO_done _ _ w1 (tt, true) w'); [reflexivity|]. rewrite (loop_entry E e FE). unfold by_name at 1. rewrite bind_ret.
  unfold asks_for in Hh. rewrite (r0_name e FE dir base ND), Hh, list_eqb_refl. unfold one_file at 1. rewrite bind_assoc, (bindIO_done _ _ _ _ _ X1), bind_ret. change (PackedSize (read0 NewLzHeader e)) with (e_packed e).
  rewrite zlen_app. destruct (Z.eqb_spec (zlen data + zlen (archive_bytes es)) (e_packed e)); [lia|]. rewrite skip_nothing by lia. reflexivity.
Qed.

(** What holds: an empty entry extracts as nothing, if its CRC field says so. *)
Theorem C19_stored_partial :
  forall E w a e dir base header,
    reader E a w -> w_fs w a = Some (NFile (archive_bytes [(e, [])])) -> file_entry e -> named e dir base -> asks_for header (dir ++ base) ->
    stored_method (e_method e) -> e_original e = 0 -> e_packed e = 0 -> e_crc e = 0 ->
    exists w', DecompresBytes E header w = Done ([], false) w'.
Proof.
  intros E w a e dir base header R Hf FE ND Hh HM EO EP EC. destruct (stored_num _ HM) as (method & MN & DB & MD).
  unfold archive_bytes in Hf. cbn [flat_map fst snd] in Hf. rewrite !app_nil_r in Hf.
  destruct (stream_first E e dir base method header w a [0] (w_glob w) 0 [] 0 [0]) as [k X]; auto.
  { unfold DecodeLzhuf. rewrite DB, EO. reflexivity. }
  rewrite X, EP. change (0 =? 0) with true. cbv iota. rewrite loop_end. eauto.
Qed.

Definition ex_stored : entry0 := E0 [45; 108; 104; 48; 45] 3 3 0 32 [122] (calcCrc 0 [97; 98; 99]) 0 1000000 33188 0 0.
Definition ex_stored_empty : entry0 := E0 [45; 108; 104; 48; 45] 0 0 0 32 [122] 0 0 1000000 33188 0 0.
Example C19_example :
  file_entry ex_stored /\ named ex_stored [] [122] /\ stored_method (e_method ex_stored) /\ e_original ex_stored = zlen [97; 98; 99] /\
  file_entry ex_stored_empty /\ named ex_stored_empty [] [122].
Proof.
  assert (N : forall e, e_name e = [122] -> named e [] [122]) by (intros e H; constructor; [now rewrite H|now left|split; [discriminate|cbn; lia]]).
  split. { constructor; [constructor; try (vm_compute; split; [discriminate|reflexivity]); try (vm_compute; intuition discriminate)|cbn; lia|reflexivity].
    - split; [reflexivity|repeat constructor; lia].
    - cbn. split; [lia|repeat constructor; lia]. }
  split; [now apply N|]. split; [now left|]. split; [reflexivity|].
  split. { constructor; [constructor; cbn; try lia; split; auto; repeat constructor; lia|cbn; lia|reflexivity]. }
  now apply N.
Qed.

Print Assumptions C19_stored_refuted.
Print Assumptions C19_stored_file_refuted.
Print Assumptions C19_stored_partial.
