(** Properties C56, C60, C76, C77 and C78 for archives in which a name may be longer than
    the one before it: which entries are extracted, listed, printed and tested. *)
From Verif Require Import Go GoLemmas M_Crc M_Bitio M_Maketree M_Maketbl M_Huf M_Slide M_Lzhuf S_Header S_Listing S_Grow M_Header M_Os M_Archive M_Cli S_History S_Archive S_GrowList S_Cli
  P_Bitio P_Header P_Accept P_List P_Os P_RoundTrip P_Single P_Read1 P_Select P_ExtractAll P_Verify P_Cli P_Grow P_GrowAll P_GrowList
  Properties_Slide Properties_Archive Properties_Extract Properties_Listing Properties_Select Properties_Cli.

(** ** C60: which entries are extracted *)

(** Exactly those whose names are not longer than the one before: [fitting].  Nothing else
    changes and no error is reported. *)
Theorem C60_extract_fitting_partial :
  forall E w cs a es files,
    reader E a w -> after cs (w_glob w) -> w_fs w a = Some (NFile (archive_bytes es)) -> bytes (archive_bytes es) ->
    intact es files -> unmarked 221 es ->
    NoDup (map fst (fitting 221 es files)) -> (forall f, In f (fitting 221 es files) -> w_fs w (fst f) = None) ->
    exists w', CommandExtract E a w = Done false w' /\ (forall f, In f (fitting 221 es files) -> w_fs w' (fst f) = Some (NFile (snd f))) /\
      (forall q, ~ In q (map fst (fitting 221 es files)) -> w_fs w' q = w_fs w q).
Proof.
  intros E w cs a es files [Hl Hv Ha Hr Hs] A Hf B F UM ND NF. rewrite (CommandExtract_open E w a _ Hf Ha Hr Hs).
  rewrite Hl. set (w1 := set_wlha (set_archive a (NewLha a)) w).
  destruct (grow_extract E es files NewLzHeader 221 w1 cs (S (length (archive_bytes es)))) as (w' & X1 & X2 & X3); auto; try reflexivity.
  { now apply intact_decodable. } { apply entries_length. }
  exists w'. split; [|split; [exact X2|exact X3]]. unfold everything in X1. rewrite (bindIO_done _ _ _ _ _ X1). reflexivity.
Qed.

(** The claim that every entry is extracted is false of every archive in which a name is
    longer than the one before it: that entry is left out without an error. *)
Theorem C60_longer_name_refuted :
  forall E w cs a es e data more files f,
    reader E a w -> after cs (w_glob w) -> w_fs w a = Some (NFile (archive_bytes (es ++ (e, data) :: more))) -> bytes (archive_bytes (es ++ (e, data) :: more)) ->
    intact (es ++ (e, data) :: more) files -> unmarked 221 (es ++ (e, data) :: more) -> NoDup (map fst files) -> (forall f, In f files -> w_fs w (fst f) = None) ->
    nth_error files (length es) = Some f -> (last (map (fun x => length (e_name (fst x))) es) 221 < length (e_name e))%nat ->
    exists w', CommandExtract E a w = Done false w' /\ w_fs w' (fst f) = None.
Proof.
  intros E w cs a es e data more files f R A Hf B I UM ND NF NE GR.
  destruct (C60_extract_fitting_partial E w cs a _ files R A Hf B I UM (fitting_nodup _ _ _ ND)) as (w' & X1 & _ & X3).
  { intros g Hg. apply NF. eapply fitting_in, Hg. }
  exists w'. split; [exact X1|]. rewrite X3; [apply NF; eapply nth_error_In, NE|]. now apply fitting_out.
Qed.

(** "z" before "abc": only "z" fits. *)
Example C60_fitting_example : unmarked 221 ex_pair /\ intact ex_pair ex_pair_files /\ fitting 221 ex_pair ex_pair_files = [([122], repeat 0 100)] /\
  nth_error ex_pair_files (length [(ex_entry 0, ex_packed)]) = Some ([97; 98; 99], repeat 0 100) /\ (last (map (fun x => length (e_name (fst x))) [(ex_entry 0, ex_packed)]) 221 < length (e_name ex_abc))%nat /\ shifted 221 ex_pair /\ unmac 221 ex_pair /\ ~ names_shrink 221 ex_pair.
Proof.
  assert (X : forall A (P : Prop), (1 < 1)%nat -> A -> P) by (intros; lia).
  repeat split; try reflexivity; cbn; try lia; try (intros; lia); try (intros _; discriminate); try (intros _ [Q|[Q|[Q|[]]]]; discriminate Q).
  - assert (G : forall es fs, Forall2 (fun x f => file_entry (fst x) /\ (exists dir, named (fst x) dir (fst f)) /\ packs (fst x) (snd x) (snd f)) es fs -> intact es fs).
    { intros es fs F. unfold intact. induction F as [|x f es fs (X1 & X2 & X3) F IH]; [constructor|constructor; [|exact IH]]. split; [exact X1|]. split; [exact X2|]. now apply Properties_Lh1.packs_holds. }
    apply G, ex_pair_ok.
Qed.

(** ** C56: what is listed *)

(** All entries in order; of those whose names are longer than the one before, the name
    is cut, and the CRC, the time and the attributes are wrong: [shown]. *)
Theorem C56_listing_exact_partial :
  forall E archive w es,
    os_open E (w_fs w) archive = Some (archive_bytes es) -> l_filec (w_lha w) = 0 -> ConvertCase (e_opts E) = false ->
    Forall (fun x => file_entry (fst x)) es -> sized es -> unmarked 221 es -> unmac 221 es ->
    exists headers w', CommandList E archive w = Done (headers, false) w' /\ shown 221 es headers.
Proof.
  intros E archive w es O FC CC F S U M. rewrite (list_run E archive w _ O).
  destruct (list_loop_grow E (set_archive archive (w_lha w)) FC CC es NewLzHeader 221 [] (Datatypes.S (length (archive_bytes es))) F S U M eq_refl ltac:(reflexivity) ltac:(now right)) as (hs & X1 & X2).
  { apply entries_length. }
  rewrite X1. cbn [app]. eexists _, _. split; [reflexivity|exact X2].
Qed.

(** The listing is right exactly if no name is longer than the one before it. *)
Theorem C56_listing_iff_partial :
  forall E archive w es,
    os_open E (w_fs w) archive = Some (archive_bytes es) -> l_filec (w_lha w) = 0 -> ConvertCase (e_opts E) = false ->
    Forall (fun x => file_entry (fst x)) es -> sized es -> unmarked 221 es -> unmac 221 es ->
    exists headers w', CommandList E archive w = Done (headers, false) w' /\ length headers = length es /\ (Forall2 describes (map fst es) headers <-> names_shrink 221 es).
Proof.
  intros E archive w es O FC CC F S U M. destruct (C56_listing_exact_partial E archive w es O FC CC F S U M) as (hs & w' & X1 & X2). exists hs, w'. split; [exact X1|].
  clear -F X2. assert (NZ : Forall (fun x => ~ In 0 (e_name (fst x))) es).
  { eapply Forall_impl; [|exact F]. cbv beta. intros x FE. apply FE. }
  revert NZ X2. clear F. generalize 221%nat as n. revert hs. induction es as [|[e data] es IH]; intros hs n NZ X2; destruct hs as [|h hs]; try now destruct X2.
  - split; [reflexivity|]. split; constructor.
  - cbn [shown fst names_shrink map] in *. destruct X2 as [X2 X3]. inversion NZ as [|? ? N1 N2]; subst. cbn [fst] in N1. destruct (IH hs _ N2 X3) as [L I]. split; [cbn [length]; now rewrite L|].
    destruct (Nat.leb_spec (length (e_name e)) n).
    + split; [intros Q; inversion Q; subst; split; [lia|now apply I]|]. intros [_ Q]. constructor; [exact X2|now apply I].
    + split; [|lia]. intros Q. exfalso. inversion Q as [|? ? ? ? D _]; subst. apply N1. pose proof (cd_name _ _ _ X2) as E1. rewrite (ds_name _ _ D) in E1.
      assert (Z : In 0 (slashes (e_name e))).
      { replace (length (e_name e) + 1 - n)%nat with (Datatypes.S (Datatypes.S (length (e_name e) - n - 1))) in E1 by lia. cbn [repeat] in E1.
        rewrite repeat_cons in E1. rewrite app_comm_cons, app_assoc in E1. apply app_inj_tail in E1. destruct E1 as [-> _]. apply in_or_app. right. now left. }
      unfold slashes in Z. apply in_map_iff in Z. destruct Z as (c & C1 & C2). destruct (Z.eqb_spec c 92); [discriminate|]. now subst.
Qed.

(** ** The command line program *)

(** -e: status 0; exactly the entries whose names are not longer than the one before are
    extracted. *)
Theorem C76_extract_fitting_partial :
  forall E fl w cs a es files,
    asks_extract a fl -> stored_at E a (archive_bytes es) w -> after cs (w_glob w) -> bytes (archive_bytes es) -> intact es files -> unmarked 221 es ->
    NoDup (map fst (fitting 221 es files)) -> (forall f, In f (fitting 221 es files) -> w_fs w (fst f) = None) ->
    exists w', main E fl w = Done (0, []) w' /\ (forall f, In f (fitting 221 es files) -> w_fs w' (fst f) = Some (NFile (snd f))) /\
      (forall q, ~ In q (map fst (fitting 221 es files)) -> w_fs w' q = w_fs w q).
Proof.
  intros E fl w cs a es files L S A B I UM ND NF. destruct (main_extract E a fl w L) as (l & ID & SO & R); [apply S|]. rewrite R.
  pose proof (extract_opened _ _ _ _ (stored_generic E a _ w false false l S)) as X. unfold bindIO at 1. rewrite X. set (w1 := set_wlha _ _).
  assert (ID1 : idle (w_lha w1)) by (apply idle_archive; exact ID). destruct ID1.
  destruct (grow_extract (with_generic false E) es files NewLzHeader 221 w1 cs (Datatypes.S (length (archive_bytes es)))) as (w' & X1 & X2 & X3); auto; try reflexivity.
  { now apply intact_decodable. } { apply entries_length. }
  unfold bindIO at 1. rewrite X1. cbn. exists w'. split; [reflexivity|]. split; [exact X2|exact X3].
Qed.

(** -p: everything before the first entry whose name is longer than the one before is
    printed, then that entry under another name; then the program ends with status 1. *)
Theorem C77_longer_name_refuted :
  forall E fl w cs a es files,
    asks_print a fl -> stored_at E a (archive_bytes es) w -> after cs (w_glob w) -> bytes (archive_bytes es) -> intact es files ->
    unmarked 221 es -> shifted 221 es -> ~ names_shrink 221 es ->
    exists w' f b, main E fl w = Done (1, []) w' /\ w_fs w' = w_fs w /\ nth_error files (length (leading 221 es files)) = Some f /\ b <> fst f /\
      w_out w' = w_out w ++ flat_map (fun f => repeat 58 8 ++ [10] ++ fst f ++ [10] ++ repeat 58 8 ++ [10] ++ snd f) (leading 221 es files ++ [(b, snd f)]).
Proof.
  intros E fl w cs a es files L S A B I UM SH NS. destruct (main_print E a fl w L) as (l & ID & SO & R); [apply S|]. rewrite R.
  pose proof (extract_opened _ _ _ _ (stored_generic E a _ w false false l S)) as X. unfold bindIO at 1. rewrite X. set (w1 := set_wlha _ _).
  assert (ID1 : idle (w_lha w1)) by (apply idle_archive; exact ID). assert (SO1 : l_stdout (w_lha w1) = true) by exact SO. destruct ID1.
  destruct (grow_test (with_generic false E) es files NewLzHeader 221 w1 cs (Datatypes.S (length (archive_bytes es)))) as (w' & f & b & X1 & X2 & _ & X3 & X4 & X5); auto; try reflexivity.
  { now apply intact_decodable. } { now rewrite SO1. } { apply entries_length. }
  unfold bindIO at 1. rewrite X1. cbn. exists w', f, b. split; [reflexivity|]. split; [exact X2|]. split; [exact X3|]. split; [exact X4|].
  rewrite X5, SO1. change (w_verify w1) with false. cbv iota. change (w_out w1) with (w_out w). f_equal.
  apply flat_map_ext. intros x. unfold banner. now rewrite <- !app_assoc.
Qed.

(** -t: an archive that is not damaged is said to be damaged if a name is longer than the
    one before it. *)
Theorem C78_longer_name_refuted :
  forall E fl w cs a es files,
    asks_test a fl -> stored_at E a (archive_bytes es) w -> after cs (w_glob w) -> bytes (archive_bytes es) -> intact es files ->
    unmarked 221 es -> shifted 221 es -> ~ names_shrink 221 es ->
    exists w', main E fl w = Done (1, []) w' /\ w_fs w' = w_fs w /\ w_out w' = w_out w.
Proof.
  intros E fl w cs a es files L S A B I UM SH NS. destruct (main_test E a fl w L) as (g & l & ID & SO & R); [apply S|]. rewrite R.
  pose proof (extract_opened _ _ _ _ (stored_generic E a _ w g true l S)) as X. unfold bindIO at 1. rewrite X. set (w1 := set_wlha _ _).
  assert (ID1 : idle (w_lha w1)) by (apply idle_archive; exact ID). assert (SO1 : l_stdout (w_lha w1) = false) by exact SO. destruct ID1.
  destruct (grow_test (with_generic g E) es files NewLzHeader 221 w1 cs (Datatypes.S (length (archive_bytes es)))) as (w' & f & b & X1 & X2 & _ & X3 & X4 & X5); auto; try reflexivity.
  { now apply intact_decodable. } { change (w_verify w1) with true. apply orb_true_r. } { apply entries_length. }
  unfold bindIO at 1. rewrite X1. cbn. exists w'. split; [reflexivity|]. split; [exact X2|].
  rewrite X5, SO1. change (w_verify w1) with true. cbv iota. change (w_out w1) with (w_out w).
  match goal with |- _ ++ flat_map ?g ?l = _ => assert (Z : flat_map g l = []) by (generalize l; intros k; induction k as [|x k IH]; [reflexivity|exact IH]); rewrite Z end. apply app_nil_r.
Qed.

(** So the status of -t on an archive that is not damaged says whether a name is longer
    than the one before it. *)
Theorem C78_test_status_partial :
  forall E fl w cs a es files,
    asks_test a fl -> stored_at E a (archive_bytes es) w -> after cs (w_glob w) -> bytes (archive_bytes es) -> intact es files -> unmarked 221 es -> shifted 221 es ->
    exists status w', main E fl w = Done (status, []) w' /\ (status = 0 \/ status = 1) /\ (status = 0 <-> names_shrink 221 es).
Proof.
  intros E fl w cs a es files L S A B I UM SH.
  assert (D : forall l n, names_shrink n l \/ ~ names_shrink n l).
  { clear. induction l as [|x l IH]; intros n; cbn [names_shrink]; [now left|]. destruct (IH (length (e_name (fst x)))); [|tauto]. destruct (Compare_dec.le_lt_dec (length (e_name (fst x))) n); [tauto|right; lia]. }
  destruct (D es 221%nat) as [NS|NS].
  - destruct (C78_test_intact_partial E fl w cs a es files L S A B I NS) as (w' & X & _). exists 0, w'. tauto.
  - destruct (C78_longer_name_refuted E fl w cs a es files L S A B I UM SH NS) as (w' & X & _). exists 1, w'. split; [exact X|]. split; [now right|]. split; [discriminate|tauto].
Qed.

Print Assumptions C60_extract_fitting_partial.
Print Assumptions C60_longer_name_refuted.
Print Assumptions C56_listing_exact_partial.
Print Assumptions C56_listing_iff_partial.
Print Assumptions C76_extract_fitting_partial.
Print Assumptions C77_longer_name_refuted.
Print Assumptions C78_longer_name_refuted.
Print Assumptions C78_test_status_partial.
