(** C31 for each of the methods -lh4- to -lh7-, and for archives. *)
From Verif Require Import Go GoLemmas M_Crc M_Bitio P_Bitio M_Maketree M_Maketbl M_Huf M_Slide M_Larc M_Decode M_Lzhuf S_Bits S_Huff S_Lz S_Lh1 S_Larc P_Larc S_Header S_Listing M_Header M_Os M_Archive S_History S_Archive
  P_Header P_Accept P_List P_Os P_RoundTrip P_Single P_Read1 P_ExtractAll P_Verify Properties_Slide Properties_Archive Properties_Extract Properties_Listing Properties_Larc Properties_Lh5 Properties_Lh1 Properties_Damage.
From Verif Require Import M_Cli S_Cli P_Cli Properties_Cli.

(** The data of [C31_malformed_never_panics_refuted]. *)
Definition five : list Z := [0; 1; 33; 36; 32].

Lemma five_step k t original : In k [12; 13; 15; 16] -> 0 < original -> decode k false original 5 (five ++ t) (g_huf glob0) = Panic.
Proof.
  intros K H. unfold decode. cbv zeta.
  assert (X : match initGetbits 5 (five ++ t) with Ok r => decodeCSt1 (decodeStartSt1 k (g_huf glob0)) r = Panic | _ => False end).
  { destruct K as [<-|[<-|[<-|[<-|[]]]]]; vm_compute; reflexivity. }
  destruct (initGetbits 5 (five ++ t)) as [r| |]; [|contradiction..]. cbn [bind].
  assert (S : forall x, decode_step (Z.shiftl 1 k) original (DST (decodeStartSt1 k (g_huf glob0)) r x 0 0 [] 0) = Panic).
  { intros x. unfold decode_step. cbn [d_count d_huf d_r]. destruct (Z.ltb_spec 0 original); [|lia]. rewrite X. reflexivity. }
  rewrite loop_unfold_panic; [reflexivity|lia|apply S].
Qed.

(** With any of the four methods, whatever the size announced and whatever follows. *)
Theorem C31_each_method_refuted :
  forall m original rest, 4 <= m <= 7 -> 0 < original -> DecodeLzhuf m false original 5 (five ++ rest) glob0 = Panic.
Proof.
  intros m original rest M H. assert (D : exists k, dec_dicbit m = Some k /\ In k [12; 13; 15; 16]).
  { assert (m = 4 \/ m = 5 \/ m = 6 \/ m = 7) as [-> | [-> | [-> | ->]]] by lia; eexists; (split; [reflexivity|cbn [In]; tauto]). }
  destruct D as (k & D & K). unfold DecodeLzhuf. rewrite D.
  assert (K0 : k =? 0 = false) by (destruct K as [<-|[<-|[<-|[<-|[]]]]]; reflexivity). rewrite K0, (five_step k rest original K H). reflexivity.
Qed.

Lemma test_crash E h0 e dir base method w data : file_entry e -> named e dir base -> method_num (e_method e) = Some method -> method <> LzhdirsMethodNum ->
  l_ignoredir (w_lha w) = false -> l_extractdir (w_lha w) = [] -> l_noexec (w_lha w) = false -> l_stdout (w_lha w) || w_verify w = true ->
  DecodeLzhuf method (l_broken (w_lha w)) (e_original e) (e_packed e) data (w_glob w) = Panic ->
  exists w', extractOne E (read0 h0 e) data w = Crash w'.
Proof.
  intros FE ND Hmeth Hdir H1 H2 H4 H6 D. unfold extractOne. istep. istep. istep.
  destruct (name_base_any h0 e FE dir base ND (w_lha w) H1) as [p0 [NS DP]]. rewrite NS. istep. rewrite DP.
  rewrite (pathcheck_plain (w_lha w) _ base H2 (fe_slash e dir base ND)). istep. change (Method (read0 h0 e)) with (e_method e). rewrite Hmeth, (r0_reg_any h0 e FE).
  apply Z.eqb_neq in Hdir. rewrite Hdir. cbn [negb andb]. rewrite H6. change (ExtendType (read0 h0 e) =? ExtendMacos) with false. cbn [andb]. rewrite H4.
  istep. set (w1 := printed (if l_stdout (w_lha w) then banner base else []) w).
  destruct (printed_same (if l_stdout (w_lha w) then banner base else []) w) as (_ & _ & G1 & V1 & L1 & _). fold w1 in G1, V1, L1.
  unfold run_decode. istep. istep. istep. change (OriginalSize (read0 h0 e)) with (e_original e). change (PackedSize (read0 h0 e)) with (e_packed e).
  rewrite L1, G1, V1, D. eexists. reflexivity.
Qed.

(** An archive whose first entry has these data, in a new process: taking the entry out
    panics, and so does asking for the headers. *)
Theorem C31_archive_refuted :
  forall E w a e dir base method header rest,
    reader E a w -> w_glob w = glob0 -> w_fs w a = Some (NFile (layout0 e ++ five ++ rest)) ->
    file_entry e -> named e dir base -> asks_for header (dir ++ base) ->
    method_num (e_method e) = Some method -> 4 <= method <= 7 -> e_packed e = 5 -> 0 < e_original e ->
    (exists w', DecompresBytes E header w = Crash w') /\ (exists w', Headers E w = Crash w').
Proof.
  intros E w a e dir base method header rest R G Hf FE ND Hh HM M EP EO.
  assert (D : DecodeLzhuf method false (e_original e) (e_packed e) (five ++ rest) (w_glob w) = Panic) by (rewrite G, EP; apply C31_each_method_refuted; assumption).
  assert (HD : method <> LzhdirsMethodNum) by (unfold LzhdirsMethodNum; lia).
  split.
  - rewrite (DecompresBytes_open E header w a _ Hf R). set (w1 := set_wlha (set_level 2 (NewLha a)) w).
    rewrite (loop_entry E e FE). unfold by_name at 1. rewrite bind_ret.
    unfold asks_for in Hh. rewrite (r0_name e FE dir base ND), Hh, list_eqb_refl. unfold one_stream at 1.
    assert (EX : exists w2, extractOneStream (read0 NewLzHeader e) (five ++ rest) w1 = Crash w2).
    { unfold extractOneStream. change (Method (read0 NewLzHeader e)) with (e_method e). rewrite HM, (r0_reg e FE). apply Z.eqb_neq in HD. rewrite HD. cbn [negb andb].
      istep. change (l_noexec (w_lha w1)) with false. cbv iota. unfold run_decode. istep. istep. istep. change (l_broken (w_lha w1)) with false.
      change (OriginalSize (read0 NewLzHeader e)) with (e_original e). change (PackedSize (read0 NewLzHeader e)) with (e_packed e). change (w_glob w1) with (w_glob w). rewrite D. eexists. reflexivity. }
    destruct EX as [w2 EX]. exists w2. rewrite bind_assoc. unfold bindIO at 1. rewrite EX. reflexivity.
  - pose proof R as [Hl Hv Ha Hr Hs]. rewrite (open_headers E a w _ R Hf). cbn [headers_loop]. rewrite (fe_get_new E e FE). istep. istep. set (w1 := set_wverify true w).
    assert (L1 : w_lha w1 = NewLha a) by exact Hl.
    rewrite L1. change (needFile (NewLha a) (Name (read0 NewLzHeader e))) with true. cbv iota.
    destruct (test_crash E NewLzHeader e dir base method w1 (five ++ rest) FE ND HM HD) as [w2 X]; rewrite ?L1; auto.
    exists (set_wverify false w2). unfold bindIO at 1. rewrite X. reflexivity.
Qed.

(** lharc -t and lharc -p, which start a new process, panic on it. *)
Theorem C31_lharc_refuted :
  forall E fl w a e dir base method rest,
    asks_test a fl \/ asks_print a fl -> stored_at E a (layout0 e ++ five ++ rest) w -> w_glob w = glob0 ->
    file_entry e -> named e dir base -> method_num (e_method e) = Some method -> 4 <= method <= 7 -> e_packed e = 5 -> 0 < e_original e ->
    exists w', main E fl w = Crash w'.
Proof.
  intros E fl w a e dir base method rest L S G FE ND HM M EP EO.
  assert (D : DecodeLzhuf method false (e_original e) (e_packed e) (five ++ rest) glob0 = Panic) by (rewrite EP; apply C31_each_method_refuted; assumption).
  assert (HD : method <> LzhdirsMethodNum) by (unfold LzhdirsMethodNum; lia).
  assert (R : exists g v l, idle l /\ l_stdout l || v = true /\ main E fl w = (err <~ CommandExtract (with_generic g E) a ;;; ret (if (err : bool) then 1 else 0, [])) (started v l w)).
  { destruct L as [L|L].
    - destruct (main_test E a fl w L) as (g & l & ID & SO & R); [apply S|]. exists g, true, l. split; [exact ID|]. split; [apply orb_true_r|exact R].
    - destruct (main_print E a fl w L) as (l & ID & SO & R); [apply S|]. exists false, false, l. split; [exact ID|]. split; [rewrite SO; reflexivity|exact R]. }
  destruct R as (g & v & l & ID & SO & R). rewrite R.
  pose proof (extract_opened _ _ _ _ (stored_generic E a _ w g v l S)) as X. unfold bindIO at 1. rewrite X.
  set (w1 := set_wlha _ _). assert (ID1 : idle (w_lha w1)) by (apply idle_archive; exact ID). assert (SO1 : l_stdout (w_lha w1) || w_verify w1 = true) by exact SO. destruct ID1.
  unfold bindIO at 1. rewrite (loop_entry (with_generic g E) e FE). unfold everything at 1. rewrite !bind_assoc, bind_get, bind_ret. unfold needFile. rewrite id_filec. change (0 =? 0) with true. cbv iota.
  unfold one_file at 1.
  destruct (test_crash (with_generic g E) NewLzHeader e dir base method w1 (five ++ rest) FE ND HM HD) as [w2 Y]; auto.
  { rewrite id_broken. change (w_glob w1) with (w_glob w). rewrite G. exact D. }
  exists w2. rewrite !bind_assoc. unfold bindIO at 1. rewrite Y. reflexivity.
Qed.

(** The hypotheses are met by the entry [ex_bad_entry] of Properties_Listing.v. *)
Example C31_example :
  file_entry ex_bad_entry /\ named ex_bad_entry [] [122] /\ asks_for (read0 NewLzHeader ex_bad_entry) [122] /\
  method_num (e_method ex_bad_entry) = Some 5 /\ e_packed ex_bad_entry = 5 /\ e_original ex_bad_entry = 100 /\ bytes five.
Proof.
  split. { constructor; [constructor; cbn; try lia; split; auto; repeat constructor; lia|cbn; lia|reflexivity]. }
  split. { constructor; cbn; auto; intuition discriminate. }
  split; [reflexivity|]. split; [reflexivity|]. split; [reflexivity|]. split; [reflexivity|]. repeat constructor; lia.
Qed.

Print Assumptions C31_each_method_refuted.
Print Assumptions C31_archive_refuted.
Print Assumptions C31_lharc_refuted.
Print Assumptions C31_example.
