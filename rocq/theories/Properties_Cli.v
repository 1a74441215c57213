(** Properties of the command line program, cmd/lharc.go.  The command lines are
    described in S_Cli.v. *)
From Verif Require Import Go GoLemmas M_Crc M_Bitio P_Bitio M_Maketree M_Maketbl M_Huf M_Slide M_Larc M_Decode M_Lzhuf S_Bits S_Huff S_Lz S_Lh1 S_Larc P_Larc S_Header S_Listing M_Header M_Os M_Archive S_History S_Archive S_Add M_Cli S_Cli
  P_Header P_Accept P_List P_Os P_RoundTrip P_Single P_Extract P_Read1 P_ExtractAll P_Verify P_Still P_Add P_AddFiles P_Cli
  Properties_Slide Properties_Archive Properties_Extract Properties_Listing Properties_Larc Properties_Lh5 Properties_Lh1 Properties_Damage Properties_Stored Properties_Add Properties_Header.

(** ** C74: the reading commands change no file *)

(** Nothing is changed, VerifyMode or OutputToStdout staying on. *)
Definition mute (w : world) : Prop := w_verify w = true \/ l_stdout (w_lha w) = true.
Definition quiet {A} (m : IO A) : Prop :=
  forall w, mute w -> match m w with Done _ w' | Crash w' => mute w' /\ w_fs w' = w_fs w /\ w_ops w' = w_ops w | Unknown => True end.

Lemma quiet_bind {A B} (m : IO A) (k : A -> IO B) : quiet m -> (forall a, quiet (k a)) -> quiet (bindIO m k).
Proof.
  intros Hm Hk w Hv. specialize (Hm w Hv). unfold bindIO. destruct (m w) as [a w'|w'|]; auto. destruct Hm as [V' [F' O']].
  specialize (Hk a w' V'). destruct (k a w') as [b w''|w''|]; auto; destruct Hk as [V'' [F'' O'']]; (split; [exact V''|split; congruence]).
Qed.

Lemma quiet_lift {A B} (r : res A) (k : A -> IO B) : (forall a, r = Ok a -> quiet (k a)) -> quiet (bindIO (lift r) k).
Proof.
  intros H. destruct r as [a| |].
  - intros w. rewrite bind_lift. now apply H.
  - intros w Hv. cbn. auto.
  - intros w Hv. exact I.
Qed.

Lemma q_print l : quiet (print l).
Proof. intros w M. cbn. destruct (printed_same l w) as (P1 & P2 & _ & P4 & P5 & _). unfold mute. now rewrite P4, P5. Qed.
Ltac qs := intros ? ?; cbn; auto.
Ltac qbind := apply quiet_bind; [|intros ?].

Lemma q_decode m h inp : quiet (run_decode m h inp).
Proof.
  unfold run_decode. qbind; [qs|]. qbind; [qs|]. qbind; [qs|]. set (r := DecodeLzhuf m a0 _ _ inp a).
  apply quiet_lift. intros [[[[g c] o] n] rest] _. qbind; [qs|qs].
Qed.

Lemma quiet_start {B} (k : lha -> fs -> bool -> IO B) : (forall l f v, l_stdout l || v = true -> quiet (k l f v)) ->
  quiet (bindIO (get w_lha) (fun l => bindIO (get w_fs) (fun f => bindIO (get w_verify) (fun v => k l f v)))).
Proof. intros H w M. rewrite !bind_get. apply H; [|exact M]. destruct M as [-> | ->]; [apply orb_true_r|reflexivity]. Qed.

Lemma q_one E h inp : quiet (extractOne E h inp).
Proof.
  unfold extractOne. apply quiet_start. intros l f v SV. apply quiet_lift. intros st _. destruct st as [[h' p]|]; [|qs].
  apply quiet_lift. intros nm _. destruct nm as [name|]; [|qs]. destruct (method_num (Method h')) as [method|]; [|qs].
  destruct (isRegular h' && negb (method =? LzhdirsMethodNum)).
  - rewrite SV. destruct ((ExtendType h' =? ExtendMacos) && l_macbin l && list_eqb (Base name) [73; 99; 111; 110; 13]); [qs|]. destruct (l_noexec l); [qs|].
    qbind; [apply q_print|]. qbind; [apply q_decode|]. destruct a0 as [[[c o] n] rest]. qbind; [apply q_print|]. destruct (HasCrc h' && negb (c =? Crc h')); qs.
  - assert (X : negb (l_ignoredir l) && negb v && negb (l_stdout l) = false) by (destruct (l_ignoredir l), v, (l_stdout l); try reflexivity; discriminate). rewrite X, SV. cbn [orb].
    destruct (isDirectory h' || isSymlink h' || (method =? LzhdirsMethodNum)); [qs|]. destruct (l_force l); qs.
Qed.

Lemma q_loop E : forall fuel h inp acc, quiet (extract_loop E fuel everything (one_file E) h inp acc).
Proof.
  induction fuel as [|fuel IH]; intros h inp acc; cbn [extract_loop]; [intros w S; exact I|].
  apply quiet_lift. intros [[[e ok] h'] rest] _. destruct e; [|qs|qs]. destruct (negb ok); [qs|]. unfold everything at 1. qbind; [qbind; qs|]. destruct a.
  - qbind; [unfold one_file; qbind; [apply q_one|]; destruct a as [[[err n] h2] rest2]; qs|]. destruct a as [[[[err n] acc'] h2] rest2]. destruct err; [qs|]. destruct (n =? PackedSize h2); [apply IH|].
    destruct (skipToNextpos (PackedSize h2) rest2) as [ok2 rest3]. destruct ok2; [apply IH|qs].
  - destruct (skipToNextpos (PackedSize h') rest) as [ok2 rest3]. apply IH.
Qed.

Lemma q_CommandExtract E a : quiet (CommandExtract E a).
Proof.
  unfold CommandExtract. qbind. { intros w [M|M]; cbn; (split; [|auto]); [now left|right; exact M]. }
  qbind. { unfold open_archive. qbind; [qs|]. qbind; [qs|]. destruct (os_open E a1 a2); [|qs]. destruct (archiveIsMsdosSfx1 a2); [|qs]. apply quiet_lift. intros; qs. }
  destruct a1 as [c|]; [|qs]. qbind; [apply q_loop|]. destruct a1; qs.
Qed.

(** Listing (-l, -lv), printing (-p) and testing (-t), whatever the archive contains
    and however the run ends. *)
Theorem C74_reading_commands_change_nothing :
  forall E fl w w',
    f_l fl = true \/ (f_e fl = false /\ (f_p fl = true \/ f_lv fl = true \/ f_t fl = true)) ->
    final (main E fl w) = Some w' -> w_fs w' = w_fs w /\ w_ops w' = w_ops w.
Proof.
  intros E fl w w' H F. destruct (f_archive fl) as [|x a'] eqn:A. { unfold main in F. rewrite A in F. cbn in F. injection F as <-. auto. }
  set (a := x :: a') in *. assert (NE : a <> []) by discriminate.
  assert (Q : forall E g l v, (v = true \/ l_stdout l = true) -> final ((err <~ CommandExtract (with_generic g E) a ;;; ret (if (err : bool) then 1 else 0, @nil hdr)) (started v l w)) = Some w' -> w_fs w' = w_fs w /\ w_ops w' = w_ops w).
  { intros E0 g l v M X. pose proof (q_CommandExtract (with_generic g E0) a (started v l w)) as QE. unfold bindIO in X.
    destruct (CommandExtract _ _ _); cbn in X; try discriminate; injection X as <-; apply QE; exact M. }
  assert (L : forall E g l v, final (('(hs, err) <~ CommandList (with_generic g E) a ;;; ret (if (err : bool) then 1 else 0, hs)) (started v l w)) = Some w' -> w_fs w' = w_fs w /\ w_ops w' = w_ops w).
  { intros E0 g l v X. pose proof (s_CommandList (with_generic g E0) v a (started v l w) eq_refl) as QE. unfold bindIO in X.
    destruct (CommandList _ _ _) as [[hs err] w1|w1|]; cbn in X; try discriminate; injection X as <-; apply QE. }
  destruct (f_l fl) eqn:FL.
  - destruct (main_list E a fl w (Build_asks_list _ _ A FL) NE) as (l & _ & _ & R). rewrite R in F. eapply L; exact F.
  - destruct H as [H|[He H]]; [discriminate|]. destruct (f_p fl) eqn:FP.
    + destruct (main_print E a fl w (Build_asks_print _ _ A FL He FP) NE) as (l & _ & S & R). rewrite R in F. eapply Q; [|exact F]. now right.
    + destruct H as [H|H]; [discriminate|]. unfold main in F. rewrite A in F. cbn [is_empty a] in F. fold a in F. cbv zeta in F. unfold parseOption in F. rewrite FL, He, FP in F.
      set (c := if f_t fl then _ else _) in F. set (c' := sortFiles _) in F. rewrite bind_modify in F.
      assert (S : c_cmd c' = c_cmd c /\ c_verify c' = c_verify c).
      { unfold c', sortFiles. destruct (l_sort _); cbn [c_cmd c_verify set_clha]; split; apply (sub_same fl c). }
      destruct S as [S1 S2]. rewrite S1, S2 in F. destruct (f_t fl) eqn:FT.
      * change (c_cmd c) with CmdExtract in F. change (c_verify c) with true in F. eapply Q; [|exact F]. now left.
      * destruct H as [H|H]; [|discriminate]. assert (X : c_cmd c = CmdList) by (unfold c; rewrite H; reflexivity). rewrite X in F. eapply L. exact F.
Qed.

(** An archive of intact entries: the files [files], by base name. *)
Definition intact (es : list (entry0 * list Z)) (files : list (path * list Z)) : Prop :=
  Forall2 (fun x f => file_entry (fst x) /\ (exists dir, named (fst x) dir (fst f)) /\ holds (fst x) (snd x) (snd f)) es files.

Lemma intact_decodable es files : intact es files ->
  Forall2 (fun x f => file_entry (fst x) /\ (exists dir, named (fst x) dir (fst f)) /\ decodable (fst x) (snd x) (snd f)) es files.
Proof. intros F. induction F as [|x f es files (X1 & X2 & X3) F IH]; constructor; auto using holds_decodable. Qed.

Lemma archive_split es : archive_bytes es = entries_bytes es ++ [0].
Proof. reflexivity. Qed.

Lemma fuel_all es : exists k, S (length (archive_bytes es)) = (length es + S k)%nat.
Proof. pose proof (entries_length es) as L. exists (length (archive_bytes es) - length es)%nat. lia. Qed.

(** ** C75: listing *)
Theorem C75_list_command_partial :
  forall E fl w a es,
    asks_list a fl -> stored_at E a (archive_bytes es) w -> Forall (fun x => file_entry (fst x)) es -> sized es -> names_shrink 221 es ->
    exists headers w', main E fl w = Done (0, headers) w' /\ Forall2 describes (map fst es) headers.
Proof.
  intros E fl w a es L S I Z N. destruct (main_list E a fl w L) as (l & ID & _ & R); [apply S|]. rewrite R. pose proof S as [[P1 P2] S2 S3 S4]. apply has_nul_notin in P2.
  destruct (C56_listing_complete_partial (with_generic false E) a (started false l w) es) as (hs & w' & X1 & X2); auto.
  - now apply open_file.
  - apply ID.
  - exists hs, w'. rewrite (bindIO_done _ _ _ _ _ X1). auto.
Qed.

(** ** C76: extracting *)
Theorem C76_extract_command_partial :
  forall E fl w cs a es files,
    asks_extract a fl -> stored_at E a (archive_bytes es) w -> after cs (w_glob w) -> bytes (archive_bytes es) -> intact es files ->
    NoDup (map fst files) -> (forall f, In f files -> w_fs w (fst f) = None) -> names_shrink 221 es ->
    exists w', main E fl w = Done (0, []) w' /\ (forall f, In f files -> w_fs w' (fst f) = Some (NFile (snd f))) /\
      (forall q, ~ In q (map fst files) -> w_fs w' q = w_fs w q).
Proof.
  intros E fl w cs a es files L S A B I ND NF NS. destruct (main_extract E a fl w L) as (l & ID & SO & R); [apply S|]. rewrite R.
  pose proof (extract_opened _ _ _ _ (stored_generic E a _ w false false l S)) as X. unfold bindIO at 1. rewrite X.
  destruct (fuel_all es) as [k ->]. rewrite archive_split in B |- *. set (w1 := set_wlha _ _).
  assert (ID1 : idle (w_lha w1)) by (apply idle_archive; exact ID). destruct ID1.
  destruct (extract_prefix (with_generic false E) [0] es files NewLzHeader 221 w1 cs (Datatypes.S k)) as (h' & w' & cs' & W1 & W2 & W3 & _); auto; try reflexivity.
  { now apply intact_decodable. }
  unfold bindIO at 1. rewrite W1, loop_end. cbn. exists w'. split; [reflexivity|]. split; [exact W2|exact W3].
Qed.

(** ** C77: printing *)

(** What is printed: for every file a line of colons, its name, another line of
    colons, and its contents. *)
Theorem C77_print_command_partial :
  forall E fl w cs a es files,
    asks_print a fl -> stored_at E a (archive_bytes es) w -> after cs (w_glob w) -> bytes (archive_bytes es) -> intact es files -> names_shrink 221 es ->
    exists w', main E fl w = Done (0, []) w' /\ w_fs w' = w_fs w /\
      w_out w' = w_out w ++ flat_map (fun f => repeat 58 8 ++ [10] ++ fst f ++ [10] ++ repeat 58 8 ++ [10] ++ snd f) files.
Proof.
  intros E fl w cs a es files L S A B I NS. destruct (main_print E a fl w L) as (l & ID & SO & R); [apply S|]. rewrite R.
  pose proof (extract_opened _ _ _ _ (stored_generic E a _ w false false l S)) as X. unfold bindIO at 1. rewrite X.
  destruct (fuel_all es) as [k ->]. rewrite archive_split in B |- *. set (w1 := set_wlha _ _).
  assert (ID1 : idle (w_lha w1)) by (apply idle_archive; exact ID). assert (SO1 : l_stdout (w_lha w1) = true) by exact SO. destruct ID1.
  destruct (test_prefix (with_generic false E) [0] es files NewLzHeader 221 w1 cs (Datatypes.S k)) as (h' & w' & cs' & W1 & W2 & W3 & W4 & W5 & W6 & W7 & W8 & W9); auto; try reflexivity.
  { now apply intact_decodable. } { now rewrite SO1. }
  unfold bindIO at 1. rewrite W1, loop_end. cbn. exists w'. split; [reflexivity|]. split; [exact W5|]. rewrite W9, SO1. change (w_verify w1) with false. cbv iota. change (w_out w1) with (w_out w). f_equal.
  clear. induction files as [|f files IH]; [reflexivity|]. cbn [flat_map]. rewrite IH. f_equal. unfold banner. now rewrite <- !app_assoc.
Qed.

(** ** C78: testing *)

(** An intact archive: status 0, nothing printed, nothing changed. *)
Theorem C78_test_intact_partial :
  forall E fl w cs a es files,
    asks_test a fl -> stored_at E a (archive_bytes es) w -> after cs (w_glob w) -> bytes (archive_bytes es) -> intact es files -> names_shrink 221 es ->
    exists w', main E fl w = Done (0, []) w' /\ w_fs w' = w_fs w /\ w_out w' = w_out w.
Proof.
  intros E fl w cs a es files L S A B I NS. destruct (main_test E a fl w L) as (g & l & ID & SO & R); [apply S|]. rewrite R.
  pose proof (extract_opened _ _ _ _ (stored_generic E a _ w g true l S)) as X. unfold bindIO at 1. rewrite X.
  destruct (fuel_all es) as [k ->]. rewrite archive_split in B |- *. set (w1 := set_wlha _ _).
  assert (ID1 : idle (w_lha w1)) by (apply idle_archive; exact ID). assert (SO1 : l_stdout (w_lha w1) = false) by exact SO. destruct ID1.
  destruct (test_prefix (with_generic g E) [0] es files NewLzHeader 221 w1 cs (Datatypes.S k)) as (h' & w' & cs' & W1 & W2 & W3 & W4 & W5 & W6 & W7 & W8 & W9); auto; try reflexivity.
  { now apply intact_decodable. } { change (w_verify w1) with true. apply orb_true_r. }
  unfold bindIO at 1. rewrite W1, loop_end. cbn. exists w'. split; [reflexivity|]. split; [exact W5|]. rewrite W9, SO1. change (w_verify w1) with true. cbv iota. change (w_out w1) with (w_out w).
  clear. induction files as [|f files IH]; [apply app_nil_r|exact IH].
Qed.

(** An archive with an entry whose contents do not have the CRC in its header:
    status 1. *)
Theorem C78_test_damaged_partial :
  forall E fl w cs a es files e dir base data body more,
    asks_test a fl -> stored_at E a (archive_bytes (es ++ (e, data) :: more)) w -> after cs (w_glob w) -> bytes (archive_bytes (es ++ (e, data) :: more)) ->
    intact es files -> file_entry e -> named e dir base -> damaged e data body -> names_shrink 221 (es ++ (e, data) :: more) ->
    exists w', main E fl w = Done (1, []) w' /\ w_fs w' = w_fs w.
Proof.
  intros E fl w cs a es files e dir base data body more L S A B I FE ND [HO NC] NS. destruct (main_test E a fl w L) as (g & l & ID & SO & R); [apply S|]. rewrite R.
  pose proof (extract_opened _ _ _ _ (stored_generic E a _ w g true l S)) as X. unfold bindIO at 1. rewrite X.
  destruct (fuel_split es e data more) as [k ->]. rewrite archive_app in B |- *. set (w1 := set_wlha _ _).
  assert (ID1 : idle (w_lha w1)) by (apply idle_archive; exact ID). assert (SO1 : l_stdout (w_lha w1) = false) by exact SO. destruct ID1.
  destruct (names_shrink_app es (e, data) more 221 NS) as [NS1 NS2]. cbn [fst] in NS2.
  destruct (test_prefix (with_generic g E) (layout0 e ++ data ++ archive_bytes more) es files NewLzHeader 221 w1 cs (Datatypes.S k)) as (h' & w' & cs' & W1 & W2 & W3 & W4 & W5 & W6 & W7 & W8 & W9); auto; try reflexivity.
  { now apply intact_decodable. } { change (w_verify w1) with true. apply orb_true_r. }
  unfold bindIO at 1. rewrite W1. clear W1.
  apply Forall_app in B. destruct B as [_ B]. apply Forall_app in B. destruct B as [_ B].
  destruct (holds_decodable _ _ _ HO) as (method & MN & MD & MC & _ & P). cbn [with_crc e_method] in MN.
  destruct (P cs' (w_glob w') (archive_bytes more) W2 B) as [g2 D]. cbn [with_crc e_original e_packed e_crc] in D.
  cbn [extract_loop]. rewrite (fe_get (with_generic g E) e FE h'); [|lia|unfold zlen in *; lia]. istep. cbn [negb]. unfold everything at 1. rewrite bind_assoc, bind_get, bind_ret. unfold needFile. rewrite W7, id_filec. change (0 =? 0) with true. cbv iota.
  unfold one_file at 1.
  assert (V : w_verify w' = true) by (rewrite W8; reflexivity).
  rewrite <- id_broken in D. rewrite <- W7 in D.
  rewrite bind_assoc, (bindIO_done _ _ _ _ _ (extract_test (with_generic g E) h' e dir base method w' (data ++ archive_bytes more) g2 _ body (e_packed e) (archive_bytes more) FE ND MN MD ltac:(rewrite W7; assumption) ltac:(rewrite W7; assumption) ltac:(rewrite W7; assumption) ltac:(rewrite V; apply orb_true_r) D)).
  assert (NCb : (calcCrc 0 body =? e_crc e) = false) by (apply Z.eqb_neq; congruence). rewrite NCb, bind_ret. cbv beta iota zeta. cbn.
  eexists. split; [reflexivity|]. match goal with |- w_fs (printed ?l ?x) = _ => rewrite (proj1 (printed_same l x)) end. cbn [set_wglob w_fs].
  rewrite (proj1 (printed_same _ w')). exact W5.
Qed.

(** The claim that testing accepts an archive that is not damaged is false: an entry
    stored without compression fails, with the right CRC, unless it is empty. *)
Theorem C78_test_stored_refuted :
  forall E fl w cs a es files e dir base data more,
    asks_test a fl -> stored_at E a (archive_bytes (es ++ (e, data) :: more)) w -> after cs (w_glob w) -> bytes (archive_bytes (es ++ (e, data) :: more)) ->
    intact es files -> file_entry e -> named e dir base -> names_shrink 221 (es ++ (e, data) :: more) ->
    stored_method (e_method e) -> e_original e = zlen data -> e_packed e = zlen data -> e_crc e = calcCrc 0 data -> data <> [] ->
    exists w', main E fl w = Done (1, []) w' /\ w_fs w' = w_fs w.
Proof.
  intros E fl w cs a es files e dir base data more L S A B I FE ND NS HM EO EP EC NE. destruct (main_test E a fl w L) as (g & l & ID & SO & R); [apply S|]. rewrite R.
  pose proof (extract_opened _ _ _ _ (stored_generic E a _ w g true l S)) as X. unfold bindIO at 1. rewrite X.
  destruct (fuel_split es e data more) as [k ->]. rewrite archive_app in B |- *. set (w1 := set_wlha _ _).
  assert (ID1 : idle (w_lha w1)) by (apply idle_archive; exact ID). assert (SO1 : l_stdout (w_lha w1) = false) by exact SO. destruct ID1.
  destruct (names_shrink_app es (e, data) more 221 NS) as [NS1 NS2]. cbn [fst] in NS2.
  destruct (test_prefix (with_generic g E) (layout0 e ++ data ++ archive_bytes more) es files NewLzHeader 221 w1 cs (Datatypes.S k)) as (h' & w' & cs' & W1 & W2 & W3 & W4 & W5 & W6 & W7 & W8 & W9); auto; try reflexivity.
  { now apply intact_decodable. } { change (w_verify w1) with true. apply orb_true_r. }
  unfold bindIO at 1. rewrite W1. clear W1. destruct (stored_num _ HM) as (method & MN & DB & MD).
  assert (Z0 : 0 < zlen data) by (destruct data; [contradiction|rewrite zlen_cons; pose proof (zlen_nonneg data); lia]).
  assert (ZA : 0 < zlen (archive_bytes more)) by (rewrite archive_split, zlen_app; change (zlen [0]) with 1; pose proof (zlen_nonneg (entries_bytes more)); lia).
  destruct (copyfile_out (e_original e) (data ++ archive_bytes more)) as (out & junk & C1 & C2 & C3); [lia|].
  assert (D : forall b G, DecodeLzhuf method b (e_original e) (e_packed e) (data ++ archive_bytes more) G = Ok (G, 0, out, zlen (data ++ archive_bytes more), [])).
  { intros b G. unfold DecodeLzhuf. rewrite DB. change (0 =? 0) with true. cbv iota. rewrite C1. reflexivity. }
  cbn [extract_loop]. rewrite (fe_get (with_generic g E) e FE h'); [|lia|unfold zlen in *; lia]. istep. cbn [negb]. unfold everything at 1. rewrite bind_assoc, bind_get, bind_ret. unfold needFile. rewrite W7, id_filec. change (0 =? 0) with true. cbv iota.
  unfold one_file at 1. assert (V : w_verify w' = true) by (rewrite W8; reflexivity).
  rewrite bind_assoc, (bindIO_done _ _ _ _ _ (extract_test (with_generic g E) h' e dir base method w' (data ++ archive_bytes more) _ _ out _ [] FE ND MN MD ltac:(rewrite W7; assumption) ltac:(rewrite W7; assumption) ltac:(rewrite W7; assumption) ltac:(rewrite V; apply orb_true_r) (D _ _))).
  rewrite zlen_app. set (w2 := printed _ _).
  assert (F2 : w_fs w2 = w_fs w).
  { unfold w2. match goal with |- w_fs (printed ?x ?y) = _ => rewrite (proj1 (printed_same x y)) end. cbn [set_wglob w_fs]. rewrite (proj1 (printed_same _ w')). exact W5. }
  destruct (0 =? e_crc e).
  - rewrite bind_ret. cbv beta iota zeta. change (PackedSize (read0 h' e)) with (e_packed e). destruct (Z.eqb_spec (zlen data + zlen (archive_bytes more)) (e_packed e)); [lia|]. rewrite skip_nothing by lia.
    cbn. eexists. split; [reflexivity|exact F2].
  - rewrite bind_ret. cbv beta iota zeta. cbn. eexists. split; [reflexivity|exact F2].
Qed.

(** ** C79: an archive that cannot be opened *)

Lemma not_opened E a c w : file_path a -> w_fs w a = None \/ (w_fs w a = Some (NFile c) /\ e_readable E a = false) -> os_open E (w_fs w) a = None.
Proof.
  intros [P1 P2] H. unfold os_open, stat. rewrite (has_nul_notin _ P2). destruct a as [|x a]; [now destruct P1|]. unfold follow. cbn [resolve].
  destruct H as [H|[H1 H2]]; [rewrite H, H; reflexivity|rewrite H1, H1, H2; reflexivity].
Qed.

Theorem C79_unopened_archive_status :
  forall E fl w a c,
    asks_list a fl \/ asks_extract a fl \/ asks_print a fl \/ asks_test a fl -> file_path a ->
    w_fs w a = None \/ (w_fs w a = Some (NFile c) /\ e_readable E a = false) ->
    exists w', main E fl w = Done (1, []) w' /\ w_fs w' = w_fs w /\ w_ops w' = w_ops w /\ w_out w' = w_out w.
Proof.
  intros E fl w a c H P O. assert (NO := not_opened E a c w P O). assert (NE : a <> []) by apply P.
  assert (X : forall g v l, exists w', (err <~ CommandExtract (with_generic g E) a ;;; ret (if (err : bool) then 1 else 0, @nil hdr)) (started v l w) = Done (1, []) w' /\ w_fs w' = w_fs w /\ w_ops w' = w_ops w /\ w_out w' = w_out w).
  { intros g v l. unfold CommandExtract. rewrite bind_assoc, bind_modl. unfold open_archive. rewrite !bind_assoc, bind_get, !bind_assoc, bind_getl. cbn [w_fs w_lha set_wlha set_archive l_archive started set_wverify].
    change (os_open (with_generic g E) (w_fs w) a) with (os_open E (w_fs w) a). rewrite NO. cbn. eexists. split; [reflexivity|]. auto. }
  destruct H as [H|[H|[H|H]]].
  - destruct (main_list E a fl w H NE) as (l & _ & _ & R). rewrite R. unfold CommandList. rewrite bind_assoc, bind_modl, bind_assoc, bind_get, bind_assoc, bind_get.
    cbn [w_fs w_lha set_wlha started set_wverify]. change (os_open (with_generic false E) (w_fs w) a) with (os_open E (w_fs w) a). rewrite NO. cbn. eexists. split; [reflexivity|]. auto.
  - destruct (main_extract E a fl w H NE) as (l & _ & _ & R). rewrite R. apply X.
  - destruct (main_print E a fl w H NE) as (l & _ & _ & R). rewrite R. apply X.
  - destruct (main_test E a fl w H NE) as (g & l & _ & _ & R). rewrite R. apply X.
Qed.

(** ** The hypotheses can be met *)

(** The command line with the options -l, -e, -p and -t as given and the defaults for
    the others. *)
Definition ex_flags (l e p t : bool) : flags := FLAGS [98] l false e false false [] false [] t false false p 2 0 2 [].

Lemma ex_stored_at c : stored_at ex_env [98] c (ex_listing c).
Proof. constructor; try reflexivity. split; [discriminate|]. intros [X|[]]; discriminate X. Qed.

Lemma bytes_dec l : forallb (fun b => (0 <=? b) && (b <? 256)) l = true -> bytes l.
Proof. intros H. apply Forall_forall. intros x X. rewrite forallb_forall in H. specialize (H x X). apply andb_prop in H. destruct H as [H1 H2]. unfold is_byte. lia. Qed.

(** The four commands on the archive with the four entries of C66. *)
Example C75_example :
  asks_list [98] (ex_flags true false false false) /\ asks_extract [98] (ex_flags false true false false) /\
  asks_print [98] (ex_flags false false true false) /\ asks_test [98] (ex_flags false false false true) /\
  stored_at ex_env [98] (archive_bytes ex_mix_es) (ex_listing (archive_bytes ex_mix_es)) /\ after [] (w_glob (ex_listing (archive_bytes ex_mix_es))) /\
  bytes (archive_bytes ex_mix_es) /\ intact ex_mix_es ex_mix_files /\ NoDup (map fst ex_mix_files) /\ names_shrink 221 ex_mix_es /\
  (forall f, In f ex_mix_files -> w_fs (ex_listing (archive_bytes ex_mix_es)) (fst f) = None) /\
  Forall (fun x => file_entry (fst x)) ex_mix_es /\ sized ex_mix_es.
Proof.
  split; [constructor; reflexivity|]. split; [constructor; reflexivity|]. split; [constructor; reflexivity|]. split; [constructor; reflexivity|].
  split; [apply ex_stored_at|]. split; [split; [constructor|reflexivity]|]. split; [apply bytes_dec; vm_compute; reflexivity|].
  destruct C66_example as (X1 & X2 & X3 & _). split; [exact X1|]. split; [exact X3|]. split; [exact X2|].
  split. { intros f [<-|[<-|[<-|[<-|[]]]]]; reflexivity. }
  split. { clear -X1. induction X1 as [|x f es fs [H _] F IH]; constructor; assumption. }
  repeat constructor.
Qed.

(** An entry, one with a wrong CRC, and one more. *)
Example C78_example :
  let es := [(ex_lzs, ex_lzs_data)] ++ (ex_bad, ex_lh1_data) :: [] in
  intact [(ex_lzs, ex_lzs_data)] [([122], lzs_data ex_lzs_items)] /\ bytes (archive_bytes es) /\ file_entry ex_bad /\ named ex_bad [] [122] /\
  damaged ex_bad ex_lh1_data (lz_expand ex_lh1_items) /\ names_shrink 221 es.
Proof.
  destruct C69_example as (X1 & X2 & X3 & X4 & _). cbv zeta. split; [exact X1|]. split; [apply bytes_dec; vm_compute; reflexivity|].
  split; [exact X2|]. split; [exact X3|]. split; [exact X4|]. cbn. lia.
Qed.

(** An entry "abc", stored. *)
Example C78_stored_example :
  let es := [] ++ (ex_stored, [97; 98; 99]) :: [] in
  bytes (archive_bytes es) /\ intact [] [] /\ file_entry ex_stored /\ named ex_stored [] [122] /\ names_shrink 221 es /\ stored_method (e_method ex_stored) /\
  e_original ex_stored = 3 /\ e_packed ex_stored = 3 /\ e_crc ex_stored = calcCrc 0 [97; 98; 99].
Proof.
  destruct C19_example as (X1 & X2 & X3 & X4 & _). cbv zeta. split; [apply bytes_dec; vm_compute; reflexivity|]. split; [constructor|].
  split; [exact X1|]. split; [exact X2|]. split; [cbn; lia|]. split; [exact X3|]. repeat split.
Qed.

Example C79_example : file_path [98] /\ w_fs (ex_adder [] []) [98] = None.
Proof. split; [|reflexivity]. split; [discriminate|]. intros [X|[]]; discriminate X. Qed.

Print Assumptions C74_reading_commands_change_nothing.
Print Assumptions C75_list_command_partial.
Print Assumptions C76_extract_command_partial.
Print Assumptions C77_print_command_partial.
Print Assumptions C78_test_intact_partial.
Print Assumptions C78_test_damaged_partial.
Print Assumptions C78_test_stored_refuted.
Print Assumptions C79_unopened_archive_status.
