(** Properties of the command line program: making archives.  The command lines are
    described in S_Cli.v. *)
From Verif Require Import Go GoLemmas M_Crc M_Bitio P_Bitio M_Maketree M_Maketbl M_Huf M_Slide M_Larc M_Decode M_Lzhuf S_Bits S_Huff S_Lz S_Lh1 S_Larc P_Larc S_Header S_Listing M_Header M_Os M_Archive S_History S_Archive S_Add M_Cli S_Cli
  P_Header P_Accept P_List P_Os P_Backup P_RoundTrip P_Single P_Extract P_Read1 P_ExtractAll P_Verify P_Still P_Add P_AddFiles P_Cli P_CliAdd
  Properties_Slide Properties_Archive Properties_Extract Properties_Listing Properties_Larc Properties_Lh5 Properties_Lh1 Properties_Damage Properties_Stored Properties_Add Properties_Header Properties_Cli.

(** ** C80: what -c or -a puts into a new archive, -e takes out *)

(** The coder makes the contents shorter. *)
Definition shorter (method : Z) (g : glob) (body : list Z) : Prop :=
  body <> [] /\ exists eo, EncodeLzhuf method (zlen body) body g = Ok eo /\ eo_packed eo < eo_original eo.

Lemma packs_bytes e data body : packs e data body -> bytes data.
Proof.
  intros (m & cs & g & eo & Hm & B & NE & A & EN & LT & -> & _). destruct (C05_compressed_not_larger cs g m (zlen body) body eo) as (_ & _ & Y); auto; try lia; try apply zlen_nonneg.
Qed.

Lemma source_generic E g w l v name body : source E w name body -> source (with_generic g E) (started v l w) name body.
Proof. intros []. constructor; assumption. Qed.

Lemma single_bytes e data : legal0 e -> bytes data -> bytes (archive_bytes [(e, data)]).
Proof.
  intros L B. unfold archive_bytes. cbn [flat_map fst snd]. rewrite app_nil_r. apply Forall_app. split; [apply Forall_app; split; [now apply layout0_bytes|exact B]|].
  constructor; [unfold is_byte; lia|constructor].
Qed.

(** With headers of level 0 and -g 5, a file that the coder makes shorter. *)
Theorem C80_create_extract_partial :
  forall E fl w cs a file body,
    asks_add a file fl -> asked_level fl = 0 -> f_g fl = 5 -> asked_method fl = 5 \/ asked_method fl = 6 \/ asked_method fl = 7 /\ zlen body < 65536 ->
    creatable E a w -> file <> a -> source E w file body -> after cs (w_glob w) -> shorter (asked_method fl) (w_glob w) body ->
    exists w' c, main E fl w = Done (0, []) w' /\ w_fs w' a = Some (NFile c) /\ (forall q, q <> a -> q <> e_tmp E -> w_fs w' q = w_fs w q) /\
      forall E2 fl2 w2 cs2, asks_extract a fl2 -> stored_at E2 a c w2 -> after cs2 (w_glob w2) -> w_fs w2 (Base file) = None ->
        exists w3, main E2 fl2 w2 = Done (0, []) w3 /\ w_fs w3 (Base file) = Some (NFile body) /\ forall q, q <> Base file -> w_fs w3 q = w_fs w2 q.
Proof.
  intros E fl w cs a file body AD LV G5 HM CR NA S A (NE & eo & EN & LT). pose proof CR as [C1 C2 C3 C4 C5 C6 C7].
  assert (NF : file <> []) by apply (so_path _ _ _ _ S). destruct (main_add E a file fl w AD (proj1 C1) NF) as (l & AG & R). rewrite G5 in R. change (negb (5 =? 5)) with false in R.
  set (E' := with_generic false E) in R. set (w0 := started false l w) in R. pose proof AG as [L1 L2 L3 L4 L5 L6 L7 L8 L9 L10].
  assert (M : making E' a [file] w0).
  { constructor; [|exact C1|exact C2|exact C3|exact C4|split; [exact L1|exact L2]|exact (eq_trans L9 LV)|exact L4|exact L6|exact L5]. constructor; auto. }
  assert (SH : shrinks w0 body).
  { right. split; [exact NE|]. change (l_method (w_lha w0)) with (l_method l). rewrite L10. split; [exact HM|]. split; [exists cs; exact A|exists eo; auto]. }
  destruct (C35_only_first_with_contents_partial E' w0 a file body [] M L3 ltac:(intros [X|[]]; congruence) (source_generic _ _ _ _ _ _ _ S) SH ltac:(constructor)) as (w' & es & P1 & P2 & P3 & P4 & P5).
  inversion P3 as [|f0 x fs es' EF NO]; subst. inversion NO; subst. destruct x as [e data]. cbn [fst snd] in EF.
  exists w', (archive_bytes [(e, data)]). rewrite R. split; [rewrite (bindIO_done _ _ _ _ _ P1); reflexivity|]. split; [exact P2|]. split; [exact P5|].
  intros E2 fl2 w2 cs2 AE ST A2 NB. destruct EF as [FE EN' ET [PK|[Z _]]]; [|contradiction]. destruct (so_name _ _ _ _ S) as [NM NBs].
  destruct (C76_extract_command_partial E2 fl2 w2 cs2 a [(e, data)] [(Base file, body)]) as (w3 & X1 & X2 & X3); auto.
  - apply single_bytes; [apply FE|eapply packs_bytes; exact PK].
  - constructor; [|constructor]. cbn [fst snd]. split; [exact FE|]. split; [|now apply packs_holds]. exists []. constructor; [rewrite EN'; apply (base_slashes _ NM)|now left|].
    split; [exact NBs|]. intros I. destruct NM as [_ F]. rewrite Forall_forall in F. specialize (F 47 I). lia.
  - constructor; [intros []|constructor].
  - intros f [<-|[]]. exact NB.
  - cbn. destruct (l0_name _ (fe_legal _ FE)) as [X _]. split; [exact X|exact I].
  - exists w3. split; [exact X1|]. split; [exact (X2 _ (or_introl eq_refl))|]. intros q Q. apply X3. intros [X|[]]. now apply Q.
Qed.

(** The claim is false with the options at their defaults (-g 2, -h 2, no -o): the
    program reports success, and what it made crashes every command that reads it. *)
Lemma unreadable_first E fl a l rest w : (forall o h r, GetHeader o h (l ++ r) = Panic) -> stored_at E a (l ++ rest) w ->
  asks_list a fl \/ asks_extract a fl \/ asks_print a fl \/ asks_test a fl -> exists w', main E fl w = Crash w'.
Proof.
  intros P S H. assert (NE : a <> []) by apply S.
  assert (X : forall g v l0, exists w', (err <~ CommandExtract (with_generic g E) a ;;; ret (if (err : bool) then 1 else 0, @nil hdr)) (started v l0 w) = Crash w').
  { intros g v l0. unfold bindIO at 1. rewrite (extract_opened _ _ _ _ (stored_generic E a _ w g v l0 S)). cbn [extract_loop]. rewrite P. cbn. eauto. }
  destruct H as [H|[H|[H|H]]].
  - destruct (main_list E a fl w H NE) as (l0 & _ & _ & R). rewrite R. unfold CommandList. rewrite bind_assoc, bind_modl, bind_assoc, bind_get, bind_assoc, bind_get.
    pose proof S as [[P1 P2] S2 S3 S4]. apply has_nul_notin in P2. cbn [w_fs w_lha set_wlha started set_wverify].
    rewrite (open_file (with_generic false E) (w_fs w) a _ P1 P2 S2 S3). cbn [list_loop]. rewrite P. cbn. eauto.
  - destruct (main_extract E a fl w H NE) as (l0 & _ & _ & R). rewrite R. apply X.
  - destruct (main_print E a fl w H NE) as (l0 & _ & _ & R). rewrite R. apply X.
  - destruct (main_test E a fl w H NE) as (g & l0 & _ & _ & R). rewrite R. apply X.
Qed.

Lemma add_source E w name body l : source E w name body -> w_fs w (e_tmp E) = Some (NFile []) -> w_lha w = l -> l_filev l = [name] -> l_filec l = 1 -> l_exclude l = [] -> l_noexec l = false ->
  name <> l_archive l -> add_files (appendIt E) 1 0 None w = (_ <~ addOne E (initHeader E l (w_fs w) name (NFile body)) body ;;; ret None) w.
Proof.
  intros [[P1 P2] F R _ _ _] T WL L1 L2 L3 L4 NA. apply has_nul_notin in P2. cbn [add_files]. rewrite bind_get, WL, L1, L2, L3. change (0 <? 1) with true. change (nth_error [name] (Z.to_nat 0)) with (Some name). cbv iota.
  apply list_eqb_neq in NA. rewrite NA. 
  assert (LS : lstat (w_fs w) name = SNode (NFile body)) by (unfold lstat; rewrite P2, F; destruct name; [contradiction|reflexivity]).
  unfold appendIt. rewrite bind_assoc, bind_get, bind_assoc, bind_get, WL, LS, L4, (open_file E (w_fs w) name body P1 P2 F R).
  unfold append_new. rewrite bind_assoc, bind_getl, bind_assoc, bind_getl, bind_assoc, bind_getl, bind_assoc, bind_ret. rewrite WL, L4. cbn [orb]. rewrite bind_assoc. apply bind_ext. intros; reflexivity.
Qed.

Lemma source_small E w l name body : source E w name body -> (forall p, 0 <= e_perm E p < 512) -> l_level l = 2 -> small (initHeader E l (w_fs w) name (NFile body)).
Proof.
  intros [_ _ _ [[NL _] _] _ _] P L. unfold initHeader, initHeader_file. constructor; cbn [HeaderLevel Method Name Realname Group User UnixMode set_UnixMode set_UnixGid set_UnixUID set_Stamp set_ExtendType set_Crc set_Name set_HeaderLevel set_Attribute set_OriginalSize set_PackedSize set_Method].
  - rewrite L. reflexivity.
  - reflexivity.
  - assert (X : zlen (copy (Name NewLzHeader) (Base name)) <= zlen (Name NewLzHeader)). { unfold copy. cbv zeta. unfold take, drop, zlen. rewrite app_length, firstn_length, skipn_length. lia. }
    eapply Z.le_trans; [exact X|]. cbv. discriminate.
  - cbv. discriminate.
  - cbv. discriminate.
  - cbv. discriminate.
  - apply mode_plain. destruct (stat (w_fs w) name); try lia; apply P.
Qed.

(** The process that makes the archive, up to the adding of the file. *)
Lemma made_of E a file body fl w : asks_add a file fl -> creatable E a w -> file <> a -> source E w file body ->
  let E' := with_generic (negb (f_g fl =? 5)) E in exists l, adding fl file l /\
    main E fl w = (err <~ CommandAdd E' a ;;; ret (if (err : bool) then 1 else 0, [])) (started false l w) /\
    creatable E' a (started false l w) /\
    let w0 := made E' (started false l w) a in
    add_files (appendIt E') 1 0 None w0 = (_ <~ addOne E' (initHeader E' (w_lha w0) (w_fs w0) file (NFile body)) body ;;; ret None) w0 /\
    source E' w0 file body /\ w_fs w0 (e_tmp E') = Some (NFile []) /\ l_level (w_lha w0) = asked_level fl /\ (forall q, q <> e_tmp E -> w_fs w0 q = w_fs w q).
Proof.
  intros AD CR NA S E'. pose proof CR as [C1 C2 C3 C4 C5 C6 C7]. assert (NF : file <> []) by apply (so_path _ _ _ _ S). destruct (main_add E a file fl w AD (proj1 C1) NF) as (l & AG & R). pose proof AG as [L1 L2 L3 L4 L5 L6 L7 L8 L9 L10].
  exists l. split; [exact AG|]. split; [exact R|]. split; [constructor; assumption|]. intros w0.
  assert (FO : forall q, q <> e_tmp E -> w_fs w0 q = w_fs w q) by (intros q Q; unfold w0; cbn [made w_fs set_wlha]; now rewrite fs_set_other).
  assert (NT : file <> e_tmp E) by (intros X; pose proof (so_file _ _ _ _ S) as Y; rewrite X, C3 in Y; discriminate).
  assert (S0 : source E' w0 file body). { destruct S as [S1 S2 S3 S4 S5 S6]. constructor; try assumption. rewrite FO; assumption. }
  assert (T0 : w_fs w0 (e_tmp E') = Some (NFile [])) by apply fs_set_same.
  split; [|split; [exact S0|split; [exact T0|split; [exact L9|exact FO]]]].
  apply (add_source E' w0 file body (w_lha w0)); auto.
Qed.

Theorem C80_default_options_refuted :
  forall E fl w a file body status listed w',
    asks_add a file fl -> asked_level fl = 2 -> creatable E a w -> file <> a -> source E w file body ->
    main E fl w = Done (status, listed) w' ->
    status = 0 /\ exists c, w_fs w' a = Some (NFile c) /\
      forall E2 fl2 w2, stored_at E2 a c w2 -> asks_list a fl2 \/ asks_extract a fl2 \/ asks_print a fl2 \/ asks_test a fl2 -> exists w3, main E2 fl2 w2 = Crash w3.
Proof.
  intros E fl w a file body st ls w' AD LV CR NA S R. destruct (made_of E a file body fl w AD CR NA S) as (l & AG & M & CR' & AF & S0 & T0 & L0 & _). rewrite M in R. clear M.
  set (E' := with_generic _ E) in *. set (w0 := made E' (started false l w) a) in *. pose proof AG as [L1 L2 L3 L4 L5 L6 L7 L8 L9 L10].
  destruct (add_command_not E' (appendIt E') a (started false l w) file CR' L2 L4 L6 L1) as [N1 N2]. fold w0 in N1, N2.
  assert (SM := source_small E' w0 (w_lha w0) file body S0 (cr_perm _ _ _ CR') (eq_trans L0 LV)).
  set (h := initHeader E' (w_lha w0) (w_fs w0) file (NFile body)) in *.
  destruct (addOne E' h body w0) as [[] w1|w1|] eqn:A1.
  - destruct (addOne_small E' h body w0 w1 SM T0 A1) as (SB & l1 & rest & F1 & UN).
    assert (AF' : add_files (appendIt E') 1 0 None w0 = Done None w1) by (rewrite AF, (bindIO_done _ _ _ _ _ A1); reflexivity).
    destruct (add_command_new E' (appendIt E') a (started false l w) None w1 (l1 ++ rest) file CR' L2 L4 L6 L5 AF' SB F1 L1) as (w2 & X1 & _ & X3 & _).
    unfold CommandAdd in R. rewrite (bindIO_done _ _ _ _ _ X1) in R. injection R as <- <- <-. split; [reflexivity|]. exists ((l1 ++ rest) ++ [0]). split; [exact X3|].
    intros E2 fl2 w3 ST H. rewrite <- app_assoc in ST. eapply unreadable_first; eauto.
  - exfalso. unfold CommandAdd, bindIO in R. rewrite (N1 w1) in R; [discriminate R|]. rewrite AF. unfold bindIO. rewrite A1. reflexivity.
  - exfalso. unfold CommandAdd, bindIO in R. rewrite N2 in R; [discriminate R|]. rewrite AF. unfold bindIO. rewrite A1. reflexivity.
Qed.

(** With headers of level 1 the program crashes, makes no archive and leaves its
    temporary file behind. *)
Theorem C80_level1_refuted :
  forall E fl w a file body,
    asks_add a file fl -> asked_level fl = 1 -> creatable E a w -> file <> a -> source E w file body ->
    exists w', main E fl w = Crash w' /\ w_fs w' a = None /\ w_fs w' (e_tmp E) = Some (NFile []).
Proof.
  intros E fl w a file body AD LV CR NA S. destruct (made_of E a file body fl w AD CR NA S) as (l & AG & M & CR' & AF & S0 & T0 & L0 & FO). rewrite M. clear M.
  set (E' := with_generic _ E) in *. set (w0 := made E' (started false l w) a) in *. pose proof AG as [L1 L2 L3 L4 L5 L6 L7 L8 L9 L10].
  destruct (add_command_not E' (appendIt E') a (started false l w) file CR' L2 L4 L6 L1) as [N1 _]. fold w0 in N1. exists w0.
  split; [|split; [rewrite FO; [apply CR|intros X; exact (cr_diff _ _ _ CR (eq_sym X))]|exact T0]].
  unfold CommandAdd, bindIO at 1. rewrite (N1 w0); [reflexivity|]. rewrite AF.
  assert (SM := source_small E' w0 (set_level 2 (w_lha w0)) file body S0 (cr_perm _ _ _ CR') eq_refl). apply sm_mode in SM.
  change (UnixMode (initHeader E' (set_level 2 (w_lha w0)) (w_fs w0) file (NFile body))) with (UnixMode (initHeader E' (w_lha w0) (w_fs w0) file (NFile body))) in SM.
  assert (W : WriteHeader (e_opts E') (e_stamp E') (initHeader E' (w_lha w0) (w_fs w0) file (NFile body)) = Panic).
  { unfold WriteHeader. rewrite SM. change (HeaderLevel (initHeader E' (w_lha w0) (w_fs w0) file (NFile body))) with (u8 (l_level (w_lha w0))). rewrite L0, LV.
    change (u8 1 =? 0) with false. change (u8 1 =? 1) with true. cbv iota. rewrite writeLevel1_panics. reflexivity. }
  unfold addOne. rewrite W. reflexivity.
Qed.

(** ** C81: -d removes entries *)

(** The claim is false: nothing happens, and the status is 0. *)
Theorem C81_delete_command_refuted :
  forall E fl w a, asks_delete a fl -> a <> [] -> exists w', main E fl w = Done (0, []) w' /\ w_fs w' = w_fs w /\ w_out w' = w_out w.
Proof.
  intros E fl w a [A1 A2 A3 A4 A5 A6 A7 A8 A9] NE. unfold main. rewrite A1. destruct a as [|x a]; [contradiction|]. cbn [is_empty]. cbv zeta.
  unfold parseOption. rewrite A2, A3, A4, A5, A6, A7, A8, A9. set (c0 := set_cmd CmdDelete _).
  assert (X : c_cmd (sortFiles (parseSubOption fl c0)) = CmdDelete).
  { unfold sortFiles. destruct (l_sort _); [cbn [c_cmd set_clha]|]; rewrite (sw_cmd _ _ (sub_same fl c0)); reflexivity. }
  rewrite bind_modify. rewrite X. eexists. split; [reflexivity|]. split; reflexivity.
Qed.

(** ** C82: making or extending an archive leaves every other file alone *)

Definition kept_by (E : env) (a : path) (w w' : world) : Prop := forall q, q <> a -> q <> e_tmp E -> w_fs w' q = w_fs w q.

Theorem C82_adding_changes_only_the_archive :
  forall E fl w a file w', asks_add a file fl -> a <> [] -> file <> [] -> archiveIsMsdosSfx1 a = false -> final (main E fl w) = Some w' -> kept_by E a w w'.
Proof.
  intros E fl w a file w' AD NA NF SX F. destruct (main_add E a file fl w AD NA NF) as (l & AG & R). rewrite R in F.
  pose proof (calm_add (with_generic (negb (f_g fl =? 5)) E) a SX (started false l w) (ag_delete _ _ _ AG)) as X. unfold bindIO in F.
  destruct (CommandAdd _ a _) as [e w1|w1|]; cbn in F; try discriminate F; injection F as <-; destruct X as [_ X]; exact X.
Qed.

(** ** C83: -m moves the file into the archive *)

(** The claim is false: the file is still there, however the program ends. *)
Theorem C83_move_refuted :
  forall E fl w a file n w', asks_add a file fl -> f_m fl = true -> a <> [] -> file <> [] -> archiveIsMsdosSfx1 a = false ->
    file <> a -> file <> e_tmp E -> w_fs w file = Some n -> final (main E fl w) = Some w' -> w_fs w' file = Some n.
Proof.
  intros E fl w a file n w' AD _ NA NF SX D1 D2 S F. rewrite <- S. eapply C82_adding_changes_only_the_archive; eauto.
Qed.

(** ** C84: -e overwrites only after a question, and -f without one *)

Theorem C84_extract_keeps_files :
  forall E fl w a w', asks_extract a fl -> a <> [] -> Forall (fun answer => hd 0 answer <> 89) (w_stdin w) -> final (main E fl w) = Some w' ->
    forall p n, w_fs w p = Some n -> w_fs w' p = Some n.
Proof.
  intros E fl w a w' AE NE ST F p n P. destruct (main_extract E a fl w AE NE) as (l & [] & _ & R). rewrite R in F.
  assert (X : final (CommandExtract (with_generic false E) a (started false l w)) = Some w').
  { unfold bindIO in F. destruct (CommandExtract _ a _); cbn in F |- *; congruence. }
  apply (C49_existing_files_kept (with_generic false E) (started false l w) w'); auto. right. exists a. exact X.
Qed.

(** The second half is false: with -f nothing that exists is replaced either. *)
Theorem C84_force_refuted :
  forall E fl w a w', asks_extract a fl -> f_f fl = true -> a <> [] -> Forall (fun answer => hd 0 answer <> 89) (w_stdin w) -> final (main E fl w) = Some w' ->
    forall p n, w_fs w p = Some n -> w_fs w' p = Some n.
Proof. intros E fl w a w' AE _. now apply C84_extract_keeps_files. Qed.

(** ** C85: with -n nothing is written *)

(** The claim is false: -e -n extracts. *)
Theorem C85_not_execute_refuted :
  forall E fl w cs a es files, asks_extract a fl -> f_n fl = true ->
    stored_at E a (archive_bytes es) w -> after cs (w_glob w) -> bytes (archive_bytes es) -> intact es files ->
    NoDup (map fst files) -> (forall f, In f files -> w_fs w (fst f) = None) -> names_shrink 221 es ->
    exists w', main E fl w = Done (0, []) w' /\ forall f, In f files -> w_fs w' (fst f) = Some (NFile (snd f)).
Proof.
  intros E fl w cs a es files AE _ ST A B I ND NF NS. destruct (C76_extract_command_partial E fl w cs a es files AE ST A B I ND NF NS) as (w' & X & Y & _). eauto.
Qed.

(** ** C86: -a keeps the entries that are there *)

(** Bytes that are not the beginning of a header: the mark of the end of an archive, or
    a byte above 3 where the level of the header is. *)
Definition no_header_at (inp : list Z) : Prop :=
  hd_error inp = Some 0 \/ exists front level rest, inp = front ++ level :: rest /\ length front = 20%nat /\ 3 < level.

(** A temporary file can be made beside the existing archive [a]. *)
Record extendable (E : env) (a : path) (old : list Z) (w : world) : Prop := {
  ex_old : stored_at E a old w;
  ex_tmp : w_fs w (e_tmp E) = None;
  ex_nul : ~ In 0 (e_tmp E);
  ex_perm : forall p, 0 <= e_perm E p < 512;
  ex_now : 0 <= e_now E < 2 ^ 32
}.

Lemma no_header_read o h inp : no_header_at inp -> exists e h' r, GetHeader o h inp = Ok (e, false, h', r).
Proof.
  intros [H|(front & lv & rest & -> & L & V)].
  - destruct inp as [|b inp]; [discriminate H|]. injection H as ->. do 3 eexists. reflexivity.
  - destruct front as [|b front]; [discriminate L|]. cbn [app GetHeader]. destruct (b =? 0) eqn:B; [do 3 eexists; reflexivity|].
    do 19 (destruct front as [|? front]; [discriminate L|]). destruct front; [|discriminate L].
    change (readInto (b :: zeros (lzheaderStorage - 1)) 1 20 ([z; z0; z1; z2; z3; z4; z5; z6; z7; z8; z9; z10; z11; z12; z13; z14; z15; z16; z17] ++ lv :: rest))
      with ([z; z0; z1; z2; z3; z4; z5; z6; z7; z8; z9; z10; z11; z12; z13; z14; z15; z16; z17; lv], [b; z; z0; z1; z2; z3; z4; z5; z6; z7; z8; z9; z10; z11; z12; z13; z14; z15; z16; z17; lv] ++ drop 21 (b :: zeros (lzheaderStorage - 1)), drop 0 rest).
    set (t := drop 21 _). clearbody t. change (zlen [z; z0; z1; z2; z3; z4; z5; z6; z7; z8; z9; z10; z11; z12; z13; z14; z15; z16; z17; lv] =? 0) with false.
    cbv iota beta. change (getByte (_ ++ t) 20) with (@Ok (Z * Z) (lv, 21)). cbn [bind].
    replace (lv =? 0) with false by (symmetry; apply Z.eqb_neq; lia). replace (lv =? 1) with false by (symmetry; apply Z.eqb_neq; lia). replace (lv =? 2) with false by (symmetry; apply Z.eqb_neq; lia). replace (lv =? 3) with false by (symmetry; apply Z.eqb_neq; lia).
    cbv zeta. cbn [bind]. do 3 eexists. reflexivity.
Qed.

Lemma copy_none E n rest : no_header_at rest -> copy_rest E (S n) NewLzHeader rest = ret tt.
Proof. intros H. cbn [copy_rest]. destruct (no_header_read (e_opts E) NewLzHeader rest H) as (e & h & r & ->). reflexivity. Qed.

Lemma add_command_old E append a w old rest w1 c : extendable E a old w -> l_filec (w_lha w) = 1 -> l_update (w_lha w) = false -> l_noexec (w_lha w) = false -> l_delete (w_lha w) = false ->
  l_new (w_lha w) = false -> add_files append 1 0 (Some old) (made E w a) = Done (Some rest) w1 -> no_header_at rest -> same_but (e_tmp E) (made E w a) w1 -> w_fs w1 (e_tmp E) = Some (NFile c) ->
  exists w', add_command E append a w = Done false w' /\
    w_fs w' a = Some (NFile (c ++ [0])) /\ w_fs w' (e_tmp E) = None /\ (forall q, q <> a -> q <> e_tmp E -> w_fs w' q = w_fs w q).
Proof.
  intros [[[F0 F13] F10 RD SX] F11 U4 _ _] F8 F1 F2 F4 FN HA NH HS HC. apply has_nul_notin in F13. apply has_nul_notin in U4. set (tmp := e_tmp E) in *.
  assert (F12 : tmp <> a) by (intros X; rewrite X, F10 in F11; discriminate).
  unfold add_command. istep. istep.
  set (w0 := set_wlha (set_archive a (w_lha w)) w). set (l := w_lha w0).
  change (l_update l) with (l_update (w_lha w)). change (l_filec l) with (l_filec (w_lha w)). change (l_noexec l) with (l_noexec (w_lha w)). change (l_new l) with (l_new (w_lha w)).
  rewrite F1, F2, F8, FN. change (1 =? 0) with false. cbn [negb andb]. istep. cbv zeta.
  change (w_fs w0) with (w_fs w). rewrite (open_file E (w_fs w) a old) by assumption. rewrite SX. cbn [andb]. istep.
  unfold os_createtemp. istep. change (w_fs w0 (e_tmp E)) with (w_fs w (e_tmp E)). fold tmp. rewrite F11.
  rewrite bind_assoc. rewrite (bindIO_done (emit (OCreate tmp tmp)) _ w0 tt (made E w a) eq_refl). istep. cbn [negb]. istep.
  change (Z.to_nat 1) with 1%nat. rewrite (bindIO_done _ _ _ _ _ HA).
  rewrite (copy_none E _ rest NH). istep.
  destruct (append_run tmp [0] c w1 HC) as [w2 [R2 [S2 [G2 C2]]]]. rewrite (bindIO_done _ _ _ _ _ R2), bind_backup.
  pose proof (sb_trans _ _ _ _ HS S2) as S3.
  assert (A2 : w_fs w2 a = Some (NFile old)).
  { rewrite (sb_fs _ _ _ S3) by congruence. cbn [made w_fs set_wlha]. rewrite fs_set_other by (fold tmp; congruence). exact F10. }
  unfold os_rename. istep. rewrite U4, F13. cbn [orb]. rewrite C2, A2. rewrite bind_assoc.
  set (w3 := W (run_op (ORename tmp a) (w_fs w2)) (ORename tmp a :: w_ops w2) (w_glob w2) (w_verify w2) (w_stdin w2) (w_lha w2) (w_out w2)).
  rewrite (bindIO_done (emit (ORename tmp a)) _ w2 tt w3 eq_refl). istep. cbn [negb]. istep.
  assert (L3 : w_lha w3 = set_archive a (w_lha w)) by (cbn [w3 w_lha]; rewrite (sb_lha _ _ _ S3); reflexivity).
  rewrite L3. change (l_delete (set_archive a (w_lha w))) with (l_delete (w_lha w)). rewrite F4. istep.
  exists w3. split; [reflexivity|]. cbn [w3 w_fs run_op].
  split; [rewrite fs_set_other by congruence; rewrite fs_set_same; exact C2|]. split; [apply fs_set_same|].
  intros q Q1 Q2. rewrite !fs_set_other by assumption. rewrite (sb_fs _ _ _ S3) by assumption. cbn [made w_fs set_wlha]. fold tmp. now rewrite fs_set_other.
Qed.

Lemma add_source_old E w name body l old rest h0 : source E w name body -> w_lha w = l -> l_filev l = [name] -> l_filec l = 1 -> l_exclude l = [] -> l_noexec l = false -> l_sort l = true ->
  name <> l_archive l -> GetHeader (e_opts E) NewLzHeader old = Ok (ENil, true, h0, rest) ->
  add_files (appendIt E) 1 0 (Some old) w = (_ <~ addOne E (initHeader E l (w_fs w) name (NFile body)) body ;;; ret (Some rest)) w.
Proof.
  intros [[P1 P2] F R _ _ _] WL L1 L2 L3 L4 L5 NA GH. apply has_nul_notin in P2. cbn [add_files]. rewrite bind_get, WL, L1, L2, L3. change (0 <? 1) with true. change (nth_error [name] (Z.to_nat 0)) with (Some name). cbv iota.
  apply list_eqb_neq in NA. rewrite NA.
  assert (LS : lstat (w_fs w) name = SNode (NFile body)) by (unfold lstat; rewrite P2, F; destruct name; [contradiction|reflexivity]).
  unfold appendIt. rewrite bind_assoc, bind_get, bind_assoc, bind_get, WL, LS, L4, (open_file E (w_fs w) name body P1 P2 F R).
  unfold append_new. rewrite bind_assoc, bind_getl, bind_assoc, bind_getl, bind_assoc, bind_getl, WL, L4, L5. cbn [scan_old]. rewrite GH.
  rewrite !bind_assoc, bind_lift. cbn [negb].
  rewrite bind_ret, bind_ret. cbn [orb]. rewrite bind_assoc. apply bind_ext. intros; reflexivity.
Qed.

(** The claim is false.  Unless the data of the first entry, and what follows them,
    could be taken for the beginning of a header, the new archive holds the new file
    and nothing else.  Data of -lh5- and -lh6- that are one block of less than 256
    symbols begin with a zero byte. *)
Theorem C86_add_keeps_entries_refuted :
  forall E fl w cs a file body e data more,
    asks_add a file fl -> asked_level fl = 0 -> f_g fl = 5 -> asked_method fl = 5 \/ asked_method fl = 6 \/ asked_method fl = 7 /\ zlen body < 65536 ->
    file_entry e -> no_header_at (data ++ archive_bytes more) -> extendable E a (archive_bytes ((e, data) :: more)) w ->
    file <> a -> source E w file body -> after cs (w_glob w) -> shorter (asked_method fl) (w_glob w) body ->
    exists w' e' data', main E fl w = Done (0, []) w' /\ w_fs w' a = Some (NFile (archive_bytes [(e', data')])) /\ entry_for E file body e' data'.
Proof.
  intros E fl w cs a file body e data more AD LV G5 HM FE DT EX NA S A (NE & eo & EN & LT). pose proof EX as [ST C3 C5 C6 C7]. pose proof ST as [C1 C2 RD SX].
  assert (NF : file <> []) by apply (so_path _ _ _ _ S). destruct (main_add E a file fl w AD (proj1 C1) NF) as (l & AG & R). rewrite G5 in R. change (negb (5 =? 5)) with false in R.
  set (E' := with_generic false E) in R. pose proof AG as [L1 L2 L3 L4 L5 L6 L7 L8 L9 L10]. set (w0 := made E' (started false l w) a).
  assert (U : usual E') by (constructor; auto).
  assert (FO : forall q, q <> e_tmp E -> w_fs w0 q = w_fs w q) by (intros q Q; unfold w0; cbn [made w_fs set_wlha]; now rewrite fs_set_other).
  assert (NT : file <> e_tmp E) by (intros X; pose proof (so_file _ _ _ _ S) as Y; rewrite X, C3 in Y; discriminate).
  assert (S0 : source E' w0 file body). { destruct S as [S1 S2 S3 S4 S5 S6]. constructor; try assumption. rewrite FO; assumption. }
  assert (T0 : w_fs w0 (e_tmp E') = Some (NFile [])) by apply fs_set_same.
  assert (SH : shrinks w0 body). { right. split; [exact NE|]. change (l_method (w_lha w0)) with (l_method l). rewrite L10. split; [exact HM|]. split; [exists cs; exact A|exists eo; auto]. }
  destruct (append_first E' w0 file body U S0 L6 (eq_trans L9 LV) SH T0) as (e' & data' & w1 & R1 & R2 & R3 & R4 & _).
  assert (A1 : addOne E' (initHeader E' (w_lha w0) (w_fs w0) file (NFile body)) body w0 = Done tt w1).
  { pose proof (add_source E' w0 file body (w_lha w0) S0 T0 eq_refl L1 L2 L3 L6 NA) as X. pose proof (add_files_step (appendIt E') w0 file [] [] a w1 L3 L1 L2 eq_refl NA R1) as Y. change (add_files (appendIt E') 1 0 None w0 = Done None w1) in Y. rewrite Y in X.
    unfold bindIO, ret in X. destruct (addOne _ _ _ w0) as [[] w2|w2|]; congruence. }
  pose proof (fe_get_new E' e FE (data ++ flat_map (fun x => layout0 (fst x) ++ snd x) more ++ [0])) as GH. set (h0 := read0 NewLzHeader e) in GH.
  assert (OLD : archive_bytes ((e, data) :: more) = layout0 e ++ data ++ flat_map (fun x => layout0 (fst x) ++ snd x) more ++ [0]).
  { unfold archive_bytes. cbn [flat_map fst snd]. rewrite <- !app_assoc. reflexivity. }
  change (flat_map (fun x => layout0 (fst x) ++ snd x) more ++ [0]) with (archive_bytes more) in GH, OLD. set (r := data ++ archive_bytes more) in *.
  pose proof (add_source_old E' w0 file body (w_lha w0) _ _ h0 S0 eq_refl L1 L2 L3 L6 L8 NA GH) as AO. rewrite (bindIO_done _ _ _ _ _ A1) in AO.
  rewrite OLD in EX. assert (EX' : extendable E' a (layout0 e ++ r) (started false l w)). { destruct EX as [[] ]. constructor; auto. constructor; auto. }
  destruct (add_command_old E' (appendIt E') a (started false l w) _ r w1 _ EX' L2 L4 L6 L5 L7 AO DT R2 R3) as (w' & X1 & X2 & _).
  exists w', e', data'. rewrite R. unfold CommandAdd. rewrite (bindIO_done _ _ _ _ _ X1). split; [reflexivity|]. split; [|destruct R4; constructor; assumption].
  rewrite X2. unfold archive_bytes. cbn [flat_map fst snd]. rewrite app_nil_r. reflexivity.
Qed.

(** ** The theorems apply *)

Definition ex_adds (g o h : Z) (m f n : bool) : flags := FLAGS [98] false false false false false [] m [122] false n f false g o h [].

Lemma ex_asks g o h m f n : asks_add [98] [122] (ex_adds g o h m f n).
Proof. constructor; try reflexivity. left. split; reflexivity. Qed.

Lemma ex_creatable : creatable ex_env [98] (ex_adder [] []).
Proof.
  constructor; try reflexivity; try discriminate; try (cbn; lia); try (intros; cbn; lia).
  split; [discriminate|]. intros [X|[]]; discriminate X.
Qed.

Lemma ex_shorter : shorter 5 glob0 (repeat 0 100).
Proof. destruct (ex_shrinks [] []) as [X|(X & _ & _ & Y)]; [discriminate X|]. split; [exact X|exact Y]. Qed.

(** -c z -g 5 -h 0 for the file z of 100 zero bytes, and then -e. *)
Example C80_example :
  asks_add [98] [122] (ex_adds 5 0 0 false false false) /\ asked_level (ex_adds 5 0 0 false false false) = 0 /\ asked_method (ex_adds 5 0 0 false false false) = 5 /\
  creatable ex_env [98] (ex_adder [] []) /\ [122] <> [98] /\ source ex_env (ex_adder [] []) [122] (repeat 0 100) /\ after [] (w_glob (ex_adder [] [])) /\
  shorter 5 (w_glob (ex_adder [] [])) (repeat 0 100) /\
  (forall c, stored_at ex_env [98] c (ex_listing c) /\ after [] (w_glob (ex_listing c)) /\ w_fs (ex_listing c) (Base [122]) = None).
Proof.
  split; [apply ex_asks|]. split; [reflexivity|]. split; [reflexivity|]. split; [exact ex_creatable|]. split; [discriminate|].
  split; [apply ex_source; now left|]. split; [split; [constructor|reflexivity]|]. split; [exact ex_shorter|].
  intros c. split; [apply ex_stored_at|]. split; [split; [constructor|reflexivity]|reflexivity].
Qed.

(** The default options: the run ends, with the status 0. *)
Example C80_default_example :
  asked_level (ex_adds 2 0 2 false false false) = 2 /\
  (match main ex_env (ex_adds 2 0 2 false false false) (ex_adder [] []) with Done (0, []) w' => true | _ => false end) = true.
Proof. split; [reflexivity|]. vm_compute. reflexivity. Qed.

Example C80_level1_example : asked_level (ex_adds 2 0 1 false false false) = 1 /\ asked_level (ex_adds 1 0 2 false false false) = 1.
Proof. split; reflexivity. Qed.

Example C81_example : asks_delete [98] (FLAGS [98] false false false false true [] false [] false false false false 2 0 2 []).
Proof. constructor; reflexivity. Qed.

(** -c z -m: the run ends. *)
Example C83_example :
  asks_add [98] [122] (ex_adds 5 0 0 true false false) /\ f_m (ex_adds 5 0 0 true false false) = true /\ archiveIsMsdosSfx1 [98] = false /\
  w_fs (ex_adder [] []) [122] = Some (NFile (repeat 0 100)) /\ exists w', final (main ex_env (ex_adds 5 0 0 true false false) (ex_adder [] [])) = Some w'.
Proof.
  split; [apply ex_asks|]. split; [reflexivity|]. split; [reflexivity|]. split; [reflexivity|]. destruct C80_example as (_ & _ & _ & X1 & X2 & X3 & X4 & X5 & _).
  destruct (C80_create_extract_partial ex_env (ex_adds 5 0 0 true false false) (ex_adder [] []) [] [98] [122] (repeat 0 100) (ex_asks _ _ _ _ _ _)) as (w' & c & X & _); auto; try reflexivity; try (now left).
  exists w'. rewrite X. reflexivity.
Qed.

(** -e -f with the file z in the way, and -e -n on the archive with the entries of C66. *)
Example C84_example :
  asks_extract [98] (FLAGS [98] false false true false false [] false [] false true true false 2 0 2 []) /\ [98] <> [] /\
  Forall (fun answer => hd 0 answer <> 89) (w_stdin (ex_adder [] [])) /\ w_fs (ex_adder [] []) [122] = Some (NFile (repeat 0 100)) /\
  exists w', final (main ex_env (FLAGS [98] false false true false false [] false [] false true true false 2 0 2 []) (ex_adder [] [])) = Some w'.
Proof.
  split; [constructor; reflexivity|]. split; [discriminate|]. split; [constructor|]. split; [reflexivity|].
  assert (X : (match final (main ex_env (FLAGS [98] false false true false false [] false [] false true true false 2 0 2 []) (ex_adder [] [])) with Some _ => true | None => false end) = true) by (vm_compute; reflexivity).
  destruct (final _) as [w'|]; [eauto|discriminate X].
Qed.

Example C85_example :
  asks_extract [98] (FLAGS [98] false false true false false [] false [] false true true false 2 0 2 []) /\
  f_n (FLAGS [98] false false true false false [] false [] false true true false 2 0 2 []) = true /\ intact ex_mix_es ex_mix_files /\ ex_mix_files <> [].
Proof. split; [constructor; reflexivity|]. split; [reflexivity|]. split; [destruct C75_example as (_ & _ & _ & _ & _ & _ & _ & X & _); exact X|discriminate]. Qed.

(** The archive b holds a stored file of two bytes, 0 and 2. *)
Definition ex_both : world :=
  W (fun p => if list_eqb p [98] then Some (NFile (archive_bytes [(ex_short, [0; 2])])) else if list_eqb p [122] then Some (NFile (repeat 0 100)) else None) [] glob0 false [] (NewLha [98]) [].

Example C86_example :
  asks_add [98] [122] (ex_adds 5 0 0 false false false) /\ file_entry ex_short /\ no_header_at ([0; 2] ++ archive_bytes []) /\ sized [(ex_short, [0; 2])] /\
  extendable ex_env [98] (archive_bytes [(ex_short, [0; 2])]) ex_both /\ source ex_env ex_both [122] (repeat 0 100) /\ shorter 5 (w_glob ex_both) (repeat 0 100).
Proof.
  split; [apply ex_asks|]. split; [exact (proj1 C56_example)|]. split; [now left|]. split; [repeat constructor|].
  split; [constructor; try reflexivity; try (intros; cbn; lia); constructor; try reflexivity; split; [discriminate|intros [X|[]]; discriminate X]|].
  split; [|exact ex_shorter]. destruct (ex_source [] [] 122 (or_introl eq_refl)) as [X1 X2 X3 X4 X5 X6]. constructor; auto.
Qed.

(** Data of 30 bytes that are all 5 are not the beginning of a header either. *)
Example C86_data_example : forall more, no_header_at (repeat 5 30 ++ archive_bytes more).
Proof. intros more. right. exists (repeat 5 20), 5, (repeat 5 9 ++ archive_bytes more). split; [reflexivity|]. split; [reflexivity|lia]. Qed.

Print Assumptions C80_create_extract_partial.
Print Assumptions C80_default_options_refuted.
Print Assumptions C80_level1_refuted.
Print Assumptions C81_delete_command_refuted.
Print Assumptions C82_adding_changes_only_the_archive.
Print Assumptions C83_move_refuted.
Print Assumptions C84_extract_keeps_files.
Print Assumptions C84_force_refuted.
Print Assumptions C85_not_execute_refuted.
Print Assumptions C86_add_keeps_entries_refuted.
