(** Properties of the command line program: files that do not get shorter. *)
From Verif Require Import Go GoLemmas P_Bits S_Lh5 P_Lz M_Crc M_Bitio P_Bitio M_Maketree M_Maketbl M_Huf M_Slide M_Larc M_Decode M_Lzhuf S_Bits S_Huff S_Lz S_Lh1 S_Larc P_Larc S_Header S_Listing S_Level0 M_Header M_Os M_Archive S_History S_Archive S_AnyEntry S_Add M_Cli S_Cli
  P_Crc P_Header P_Accept P_List P_Os P_RoundTrip P_Single P_Extract P_Read1 P_ExtractAll P_Verify P_Still P_Add P_AddFiles P_Cli P_CliAdd P_Level0 P_AnyEntry P_Generic
  Properties_Slide Properties_Archive Properties_Extract Properties_Listing Properties_Larc Properties_Lh5 Properties_Lh1 Properties_Damage Properties_Stored Properties_Add Properties_Header Properties_Cli Properties_CliAdd Properties_Level0 Properties_Generic P_Lost.

(** ** C105: what -c or -a puts into a new archive is not lost if it does not get shorter *)

(** An archive that begins with the header of an empty stored entry, extracted without
    an answer Y: whatever follows, an empty file is there in the end. *)
Lemma empty_first E fl w w' a lay rest h base : asks_extract a fl -> stored_at E a (lay ++ rest) w -> (length lay > 0)%nat ->
  GetHeader (e_opts (with_generic false E)) NewLzHeader (lay ++ rest) = Ok (ENil, true, h, rest) -> PackedSize h = 0 ->
  (forall v, idle (w_lha v) -> l_stdout (w_lha v) = false -> w_verify v = false -> w_fs v base = None ->
    exists v', extractOne (with_generic false E) h rest v = Done (false, 0, h, rest) v' /\ w_fs v' base = Some (NFile []) /\ w_lha v' = w_lha v /\ w_stdin v' = w_stdin v) ->
  w_fs w base = None -> Forall (fun answer => hd 0 answer <> 89) (w_stdin w) -> final (main E fl w) = Some w' -> w_fs w' base = Some (NFile []).
Proof.
  intros AE ST LL GH P0 X NB SI F. assert (NE : a <> []) by apply ST. destruct (main_extract E a fl w AE NE) as (l & ID & SO & R). rewrite R in F. clear R.
  set (E' := with_generic false E) in *. assert (Y : final (CommandExtract E' a (started false l w)) = Some w').
  { unfold bindIO in F. destruct (CommandExtract _ a _); cbn in F |- *; congruence. }
  rewrite (extract_opened E' a _ _ (stored_generic E a _ w false false l ST)) in Y.
  assert (Z : final (extract_loop E' (S (length (lay ++ rest))) everything (one_file E') NewLzHeader (lay ++ rest) tt (set_wlha (set_archive a (w_lha (started false l w))) (started false l w))) = Some w').
  { unfold bindIO in Y. destruct (extract_loop _ _ _ _ _ _ _ _) as [[? ?] ?|?|]; cbn in Y |- *; congruence. }
  clear Y F. set (v := set_wlha (set_archive a (w_lha (started false l w))) (started false l w)) in *.
  assert (IV : idle (w_lha v)) by (apply (idle_archive a l), ID).
  destruct (X v IV SO eq_refl NB) as (v' & X1 & X2 & X3 & X4). cbn [extract_loop] in Z. rewrite GH in Z. rewrite bind_lift in Z. cbn [negb] in Z.
  unfold everything at 1 in Z. rewrite bind_assoc, bind_get, bind_ret in Z. unfold needFile in Z. rewrite (id_filec _ IV) in Z. change (0 =? 0) with true in Z. cbv iota in Z.
  unfold one_file at 1 in Z. rewrite bind_assoc, (bindIO_done _ _ _ _ _ X1), bind_ret in Z. cbv iota in Z. rewrite P0 in Z. change (0 =? 0) with true in Z. cbv iota in Z.
  assert (SV : safe v'). { split; [rewrite X3; apply IV|]. split; [rewrite X3; apply IV|]. rewrite X4. exact SI. }
  pose proof (h_loop E' everything (one_file E')) as HL.
  assert (H1 : forall h, hold (everything h)) by (intros h0; apply hold_same; intros; cbn; auto).
  specialize (HL H1 (fun h0 i b => h_file E' h0 i b) (length (lay ++ rest)) h rest tt v' SV). unfold hold_at in HL.
  destruct (extract_loop E' (length (lay ++ rest)) everything (one_file E') h rest tt v'); cbn [final] in Z; try discriminate; injection Z as ->; now apply HL.
Qed.

Lemma lh0_num : method_num [45; 108; 104; 48; 45] = Some 0 /\ 0 <> LzhdirsMethodNum.
Proof. split; [reflexivity|discriminate]. Qed.

Lemma decode_nothing broken inp g : DecodeLzhuf 0 broken 0 0 inp g = Ok (g, 0, [], 0, inp).
Proof. reflexivity. Qed.

(** The claim is false: every file of at most 8448 bytes that the coder does not make
    shorter is put into the archive as an empty one, and the program reports success.
    Whatever happens when the archive is extracted, the file is empty (as long as the
    user does not allow it to be overwritten). *)
Theorem C105_incompressible_refuted :
  forall E fl w cs a file body eo,
    asks_add a file fl -> asked_level fl = 0 -> asked_method fl = 5 \/ asked_method fl = 6 \/ asked_method fl = 7 ->
    creatable E a w -> file <> a -> source E w file body -> after cs (w_glob w) ->
    body <> [] -> zlen body <= 8448 -> EncodeLzhuf (asked_method fl) (zlen body) body (w_glob w) = Ok eo -> eo_original eo <= eo_packed eo ->
    exists w' c, main E fl w = Done (0, []) w' /\ w_fs w' a = Some (NFile c) /\ (forall q, q <> a -> q <> e_tmp E -> w_fs w' q = w_fs w q) /\
      forall E2 fl2 w2 w3, asks_extract a fl2 -> stored_at E2 a c w2 -> w_fs w2 (Base file) = None ->
        Forall (fun answer => hd 0 answer <> 89) (w_stdin w2) -> final (main E2 fl2 w2) = Some w3 -> w_fs w3 (Base file) = Some (NFile []).
Proof.
  intros E fl w cs a file body eo AD LV Hm CR NA S A NE LE HE Hge.
  destruct (lost_made E fl w cs a file body eo AD LV Hm CR NA S A NE HE Hge) as (w' & h & out & R & C & K & P & MD & _ & RN & BO). destruct (RN LE) as [R0 ->].
  rewrite R0 in *. change (zlen (@nil Z)) with 0 in *. cbn [app] in C.
  eexists w', _. split; [exact R|]. split; [exact C|]. split; [exact K|]. intros E2 fl2 w2 w3 AE ST NB SI F. clear C K R.
  destruct (so_name _ _ _ _ S) as [EN NBs]. destruct lh0_num as [MN MD0]. set (hh := stored_hdr h 0 0) in *.
  assert (NS : Forall (fun c => c <> 47) (Base file)). { destruct EN as [_ F0]. eapply Forall_impl; [|exact F0]. cbv beta. lia. }
  destruct (base_slashes _ EN) as [BS1 BS2].
  unfold header0 in ST. destruct (GenericFormat _) eqn:G.
  - set (e := entry_gen (e_stamp (with_generic (negb (f_g fl =? 5)) E)) hh (Base file)) in *.
    assert (FE : file_entryl e).
    { constructor; [now apply gen_legal| |reflexivity|intros s t X; discriminate X]. unfold e. cbn [entry_gen y_name]. rewrite BS2. intros I. destruct EN as [_ F0]. rewrite Forall_forall in F0. specialize (F0 0 I). lia. }
    assert (ND : named (as_unix e) [] (Base file)). { constructor; [cbn [as_unix e e_name entry_gen y_name]; rewrite BS2; exact BS1|now left|]. split; [exact NBs|]. intros I. rewrite Forall_forall in NS. now apply (NS 47). }
    assert (PT : plain_type (ExtendType NewLzHeader)) by (repeat split; discriminate).
    eapply (empty_first E2 fl2 w2 w3 a (layoutl e) _ (readl NewLzHeader e) (Base file) AE ST); auto.
    + unfold layoutl. cbn [length]. lia.
    + apply fl_get; auto; [change (zlen (Method NewLzHeader)) with 5; lia|]. change (zlen (Name NewLzHeader)) with 1024. destruct (ll_name _ (fl_legal _ FE)) as [X _]. unfold zlen. lia.
    + intros v IV SO VV NF. destruct (extract_file_l (with_generic false E2) NewLzHeader e FE PT [] (Base file) ND 0 MN MD0 v (eo_out eo ++ [0]) (w_glob v) 0 [] 0 (eo_out eo ++ [0])) as (v' & X1 & X2 & _ & X4 & _ & _ & X7); try apply IV; auto; try reflexivity.
      exists v'. auto.
  - set (e := entry_of (e_stamp (with_generic (negb (f_g fl =? 5)) E)) hh (Base file)) in *.
    assert (FE : file_entry e).
    { constructor; [now apply plain_legal| |exact MD]. unfold e. cbn [entry_of e_name]. rewrite BS2. intros I. destruct EN as [_ F0]. rewrite Forall_forall in F0. specialize (F0 0 I). lia. }
    assert (ND : named e [] (Base file)). { constructor; [cbn [e e_name entry_of]; rewrite BS2; exact BS1|now left|]. split; [exact NBs|]. intros I. rewrite Forall_forall in NS. now apply (NS 47). }
    eapply (empty_first E2 fl2 w2 w3 a (layout0 e) _ (read0 NewLzHeader e) (Base file) AE ST); auto.
    + unfold layout0. cbn [length]. lia.
    + now apply fe_get_new.
    + intros v IV SO VV NF. destruct (extract_file_any (with_generic false E2) NewLzHeader e FE [] (Base file) ND 0 MN MD0 v (eo_out eo ++ [0]) (w_glob v) 0 [] 0 (eo_out eo ++ [0])) as (v' & X1 & X2 & _ & X4 & _ & _ & X7); try apply IV; auto; try reflexivity.
      exists v'. auto.
Qed.

(** One byte, 65, in the file z: it does not get shorter, and both runs end, the second one
    with the status 0. *)
Definition ex_single : world := W (fun p => if list_eqb p [122] then Some (NFile [65]) else None) [] glob0 false [] (NewLha [98]) [].

Example C105_example :
  asks_add [98] [122] (ex_adds 5 0 0 false false false) /\ asked_level (ex_adds 5 0 0 false false false) = 0 /\ asked_method (ex_adds 5 0 0 false false false) = 5 /\
  creatable ex_env [98] ex_single /\ [122] <> [98] /\ source ex_env ex_single [122] [65] /\ after [] (w_glob ex_single) /\
  (exists eo, EncodeLzhuf 5 (zlen [65]) [65] (w_glob ex_single) = Ok eo /\ eo_original eo <= eo_packed eo) /\
  match main ex_env (ex_adds 5 0 0 false false false) ex_single with
  | Done (0, []) w => match w_fs w [98] with
      | Some (NFile c) => match main ex_env (FLAGS [98] false false true false false [] false [] false false false false 2 0 2 []) (ex_listing c) with Done (0, []) w2 => match w_fs w2 [122] with Some (NFile []) => True | _ => False end | _ => False end
      | _ => False end
  | _ => False
  end.
Proof.
  split; [apply ex_asks|]. split; [reflexivity|]. split; [reflexivity|].
  split. { constructor; try reflexivity; try discriminate; try (cbn; lia); try (intros; cbn; lia). split; [discriminate|]. intros [X|[]]; discriminate X. }
  split; [discriminate|]. split. { destruct (ex_source [] [] 122 (or_introl eq_refl)) as [X1 X2 X3 X4 X5 X6]. constructor; auto. all: try reflexivity. all: repeat constructor; cbn; lia. }
  split; [split; [constructor|reflexivity]|]. split; [destruct C18_example as (eo & X1 & X2 & _); exists eo; split; [exact X1|exact X2]|].
  vm_compute. exact I.
Qed.

Print Assumptions C105_incompressible_refuted.
