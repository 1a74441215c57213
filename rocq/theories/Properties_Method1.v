(** Properties of the command line program: the methods -o 1 to -o 4. *)
From Verif Require Import Go GoLemmas P_Bits S_Lh5 P_Lz M_Crc M_Bitio P_Bitio M_Maketree M_Maketbl M_Huf M_Slide M_Larc M_Decode M_Lzhuf S_Bits S_Huff S_Lz S_Lh1 S_Larc P_Larc S_Header S_Listing S_Level0 M_Header M_Os M_Archive S_History S_Archive S_AnyEntry S_Add M_Cli S_Cli
  P_Crc P_Header P_Accept P_List P_Os P_RoundTrip P_Single P_Extract P_Read1 P_ExtractAll P_Verify P_Still P_Add P_AddFiles P_Cli P_CliAdd P_Level0 P_AnyEntry P_Generic
  Properties_Slide Properties_Archive Properties_Extract Properties_Listing Properties_Larc Properties_Lh5 Properties_Lh1 Properties_Damage Properties_Stored Properties_Add Properties_Header Properties_Cli Properties_CliAdd Properties_Level0 Properties_Generic P_Lost Properties_Lost.

(** ** C109: what -c or -a makes with -o 1, -e takes out *)

(** What lharc -c or -a makes of a file that gets shorter, whatever the method. *)
Lemma packed_made E fl w a file body eo :
  asks_add a file fl -> asked_level fl = 0 -> creatable E a w -> file <> a -> source E w file body ->
  body <> [] -> EncodeLzhuf (asked_method fl) (zlen body) body (w_glob w) = Ok eo -> eo_packed eo < eo_original eo ->
  0 <= eo_packed eo < 2 ^ 32 -> 0 <= eo_original eo < 2 ^ 32 -> 0 <= eo_crc eo < 2 ^ 16 -> 0 <= eo_method eo < 256 ->
  exists w' h, main E fl w = Done (0, []) w' /\
    w_fs w' a = Some (NFile (header0 (with_generic (negb (f_g fl =? 5)) E) (packed_hdr h eo) (Base file) ++ eo_out eo ++ [0])) /\
    (forall q, q <> a -> q <> e_tmp E -> w_fs w' q = w_fs w q) /\
    plain (packed_hdr h eo) (Base file) /\ Z.land (UnixMode h) 61440 = 32768.
Proof.
  intros AD LV CR NA S NE HE Hlt B1 B2 B3 B4. destruct (made_of E a file body fl w AD CR NA S) as (l & AG & M & CR' & AF & S0 & T0 & L0 & FO). rewrite M. clear M.
  set (E' := with_generic (negb (f_g fl =? 5)) E) in *. set (w0 := made E' (started false l w) a) in *. pose proof AG as [L1 L2 L3 L4 L5 L6 L7 L8 L9 L10].
  set (h := initHeader E' (w_lha w0) (w_fs w0) file (NFile body)) in *.
  pose proof S0 as [_ _ _ [NM NB] TM [HB HL]].
  assert (P : plain h (Base file)).
  { destruct NM as [N1 N2]. apply initHeader_plain; [apply CR|rewrite L0; exact LV|split; assumption| |exact TM]. pose proof (zlen_nonneg body). lia. }
  assert (MT : l_method (w_lha w0) = asked_method fl) by exact L10.
  assert (Zb : 0 < zlen body) by (destruct body as [|x b]; [contradiction|rewrite zlen_cons; pose proof (zlen_nonneg b); lia]).
  assert (P' : plain (packed_hdr h eo) (Base file)) by (apply plain_packed; assumption).
  assert (NZ : OriginalSize h <> 0) by (change (zlen body <> 0); lia).
  assert (HE' : EncodeLzhuf (l_method (w_lha w0)) (OriginalSize h) body (w_glob w0) = Ok eo) by (rewrite MT; exact HE).
  assert (AO : exists w2, addOne E' h body w0 = Done tt w2 /\ same_but (e_tmp E') w0 w2 /\ w_fs w2 (e_tmp E') = Some (NFile (header0 E' (packed_hdr h eo) (Base file) ++ eo_out eo))).
  { unfold header0. destruct (GenericFormat (e_opts E')) eqn:G.
    - destruct (gen_packed E' G eq_refl h (Base file) body [] w0 eo P NZ T0 HE' Hlt P') as (w2 & X1 & X2 & _ & X4). exists w2. split; [exact X1|]. split; [exact X2|].
      cbn [app] in X4. rewrite (gen_overwrite E') in X4 by assumption. exact X4.
    - destruct (addOne_packed E' G h (Base file) body [] w0 eo P NZ T0 HE' Hlt P') as (w2 & X1 & X2 & _ & X4). exists w2. split; [exact X1|]. split; [exact X2|].
      cbn [app] in X4. rewrite (overwrite_header E') in X4 by assumption. exact X4. }
  destruct AO as (w2 & R1 & R2 & R4).
  assert (AF' : add_files (appendIt E') 1 0 None w0 = Done None w2) by (rewrite AF, (bindIO_done _ _ _ _ _ R1); reflexivity).
  destruct (add_command_new E' (appendIt E') a (started false l w) None w2 _ file CR' L2 L4 L6 L5 AF' R2 R4 L1) as (w3 & Y1 & _ & Y3 & _ & Y5).
  exists w3, h. split; [unfold CommandAdd; rewrite (bindIO_done _ _ _ _ _ Y1); reflexivity|].
  split; [rewrite Y3, <- !app_assoc; reflexivity|]. split; [exact Y5|]. split; [exact P'|].
  unfold h, initHeader, initHeader_file. cbn [UnixMode set_UnixMode]. apply mode_plain. destruct (stat (w_fs w0) file); try lia; apply CR.
Qed.

(** An archive of one entry. *)
Lemma one_first E fl w a lay data h base n out : asks_extract a fl -> stored_at E a (lay ++ data ++ [0]) w -> (length lay > 0)%nat ->
  GetHeader (e_opts (with_generic false E)) NewLzHeader (lay ++ data ++ [0]) = Ok (ENil, true, h, data ++ [0]) -> PackedSize h = n ->
  (forall v, idle (w_lha v) -> l_stdout (w_lha v) = false -> w_verify v = false -> w_fs v base = None -> w_glob v = w_glob w ->
    exists v', extractOne (with_generic false E) h (data ++ [0]) v = Done (false, n, h, [0]) v' /\ w_fs v' base = Some (NFile out) /\ (forall q, q <> base -> w_fs v' q = w_fs v q)) ->
  w_fs w base = None ->
  exists w', main E fl w = Done (0, []) w' /\ w_fs w' base = Some (NFile out) /\ (forall q, q <> base -> w_fs w' q = w_fs w q).
Proof.
  intros AE ST LL GH P0 X NB. assert (NE : a <> []) by apply ST. destruct (main_extract E a fl w AE NE) as (l & ID & SO & R). rewrite R. clear R.
  pose proof (extract_opened _ _ _ _ (stored_generic E a _ w false false l ST)) as Y. unfold bindIO at 1. rewrite Y. clear Y.
  set (E' := with_generic false E) in *. set (v := set_wlha _ _).
  assert (IV : idle (w_lha v)) by (apply idle_archive; exact ID).
  destruct (X v IV SO eq_refl NB eq_refl) as (v' & X1 & X2 & X3).
  assert (LP : exists k, length (lay ++ data ++ [0]) = Datatypes.S k) by (rewrite !app_length; destruct lay; [cbn in LL; lia|]; cbn [length Nat.add]; eauto).
  destruct LP as [k ->].
  assert (Z : extract_loop E' (Datatypes.S (Datatypes.S k)) everything (one_file E') NewLzHeader (lay ++ data ++ [0]) tt v = Done (tt, false) v').
  { cbn [extract_loop]. rewrite GH. rewrite bind_lift. cbn [negb].
    unfold everything at 1. rewrite bind_assoc, bind_get, bind_ret. unfold needFile. rewrite (id_filec _ IV). change (0 =? 0) with true. cbv iota.
    unfold one_file at 1. rewrite bind_assoc, (bindIO_done _ _ _ _ _ X1), bind_ret. cbv iota. rewrite P0, Z.eqb_refl. cbv iota.
    change (GetHeader (e_opts E') h [0]) with (@Ok lev_res (ENil, false, h, [])). rewrite bind_lift. reflexivity. }
  unfold bindIO at 1. rewrite Z. exists v'. split; [reflexivity|]. split; [exact X2|exact X3].
Qed.

(** Whatever the method: the file that -e makes of such an archive consists of what the
    decoder makes of the data the coder wrote. *)
Lemma made_taken E fl w a file body eo :
  asks_add a file fl -> asked_level fl = 0 -> creatable E a w -> file <> a -> source E w file body ->
  body <> [] -> EncodeLzhuf (asked_method fl) (zlen body) body (w_glob w) = Ok eo -> eo_packed eo < eo_original eo ->
  0 <= eo_packed eo < 2 ^ 32 -> 0 <= eo_original eo < 2 ^ 32 -> 0 <= eo_crc eo < 2 ^ 16 -> eo_method eo = 49 ->
  exists w' c, main E fl w = Done (0, []) w' /\ w_fs w' a = Some (NFile c) /\ (forall q, q <> a -> q <> e_tmp E -> w_fs w' q = w_fs w q) /\
    forall E2 fl2 w2 g2 crc out, asks_extract a fl2 -> stored_at E2 a c w2 -> w_fs w2 (Base file) = None ->
      DecodeLzhuf 1 false (eo_original eo) (eo_packed eo) (eo_out eo ++ [0]) (w_glob w2) = Ok (g2, crc, out, eo_packed eo, [0]) ->
      exists w3, main E2 fl2 w2 = Done (0, []) w3 /\ w_fs w3 (Base file) = Some (NFile out) /\ forall q, q <> Base file -> w_fs w3 q = w_fs w2 q.
Proof.
  intros AD LV CR NA S NE HE Hlt B1 B2 B3 B4.
  destruct (packed_made E fl w a file body eo AD LV CR NA S NE HE Hlt B1 B2 B3 ltac:(lia)) as (w' & h & R & C & K & P & MD).
  eexists w', _. split; [exact R|]. split; [exact C|]. split; [exact K|]. intros E2 fl2 w2 g2 crc out AE ST NB D. clear C K R.
  destruct (so_name _ _ _ _ S) as [EN NBs]. set (hh := packed_hdr h eo) in *.
  assert (MN : method_num (Method hh) = Some 1) by (change (Method hh) with (meth 104 (eo_method eo)); rewrite B4; reflexivity).
  assert (MD0 : 1 <> LzhdirsMethodNum) by discriminate.
  assert (NS : Forall (fun c => c <> 47) (Base file)). { destruct EN as [_ F0]. eapply Forall_impl; [|exact F0]. cbv beta. lia. }
  destruct (base_slashes _ EN) as [BS1 BS2].
  unfold header0 in ST. destruct (GenericFormat _) eqn:G.
  - set (e := entry_gen (e_stamp (with_generic (negb (f_g fl =? 5)) E)) hh (Base file)) in *.
    assert (FE : file_entryl e).
    { constructor; [now apply gen_legal| |reflexivity|intros s t X; discriminate X]. unfold e. cbn [entry_gen y_name]. rewrite BS2. intros I. destruct EN as [_ F0]. rewrite Forall_forall in F0. specialize (F0 0 I). lia. }
    assert (ND : named (as_unix e) [] (Base file)). { constructor; [cbn [as_unix e e_name entry_gen y_name]; rewrite BS2; exact BS1|now left|]. split; [exact NBs|]. intros I. rewrite Forall_forall in NS. now apply (NS 47). }
    assert (PT : plain_type (ExtendType NewLzHeader)) by (repeat split; discriminate).
    apply (one_first E2 fl2 w2 a (layoutl e) (eo_out eo) (readl NewLzHeader e) (Base file) (eo_packed eo) out AE ST); auto.
    + unfold layoutl. cbn [length]. lia.
    + apply fl_get; auto; [change (zlen (Method NewLzHeader)) with 5; lia|]. change (zlen (Name NewLzHeader)) with 1024. destruct (ll_name _ (fl_legal _ FE)) as [X _]. unfold zlen. lia.
    + intros v IV SO VV NF GV. destruct (extract_file_l (with_generic false E2) NewLzHeader e FE PT [] (Base file) ND 1 MN MD0 v (eo_out eo ++ [0]) g2 crc out (eo_packed eo) [0]) as (v' & X1 & X2 & X3 & _); try apply IV; auto.
      { rewrite (id_broken _ IV), GV. exact D. } exists v'. auto.
  - set (e := entry_of (e_stamp (with_generic (negb (f_g fl =? 5)) E)) hh (Base file)) in *.
    assert (FE : file_entry e).
    { constructor; [now apply plain_legal| |exact MD]. unfold e. cbn [entry_of e_name]. rewrite BS2. intros I. destruct EN as [_ F0]. rewrite Forall_forall in F0. specialize (F0 0 I). lia. }
    assert (ND : named e [] (Base file)). { constructor; [cbn [e e_name entry_of]; rewrite BS2; exact BS1|now left|]. split; [exact NBs|]. intros I. rewrite Forall_forall in NS. now apply (NS 47). }
    apply (one_first E2 fl2 w2 a (layout0 e) (eo_out eo) (read0 NewLzHeader e) (Base file) (eo_packed eo) out AE ST); auto.
    + unfold layout0. cbn [length]. lia.
    + now apply fe_get_new.
    + intros v IV SO VV NF GV. destruct (extract_file_any (with_generic false E2) NewLzHeader e FE [] (Base file) ND 1 MN MD0 v (eo_out eo ++ [0]) g2 crc out (eo_packed eo) [0]) as (v' & X1 & X2 & X3 & _); try apply IV; auto.
      { rewrite (id_broken _ IV), GV. exact D. } exists v'. auto.
Qed.

(** A hundred zero bytes with the method 1, in a new process: the coder writes data of the
    form of the later methods, without distances, under the name -lh1-. *)
Definition zeros100 : list Z := repeat 0 100.
Definition method1_state : bool :=
  match EncodeLzhuf 1 (zlen zeros100) zeros100 glob0 with
  | Ok eo => (eo_packed eo =? 11) && (eo_original eo =? 100) && (0 <=? eo_crc eo) && (eo_crc eo <? 65536) && (eo_method eo =? 49) &&
      match DecodeLzhuf 1 false (eo_original eo) (eo_packed eo) (eo_out eo ++ [0]) glob0 with
      | Ok (_, _, out, n, rest) => negb (list_eqb out zeros100) && (n =? eo_packed eo) && list_eqb rest [0]
      | _ => false
      end
  | _ => false
  end.

(** The claim is false: with -o 1 to -o 4 (and any other -o but 0, 5, 6 and 7) a file of a
    hundred zero bytes is put into the archive, the program reports success, -e reports
    success as well, and the file it makes has other contents. *)
Theorem C109_method1_refuted :
  forall E fl w a file,
    asks_add a file fl -> ~ In (f_o fl) [0; 5; 6; 7] -> creatable E a w -> file <> a -> source E w file zeros100 -> w_glob w = glob0 ->
    exists w' c, main E fl w = Done (0, []) w' /\ w_fs w' a = Some (NFile c) /\ (forall q, q <> a -> q <> e_tmp E -> w_fs w' q = w_fs w q) /\
      forall E2 fl2 w2, asks_extract a fl2 -> stored_at E2 a c w2 -> w_fs w2 (Base file) = None -> w_glob w2 = glob0 ->
        exists w3 out, main E2 fl2 w2 = Done (0, []) w3 /\ w_fs w3 (Base file) = Some (NFile out) /\ out <> zeros100.
Proof.
  intros E fl w a file AD O CR NA S G0.
  assert (N : f_o fl <> 0 /\ f_o fl <> 5 /\ f_o fl <> 6 /\ f_o fl <> 7) by (repeat split; intros X; apply O; rewrite X; cbn; tauto).
  destruct N as (N0 & N5 & N6 & N7). apply Z.eqb_neq in N0, N5, N6, N7.
  assert (AM : asked_method fl = 1) by (unfold asked_method; rewrite N0, N5, N6, N7; reflexivity).
  assert (AL : asked_level fl = 0) by (unfold asked_level; rewrite N0, N5, N6, N7; reflexivity).
  assert (X : method1_state = true) by (vm_compute; reflexivity). unfold method1_state in X.
  destruct (EncodeLzhuf 1 (zlen zeros100) zeros100 glob0) as [eo| |] eqn:E1; try discriminate X.
  destruct (DecodeLzhuf 1 false (eo_original eo) (eo_packed eo) (eo_out eo ++ [0]) glob0) as [[[[[g2 crc] out] n] rest]| |] eqn:E2; try (rewrite andb_false_r in X; discriminate X).
  rewrite !andb_true_iff, !Z.eqb_eq, Z.leb_le, Z.ltb_lt, negb_true_iff, list_eqb_neq in X. destruct X as [[[[[X1 X2] X3] X4] X5] [[X6 X7] X8]].
  apply list_eqb_eq in X8. subst n rest.
  destruct (made_taken E fl w a file zeros100 eo AD AL CR NA S) as (w' & c & R1 & R2 & R3 & R4); auto; try lia; [discriminate|rewrite AM, G0; exact E1|].
  exists w', c. split; [exact R1|]. split; [exact R2|]. split; [exact R3|]. intros E3 fl2 w2 AE ST NB G2.
  destruct (R4 E3 fl2 w2 g2 crc out AE ST NB) as (w3 & Y1 & Y2 & _); [rewrite G2; exact E2|]. exists w3, out. auto.
Qed.

(** The theorem applies to -o 1 .. -o 4 in the directory of the examples, and there is a
    directory in which the archive can be taken out. *)
Example C109_example :
  (forall o, In o [1; 2; 3; 4] -> asks_add [98] [122] (ex_adds 5 o 0 false false false) /\ ~ In (f_o (ex_adds 5 o 0 false false false)) [0; 5; 6; 7]) /\
  creatable ex_env [98] (ex_adder [] []) /\ [122] <> [98] /\ source ex_env (ex_adder [] []) [122] zeros100 /\ w_glob (ex_adder [] []) = glob0 /\
  forall c, stored_at ex_env [98] c (ex_listing c) /\ w_fs (ex_listing c) (Base [122]) = None /\ w_glob (ex_listing c) = glob0.
Proof.
  split; [intros o H; split; [apply ex_asks|cbn in *; lia]|].
  split; [exact ex_creatable|]. split; [discriminate|]. split; [apply ex_source; left; reflexivity|]. split; [reflexivity|].
  intros c. split; [|split; reflexivity]. constructor; try reflexivity. split; [discriminate|intros [X|[]]; discriminate X].
Qed.
Print Assumptions C109_method1_refuted.
