(** Properties of archives made in the generic format, which is what the command line
    program writes unless -g 5 is given. *)
From Verif Require Import Go GoLemmas P_Bits S_Lh5 P_Lz M_Crc M_Bitio P_Bitio M_Maketree M_Maketbl M_Huf M_Slide M_Larc M_Decode M_Lzhuf S_Bits S_Huff S_Lz S_Lh1 S_Larc P_Larc S_Header S_Listing S_Level0 M_Header M_Os M_Archive S_History S_Archive S_AnyEntry S_Add M_Cli S_Cli
  P_Crc   P_Header P_Accept P_List P_Os P_RoundTrip P_Single P_Extract P_Read1 P_ExtractAll P_Verify P_Still P_Add P_AddFiles P_Cli P_CliAdd P_Level0 P_AnyEntry P_Generic
  Properties_Slide Properties_Archive Properties_Extract Properties_Listing Properties_Larc Properties_Lh5 Properties_Lh1 Properties_Damage Properties_Stored Properties_Add Properties_Header Properties_Cli Properties_CliAdd Properties_Level0.

(** ** C91: making an archive with a method given, and reading it again *)

Lemma layoutl_bytes e : legall e -> bytes (layoutl e).
Proof.
  intros [[LM BM] ? ? ? ? [LN BN] ? BA]. unfold layoutl. pose proof (bodyl_len e LM) as L.
  assert (N0 : 0 <= zlen (y_name e) /\ 0 <= zlen (y_area e) /\ zlen (y_name e) + zlen (y_area e) <= 233) by (unfold zlen; lia).
  constructor; [fold (zlen (bodyl e)); unfold is_byte; lia|]. constructor; [unfold checksum, is_byte; apply Z.mod_pos_bound; lia|].
  unfold bodyl. repeat (apply Forall_app; split); try apply le_bytes; try exact BM; try exact BN; try exact BA; repeat constructor; unfold is_byte; fold (zlen (y_name e)); lia.
Qed.

(** The entry made for the file. *)
Lemma generic_made E fl w cs a file body : asks_add a file fl -> asked_level fl = 0 -> f_g fl <> 5 -> asked_method fl = 5 \/ asked_method fl = 6 \/ asked_method fl = 7 /\ zlen body < 65536 ->
  creatable E a w -> file <> a -> source E w file body -> after cs (w_glob w) -> shorter (asked_method fl) (w_glob w) body ->
  exists w' e data, main E fl w = Done (0, []) w' /\ w_fs w' a = Some (NFile (archivel [(e, data)])) /\ (forall q, q <> a -> q <> e_tmp E -> w_fs w' q = w_fs w q) /\
    file_entryl e /\ y_area e = [] /\ y_name e = Base file /\ packs (as_unix e) data body.
Proof.
  intros AD LV G5 HM CR NA S A (NE & eo & EN & LT). destruct (made_of E a file body fl w AD CR NA S) as (l & AG & M & CR' & AF & S0 & T0 & L0 & FO). rewrite M. clear M.
  apply Z.eqb_neq in G5. rewrite G5 in *. cbn [negb] in *.
  set (E' := with_generic true E) in *. set (w0 := made E' (started false l w) a) in *. pose proof AG as [L1 L2 L3 L4 L5 L6 L7 L8 L9 L10].
  set (h := initHeader E' (w_lha w0) (w_fs w0) file (NFile body)) in *.
  pose proof S0 as [_ _ _ [NM NB] TM [HB HL]].
  assert (P : plain h (Base file)).
  { destruct NM as [N1 N2]. apply initHeader_plain; [apply CR|rewrite L0; exact LV|split; assumption| |exact TM]. pose proof (zlen_nonneg body). lia. }
  assert (MT : l_method (w_lha w0) = asked_method fl) by exact L10.
  destruct (round_trip_567 cs (w_glob w) [] glob0 (asked_method fl) body eo []) as [M1 [M2 [M3 [M4 _]]]]; auto; [split; [constructor|reflexivity]|constructor|].
  assert (B4 : 0 <= eo_crc eo < 2 ^ 16) by (rewrite M3; apply calcCrc_range; [lia|exact HB]).
  pose proof (zlen_nonneg body) as Z0. pose proof (zlen_nonneg (eo_out eo)) as Z1.
  assert (P' : plain (packed_hdr h eo) (Base file)) by (apply plain_packed; [exact P|lia|lia|exact B4|lia]).
  assert (Zb : zlen body <> 0) by (destruct body as [|x b]; [contradiction|rewrite zlen_cons; pose proof (zlen_nonneg b); lia]).
  destruct (gen_packed E' eq_refl eq_refl h (Base file) body [] w0 eo P Zb T0) as [w1 [R1 [R2 [R3 R4]]]]; [rewrite MT; exact EN|exact LT|exact P'|].
  cbn [app] in R4. rewrite (gen_overwrite E' h _ _ _ P P') in R4. set (e := entry_gen (e_stamp E') (packed_hdr h eo) (Base file)) in *.
  assert (AF' : add_files (appendIt E') 1 0 None w0 = Done None w1) by (rewrite AF, (bindIO_done _ _ _ _ _ R1); reflexivity).
  destruct (add_command_new E' (appendIt E') a (started false l w) None w1 _ file CR' L2 L4 L6 L5 AF' R2 R4 L1) as (w2 & X1 & _ & X3 & _ & X5).
  exists w2, e, (eo_out eo). split; [unfold CommandAdd; rewrite (bindIO_done _ _ _ _ _ X1); reflexivity|].
  split. { unfold archivel. cbn [flat_map fst snd]. rewrite app_nil_r. exact X3. }
  split; [exact X5|]. destruct (base_slashes _ NM) as [NS1 NS2].
  split; [|split; [reflexivity|split; [exact NS2|]]].
  - constructor; [now apply gen_legal| |reflexivity|intros s t X; discriminate X]. unfold e. cbn [entry_gen y_name]. rewrite NS2. intros I. destruct NM as [_ F]. rewrite Forall_forall in F. specialize (F 0 I). lia.
  - exists (asked_method fl), cs, (w_glob w), eo. split; [exact HM|]. split; [exact HB|]. split; [exact NE|]. split; [exact A|]. split; [exact EN|]. split; [exact LT|]. split; [reflexivity|].
    split; [unfold e; cbn [entry_gen as_unix y_method e_method packed_hdr set_PackedSize set_OriginalSize set_Method Method]; rewrite M1, Z.add_comm; reflexivity|].
    split; [unfold e; cbn [entry_gen as_unix y_packed e_packed packed_hdr set_PackedSize PackedSize]; lia|]. split; [exact M2|exact M3].
Qed.

Theorem C91_create_generic_extract_partial :
  forall E fl w cs a file body,
    asks_add a file fl -> asked_level fl = 0 -> f_g fl <> 5 -> asked_method fl = 5 \/ asked_method fl = 6 \/ asked_method fl = 7 /\ zlen body < 65536 ->
    creatable E a w -> file <> a -> source E w file body -> after cs (w_glob w) -> shorter (asked_method fl) (w_glob w) body ->
    exists w' c, main E fl w = Done (0, []) w' /\ w_fs w' a = Some (NFile c) /\ (forall q, q <> a -> q <> e_tmp E -> w_fs w' q = w_fs w q) /\
      (forall E2 fl2 w2 cs2, asks_extract a fl2 -> stored_at E2 a c w2 -> after cs2 (w_glob w2) -> w_fs w2 (Base file) = None ->
        exists w3, main E2 fl2 w2 = Done (0, []) w3 /\ w_fs w3 (Base file) = Some (NFile body) /\ forall q, q <> Base file -> w_fs w3 q = w_fs w2 q) /\
      (forall E2 fl2 w2 cs2, asks_test a fl2 -> stored_at E2 a c w2 -> after cs2 (w_glob w2) ->
        exists w3, main E2 fl2 w2 = Done (0, []) w3 /\ w_fs w3 = w_fs w2).
Proof.
  intros E fl w cs a file body AD LV G5 HM CR NA S A SH. destruct (generic_made E fl w cs a file body AD LV G5 HM CR NA S A SH) as (w' & e & data & R & C & K & FE & AR & NM & PK).
  exists w', (archivel [(e, data)]). split; [exact R|]. split; [exact C|]. split; [exact K|].
  assert (B : bytes (archivel [(e, data)])).
  { unfold archivel. cbn [flat_map fst snd]. rewrite app_nil_r. apply Forall_app. split; [apply Forall_app; split; [apply layoutl_bytes, FE|eapply packs_bytes; exact PK]|]. constructor; [unfold is_byte; lia|constructor]. }
  destruct (so_name _ _ _ _ S) as [EN NB].
  assert (I : intactl [(e, data)] [(Base file, body)]).
  { constructor; [|constructor]. cbn [fst snd]. split; [exact FE|]. split; [|now apply packs_holds]. exists []. constructor; [cbn [as_unix e_name]; rewrite NM; apply (base_slashes _ EN)|now left|].
    split; [exact NB|]. intros I. destruct EN as [_ F]. rewrite Forall_forall in F. specialize (F 47 I). lia. }
  assert (N : names_shrinkl 233 [(e, data)]). { cbn. destruct (ll_name _ (fl_legal _ FE)) as [X _]. split; [lia|exact Logic.I]. }
  split.
  - intros E2 fl2 w2 cs2 AE ST A2 NX.
    destruct (C89_any_system_extracted_partial E2 fl2 w2 cs2 a [(e, data)] [(Base file, body)]) as (w3 & X1 & X2 & X3); auto.
    + constructor; [intros []|constructor].
    + intros f [<-|[]]. exact NX.
    + exists w3. split; [exact X1|]. split; [exact (X2 _ (or_introl eq_refl))|]. intros q Q. apply X3. intros [X|[]]. now apply Q.
  - intros E2 fl2 w2 cs2 AE ST A2. destruct (C90_any_system_tested_partial E2 fl2 w2 cs2 a [(e, data)] [(Base file, body)]) as (w3 & X1 & X2 & _); eauto.
Qed.

(** ** C92: the permissions and the time of a file are recorded *)

(** The claim is false of the archives of C91: whatever the file's permissions, its
    entry is listed with those of a file everyone may write. *)
Theorem C92_generic_permissions_refuted :
  forall E fl w cs a file body,
    asks_add a file fl -> asked_level fl = 0 -> f_g fl <> 5 -> asked_method fl = 5 \/ asked_method fl = 6 \/ asked_method fl = 7 /\ zlen body < 65536 ->
    creatable E a w -> file <> a -> source E w file body -> after cs (w_glob w) -> shorter (asked_method fl) (w_glob w) body ->
    exists w' c, main E fl w = Done (0, []) w' /\ w_fs w' a = Some (NFile c) /\
      forall E2 fl2 w2, asks_list a fl2 -> stored_at E2 a c w2 ->
        exists h w3, main E2 fl2 w2 = Done (0, [h]) w3 /\ Name h = Base file ++ [0] /\ UnixMode h = 32768 + 438.
Proof.
  intros E fl w cs a file body AD LV G5 HM CR NA S A SH. destruct (generic_made E fl w cs a file body AD LV G5 HM CR NA S A SH) as (w' & e & data & R & C & K & FE & AR & NM & PK).
  exists w', (archivel [(e, data)]). split; [exact R|]. split; [exact C|].
  assert (N : names_shrinkl 233 [(e, data)]). { cbn. destruct (ll_name _ (fl_legal _ FE)) as [X _]. split; [lia|exact Logic.I]. }
  intros E2 fl2 w2 AL ST. destruct C88_any_system_listed_partial as [_ X]. destruct (X E2 fl2 w2 a [(e, data)]) as (hs & w3 & X1 & X2); auto.
  - constructor; [|constructor]. destruct PK as (m & cs' & g & eo & H1 & H2 & H3 & H4 & H5 & H6 & -> & H8 & H9 & _). cbn [fst snd]. exact (eq_sym H9).
  - cbn [map fst] in X2. inversion X2 as [|? h ? ? D Nl]; subst. inversion Nl; subst. exists h, w3. split; [exact X1|]. split.
    + rewrite (dl_name _ _ D), NM. f_equal. apply (base_slashes _). apply S.
    + rewrite (dl_mode _ _ D). unfold y_mode. now rewrite AR.
Qed.

(** ** C80 again: -g 3 and -g 4 *)

Lemma expand_grows dsize ts : Forall (lz_ok dsize 256) ts -> forall acc, zlen acc + Z.of_nat (length ts) <= zlen (fold_left lz_step ts acc).
Proof.
  induction 1 as [|t ts H F IH]; intros acc; cbn [fold_left length]; [lia|]. specialize (IH (lz_step acc t)).
  assert (zlen acc + 1 <= zlen (lz_step acc t)); [|lia]. destruct t as [b|len d]; cbn [lz_step lz_ok] in *; [rewrite zlen_app; change (zlen [b]) with 1; lia|]. rewrite lz_copy_zlen. lia.
Qed.

Lemma few_items n nbit dsize ts bits : blocks n nbit dsize ts bits -> ts <> [] -> zlen (lz_expand ts) < 256 -> exists more, bits = repeat false 8 ++ more.
Proof.
  intros B NE L. destruct B as [|ts us b c B _]; [contradiction|]. destruct B as [tc cc pc bt bc bp H1 H2 H3 _ _ _ _ _ _ _].
  assert (X : Z.of_nat (length ts) < 256).
  { unfold lz_expand in L. rewrite fold_left_app in L. pose proof (expand_grows dsize ts H3 []) as G. rewrite zlen_nil in G.
    assert (M : forall us acc, zlen acc <= zlen (fold_left lz_step us acc)).
    { clear. induction us as [|t us IH]; intros acc; cbn [fold_left]; [lia|]. eapply Z.le_trans; [|apply IH]. destruct t as [b|len d]; cbn [lz_step]; [rewrite zlen_app; pose proof (zlen_nonneg [b]); lia|rewrite lz_copy_zlen; lia]. }
    specialize (M us (fold_left lz_step ts [])). lia. }
  rewrite (to_bits_app 8 8), Z.div_small by (change (2 ^ Z.of_nat 8) with 256; lia). rewrite to_bits_0, <- !app_assoc. eauto.
Qed.

(** What the coder makes of fewer than 256 bytes starts with a zero byte. *)
Lemma short_zero cs g m body eo : after cs g -> m = 5 \/ m = 6 -> bytes body -> body <> [] -> zlen body < 256 -> EncodeLzhuf m (zlen body) body g = Ok eo -> eo_packed eo < eo_original eo ->
  exists more, eo_out eo = 0 :: more.
Proof.
  intros A Hm B NE L EN LT. destruct (C68_output_conforms cs g m body eo A ltac:(tauto) B NE EN LT) as (ts & bits & j & X1 & X2 & X3 & X4).
  assert (T : ts <> []) by (intros ->; apply NE; rewrite <- X2; reflexivity).
  assert (M : exists more, bits = repeat false 8 ++ more).
  { destruct Hm as [-> | ->]; [eapply (few_items 14 4 8192)|eapply (few_items 16 5 32768)]; eauto; rewrite X2; exact L. }
  destruct M as [more ->]. destruct (C05_compressed_not_larger cs g m (zlen body) body eo) as (_ & _ & Y); auto; try lia; try apply zlen_nonneg.
  destruct (eo_out eo) as [|x out]; [discriminate X3|]. exists out. f_equal. apply (f_equal (firstn 8)) in X3. rewrite <- app_assoc in X3. unfold byte_string_bits in X3. cbn [flat_map] in X3.
  assert (F8 : forall a b : list bool, length a = 8%nat -> firstn 8 (a ++ b) = a) by (intros u v L8; rewrite firstn_app, L8, firstn_all2, Nat.sub_diag, app_nil_r by lia; reflexivity).
  rewrite F8 in X3 by apply to_bits_length. rewrite F8 in X3 by apply repeat_length.
  inversion Y as [|? ? Hx _]; subst. unfold is_byte in Hx. rewrite <- (to_bits_small 8 x) by (change (2 ^ Z.of_nat 8) with 256; lia). rewrite X3. reflexivity.
Qed.

Lemma no_header o stamp h : 3 <= HeaderLevel h -> isSymlinkMode (UnixMode h) = false -> WriteHeader o stamp h = Ok None.
Proof.
  intros L S. unfold WriteHeader. rewrite S. destruct (Z.eqb_spec (HeaderLevel h) 0); [lia|]. destruct (Z.eqb_spec (HeaderLevel h) 1); [lia|]. destruct (Z.eqb_spec (HeaderLevel h) 2); [lia|]. reflexivity.
Qed.

Lemma no_header_packed o stamp h eo : 3 <= HeaderLevel h -> isSymlinkMode (UnixMode h) = false -> WriteHeader o stamp (packed_hdr h eo) = Ok None.
Proof. intros L S. apply no_header; [exact L|exact S]. Qed.

(** A file that starts with a zero byte is an archive without entries. *)
Lemma empty_archive E a rest w : stored_at E a (0 :: rest) w ->
  (forall fl, asks_list a fl -> exists w', main E fl w = Done (0, []) w' /\ w_fs w' = w_fs w) /\
  (forall fl, asks_extract a fl -> exists w', main E fl w = Done (0, []) w' /\ w_fs w' = w_fs w).
Proof.
  intros S. assert (NE : a <> []) by apply S. split; intros fl AS.
  - destruct (main_list E a fl w AS NE) as (l & _ & _ & R). rewrite R. pose proof S as [[P1 P2] S2 S3 S4]. apply has_nul_notin in P2.
    assert (L : CommandList (with_generic false E) a (started false l w) = Done ([], false) (set_wlha (set_archive a l) (started false l w))).
    { rewrite (list_run _ a _ (0 :: rest)) by (now apply open_file). reflexivity. }
    rewrite (bindIO_done _ _ _ _ _ L). eexists. split; reflexivity.
  - destruct (main_extract E a fl w AS NE) as (l & _ & _ & R). rewrite R.
    pose proof (extract_opened _ _ _ _ (stored_generic E a _ w false false l S)) as X. unfold bindIO at 1. rewrite X. cbn. eexists. split; reflexivity.
Qed.

(** With -g 3, -g 4 or more the program reports success and writes the data without a
    header.  A file that is empty, or of fewer than 256 bytes and made shorter by the
    coder, is lost: the archive is one without entries. *)
Theorem C80_no_header_refuted :
  forall E fl w cs a file body,
    asks_add a file fl -> 3 <= asked_level fl < 256 -> creatable E a w -> file <> a -> source E w file body -> after cs (w_glob w) ->
    body = [] \/ (shorter 5 (w_glob w) body /\ zlen body < 256) ->
    exists w' c, main E fl w = Done (0, []) w' /\ w_fs w' a = Some (NFile c) /\
      forall E2 w2, stored_at E2 a c w2 ->
        (forall fl2, asks_list a fl2 -> exists w3, main E2 fl2 w2 = Done (0, []) w3) /\
        (forall fl2, asks_extract a fl2 -> exists w3, main E2 fl2 w2 = Done (0, []) w3 /\ w_fs w3 = w_fs w2).
Proof.
  intros E fl w cs a file body AD LV CR NA S A SH. destruct (made_of E a file body fl w AD CR NA S) as (l & AG & M & CR' & AF & S0 & T0 & L0 & FO).
  assert (HM : asked_method fl = 5).
  { unfold asked_level in LV. unfold asked_method. destruct (Z.eqb_spec (f_o fl) 0); [reflexivity|]. cbn [orb negb] in LV. destruct ((f_o fl =? 5) || (f_o fl =? 6) || (f_o fl =? 7)); cbn [andb] in LV; [|lia].
    destruct (Z.eqb_spec (f_h fl) 0); [cbn [orb] in LV; lia|]. destruct (Z.eqb_spec (f_h fl) 1); cbn [orb] in LV; lia. }
  set (E' := with_generic _ E) in *. set (w0 := made E' (started false l w) a) in *. pose proof AG as [L1 L2 L3 L4 L5 L6 L7 L8 L9 L10].
  set (h := initHeader E' (w_lha w0) (w_fs w0) file (NFile body)) in *.
  assert (SM := source_small E' w0 (set_level 2 (w_lha w0)) file body S0 (cr_perm _ _ _ CR') eq_refl). apply sm_mode in SM.
  change (UnixMode (initHeader E' (set_level 2 (w_lha w0)) (w_fs w0) file (NFile body))) with (UnixMode h) in SM.
  assert (HL : 3 <= HeaderLevel h). { change (HeaderLevel h) with (u8 (l_level (w_lha w0))). rewrite L0, u8_id; lia. }
  assert (X : exists c w1, addOne E' h body w0 = Done tt w1 /\ same_but (e_tmp E') w0 w1 /\ w_fs w1 (e_tmp E') = Some (NFile c) /\ exists more, c ++ [0] = 0 :: more).
  { unfold addOne. rewrite (no_header _ _ h HL SM). istep. cbn [put_header]. istep. change (OriginalSize h) with (zlen body).
    destruct SH as [-> | [(NE & eo & EN & LT) LB]].
    - rewrite zlen_nil. change (0 =? 0) with true. cbv iota. exists [], w0. split; [reflexivity|]. split; [apply sb_refl|]. split; [exact T0|]. exists []. reflexivity.
    - assert (Zb : zlen body <> 0) by (destruct body as [|x b]; [contradiction|rewrite zlen_cons; pose proof (zlen_nonneg b); lia]).
      destruct (Z.eqb_spec (zlen body) 0); [contradiction|]. unfold run_encode. istep. istep.
      assert (MT : l_method (w_lha w0) = 5) by (exact (eq_trans L10 HM)). rewrite MT. change (w_glob w0) with (w_glob w). rewrite EN. istep. istep. istep.
      set (w2 := set_wglob (eo_glob eo) w0). assert (C2 : w_fs w2 (e_tmp E') = Some (NFile [])) by exact T0.
      assert (S2 : same_but (e_tmp E') w0 w2) by (constructor; auto).
      destruct (append_run (e_tmp E') (eo_out eo) _ w2 C2) as [w3 [R3 [S3 [G3 C3]]]]. rewrite (bindIO_done _ _ _ _ _ R3). cbv zeta.
      destruct (Z.ltb_spec (eo_packed eo) (eo_original eo)) as [_|Y]; [|lia]. istep. fold (packed_hdr h eo).
      rewrite (no_header_packed _ _ h eo HL SM). istep. cbn [put_header]. exists (eo_out eo), w3. split; [reflexivity|]. split; [eapply sb_trans; eassumption|]. split; [exact C3|].
      destruct (short_zero cs (w_glob w) 5 body eo A ltac:(tauto) (proj1 (so_body _ _ _ _ S)) NE LB EN LT) as [more ->]. exists (more ++ [0]). reflexivity. }
  destruct X as (c & w1 & R1 & R2 & R3 & more & R4).
  assert (AF' : add_files (appendIt E') 1 0 None w0 = Done None w1) by (rewrite AF, (bindIO_done _ _ _ _ _ R1); reflexivity).
  destruct (add_command_new E' (appendIt E') a (started false l w) None w1 _ file CR' L2 L4 L6 L5 AF' R2 R3 L1) as (w2 & X1 & _ & X3 & _ & X5).
  exists w2, (c ++ [0]). rewrite M. split; [unfold CommandAdd; rewrite (bindIO_done _ _ _ _ _ X1); reflexivity|]. split; [exact X3|].
  intros E2 w4 ST. rewrite R4 in ST. destruct (empty_archive E2 a more w4 ST) as [Y1 Y2]. split; [|exact Y2]. intros fl2 AL. destruct (Y1 fl2 AL) as (w5 & Y3 & _). eauto.
Qed.

(** ** The hypotheses can be met *)

(** lharc -archive b -c z -o 5, for the file z of 100 zero bytes, then -e and -l. *)
Example C91_example :
  let fl := ex_adds 2 5 2 false false false in
  asks_add [98] [122] fl /\ asked_level fl = 0 /\ f_g fl <> 5 /\ asked_method fl = 5 /\
  creatable ex_env [98] (ex_adder [] []) /\ [122] <> [98] /\ source ex_env (ex_adder [] []) [122] (repeat 0 100) /\ after [] (w_glob (ex_adder [] [])) /\
  shorter 5 (w_glob (ex_adder [] [])) (repeat 0 100) /\
  (forall c, stored_at ex_env [98] c (ex_listing c) /\ after [] (w_glob (ex_listing c)) /\ w_fs (ex_listing c) (Base [122]) = None).
Proof.
  cbv zeta. split; [apply ex_asks|]. split; [reflexivity|]. split; [discriminate|]. split; [reflexivity|]. destruct C80_example as (_ & _ & _ & X). exact X.
Qed.

(** The same with -g 3. *)
Example C80_no_header_example :
  let fl := ex_adds 3 0 2 false false false in
  asks_add [98] [122] fl /\ asked_level fl = 3 /\
  creatable ex_env [98] (ex_adder [] []) /\ [122] <> [98] /\ source ex_env (ex_adder [] []) [122] (repeat 0 100) /\ after [] (w_glob (ex_adder [] [])) /\
  shorter 5 (w_glob (ex_adder [] [])) (repeat 0 100) /\ zlen (repeat 0 100) < 256.
Proof.
  cbv zeta. split; [apply ex_asks|]. split; [reflexivity|]. destruct C80_example as (_ & _ & _ & X1 & X2 & X3 & X4 & X5 & _). repeat (split; [assumption|]). reflexivity.
Qed.

Print Assumptions C91_create_generic_extract_partial.
Print Assumptions C92_generic_permissions_refuted.
Print Assumptions C80_no_header_refuted.
