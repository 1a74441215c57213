(** Property C104: using one Lha object for several calls. *)
From Verif Require Import Go GoLemmas M_Crc P_Crc M_Bitio M_Maketree M_Maketbl M_Huf M_Slide M_Lzhuf S_Header S_Listing M_Header M_Os M_Archive S_History S_Archive S_Add
  P_Bitio P_Header P_Os P_Single P_Extract P_Read1 Properties_Slide Properties_Archive Properties_Extract Properties_Listing Properties_Add.

(** Headers with an object that has been given names to add, none of which contains a
    NUL: only the first header is returned, together with an error. *)
Theorem C104_headers_names_refuted :
  forall E w a e data rest,
    file_path a -> e_readable E a = true -> l_archive (w_lha w) = a -> w_fs w a = Some (NFile (layout0 e ++ data ++ rest)) ->
    file_entry e -> zlen data = e_packed e -> l_filec (w_lha w) <> 0 -> (forall x, In x (l_filev (w_lha w)) -> ~ In 0 x) ->
    exists h w', Headers E w = Done ([h], true) w' /\ describes e h /\ w_fs w' = w_fs w.
Proof.
  intros E w a e data rest [Ha Hn] Hr Hl Hf FE HS HC HV. apply has_nul_notin in Hn.
  exists (read0 NewLzHeader e), (set_wverify false (set_wverify true w)). split; [|split; [|reflexivity]].
  - unfold Headers, with_verify. istep. istep. cbn [w_fs w_lha set_wverify]. rewrite Hl, (open_file E _ a _ Ha Hn Hf Hr).
    cbn [headers_loop]. rewrite (fe_get_new E e FE). istep. istep. cbn [w_lha set_wverify].
    assert (NF : needFile (w_lha w) (Name (read0 NewLzHeader e)) = false).
    { unfold needFile. destruct (Z.eqb_spec (l_filec (w_lha w)) 0); [contradiction|]. destruct (existsb _ _) eqn:Q; [|reflexivity]. apply existsb_exists in Q.
      destruct Q as (x & Hx & Q). apply list_eqb_eq in Q. exfalso. apply (HV x Hx). rewrite Q. cbn [read0 Name]. apply in_or_app. right. now left. }
    rewrite NF. unfold skipToNextpos. change (PackedSize (read0 NewLzHeader e)) with (e_packed e).
    destruct (Z.eqb_spec (e_packed e) 0) as [Z|Z]; [reflexivity|]. destruct (data ++ rest) as [|b l] eqn:Q; [|reflexivity].
    apply app_eq_nil in Q. destruct Q as [-> _]. exfalso. apply Z. rewrite <- HS. reflexivity.
  - constructor; try (repeat split; reflexivity). cbn [read0 Name]. now rewrite slash_back_slashes.
Qed.

(** So it is after CompressBytes, with whatever archive: the object that wrote it cannot
    list it, whenever it tries. *)
Theorem C104_headers_same_object_refuted :
  forall E w cs a filename body method eo,
    usual E -> file_path a -> entry_name (Base filename) -> filename <> a -> ~ In 0 filename -> e_tmp E <> a -> e_readable E a = true ->
    w_lha w = NewLha a -> w_fs w a = None -> w_fs w (e_tmp E) = None -> after cs (w_glob w) ->
    method = 5 \/ method = 6 \/ method = 7 /\ zlen body < 65536 -> bytes body -> body <> [] -> zlen body < 2 ^ 32 ->
    EncodeLzhuf method (zlen body) body (w_glob w) = Ok eo -> eo_packed eo < eo_original eo ->
    exists w', CompressBytes E filename body method 0 w = Done false w' /\
      forall w2, w_lha w2 = w_lha w' -> w_fs w2 a = w_fs w' a ->
        exists h w3, Headers E w2 = Done ([h], true) w3 /\ Name h = Base filename ++ [0].
Proof.
  intros E w cs a filename body method eo U Ha Hnm Hfa Hz Ht Hr Hl Fa Ft A Hm HB Hne Hlen HE Hlt.
  destruct (round_trip_567 cs (w_glob w) [] glob0 method body eo []) as [M1 [M2 [M3 [M4 _]]]]; auto; [split; [constructor|reflexivity]|constructor|].
  assert (B4 : 0 <= eo_crc eo < 2 ^ 16) by (rewrite M3; apply calcCrc_range; [lia|exact HB]).
  destruct (compressbytes_packed E filename body method w a eo) as (h & w' & R1 & G1 & L1 & A1 & T1 & O1 & P & Rg); auto; try lia.
  { split; [rewrite <- M4; apply zlen_nonneg|lia]. } { rewrite M2. pose proof (zlen_nonneg body). lia. }
  exists w'. split; [exact R1|]. intros w2 L2 F2. rewrite A1 in F2. rewrite L1 in L2.
  assert (Nm : Forall (fun c => c <> 92 /\ c <> 47) (Base filename)) by (destruct Hnm as [_ F]; eapply Forall_impl; [|exact F]; cbv beta; tauto).
  destruct (C104_headers_names_refuted E w2 a (entry_of (e_stamp E) (packed_hdr h eo) (Base filename)) (eo_out eo) [0]) as (h2 & w3 & X1 & X2 & _); auto.
  - rewrite L2. reflexivity.
  - constructor; [now apply plain_legal| |exact Rg].
    change (e_name (entry_of (e_stamp E) (packed_hdr h eo) (Base filename))) with (to_backslash (Base filename)). intros I. apply in_map_iff in I. destruct I as (x & X1 & X2).
    destruct Hnm as [_ F]. rewrite Forall_forall in F. specialize (F x X2). cbv beta in F. destruct (x =? 47); lia.
  - rewrite L2. discriminate.
  - rewrite L2. intros x [<-|[]]. exact Hz.
  - exists h2, w3. split; [exact X1|]. destruct X2 as [X2 _ _ _ _ _]. rewrite X2. change (e_name (entry_of (e_stamp E) (packed_hdr h eo) (Base filename))) with (to_backslash (Base filename)).
    unfold slashes, to_backslash. rewrite map_map. f_equal. rewrite <- (map_id (Base filename)) at 2. apply map_ext_in. intros c Hc. rewrite Forall_forall in Nm. specialize (Nm c Hc). cbv beta in Nm.
    destruct (Z.eqb_spec c 47); [lia|]. destruct (Z.eqb_spec c 92); [lia|reflexivity].
Qed.

(** DecompresBytes does not look at the names that have been added: the object that
    wrote the archive reads the contents back, whenever it tries. *)
Theorem C104_bytes_same_object :
  forall E w cs a filename body method eo,
    usual E -> file_path a -> entry_name (Base filename) -> filename <> a -> e_tmp E <> a -> e_readable E a = true -> archiveIsMsdosSfx1 a = false ->
    w_lha w = NewLha a -> w_fs w a = None -> w_fs w (e_tmp E) = None -> after cs (w_glob w) ->
    method = 5 \/ method = 6 \/ method = 7 /\ zlen body < 65536 -> bytes body -> body <> [] -> zlen body < 2 ^ 32 ->
    EncodeLzhuf method (zlen body) body (w_glob w) = Ok eo -> eo_packed eo < eo_original eo ->
    exists w', CompressBytes E filename body method 0 w = Done false w' /\
      forall cs' w2 h, w_lha w2 = w_lha w' -> w_fs w2 a = w_fs w' a -> w_verify w2 = false -> after cs' (w_glob w2) -> Name h = Base filename ++ [0] ->
        exists w3, DecompresBytes E h w2 = Done (body, false) w3 /\ w_fs w3 = w_fs w2.
Proof.
  intros E w cs a filename body method eo U Ha Hnm Hfa Ht Hr Sx Hl Fa Ft A Hm HB Hne Hlen HE Hlt. pose proof Ha as [Ha1 Ha2]. apply has_nul_in in Ha2.
  destruct (round_trip_567 cs (w_glob w) [] glob0 method body eo []) as [M1 [M2 [M3 [M4 _]]]]; auto; [split; [constructor|reflexivity]|constructor|].
  assert (B4 : 0 <= eo_crc eo < 2 ^ 16) by (rewrite M3; apply calcCrc_range; [lia|exact HB]).
  destruct (compressbytes_packed E filename body method w a eo) as (h & w' & R1 & G1 & L1 & A1 & T1 & O1 & P & Rg); auto; try lia.
  { split; [rewrite <- M4; apply zlen_nonneg|lia]. } { rewrite M2. pose proof (zlen_nonneg body). lia. }
  exists w'. split; [exact R1|]. intros cs' w2 h2 L2 F2 V2 A2 N2. rewrite A1 in F2. rewrite L1 in L2.
  destruct (round_trip_567 cs (w_glob w) cs' (w_glob w2) method body eo [0]) as [_ [_ [_ [_ [g2 D]]]]]; auto.
  { constructor; [unfold is_byte; lia|constructor]. }
  assert (Nm : Forall (fun c => c <> 92 /\ c <> 47) (Base filename)) by (destruct Hnm as [_ F]; eapply Forall_impl; [|exact F]; cbv beta; tauto).
  assert (Mt : method_num (Method (packed_hdr h eo)) = Some method) by (change (Method (packed_hdr h eo)) with (meth 104 (eo_method eo)); rewrite M1; apply method_num_lh; tauto).
  assert (Nd : method <> LzhdirsMethodNum) by (unfold LzhdirsMethodNum; lia).
  eexists. split; [apply (DecompresBytes_single E (packed_hdr h eo) (Base filename) (eo_out eo) P Nm Rg method Mt Nd body w2 a g2 h2); auto; try (rewrite L2; reflexivity)|reflexivity].
  rewrite L2. exact D.
Qed.

(** Decompress with an object that has other settings than a new one. *)
Lemma Decompress_with E e (FE : file_entry e) base (ND : named e [] base) method header w a data g2 crc out :
  method_num (e_method e) = Some method -> method <> LzhdirsMethodNum ->
  w_fs w a = Some (NFile (layout0 e ++ data ++ [0])) -> file_path a -> e_readable E a = true -> archiveIsMsdosSfx1 a = false -> Name header = base ++ [0] ->
  l_archive (w_lha w) = a -> l_broken (w_lha w) = false -> l_ignoredir (w_lha w) = false -> l_extractdir (w_lha w) = [] -> l_stdout (w_lha w) = false ->
  l_noexec (w_lha w) = false -> l_skip (w_lha w) = false -> w_verify w = false -> w_fs w base = None ->
  DecodeLzhuf method false (e_original e) (e_packed e) (data ++ [0]) (w_glob w) = Ok (g2, crc, out, e_packed e, [0]) ->
  exists w', Decompress E header w = Done false w' /\ w_fs w' base = Some (NFile out) /\ (forall q, q <> base -> w_fs w' q = w_fs w q).
Proof.
  intros Hm Hd Hf [Ha Hn] Hr Hs Hh La Lb Li Le Ls Lx Lk Hv Hb D. apply has_nul_notin in Hn. set (w1 := set_wlha (set_level 2 (w_lha w)) w).
  destruct (extract_file E e FE [] base ND method Hm Hd w1 (data ++ [0]) g2 crc out (e_packed e) [0]) as [w' [X1 [X2 [X3 _]]]]; try assumption;
    [cbn [w1 w_lha set_wlha set_level l_broken w_glob]; rewrite Lb; exact D|].
  exists w'. split; [|split; [exact X2|exact X3]].
  unfold Decompress. rewrite bind_modl. unfold open_archive. istep. istep. cbn [w_fs w_lha set_wlha set_level l_archive]. rewrite La, (open_file E _ a _ Ha Hn Hf Hr), Hs. istep.
  fold w1. destruct (layout_fuel e (data ++ [0])) as [n ->].
  rewrite (bindIO_done _ _ w1 (tt, false) w'); [reflexivity|]. rewrite (loop_entry E e FE). unfold by_name at 1. rewrite bind_ret.
  rewrite (r0_name e FE [] base ND), Hh. cbn [app]. rewrite list_eqb_refl. unfold one_file at 1. rewrite bind_assoc, (bindIO_done _ _ _ _ _ X1), bind_ret.
  change (PackedSize (read0 NewLzHeader e)) with (e_packed e). rewrite Z.eqb_refl. apply (loop_end E).
Qed.

(** Nor does Decompress: the object that wrote the archive extracts the file. *)
Theorem C104_file_same_object :
  forall E w cs a filename body method eo,
    usual E -> file_path a -> entry_name (Base filename) -> Base filename <> [] -> filename <> a -> e_tmp E <> a -> e_readable E a = true -> archiveIsMsdosSfx1 a = false ->
    w_lha w = NewLha a -> w_fs w a = None -> w_fs w (e_tmp E) = None -> after cs (w_glob w) ->
    method = 5 \/ method = 6 \/ method = 7 /\ zlen body < 65536 -> bytes body -> body <> [] -> zlen body < 2 ^ 32 ->
    EncodeLzhuf method (zlen body) body (w_glob w) = Ok eo -> eo_packed eo < eo_original eo ->
    exists w', CompressBytes E filename body method 0 w = Done false w' /\
      forall cs' w2 h, w_lha w2 = w_lha w' -> w_fs w2 a = w_fs w' a -> w_verify w2 = false -> after cs' (w_glob w2) -> Name h = Base filename ++ [0] ->
        w_fs w2 (Base filename) = None ->
        exists w3, Decompress E h w2 = Done false w3 /\ w_fs w3 (Base filename) = Some (NFile body) /\ forall q, q <> Base filename -> w_fs w3 q = w_fs w2 q.
Proof.
  intros E w cs a filename body method eo U Ha Hnm Hbn Hfa Ht Hr Sx Hl Fa Ft A Hm HB Hne Hlen HE Hlt.
  destruct (round_trip_567 cs (w_glob w) [] glob0 method body eo []) as [M1 [M2 [M3 [M4 _]]]]; auto; [split; [constructor|reflexivity]|constructor|].
  assert (B4 : 0 <= eo_crc eo < 2 ^ 16) by (rewrite M3; apply calcCrc_range; [lia|exact HB]).
  destruct (compressbytes_packed E filename body method w a eo) as (h & w' & R1 & G1 & L1 & A1 & T1 & O1 & P & Rg); auto; try lia.
  { split; [rewrite <- M4; apply zlen_nonneg|lia]. } { rewrite M2. pose proof (zlen_nonneg body). lia. }
  exists w'. split; [exact R1|]. intros cs' w2 h2 L2 F2 V2 A2 N2 B2. rewrite A1 in F2. rewrite L1 in L2.
  destruct (round_trip_567 cs (w_glob w) cs' (w_glob w2) method body eo [0]) as [_ [_ [_ [_ [g2 D]]]]]; auto.
  { constructor; [unfold is_byte; lia|constructor]. }
  assert (Nm : Forall (fun c => c <> 92 /\ c <> 47) (Base filename)) by (destruct Hnm as [_ F]; eapply Forall_impl; [|exact F]; cbv beta; tauto).
  set (e := entry_of (e_stamp E) (packed_hdr h eo) (Base filename)) in *.
  assert (EN : e_name e = to_backslash (Base filename)) by reflexivity.
  assert (FE : file_entry e).
  { constructor; [now apply plain_legal| |exact Rg]. rewrite EN. intros I. apply in_map_iff in I. destruct I as (x & X1 & X2).
    destruct Hnm as [_ F]. rewrite Forall_forall in F. specialize (F x X2). cbv beta in F. destruct (x =? 47); lia. }
  assert (ND : named e [] (Base filename)).
  { constructor; [|now left|].
    - rewrite EN. unfold slashes, to_backslash. rewrite map_map. cbn [app]. rewrite <- (map_id (Base filename)) at 2. apply map_ext_in. intros c Hc. rewrite Forall_forall in Nm. specialize (Nm c Hc). cbv beta in Nm.
      destruct (Z.eqb_spec c 47); [lia|]. destruct (Z.eqb_spec c 92); [lia|reflexivity].
    - split; [exact Hbn|]. intros I. rewrite Forall_forall in Nm. specialize (Nm _ I). cbv beta in Nm. lia. }
  refine (Decompress_with E e FE (Base filename) ND method h2 w2 a (eo_out eo) g2 (eo_crc eo) body _ _ F2 Ha Hr Sx N2 _ _ _ _ _ _ _ V2 B2 _); try (rewrite L2; reflexivity).
  - change (e_method e) with (meth 104 (eo_method eo)). rewrite M1. apply method_num_lh; tauto.
  - unfold LzhdirsMethodNum. lia.
  - exact D.
Qed.

(** Compress adds the files of earlier calls of the same object again: after a call for
    [x] whose archive has been removed, a call for the empty file [y] makes an archive
    with both.  [l_filev] are the names an object has been given. *)
Theorem C104_earlier_names_refuted :
  forall E w cs a x y body method,
    usual E -> file_path a -> w_fs w a = None -> w_fs w (e_tmp E) = None -> e_tmp E <> a -> x <> a -> y <> a ->
    w_lha w = set_files [x] 1 (NewLha a) -> source E w x body -> source E w y [] -> method = 5 \/ method = 6 \/ method = 7 /\ zlen body < 65536 -> after cs (w_glob w) ->
    (body = [] \/ exists eo, EncodeLzhuf method (zlen body) body (w_glob w) = Ok eo /\ eo_packed eo < eo_original eo) ->
    exists w' e1 d1 e2 d2,
      Compress E y method 0 w = Done false w' /\ w_fs w' a = Some (NFile (archive_bytes [(e1, d1); (e2, d2)])) /\
      entry_for E x body e1 d1 /\ entry_for E y [] e2 d2.
Proof.
  intros E w cs a x y body method U Ha Fa Ft Ht Hx Hy Hl Sx Sy Hm A Hb.
  set (l1 := set_files [x; y] 2 (set_method method (set_level 0 (set_new true (NewLha a))))).
  assert (R : Compress E y method 0 w = CommandAdd E a (set_wlha l1 w)).
  { unfold Compress, archive_test. rewrite bind_assoc, bind_get, bind_assoc, bind_getl, Hl. change (l_archive (set_files [x] 1 (NewLha a))) with a. destruct Ha as [Ha1 Ha2]. apply has_nul_in in Ha2. rewrite stat_none by assumption.
    rewrite bind_assoc, bind_modl, bind_ret, bind_modl, bind_getl. cbn [w_lha set_wlha]. rewrite Hl. reflexivity. }
  assert (M : making E a [x; y] (set_wlha l1 w)) by (constructor; auto; split; reflexivity).
  assert (S1 : source E (set_wlha l1 w) x body) by (destruct Sx; constructor; assumption).
  assert (S2 : source E (set_wlha l1 w) y []) by (destruct Sy; constructor; assumption).
  destruct (C35_only_first_with_contents_partial E (set_wlha l1 w) a x body [y] M) as (w' & es & P1 & P2 & P3 & P4 & P5); auto.
  { intros [X|[X|[]]]; auto. }
  { destruct (list_eq_dec Z.eq_dec body []) as [N|N]; [now left|]. destruct Hb as [Hb|(eo & E1 & E2)]; [contradiction|]. right. split; [exact N|]. split; [exact Hm|]. split; [exists cs; exact A|exists eo; split; [exact E1|exact E2]]. }
  inversion P3 as [|? [e1 d1] ? es' EF1 P3']; subst. inversion P3' as [|? [e2 d2] ? es'' EF2 P3'']; subst. inversion P3''; subst.
  exists w', e1, d1, e2, d2. rewrite R. auto.
Qed.

(** A hundred zero bytes; as the contents of the file "f", and an empty file "y". *)
Definition ex_reuse : world := W (fun p => if list_eqb p [102] then Some (NFile (repeat 0 100)) else if list_eqb p [121] then Some (NFile []) else None) [] glob0 false [] (set_files [[102]] 1 (NewLha [98])) [].

Example C104_example :
  (exists eo, EncodeLzhuf 5 (zlen (repeat 0 100)) (repeat 0 100) glob0 = Ok eo /\ eo_packed eo < eo_original eo) /\
  usual ex_env /\ file_path [98] /\ entry_name (Base [122]) /\ ~ In 0 [122] /\ e_readable ex_env [98] = true /\ archiveIsMsdosSfx1 [98] = false /\
  w_fs ex_new [98] = None /\ w_fs ex_new (e_tmp ex_env) = None /\ e_tmp ex_env <> [98] /\ after [] glob0 /\
  w_fs ex_reuse [98] = None /\ w_fs ex_reuse (e_tmp ex_env) = None /\ source ex_env ex_reuse [102] (repeat 0 100) /\ source ex_env ex_reuse [121] [].
Proof.
  assert (B : bytes (repeat 0 100)) by (apply Forall_forall; intros x Hx; apply repeat_spec in Hx; subst; unfold is_byte; lia).
  split. { destruct C14_example as [eo [X1 [X2 X3]]]. exists eo. split; [exact X1|]. rewrite X2, X3. reflexivity. }
  split. { constructor; [reflexivity|cbn; lia|cbn; lia|intros [X|[]]; discriminate X]. }
  split; [split; [discriminate|intros [X|[]]; discriminate X]|]. split; [split; [vm_compute; discriminate|repeat constructor; lia]|]. split; [intros [X|[]]; discriminate X|].
  do 4 (split; [reflexivity|]). split; [discriminate|]. split; [split; [constructor|reflexivity]|]. do 2 (split; [reflexivity|]).
  split; constructor; try reflexivity; try (split; [discriminate|intros [X|[]]; discriminate X]); try (cbn; lia).
  - split; [split; [vm_compute; discriminate|repeat constructor; lia]|discriminate].
  - split; [exact B|reflexivity].
  - split; [split; [vm_compute; discriminate|repeat constructor; lia]|discriminate].
  - split; [constructor|reflexivity].
Qed.

Print Assumptions C104_headers_names_refuted.
Print Assumptions C104_headers_same_object_refuted.
Print Assumptions C104_bytes_same_object.
Print Assumptions C104_earlier_names_refuted.
Print Assumptions C104_file_same_object.
