(** Properties C61 .. C63: entries packed by LArc.  The formats -lzs- and -lz5- are
    written down in S_Larc.v; [reader], [file_entry], [named], [asks_for] and
    [describes] are defined in S_Archive.v. *)
From Verif Require Import Go GoLemmas M_Crc M_Bitio P_Bitio M_Maketree M_Maketbl M_Huf M_Slide M_Larc M_Decode M_Lzhuf S_Bits S_Larc P_Larc S_Header S_Listing M_Header M_Os M_Archive S_History S_Archive
  P_Header P_Accept P_List P_Os P_RoundTrip P_Single P_Read1 P_ExtractAll Properties_Slide Properties_Archive Properties_Extract Properties_Listing.

(** What a single entry decompresses to. *)
Lemma stream_first E e dir base method header w a tail g2 crc body n rest2 :
  file_entry e -> named e dir base -> method_num (e_method e) = Some method -> method <> LzhdirsMethodNum ->
  w_fs w a = Some (NFile (layout0 e ++ tail)) -> reader E a w -> asks_for header (dir ++ base) ->
  DecodeLzhuf method false (e_original e) (e_packed e) tail (w_glob w) = Ok (g2, crc, body, n, rest2) -> crc = e_crc e ->
  exists k, DecompresBytes E header w =
    (if n =? e_packed e then extract_loop E (S k) (by_name header) one_stream (read0 NewLzHeader e) rest2 body
     else let '(ok, rest) := skipToNextpos (e_packed e) rest2 in
       if (ok : bool) then extract_loop E (S k) (by_name header) one_stream (read0 NewLzHeader e) rest body else ret (body, true))
    (set_wglob g2 (set_wlha (set_level 2 (NewLha a)) w)).
Proof.
  intros FE ND HM HD Hf R Hh D HC. rewrite (DecompresBytes_open E header w a _ Hf R). set (w1 := set_wlha (set_level 2 (NewLha a)) w).
  assert (X : exists k, length (layout0 e ++ tail) = S k) by apply layout_fuel. destruct X as [k Hk]. exists k.
  rewrite Hk. rewrite (loop_entry E e FE). unfold by_name at 1. rewrite bind_ret.
  unfold asks_for in Hh. rewrite (r0_name e FE dir base ND), Hh, list_eqb_refl. unfold one_stream at 1.
  assert (EX : extractOneStream (read0 NewLzHeader e) tail w1 = Done (false, n, body, rest2) (set_wglob g2 w1)).
  { unfold extractOneStream. change (Method (read0 NewLzHeader e)) with (e_method e). rewrite HM, (r0_reg e FE). apply Z.eqb_neq in HD. rewrite HD. cbn [negb andb].
    istep. change (l_noexec (w_lha w1)) with false. cbv iota. unfold run_decode. istep. istep. istep. change (l_broken (w_lha w1)) with false. change (w_verify w1) with (w_verify w). rewrite (rd_verify _ _ _ R).
    change (OriginalSize (read0 NewLzHeader e)) with (e_original e). change (PackedSize (read0 NewLzHeader e)) with (e_packed e). change (w_glob w1) with (w_glob w). rewrite D.
    istep. istep. istep. change (HasCrc (read0 NewLzHeader e)) with true. change (Crc (read0 NewLzHeader e)) with (e_crc e). rewrite HC, Z.eqb_refl. reflexivity. }
  rewrite bind_assoc, (bindIO_done _ _ _ _ _ EX), bind_ret. reflexivity.
Qed.

Lemma loop_eof {A} E n sel (one : hdr -> list Z -> A -> IO (bool * Z * A * hdr * list Z)) h acc w :
  extract_loop E (S n) sel one h [] acc w = Done (acc, false) w.
Proof. reflexivity. Qed.

(** ** C61: -lzs- entries *)

(** For every sequence of items, and every process reading the archive. *)
Theorem C61_lzs_extracted :
  forall E w a e dir base header ts data pad,
    reader E a w -> w_fs w a = Some (NFile (archive_bytes [(e, data)])) ->
    file_entry e -> named e dir base -> asks_for header (dir ++ base) ->
    e_method e = [45; 108; 122; 115; 45] -> Forall lzs_ok ts -> bytes data ->
    byte_string_bits data = flat_map lzs_bits ts ++ pad -> (length pad < 16)%nat ->
    e_packed e = zlen data -> e_original e = zlen (lzs_data ts) -> e_crc e = calcCrc 0 (lzs_data ts) ->
    exists w', DecompresBytes E header w = Done (lzs_data ts, false) w' /\ w_fs w' = w_fs w.
Proof.
  intros E w a e dir base header ts data pad R Hf FE ND Hh HM OK B EB HP EP EO EC.
  unfold archive_bytes in Hf. cbn [flat_map fst snd] in Hf. rewrite app_nil_r, <- app_assoc in Hf.
  assert (B2 : bytes (data ++ [0])) by (apply Forall_app; split; [exact B|constructor; [unfold is_byte; lia|constructor]]).
  assert (MN : method_num (e_method e) = Some 8) by (rewrite HM; reflexivity).
  destruct (stream_first E e dir base 8 header w a (data ++ [0]) (w_glob w) (calcCrc 0 (lzs_data ts)) (lzs_data ts) (zlen data) [0]) as [k X]; auto.
  { discriminate. } { rewrite EO, EP. now apply lzs_decodes with (pad := pad). }
  rewrite X, EP, Z.eqb_refl, loop_end. eexists. split; reflexivity.
Qed.

(** "abc", a copy of it, a copy that overlaps itself and one of the start of the ring. *)
Definition ex_lzs_items : list rtok := [RByte 97; RByte 98; RByte 99; RCopy 2031 3; RCopy 2032 17; RCopy 5 2].
Definition ex_lzs_data : list Z := [176; 216; 172; 111; 222; 47; 225; 224; 10; 0].
Definition ex_lzs : entry0 := E0 [45; 108; 122; 115; 45] 10 25 0 32 [122] 16602 0 1000000 33188 0 0.
Example C61_example :
  file_entry ex_lzs /\ named ex_lzs [] [122] /\ Forall lzs_ok ex_lzs_items /\
  byte_string_bits ex_lzs_data = flat_map lzs_bits ex_lzs_items ++ repeat false 5 /\
  lzs_data ex_lzs_items = [97; 98; 99; 97; 98; 99; 98; 99; 97; 98; 99; 98; 99; 97; 98; 99; 98; 99; 97; 98; 99; 98; 99; 99; 99] /\
  e_crc ex_lzs = calcCrc 0 (lzs_data ex_lzs_items).
Proof.
  split. { constructor; [constructor; cbn; try lia; split; auto; repeat constructor; lia|cbn; lia|reflexivity]. }
  split. { constructor; [reflexivity|now left|split; [discriminate|cbn; lia]]. }
  split; [repeat constructor; cbn; lia|]. split; [reflexivity|]. split; vm_compute; reflexivity.
Qed.

(** ** C62: -lz5- entries *)

Theorem C62_lz5_extracted :
  forall E w a e dir base header ts data,
    reader E a w -> w_fs w a = Some (NFile (archive_bytes [(e, data)])) ->
    file_entry e -> named e dir base -> asks_for header (dir ++ base) ->
    e_method e = [45; 108; 122; 53; 45] -> Forall lz5_ok ts -> lz5_stream ts data ->
    e_packed e = zlen data -> e_original e = zlen (lz5_data ts) -> e_crc e = calcCrc 0 (lz5_data ts) ->
    exists w', DecompresBytes E header w = Done (lz5_data ts, false) w' /\ w_fs w' = w_fs w.
Proof.
  intros E w a e dir base header ts data R Hf FE ND Hh HM OK ST EP EO EC.
  unfold archive_bytes in Hf. cbn [flat_map fst snd] in Hf. rewrite app_nil_r, <- app_assoc in Hf.
  assert (MN : method_num (e_method e) = Some 9) by (rewrite HM; reflexivity).
  destruct (stream_first E e dir base 9 header w a (data ++ [0]) (w_glob w) (calcCrc 0 (lz5_data ts)) (lz5_data ts) 0 [0]) as [k X]; auto.
  { discriminate. } { rewrite EO. now apply lz5_decodes. }
  rewrite X. pose proof (zlen_nonneg data). destruct (Z.eqb_spec 0 (e_packed e)) as [Z0|Z0]; [rewrite loop_end; eexists; split; reflexivity|].
  unfold skipToNextpos. destruct (Z.eqb_spec (e_packed e) 0); [lia|]. rewrite drop_past by (rewrite zlen_cons, zlen_nil; lia). rewrite loop_eof. eexists. split; reflexivity.
Qed.

(** Nine items, so two groups: bytes, and copies of the initial contents and of what
    was written. *)
Definition ex_lz5_items : list rtok := [RByte 97; RByte 98; RCopy 4078 5; RCopy 100 3; RByte 99; RCopy 3328 18; RByte 100; RCopy 4000 3; RByte 101].
Definition ex_lz5_data : list Z := [83; 97; 98; 238; 242; 100; 0; 99; 0; 223; 100; 160; 240; 1; 101].
Definition ex_lz5 : entry0 := E0 [45; 108; 122; 53; 45] 15 34 0 32 [122] 2975 0 1000000 33188 0 0.
Definition ex_lz5_body : list Z := [97; 98; 97; 98; 97; 98; 97; 7; 7; 7; 99; 0; 1; 2; 3; 4; 5; 6; 7; 8; 9; 10; 11; 12; 13; 14; 15; 16; 17; 100; 32; 32; 32; 101].
Lemma ex_lz5_stream : lz5_stream ex_lz5_items ex_lz5_data.
Proof.
  change ex_lz5_items with ([RByte 97; RByte 98; RCopy 4078 5; RCopy 100 3; RByte 99; RCopy 3328 18; RByte 100; RCopy 4000 3] ++ [RByte 101]).
  apply (lz5_group 83 [RByte 97; RByte 98; RCopy 4078 5; RCopy 100 3; RByte 99; RCopy 3328 18; RByte 100; RCopy 4000 3] [RByte 101] [1; 101]); [reflexivity| |].
  - split; [lia|]. intros i t H. do 8 (destruct i as [|i]; [injection H as <-; reflexivity|]). destruct i; discriminate H.
  - apply (lz5_last 1 [RByte 101]); [cbn; lia|]. split; [lia|]. intros i t H. destruct i as [|i]; [injection H as <-; reflexivity|]. destruct i; discriminate H.
Qed.
Example C62_example :
  file_entry ex_lz5 /\ named ex_lz5 [] [122] /\ Forall lz5_ok ex_lz5_items /\ lz5_stream ex_lz5_items ex_lz5_data /\ e_packed ex_lz5 = zlen ex_lz5_data /\
  lz5_data ex_lz5_items = ex_lz5_body /\ e_crc ex_lz5 = calcCrc 0 (lz5_data ex_lz5_items).
Proof.
  split. { constructor; [constructor; cbn; try lia; split; auto; repeat constructor; lia|cbn; lia|reflexivity]. }
  split. { constructor; [reflexivity|now left|split; [discriminate|cbn; lia]]. }
  split; [repeat constructor; cbn; lia|]. split; [exact ex_lz5_stream|]. split; [reflexivity|]. split; vm_compute; reflexivity.
Qed.

(** ** C63: the entries after a LArc entry *)

(** [e] and [data] are an entry of [body] packed in the format -lzs-, or -lz5-. *)
Definition lzs_entry (e : entry0) (data body : list Z) : Prop :=
  exists ts pad, e_method e = [45; 108; 122; 115; 45] /\ Forall lzs_ok ts /\ byte_string_bits data = flat_map lzs_bits ts ++ pad /\ (length pad < 16)%nat /\
    e_packed e = zlen data /\ e_original e = zlen body /\ body = lzs_data ts /\ e_crc e = calcCrc 0 body.
Definition lz5_entry (e : entry0) (data body : list Z) : Prop :=
  exists ts, e_method e = [45; 108; 122; 53; 45] /\ Forall lz5_ok ts /\ lz5_stream ts data /\
    e_packed e = zlen data /\ e_original e = zlen body /\ body = lz5_data ts /\ e_crc e = calcCrc 0 body.

Lemma lzs_decodable e data body : lzs_entry e data body -> decodable e data body.
Proof.
  intros (ts & pad & M & OK & EB & HP & P1 & P2 & P3 & P4). exists 8. split; [rewrite M; reflexivity|]. split; [discriminate|]. split; [reflexivity|]. split; [exact P1|].
  intros cs g rest A B. exists g. rewrite P1, P2, P4, P3. now apply lzs_decodes with (pad := pad).
Qed.

Lemma headers_decodable E : forall es w acc cs fuel,
  Forall (fun x => file_entry (fst x) /\ (exists dir base, named (fst x) dir base) /\ exists body, decodable (fst x) (snd x) body) es ->
  l_filec (w_lha w) = 0 -> l_broken (w_lha w) = false -> l_ignoredir (w_lha w) = false -> l_extractdir (w_lha w) = [] -> l_noexec (w_lha w) = false -> w_verify w = true -> l_stdout (w_lha w) = false ->
  after cs (w_glob w) -> bytes (archive_bytes es) -> (length es < fuel)%nat ->
  exists w', headers_loop E fuel (archive_bytes es) acc w = Done (acc ++ map (fun x => read0 NewLzHeader (fst x)) es, false) w'.
Proof.
  induction es as [|[e data] es IH]; intros w acc cs fuel F H1 H2 H3 H4 H5 H6 H6s A B Hf.
  - destruct fuel; [cbn in Hf; lia|]. exists w. cbn [map]. rewrite app_nil_r. reflexivity.
  - destruct fuel; [cbn in Hf; lia|]. inversion F as [|? ? F1 F2]; subst. cbn [fst snd] in F1. destruct F1 as [FE [[dir [base ND]] [body P]]].
    destruct P as (method & MN & MD & MC & _ & P).
    unfold archive_bytes in B. cbn [flat_map fst snd] in B. rewrite <- !app_assoc in B. change (flat_map _ es ++ [0]) with (archive_bytes es) in B.
    apply Forall_app in B. destruct B as [B1 B2]. pose proof B2 as B12. apply Forall_app in B2. destruct B2 as [B2 B3].
    destruct (P cs (w_glob w) (archive_bytes es) A B12) as [g2 D].
    unfold archive_bytes. cbn [flat_map fst snd]. rewrite <- !app_assoc. change (flat_map _ es ++ [0]) with (archive_bytes es).
    cbn [headers_loop]. rewrite (fe_get_new E e FE). istep. istep. unfold needFile. rewrite H1. change (0 =? 0) with true. cbv iota.
    rewrite <- H2 in D.
    rewrite (bindIO_done _ _ _ _ _ (extract_verify E e dir base method w (data ++ archive_bytes es) g2 (e_crc e) body (e_packed e) (archive_bytes es) FE ND MN MD H3 H4 H5 H6 H6s MC D eq_refl)).
    cbv beta iota zeta. change (PackedSize (read0 NewLzHeader e)) with (e_packed e). rewrite Z.eqb_refl.
    destruct (l0_original _ (fe_legal _ FE)) as [O1 _]. destruct (l0_packed _ (fe_legal _ FE)) as [O2 _].
    destruct (after_decode cs (w_glob w) _ _ _ _ _ _ _ _ _ _ A O1 O2 B12 D) as [cs' A'].
    destruct (IH (set_wglob g2 w) (acc ++ [read0 NewLzHeader e]) cs' fuel) as [w' W]; auto; [cbn [length] in Hf; lia|].
    exists w'. rewrite W. rewrite <- app_assoc. reflexivity.
Qed.

(** Proved for archives of -lzs-, -lh5- and -lh6- entries, in any order. *)
Theorem C63_after_larc_partial :
  forall E w cs a es,
    reader E a w -> after cs (w_glob w) -> w_fs w a = Some (NFile (archive_bytes es)) -> bytes (archive_bytes es) ->
    Forall (fun x => file_entry (fst x) /\ (exists dir base, named (fst x) dir base) /\ exists body, packs (fst x) (snd x) body \/ lzs_entry (fst x) (snd x) body) es ->
    exists headers w', Headers E w = Done (headers, false) w' /\ Forall2 describes (map fst es) headers.
Proof.
  intros E w cs a es [Hl Hv [Ha Hn] Hr Hs] A Hf B F. apply has_nul_notin in Hn.
  assert (F' : Forall (fun x => file_entry (fst x) /\ (exists dir base, named (fst x) dir base) /\ exists body, decodable (fst x) (snd x) body) es).
  { eapply Forall_impl; [|exact F]. cbv beta. intros x (X1 & X2 & body & [X3|X3]); (split; [exact X1|]); (split; [exact X2|]); exists body; [now apply packs_decodable|now apply lzs_decodable]. }
  destruct (headers_decodable E es (set_wverify true w) [] cs (S (length (archive_bytes es))) F') as [w' W]; try (cbn [w_lha set_wverify]; rewrite Hl; reflexivity); auto.
  { apply entries_length. }
  exists (map (fun x => read0 NewLzHeader (fst x)) es), (set_wverify false w'). split.
  - unfold Headers, with_verify. istep. istep. cbn [w_fs w_lha set_wverify]. rewrite Hl. cbn [l_archive NewLha]. rewrite (open_file E _ a _ Ha Hn Hf Hr). rewrite W. reflexivity.
  - clear W Hf B F'. induction es as [|[e d] es IH]; cbn [map fst]; constructor; inversion F as [|? ? F1 F2]; subst.
    + destruct F1 as [FE [[dir [base ND]] _]]. exact (describes_read0 e dir base NewLzHeader FE ND).
    + now apply IH.
Qed.

(** The claim is false of every archive that starts with an -lz5- entry whose packed
    data take as many bytes as everything behind them: after it nothing is listed and
    nothing is extracted, and no error is reported. *)
Theorem C63_after_larc_refuted :
  forall E w a e data body es dir base,
    reader E a w -> w_fs w a = Some (NFile (archive_bytes ((e, data) :: es))) -> file_entry e -> named e dir base ->
    lz5_entry e data body -> data <> [] -> zlen (archive_bytes es) <= zlen data ->
    (exists h w', Headers E w = Done ([h], false) w' /\ describes e h) /\
    (w_fs w base = None -> exists w', CommandExtract E a w = Done false w' /\ w_fs w' base = Some (NFile body) /\ forall q, q <> base -> w_fs w' q = w_fs w q).
Proof.
  intros E w a e data body es dir base R Hf FE ND (ts & HM & OK & ST & EP & EO & EB & EC) NE LE. pose proof R as [Hl Hv [Ha Hn] Hr Hs]. apply has_nul_notin in Hn.
  unfold archive_bytes in Hf. cbn [flat_map fst snd] in Hf. rewrite <- !app_assoc in Hf. change (flat_map _ es ++ [0]) with (archive_bytes es) in Hf.
  assert (MN : method_num (e_method e) = Some 9) by (rewrite HM; reflexivity). assert (MD : 9 <> LzhdirsMethodNum) by discriminate.
  assert (P0 : e_packed e <> 0) by (rewrite EP; destruct data; [contradiction|rewrite zlen_cons; pose proof (zlen_nonneg data); lia]).
  assert (D : DecodeLzhuf 9 false (e_original e) (e_packed e) (data ++ archive_bytes es) (w_glob w) = Ok (w_glob w, e_crc e, body, 0, archive_bytes es)) by (rewrite EO, EC, EB; now apply lz5_decodes).
  assert (SK : skipToNextpos (e_packed e) (archive_bytes es) = (true, [])).
  { unfold skipToNextpos. destruct (Z.eqb_spec (e_packed e) 0); [contradiction|]. rewrite <- EP in LE. rewrite drop_past by exact LE. unfold archive_bytes. destruct (flat_map _ es ++ [0]) eqn:X; [apply app_eq_nil in X; destruct X; discriminate|reflexivity]. }
  split.
  - exists (read0 NewLzHeader e). eexists. split; [|exact (describes_read0 e dir base NewLzHeader FE ND)].
    unfold Headers, with_verify. istep. istep. cbn [w_fs w_lha set_wverify]. rewrite Hl. cbn [l_archive NewLha]. rewrite (open_file E _ a _ Ha Hn Hf Hr).
    destruct (layout_fuel e (data ++ archive_bytes es)) as [k Hk]. rewrite Hk. cbn [headers_loop]. rewrite (fe_get_new E e FE). istep. istep. unfold needFile. cbn [w_lha set_wverify]. rewrite Hl. change (l_filec (NewLha a) =? 0) with true. cbv iota.
    assert (X : extractOne E (read0 NewLzHeader e) (data ++ archive_bytes es) (set_wverify true w) = Done (false, 0, read0 NewLzHeader e, archive_bytes es) (set_wglob (w_glob w) (set_wverify true w))).
    { apply (extract_verify E e dir base 9 _ _ _ (e_crc e) body); auto; cbn [w_lha set_wverify w_glob]; rewrite Hl; try reflexivity. exact D. }
    rewrite (bindIO_done _ _ _ _ _ X). cbv beta iota zeta. change (PackedSize (read0 NewLzHeader e)) with (e_packed e). destruct (Z.eqb_spec 0 (e_packed e)); [lia|]. rewrite SK. reflexivity.
  - intros HB. rewrite (CommandExtract_open E w a _ Hf (rd_path _ _ _ R) Hr Hs). rewrite Hl. set (w1 := set_wlha (set_archive a (NewLha a)) w).
    destruct (extract_file E e FE dir base ND 9 MN MD w1 (data ++ archive_bytes es) (w_glob w) (e_crc e) body 0 (archive_bytes es)) as (w' & X1 & X2 & X3 & X4 & X5 & X6 & X7); auto.
    destruct (layout_fuel e (data ++ archive_bytes es)) as [k Hk]. rewrite Hk. exists w'. split; [|split; [exact X2|exact X3]].
    rewrite (bindIO_done _ _ w1 (tt, false) w'); [reflexivity|]. rewrite (loop_entry E e FE). istep. istep. change (needFile (w_lha w1) _) with true. cbv iota.
    unfold one_file at 1. rewrite bind_assoc, (bindIO_done _ _ _ _ _ X1), bind_ret. change (PackedSize (read0 NewLzHeader e)) with (e_packed e).
    destruct (Z.eqb_spec 0 (e_packed e)); [lia|]. rewrite SK. apply loop_eof.
Qed.

(** A longer -lz5- entry, followed by an entry of 38 bytes. *)
Definition ex_lz5_long : list rtok := repeat (RByte 97) 40.
Definition ex_lz5_long_data : list Z := flat_map (fun _ => 255 :: repeat 97 8) (repeat 0 5).
Definition ex_lz5_first : entry0 := E0 [45; 108; 122; 53; 45] 45 40 0 32 [122] 26832 0 1000000 33188 0 0.
Lemma flags255 : lz5_flags 255 (repeat (RByte 97) 8).
Proof. split; [lia|]. intros i t H. do 8 (destruct i as [|i]; [injection H as <-; reflexivity|]). destruct i; discriminate H. Qed.
Example C63_example :
  file_entry ex_lz5_first /\ named ex_lz5_first [] [122] /\ lz5_entry ex_lz5_first ex_lz5_long_data (repeat 97 40) /\
  zlen (archive_bytes [(ex_short, [1; 2])]) <= zlen ex_lz5_long_data /\ lzs_entry ex_lzs ex_lzs_data (lzs_data ex_lzs_items) /\
  match CommandList ex_env [98] (ex_listing (archive_bytes [(ex_lz5_first, ex_lz5_long_data); (ex_short, [1; 2])])) with
  | Done (hs, false) _ => length hs = 2%nat | _ => False end.
Proof.
  split. { constructor; [constructor; cbn; try lia; split; auto; repeat constructor; lia|cbn; lia|reflexivity]. }
  split. { constructor; [reflexivity|now left|split; [discriminate|cbn; lia]]. }
  split. { exists ex_lz5_long. split; [reflexivity|]. split; [repeat constructor; lia|]. split.
    - do 5 (apply (lz5_group 255 (repeat (RByte 97) 8)); [reflexivity|exact flags255|]). constructor.
    - repeat split; vm_compute; reflexivity. }
  split; [vm_compute; discriminate|]. split.
  { exists ex_lzs_items, (repeat false 5). split; [reflexivity|]. split; [repeat constructor; cbn; lia|]. split; [reflexivity|]. split; [cbn; lia|]. repeat split; vm_compute; reflexivity. }
  vm_compute. reflexivity.
Qed.

Print Assumptions C61_lzs_extracted.
Print Assumptions C62_lz5_extracted.
Print Assumptions C63_after_larc_partial.
Print Assumptions C63_after_larc_refuted.
