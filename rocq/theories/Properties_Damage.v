(** Properties C69, C70: damaged entries and entries of unknown methods are reported.
    [reader], [file_entry], [named] and [describes] are defined in S_Archive.v,
    [archive_bytes] and [names_shrink] in S_Listing.v, [holds] in Properties_Lh1.v. *)
From Verif Require Import Go GoLemmas M_Crc M_Bitio P_Bitio M_Maketree M_Maketbl M_Huf M_Slide M_Larc M_Decode M_Lzhuf S_Bits S_Huff S_Lz S_Lh1 S_Larc P_Larc S_Header S_Listing M_Header M_Os M_Archive S_History S_Archive
  P_Header P_Accept P_List P_Os P_RoundTrip P_Single P_Read1 P_ExtractAll P_Verify Properties_Slide Properties_Archive Properties_Extract Properties_Listing Properties_Larc Properties_Lh5 Properties_Lh1.

(** ** C69: damaged entries *)

(** The entry [e], but with the CRC [c]. *)
Definition with_crc (c : Z) (e : entry0) : entry0 :=
  E0 (e_method e) (e_packed e) (e_original e) (e_dostime e) (e_attr e) (e_name e) c (e_minor e) (e_time e) (e_mode e) (e_uid e) (e_gid e).

(** The data decompress to [body], but the header announces another CRC. *)
Definition damaged (e : entry0) (data body : list Z) : Prop :=
  holds (with_crc (calcCrc 0 body) e) data body /\ e_crc e <> calcCrc 0 body.

Lemma open_headers E a w c : reader E a w -> w_fs w a = Some (NFile c) ->
  Headers E w = match headers_loop E (S (length c)) c [] (set_wverify true w) with
                | Done x w' => Done x (set_wverify false w') | Crash w' => Crash (set_wverify false w') | Unknown => Unknown end.
Proof.
  intros [Hl Hv [Ha Hn] Hr Hs] Hf. apply has_nul_notin in Hn. unfold Headers, with_verify. istep. istep. cbn [w_fs w_lha set_wverify]. rewrite Hl. cbn [l_archive NewLha]. now rewrite (open_file E _ a _ Ha Hn Hf Hr).
Qed.

Lemma holds_all es files :
  Forall2 (fun x f => file_entry (fst x) /\ (exists dir, named (fst x) dir (fst f)) /\ holds (fst x) (snd x) (snd f)) es files ->
  Forall (fun x => file_entry (fst x) /\ (exists dir base, named (fst x) dir base) /\ exists body, decodable (fst x) (snd x) body) es.
Proof.
  intros F. induction F as [|x f es files (X1 & [dir X2] & X3) F IH]; constructor; [|exact IH]. split; [exact X1|]. split; [exists dir, (fst f); exact X2|exists (snd f); now apply holds_decodable].
Qed.

Lemma fuel_split es (e : entry0) data more : exists k, S (length (archive_bytes (es ++ (e, data) :: more))) = (length es + S k)%nat.
Proof.
  pose proof (entries_length (es ++ (e, data) :: more)) as L. rewrite app_length in L. cbn [length] in L.
  exists (length (archive_bytes (es ++ (e, data) :: more)) - length es)%nat. lia.
Qed.

(** Headers returns the headers up to the first damaged entry, and an error. *)
Theorem C69_damage_reported :
  forall E w cs a es files e dir base data body more,
    reader E a w -> after cs (w_glob w) -> w_fs w a = Some (NFile (archive_bytes (es ++ (e, data) :: more))) -> bytes (archive_bytes (es ++ (e, data) :: more)) ->
    Forall2 (fun x f => file_entry (fst x) /\ (exists dir, named (fst x) dir (fst f)) /\ holds (fst x) (snd x) (snd f)) es files ->
    file_entry e -> named e dir base -> damaged e data body ->
    exists headers w', Headers E w = Done (headers, true) w' /\ Forall2 describes (map fst es ++ [e]) headers /\ w_fs w' = w_fs w.
Proof.
  intros E w cs a es files e dir base data body more R A Hf B F FE ND [HO NC]. rewrite (open_headers E a w _ R Hf).
  destruct (fuel_split es e data more) as [k ->]. rewrite archive_app in B |- *. pose proof (holds_all _ _ F) as F'. pose proof R as [Hl Hv Ha Hr Hs].
  destruct (headers_prefix E (layout0 e ++ data ++ archive_bytes more) es (set_wverify true w) [] cs (S k)) as (g' & cs' & W & A'); auto; try (cbn [w_lha set_wverify]; rewrite Hl; reflexivity).
  rewrite W. clear W. cbn [app]. set (w1 := set_wglob g' (set_wverify true w)) in *.
  apply Forall_app in B. destruct B as [_ B]. apply Forall_app in B. destruct B as [_ B].
  destruct (holds_decodable _ _ _ HO) as (method & MN & MD & MC & _ & P). cbn [with_crc e_method] in MN.
  destruct (P cs' g' (archive_bytes more) A' B) as [g2 D]. cbn [with_crc e_original e_packed e_crc] in D.
  assert (L1 : w_lha w1 = NewLha a) by exact Hl.
  cbn [headers_loop]. rewrite (fe_get_new E e FE). istep. istep. rewrite L1. change (needFile (NewLha a) (Name (read0 NewLzHeader e))) with true. cbv iota.
  assert (X : extractOne E (read0 NewLzHeader e) (data ++ archive_bytes more) w1 = Done (true, 0, read0 NewLzHeader e, archive_bytes more) (set_wglob g2 w1)).
  { rewrite (extract_test E NewLzHeader e dir base method w1 (data ++ archive_bytes more) g2 (calcCrc 0 body) body (e_packed e) (archive_bytes more) FE ND MN MD); rewrite ?L1; auto.
    assert (NE : calcCrc 0 body =? e_crc e = false) by (apply Z.eqb_neq; congruence). rewrite NE, MC. reflexivity. }
  rewrite (bindIO_done _ _ _ _ _ X). cbv beta iota zeta. eexists _, _. split; [reflexivity|]. split; [|reflexivity].
  apply Forall2_app; [|constructor; [exact (describes_read0 e dir base NewLzHeader FE ND)|constructor]].
  clear -F'. induction F' as [|[e0 d] es (FE & (dir & base & ND) & _) F IH]; cbn [map fst]; constructor; [exact (describes_read0 e0 dir base NewLzHeader FE ND)|exact IH].
Qed.

(** An entry, one with a wrong CRC, and one more. *)
Definition ex_bad : entry0 := with_crc 51677 ex_lh1.
Example C69_example :
  Forall2 (fun x f => file_entry (fst x) /\ (exists dir, named (fst x) dir (fst f)) /\ holds (fst x) (snd x) (snd f)) [(ex_lzs, ex_lzs_data)] [([122], lzs_data ex_lzs_items)] /\
  file_entry ex_bad /\ named ex_bad [] [122] /\ damaged ex_bad ex_lh1_data (lz_expand ex_lh1_items) /\
  bytes (archive_bytes ([(ex_lzs, ex_lzs_data)] ++ (ex_bad, ex_lh1_data) :: [(ex_lzs, ex_lzs_data)])).
Proof.
  split. { constructor; [|constructor]. cbn [fst snd]. split; [apply C61_example|]. split; [exists []; apply C61_example|].
    right. right. right. left. exists ex_lzs_items, (repeat false 5). split; [reflexivity|]. split; [repeat constructor; cbn; lia|]. split; [reflexivity|]. split; [cbn; lia|]. repeat split; vm_compute; reflexivity. }
  split. { constructor; [constructor; cbn; try lia; split; auto; repeat constructor; lia|cbn; lia|reflexivity]. }
  split. { constructor; [reflexivity|now left|split; [discriminate|cbn; lia]]. }
  split.
  { split; [|vm_compute; discriminate]. right. right. right. right. destruct ex_lh1_ok as (ts & pad & X1 & X2 & X3 & X4 & X5 & X6 & X7 & X8).
    exists ts, pad. repeat (split; [assumption|]). reflexivity. }
  apply Forall_forall. intros x I. cbv in I. unfold is_byte. repeat (destruct I as [<-|I]; [lia|]). destruct I.
Qed.

(** ** C70: entries of unknown methods *)

(** The fourteen methods of the format. *)
Definition known_methods : list (list Z) :=
  [[45; 108; 104; 48; 45]; [45; 108; 104; 49; 45]; [45; 108; 104; 50; 45]; [45; 108; 104; 51; 45]; [45; 108; 104; 52; 45]; [45; 108; 104; 53; 45]; [45; 108; 104; 54; 45]; [45; 108; 104; 55; 45];
   [45; 108; 122; 115; 45]; [45; 108; 122; 53; 45]; [45; 108; 122; 52; 45]; [45; 108; 104; 100; 45]; [45; 112; 109; 48; 45]; [45; 112; 109; 50; 45]].

Lemma unknown_num m : ~ In m known_methods -> method_num m = None.
Proof.
  intros N. unfold method_num. assert (G : forall l i, (forall x, In x l -> In x known_methods) -> method_index m l i = None).
  { induction l as [|x l IH]; intros i S; [reflexivity|]. cbn [method_index]. destruct (list_eqb m x) eqn:X; [apply list_eqb_eq in X; subst; exfalso; apply N, S; now left|]. apply IH. intros y I. apply S. now right. }
  apply G. intros x I. exact I.
Qed.

(** The entries before it are listed, and extracted; then an error is returned and
    nothing else is done.  The second part is proved when no name is longer than the one
    before it (see C60). *)
Theorem C70_unknown_method_reported :
  forall E w cs a es files e dir base data more,
    reader E a w -> after cs (w_glob w) -> w_fs w a = Some (NFile (archive_bytes (es ++ (e, data) :: more))) -> bytes (archive_bytes (es ++ (e, data) :: more)) ->
    Forall2 (fun x f => file_entry (fst x) /\ (exists dir, named (fst x) dir (fst f)) /\ holds (fst x) (snd x) (snd f)) es files ->
    file_entry e -> named e dir base -> ~ In (e_method e) known_methods ->
    (exists headers w', Headers E w = Done (headers, true) w' /\ Forall2 describes (map fst es ++ [e]) headers /\ w_fs w' = w_fs w) /\
    (names_shrink 221 (es ++ (e, data) :: more) -> NoDup (map fst files) -> (forall f, In f files -> w_fs w (fst f) = None) ->
      exists w', CommandExtract E a w = Done true w' /\ (forall f, In f files -> w_fs w' (fst f) = Some (NFile (snd f))) /\
        (forall q, ~ In q (map fst files) -> w_fs w' q = w_fs w q)) /\
    (es = [] -> forall header, asks_for header (dir ++ base) -> exists w', DecompresBytes E header w = Done ([], true) w' /\ w_fs w' = w_fs w).
Proof.
  intros E w cs a es files e dir base data more R A Hf B F FE ND NK. apply unknown_num in NK. pose proof R as [Hl Hv Ha Hr Hs]. split; [|split].
  - rewrite (open_headers E a w _ R Hf).
    destruct (fuel_split es e data more) as [k ->]. rewrite archive_app in B |- *. pose proof (holds_all _ _ F) as F'.
    destruct (headers_prefix E (layout0 e ++ data ++ archive_bytes more) es (set_wverify true w) [] cs (S k)) as (g' & cs' & W & A'); auto; try (cbn [w_lha set_wverify]; rewrite Hl; reflexivity).
    rewrite W. clear W. cbn [app]. set (w1 := set_wglob g' (set_wverify true w)) in *. assert (L1 : w_lha w1 = NewLha a) by exact Hl.
    cbn [headers_loop]. rewrite (fe_get_new E e FE). istep. istep. rewrite L1. change (needFile (NewLha a) (Name (read0 NewLzHeader e))) with true. cbv iota.
    assert (X := extract_unknown E NewLzHeader e dir base w1 (data ++ archive_bytes more) FE ND NK). rewrite L1 in X. specialize (X eq_refl eq_refl).
    rewrite (bindIO_done _ _ _ _ _ X). cbv beta iota zeta. eexists _, _. split; [reflexivity|]. split; [|reflexivity].
    apply Forall2_app; [|constructor; [exact (describes_read0 e dir base NewLzHeader FE ND)|constructor]].
    clear -F'. induction F' as [|[e0 d] es (FE & (dir & base & ND) & _) F IH]; cbn [map fst]; constructor; [exact (describes_read0 e0 dir base NewLzHeader FE ND)|exact IH].
  - intros NS NDp NF. rewrite (CommandExtract_open E w a _ Hf Ha Hr Hs). rewrite Hl. set (w1 := set_wlha (set_archive a (NewLha a)) w).
    destruct (fuel_split es e data more) as [k ->]. rewrite archive_app in B |- *. destruct (names_shrink_app _ _ _ _ NS) as [N1 N2]. cbn [fst] in N2.
    assert (F' : Forall2 (fun x f => file_entry (fst x) /\ (exists dir, named (fst x) dir (fst f)) /\ decodable (fst x) (snd x) (snd f)) es files).
    { clear -F. induction F as [|x f es files (X1 & X2 & X3) F IH]; constructor; auto using holds_decodable. }
    destruct (extract_prefix E (layout0 e ++ data ++ archive_bytes more) es files NewLzHeader 221 w1 cs (S k)) as (h' & w' & cs' & X1 & X2 & X3 & X4 & X5 & X6 & X7 & X8 & _); auto; try reflexivity.
    exists w'. split; [|split; [exact X2|exact X3]].
    assert (Y : extract_loop E (S k) everything (one_file E) h' (layout0 e ++ data ++ archive_bytes more) tt w' = Done (tt, true) w').
    { assert (L1 : w_lha w' = set_archive a (NewLha a)) by exact X5. cbn [extract_loop]. rewrite (fe_get E e FE h'); [|lia|unfold zlen at 2; lia]. istep. cbn [negb]. unfold everything at 1. rewrite bind_assoc, bind_get, bind_ret.
      rewrite L1. change (needFile (set_archive a (NewLha a)) (Name (read0 h' e))) with true. cbv iota.
      assert (X := extract_unknown E h' e dir base w' (data ++ archive_bytes more) FE ND NK). rewrite L1 in X. specialize (X eq_refl eq_refl).
      unfold one_file at 1. rewrite bind_assoc, (bindIO_done _ _ _ _ _ X), bind_ret. reflexivity. }
    rewrite Y in X1. unfold everything in X1. rewrite (bindIO_done _ _ _ _ _ X1). reflexivity.
  - intros -> header Hh. cbn [app] in Hf. rewrite (DecompresBytes_open E header w a _ Hf R). set (w1 := set_wlha (set_level 2 (NewLha a)) w).
    change (archive_bytes ((e, data) :: more)) with (archive_bytes ([] ++ (e, data) :: more)). rewrite archive_app. cbn [entries_bytes flat_map app].
    destruct (layout_fuel e (data ++ archive_bytes more)) as [k Hk]. rewrite Hk. rewrite (loop_entry E e FE). unfold by_name at 1. rewrite bind_ret.
    unfold asks_for in Hh. rewrite (r0_name e FE dir base ND), Hh, list_eqb_refl. unfold one_stream at 1.
    assert (X : extractOneStream (read0 NewLzHeader e) (data ++ archive_bytes more) w1 = Done (true, 0, [], data ++ archive_bytes more) w1).
    { unfold extractOneStream. change (Method (read0 NewLzHeader e)) with (e_method e). rewrite NK. reflexivity. }
    rewrite bind_assoc, (bindIO_done _ _ _ _ _ X), bind_ret. eexists. split; reflexivity.
Qed.

(** A method -lh8-. *)
Definition ex_lh8 : entry0 := E0 [45; 108; 104; 56; 45] 12 86 0 32 [122] 51676 0 1000000 33188 0 0.
Example C70_example :
  Forall2 (fun x f => file_entry (fst x) /\ (exists dir, named (fst x) dir (fst f)) /\ holds (fst x) (snd x) (snd f)) [(ex_lzs, ex_lzs_data)] [([122], lzs_data ex_lzs_items)] /\
  file_entry ex_lh8 /\ named ex_lh8 [] [122] /\ ~ In (e_method ex_lh8) known_methods /\ names_shrink 221 ([(ex_lzs, ex_lzs_data)] ++ (ex_lh8, ex_lh1_data) :: []).
Proof.
  split; [apply C69_example|].
  split. { constructor; [constructor; cbn; try lia; split; auto; repeat constructor; lia|cbn; lia|reflexivity]. }
  split. { constructor; [reflexivity|now left|split; [discriminate|cbn; lia]]. }
  split; [cbn; intuition discriminate|]. cbn. lia.
Qed.

Print Assumptions C69_damage_reported.
Print Assumptions C70_unknown_method_reported.
