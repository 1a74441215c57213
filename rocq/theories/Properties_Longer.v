(** The full claims of C66, C75 and C88 to C91 are false: archives in which a name is
    longer than the one before it, and files that do not get shorter. *)
From Verif Require Import Go GoLemmas P_Bits S_Lh5 P_Lz M_Crc M_Bitio P_Bitio M_Maketree M_Maketbl M_Huf M_Slide M_Larc M_Decode M_Lzhuf S_Bits S_Huff S_Lz S_Lh1 S_Larc P_Larc S_Header S_Listing S_Grow S_Level0 M_Header M_Os M_Archive S_History S_Archive S_AnyEntry S_GrowList S_Add M_Cli S_Cli
  P_Crc P_Header P_Accept P_List P_Os P_RoundTrip P_Single P_Extract P_Read1 P_Select P_ExtractAll P_Verify P_Still P_Add P_AddFiles P_Cli P_CliAdd P_Level0 P_AnyEntry P_Generic P_Grow P_GrowAll P_GrowList
  Properties_Slide Properties_Archive Properties_Extract Properties_Listing Properties_Larc Properties_Lh5 Properties_Lh1 Properties_Damage Properties_Stored Properties_Add Properties_Header Properties_Select Properties_Cli Properties_CliAdd Properties_Level0 Properties_Generic Properties_Grow P_Lost Properties_Lost.

(** Entries made on Unix, as entries of any system. *)
Definition unix (es : list (entry0 * list Z)) : list (entryl * list Z) := map (fun x => (of_unix (fst x), snd x)) es.

Lemma layout_unix e : layoutl (of_unix e) = layout0 e.
Proof. reflexivity. Qed.

Lemma archive_unix es : archivel (unix es) = archive_bytes es.
Proof. unfold archivel, archive_bytes. f_equal. induction es as [|x es IH]; [reflexivity|]. cbn [unix map flat_map fst snd]. fold (unix es). rewrite IH. reflexivity. Qed.

Lemma word_le16 x : 0 <= x < 2 ^ 16 -> x mod 256 + 256 * (x / 256 mod 256) = x.
Proof.
  change (2 ^ 16) with 65536. intros H. assert (0 <= x / 256 < 256) by (split; [apply Z.div_pos; lia|apply Z.div_lt_upper_bound; lia]).
  rewrite (Z.mod_small (x / 256)) by lia. pose proof (Z.div_mod x 256). lia.
Qed.

Lemma file_unix e : file_entry e -> file_entryl (of_unix e).
Proof.
  intros [[L1 L2 L3 L4 L5 [L6 L6'] L7 L8 L9 L10 L11 L12] N R].
  assert (BA : Forall (fun b => 0 <= b < 256) (y_area (of_unix e))).
  { cbn [of_unix y_area app]. constructor; [lia|]. constructor; [exact L8|]. unfold le32, le16. repeat (apply Forall_app; split); repeat constructor; try (apply Z.mod_pos_bound; lia). }
  constructor; [constructor; auto| | |].
  - split; [|exact L6']. cbn [of_unix y_area y_name app length]. rewrite !app_length. cbn [length le32 le16]. lia.
  - exact N.
  - assert (M : y_mode (of_unix e) = e_mode e).
    { unfold y_mode. cbn [of_unix y_area app]. unfold word_at, byte_at, le32, le16. cbn. exact (word_le16 _ L10). }
    rewrite M. exact R.
  - intros s t X. cbn [of_unix y_area app] in X. injection X as <- _. cbn. intuition discriminate.
Qed.

Lemma files_unix es : Forall (fun x => file_entry (fst x)) es -> Forall (fun x => file_entryl (fst x)) (unix es).
Proof. intros F. unfold unix. apply Forall_map. eapply Forall_impl; [|exact F]. intros x X. apply file_unix, X. Qed.

Lemma sized_unix es : sized es -> sizedl (unix es).
Proof. intros F. unfold unix, sizedl. apply Forall_map. exact F. Qed.

Lemma intact_unix es files : intact es files -> intactl (unix es) files.
Proof.
  intros F. unfold intact in F. induction F as [|x f es files (X1 & (dir & [N1 N2 N3]) & X3) F IH]; [constructor|].
  constructor; [|exact IH]. cbn [fst snd]. split; [apply file_unix, X1|]. split; [exists dir; constructor; [exact N1|exact N2|exact N3]|exact X3].
Qed.

(** ** C66: an entry whose name is longer than the one before it is not extracted. *)
Theorem C66_mixed_methods_refuted :
  forall E w cs a es e data more files f,
    reader E a w -> after cs (w_glob w) -> w_fs w a = Some (NFile (archive_bytes (es ++ (e, data) :: more))) -> bytes (archive_bytes (es ++ (e, data) :: more)) ->
    Forall2 (fun x f => file_entry (fst x) /\ (exists dir, named (fst x) dir (fst f)) /\ holds (fst x) (snd x) (snd f)) (es ++ (e, data) :: more) files ->
    unmarked 221 (es ++ (e, data) :: more) -> NoDup (map fst files) -> (forall f, In f files -> w_fs w (fst f) = None) ->
    nth_error files (length es) = Some f -> (last (map (fun x => length (e_name (fst x))) es) 221 < length (e_name e))%nat ->
    exists w', CommandExtract E a w = Done false w' /\ w_fs w' (fst f) = None.
Proof. exact C60_longer_name_refuted. Qed.

(** ** C75: the listing of lharc -l is right exactly if no name is longer than the one
    before it. *)
Theorem C75_list_command_refuted :
  forall E fl w a es,
    asks_list a fl -> stored_at E a (archive_bytes es) w -> Forall (fun x => file_entry (fst x)) es -> sized es -> unmarked 221 es -> unmac 221 es ->
    exists headers w', main E fl w = Done (0, headers) w' /\ (Forall2 describes (map fst es) headers <-> names_shrink 221 es).
Proof.
  intros E fl w a es L S I Z U M. destruct (main_list E a fl w L) as (l & ID & _ & R); [apply S|]. rewrite R. pose proof S as [[P1 P2] S2 S3 S4]. apply has_nul_notin in P2.
  destruct (C56_listing_iff_partial (with_generic false E) a (started false l w) es) as (hs & w' & X1 & _ & X2); auto.
  - now apply open_file.
  - apply ID.
  - exists hs, w'. rewrite (bindIO_done _ _ _ _ _ X1). auto.
Qed.

(** ** C88: the same of CommandList and archives of any system, made on Unix. *)
Theorem C88_any_system_listed_refuted :
  forall E a w es,
    os_open E (w_fs w) a = Some (archivel (unix es)) -> l_filec (w_lha w) = 0 -> ConvertCase (e_opts E) = false ->
    Forall (fun x => file_entry (fst x)) es -> sized es -> unmarked 221 es -> unmac 221 es -> ~ names_shrink 221 es ->
    Forall (fun x => file_entryl (fst x)) (unix es) /\ sizedl (unix es) /\
    exists headers w', CommandList E a w = Done (headers, false) w' /\ ~ Forall2 describesl (map fst (unix es)) headers.
Proof.
  intros E a w es O FC CC F S U M NS. split; [now apply files_unix|]. split; [now apply sized_unix|]. rewrite archive_unix in O.
  destruct (C56_listing_exact_partial E a w es O FC CC F S U M) as (hs & w' & X1 & X2). exists hs, w'. split; [exact X1|]. intros Q. apply NS. clear NS.
  assert (NZ : Forall (fun x => ~ In 0 (e_name (fst x))) es) by (eapply Forall_impl; [|exact F]; cbv beta; intros x FE; apply FE).
  revert NZ X2 Q. clear. generalize 221%nat as n. revert hs. induction es as [|[e data] es IH]; intros hs n NZ X2 Q; [exact I|].
  destruct hs as [|h hs]; [now destruct X2|]. cbn [shown fst names_shrink unix map] in *. destruct X2 as [X2 X3]. inversion NZ as [|? ? N1 N2]; subst. cbn [fst] in N1.
  inversion Q as [|? ? ? ? D Q']; subst. split; [|exact (IH hs _ N2 X3 Q')].
  destruct (Nat.leb_spec (length (e_name e)) n) as [L|L]; [exact L|]. exfalso. apply N1. pose proof (cd_name _ _ _ X2) as E1. rewrite (dl_name _ _ D) in E1. cbn [of_unix y_name] in E1.
  assert (Z : In 0 (slashes (e_name e))).
  { replace (length (e_name e) + 1 - n)%nat with (Datatypes.S (Datatypes.S (length (e_name e) - n - 1))) in E1 by lia. cbn [repeat] in E1.
    rewrite repeat_cons in E1. rewrite app_comm_cons, app_assoc in E1. apply app_inj_tail in E1. destruct E1 as [-> _]. apply in_or_app. right. now left. }
  unfold slashes in Z. apply in_map_iff in Z. destruct Z as (c & C1 & C2). destruct (Z.eqb_spec c 92); [discriminate|]. now subst.
Qed.

(** ** C89: lharc -e leaves the entry out and reports success. *)
Theorem C89_any_system_extracted_refuted :
  forall E fl w cs a es e data more files f,
    asks_extract a fl -> stored_at E a (archivel (unix (es ++ (e, data) :: more))) w -> after cs (w_glob w) -> bytes (archivel (unix (es ++ (e, data) :: more))) ->
    intact (es ++ (e, data) :: more) files -> unmarked 221 (es ++ (e, data) :: more) -> NoDup (map fst files) -> (forall f, In f files -> w_fs w (fst f) = None) ->
    nth_error files (length es) = Some f -> (last (map (fun x => length (e_name (fst x))) es) 221 < length (e_name e))%nat ->
    intactl (unix (es ++ (e, data) :: more)) files /\
    exists w', main E fl w = Done (0, []) w' /\ w_fs w' (fst f) = None.
Proof.
  intros E fl w cs a es e data more files f L S A B I UM ND NF NE GR. split; [now apply intact_unix|]. rewrite archive_unix in *.
  destruct (C76_extract_fitting_partial E fl w cs a _ files L S A B I UM (fitting_nodup _ _ _ ND)) as (w' & X1 & _ & X3).
  { intros g Hg. apply NF. eapply fitting_in, Hg. }
  exists w'. split; [exact X1|]. rewrite X3; [apply NF; eapply nth_error_In, NE|]. now apply fitting_out.
Qed.

(** ** C90: lharc -p and lharc -t end with status 1 on archives that are intact. *)
Theorem C90_any_system_refuted :
  forall E fl w cs a es files,
    asks_print a fl \/ asks_test a fl -> stored_at E a (archivel (unix es)) w -> after cs (w_glob w) -> bytes (archivel (unix es)) -> intact es files ->
    unmarked 221 es -> shifted 221 es -> ~ names_shrink 221 es ->
    intactl (unix es) files /\ exists w', main E fl w = Done (1, []) w'.
Proof.
  intros E fl w cs a es files [L|L] S A B I UM SH NS; (split; [now apply intact_unix|]); rewrite archive_unix in *.
  - destruct (C77_longer_name_refuted E fl w cs a es files L S A B I UM SH NS) as (w' & f & b & X & _). now exists w'.
  - destruct (C78_longer_name_refuted E fl w cs a es files L S A B I UM SH NS) as (w' & X & _). now exists w'.
Qed.

(** ** C91: a file that does not get shorter is empty when it is taken out (C105). *)
Theorem C91_create_generic_extract_refuted :
  forall E fl w cs a file body eo,
    asks_add a file fl -> asked_level fl = 0 -> f_g fl <> 5 -> asked_method fl = 5 \/ asked_method fl = 6 ->
    creatable E a w -> file <> a -> source E w file body -> after cs (w_glob w) ->
    body <> [] -> zlen body <= 8448 -> EncodeLzhuf (asked_method fl) (zlen body) body (w_glob w) = Ok eo -> eo_original eo <= eo_packed eo ->
    exists w' c, main E fl w = Done (0, []) w' /\ w_fs w' a = Some (NFile c) /\
      forall E2 fl2 w2 w3, asks_extract a fl2 -> stored_at E2 a c w2 -> w_fs w2 (Base file) = None -> w_stdin w2 = [] ->
        final (main E2 fl2 w2) = Some w3 -> w_fs w3 (Base file) <> Some (NFile body).
Proof.
  intros E fl w cs a file body eo AD LV G5 Hm CR NA S A NE LE HE Hge.
  destruct (C105_incompressible_refuted E fl w cs a file body eo AD LV ltac:(tauto) CR NA S A NE LE HE Hge) as (w' & c & X1 & X2 & _ & X3).
  exists w', c. split; [exact X1|]. split; [exact X2|]. intros E2 fl2 w2 w3 AE ST NB SI F.
  rewrite (X3 E2 fl2 w2 w3 AE ST NB) by (auto; rewrite SI; constructor). intros X. injection X as X. now apply NE.
Qed.

(** ** The hypotheses can be met *)

(** "z" before "abc" (C60_fitting_example), listed, extracted, printed and tested. *)
Example C66_longer_example :
  reader ex_env [98] (ex_listing (archive_bytes ex_pair)) /\ after [] (w_glob (ex_listing (archive_bytes ex_pair))) /\ bytes (archive_bytes ex_pair) /\
  ex_pair = [(ex_entry 0, ex_packed)] ++ (ex_abc, ex_packed) :: [] /\ NoDup (map fst ex_pair_files) /\
  (forall f, In f ex_pair_files -> w_fs (ex_listing (archive_bytes ex_pair)) (fst f) = None) /\
  unmarked 221 ex_pair /\ intact ex_pair ex_pair_files /\ shifted 221 ex_pair /\ unmac 221 ex_pair /\ ~ names_shrink 221 ex_pair.
Proof.
  split. { constructor; try reflexivity. split; [discriminate|intros [X|[]]; discriminate X]. }
  split; [split; [constructor|reflexivity]|]. split; [apply bytes_dec; vm_compute; reflexivity|]. split; [reflexivity|].
  split. { repeat constructor; cbn; try tauto. intros [X|[]]. discriminate X. }
  split. { intros f [<-|[<-|[]]]; reflexivity. }
  destruct C60_fitting_example as (X1 & X2 & _ & _ & _ & X3 & X4 & X5). auto.
Qed.

Example C75_longer_example :
  asks_list [98] (ex_flags true false false false) /\ stored_at ex_env [98] (archive_bytes ex_pair) (ex_listing (archive_bytes ex_pair)) /\
  Forall (fun x => file_entry (fst x)) ex_pair /\ sized ex_pair.
Proof.
  split; [constructor; reflexivity|]. split; [apply ex_stored_at|].
  split; [|repeat constructor]. destruct C60_fitting_example as (_ & X & _). clear -X. unfold intact in X. induction X as [|x f es fs [H _] F IH]; constructor; assumption.
Qed.

Example C89_longer_example :
  asks_extract [98] (ex_flags false true false false) /\ asks_print [98] (ex_flags false false true false) /\ asks_test [98] (ex_flags false false false true) /\
  stored_at ex_env [98] (archivel (unix ex_pair)) (ex_listing (archivel (unix ex_pair))) /\ bytes (archivel (unix ex_pair)) /\ intactl (unix ex_pair) ex_pair_files.
Proof.
  split; [constructor; reflexivity|]. split; [constructor; reflexivity|]. split; [constructor; reflexivity|].
  split; [apply ex_stored_at|]. split; [rewrite archive_unix; apply C66_longer_example|]. apply intact_unix, C60_fitting_example.
Qed.

(** One byte, 65 (C105_example), with -o 5. *)
Example C91_longer_example :
  let fl := ex_adds 2 5 2 false false false in
  asks_add [98] [122] fl /\ asked_level fl = 0 /\ f_g fl <> 5 /\ asked_method fl = 5 /\
  creatable ex_env [98] ex_single /\ [122] <> [98] /\ source ex_env ex_single [122] [65] /\ after [] (w_glob ex_single) /\
  (exists eo, EncodeLzhuf 5 (zlen [65]) [65] (w_glob ex_single) = Ok eo /\ eo_original eo <= eo_packed eo).
Proof.
  cbv zeta. split; [apply ex_asks|]. split; [reflexivity|]. split; [discriminate|]. split; [reflexivity|].
  destruct C105_example as (_ & _ & _ & X1 & X2 & X3 & X4 & X5 & _). auto.
Qed.

Print Assumptions C66_mixed_methods_refuted.
Print Assumptions C75_list_command_refuted.
Print Assumptions C88_any_system_listed_refuted.
Print Assumptions C89_any_system_extracted_refuted.
Print Assumptions C90_any_system_refuted.
Print Assumptions C91_create_generic_extract_refuted.
