(** Properties of archives whose entries have level 0 headers of any system: without
    an area after the CRC, with the area of MS-DOS, OS/2, Unix, ....  The headers are
    described in S_Level0.v. *)
From Verif Require Import Go GoLemmas M_Crc M_Bitio P_Bitio M_Maketree M_Maketbl M_Huf M_Slide M_Larc M_Decode M_Lzhuf S_Bits S_Huff S_Lz S_Lh1 S_Larc P_Larc S_Header S_Listing S_Level0 M_Header M_Os M_Archive S_History S_Archive S_AnyEntry S_Add M_Cli S_Cli
  P_Header P_Accept P_List P_Os P_RoundTrip P_Single P_Extract P_Read1 P_ExtractAll P_Verify P_Still P_Add P_AddFiles P_Cli P_Level0 P_AnyEntry
  Properties_Slide Properties_Archive Properties_Extract Properties_Listing Properties_Larc Properties_Lh5 Properties_Lh1 Properties_Damage Properties_Stored Properties_Add Properties_Header Properties_Cli.

(** ** C87: reading a header of level 0 *)

Lemma readl_describes h0 e : legall e -> describesl e (readl h0 e).
Proof. intros L. constructor; try (repeat split; reflexivity). cbn [readl Name]. now rewrite (slash_back_l e L). Qed.

Lemma new_get o e rest : file_entryl e -> ConvertCase o = false -> GetHeader o NewLzHeader (layoutl e ++ rest) = Ok (ENil, true, readl NewLzHeader e, rest).
Proof.
  intros F CC. assert (PT : plain_type (ExtendType NewLzHeader)) by (repeat split; discriminate).
  apply GetHeader_layoutl_gen; auto; [apply F|vm_compute; discriminate| | |apply mode_nolink, F].
  - change (zlen (Name NewLzHeader)) with FilenameLength. destruct (ll_name _ (fl_legal _ F)) as [L _]. unfold FilenameLength, zlen. lia.
  - intros t <-. destruct (readl_type NewLzHeader e F PT) as (T1 & T2 & _). auto.
Qed.

(** Everything but the time is read correctly, whatever the system; the time too if
    the area is that of Unix.  [_partial]: see the next theorem. *)
Theorem C87_any_system_header_partial :
  forall o e rest,
    file_entryl e -> ConvertCase o = false ->
    exists h, GetHeader o NewLzHeader (layoutl e ++ rest) = Ok (ENil, true, h, rest) /\ describesl e h /\
      (is_unix (y_area e) = true -> UnixLastModifiedStamp h = long_at (y_area e) 2).
Proof.
  intros o e rest F CC. exists (readl NewLzHeader e). split; [now apply new_get|]. split; [apply readl_describes, F|].
  intros U. cbn [readl UnixLastModifiedStamp]. now rewrite U.
Qed.

Lemma count_least n : forall from, 365 * Z.of_nat n <= count year_days from n.
Proof.
  unfold count. induction n as [|n IH]; intros from; cbn [List.seq map fold_right]; [lia|]. specialize (IH (S from)).
  assert (365 <= year_days (Z.of_nat from)) by (unfold year_days; destruct (leap _); lia). lia.
Qed.

Lemma count_months y n : forall from, 0 <= count (month_days y) from n.
Proof.
  unfold count. induction n as [|n IH]; intros from; cbn [List.seq map fold_right]; [lia|]. specialize (IH (S from)).
  assert (0 <= month_days y (Z.of_nat from)). { unfold month_days. destruct (_ =? 2); [destruct (leap y); lia|]. destruct (_ || _)%bool; lia. } lia.
Qed.

(** The time is wrong, for every date MS-DOS can write and in every time zone: it is
    more than a day too early. *)
Theorem C87_dos_time_refuted :
  forall o e rest t,
    file_entryl e -> ConvertCase o = false -> is_unix (y_area e) = false -> valid_date t -> y_dostime e = dos_of t ->
    exists h, GetHeader o NewLzHeader (layoutl e ++ rest) = Ok (ENil, true, h, rest) /\ UnixLastModifiedStamp h < unix_time t - 24 * 3600.
Proof.
  intros o e rest t F CC U (V1 & V2 & V3 & V4 & V5 & V6) D. exists (readl NewLzHeader e). split; [now apply new_get|].
  cbn [readl UnixLastModifiedStamp]. rewrite U, D. unfold dos_of, dos_datetime, unix_time. pose proof (count_least (Z.to_nat (c_year t - 1970)) 1970) as Y.
  pose proof (count_months (c_year t) (Z.to_nat (c_month t - 1)) 1) as M. rewrite Z2Nat.id in Y by lia.
  change (2 ^ 25) with 33554432. change (2 ^ 21) with 2097152. change (2 ^ 16) with 65536. change (2 ^ 11) with 2048. change (2 ^ 5) with 32.
  assert (H : c_second t / 2 <= 29) by (apply Z.lt_succ_r, Z.div_lt_upper_bound; lia).
  generalize dependent (count year_days 1970 (Z.to_nat (c_year t - 1970))). generalize dependent (count (month_days (c_year t)) 1 (Z.to_nat (c_month t - 1))). generalize dependent (c_second t / 2).
  clear -V1 V2 V3 V4 V5 V6. intros. lia.
Qed.

(** ** Archives *)

(** An archive whose entries are for the files: names and contents. *)
Definition intactl (es : list (entryl * list Z)) (files : list (path * list Z)) : Prop :=
  Forall2 (fun x f => file_entryl (fst x) /\ (exists dir, named (as_unix (fst x)) dir (fst f)) /\ holds (as_unix (fst x)) (snd x) (snd f)) es files.

Lemma intactl_decodable es files : intactl es files ->
  Forall2 (fun x f => file_entryl (fst x) /\ (exists dir, named (as_unix (fst x)) dir (fst f)) /\ decodable (as_unix (fst x)) (snd x) (snd f)) es files.
Proof. intros F. induction F as [|x f es files (X1 & X2 & X3) F IH]; constructor; auto using holds_decodable. Qed.

Lemma entriesl_length es : (length es < S (length (archivel es)))%nat.
Proof.
  unfold archivel. rewrite app_length. assert (H : (length es <= length (flat_map (fun x : entryl * list Z => layoutl (fst x) ++ snd x) es))%nat); [|lia].
  induction es as [|x es IH]; cbn [flat_map length]; [lia|]. rewrite !app_length. unfold layoutl at 1. cbn [length]. lia.
Qed.

Lemma fuel_l es : exists k, S (length (archivel es)) = (length es + S k)%nat.
Proof. pose proof (entriesl_length es) as L. exists (length (archivel es) - length es)%nat. lia. Qed.

Lemma new_plain : plain_type (ExtendType NewLzHeader).
Proof. repeat split; discriminate. Qed.

(** ** C88: listing *)

Lemma readsl_describe es : forall h, Forall (fun x => file_entryl (fst x)) es -> Forall2 describesl (map fst es) (readsl h es).
Proof.
  induction es as [|[e d] es IH]; intros h F; cbn [readsl map fst]; constructor; inversion F; subst; [|now apply IH]. apply readl_describes. match goal with X : file_entryl _ |- _ => apply X end.
Qed.

(** The function CommandList and the command -l. *)
Theorem C88_any_system_listed_partial :
  (forall E a w es,
     os_open E (w_fs w) a = Some (archivel es) -> l_filec (w_lha w) = 0 -> ConvertCase (e_opts E) = false ->
     Forall (fun x => file_entryl (fst x)) es -> sizedl es -> names_shrinkl 233 es ->
     exists headers w', CommandList E a w = Done (headers, false) w' /\ Forall2 describesl (map fst es) headers) /\
  (forall E fl w a es,
     asks_list a fl -> stored_at E a (archivel es) w -> Forall (fun x => file_entryl (fst x)) es -> sizedl es -> names_shrinkl 233 es ->
     exists headers w', main E fl w = Done (0, headers) w' /\ Forall2 describesl (map fst es) headers).
Proof.
  assert (X : forall E a w es,
     os_open E (w_fs w) a = Some (archivel es) -> l_filec (w_lha w) = 0 -> ConvertCase (e_opts E) = false ->
     Forall (fun x => file_entryl (fst x)) es -> sizedl es -> names_shrinkl 233 es ->
     exists headers w', CommandList E a w = Done (headers, false) w' /\ Forall2 describesl (map fst es) headers).
  { intros E a w es O FC CC F S N. rewrite (list_run E a w _ O).
    rewrite (list_loop_l E (set_archive a (w_lha w)) FC es NewLzHeader 233 [] _ F S N eq_refl new_plain CC ltac:(reflexivity) (entriesl_length es)).
    cbn [app]. eexists _, _. split; [reflexivity|]. now apply readsl_describe. }
  split; [exact X|]. intros E fl w a es L S I Z N. destruct (main_list E a fl w L) as (l & ID & _ & R); [apply S|]. rewrite R. pose proof S as [[P1 P2] S2 S3 S4]. apply has_nul_notin in P2.
  destruct (X (with_generic false E) a (started false l w) es) as (hs & w' & X1 & X2); auto.
  - now apply open_file.
  - apply ID.
  - exists hs, w'. rewrite (bindIO_done _ _ _ _ _ X1). auto.
Qed.

(** ** C89: extracting *)
Theorem C89_any_system_extracted_partial :
  forall E fl w cs a es files,
    asks_extract a fl -> stored_at E a (archivel es) w -> after cs (w_glob w) -> bytes (archivel es) -> intactl es files ->
    NoDup (map fst files) -> (forall f, In f files -> w_fs w (fst f) = None) -> names_shrinkl 233 es ->
    exists w', main E fl w = Done (0, []) w' /\ (forall f, In f files -> w_fs w' (fst f) = Some (NFile (snd f))) /\
      (forall q, ~ In q (map fst files) -> w_fs w' q = w_fs w q).
Proof.
  intros E fl w cs a es files L S A B I ND NF NS. destruct (main_extract E a fl w L) as (l & ID & SO & R); [apply S|]. rewrite R.
  pose proof (extract_opened _ _ _ _ (stored_generic E a _ w false false l S)) as X. unfold bindIO at 1. rewrite X.
  destruct (fuel_l es) as [k ->]. change (archivel es) with (entriesl es ++ [0]) in B |- *. set (w1 := set_wlha _ _).
  assert (ID1 : idle (w_lha w1)) by (apply idle_archive; exact ID). destruct ID1.
  destruct (extract_prefix_l (with_generic false E) [0] es files NewLzHeader 233 w1 cs (Datatypes.S k)) as (h' & w' & cs' & W1 & W2 & W3 & _); auto; try reflexivity; try apply new_plain.
  { now apply intactl_decodable. }
  unfold bindIO at 1. rewrite W1, loop_end. cbn. exists w'. split; [reflexivity|]. split; [exact W2|exact W3].
Qed.

(** ** C90: printing and testing *)
Theorem C90_any_system_printed_partial :
  forall E fl w cs a es files,
    asks_print a fl -> stored_at E a (archivel es) w -> after cs (w_glob w) -> bytes (archivel es) -> intactl es files -> names_shrinkl 233 es ->
    exists w', main E fl w = Done (0, []) w' /\ w_fs w' = w_fs w /\
      w_out w' = w_out w ++ flat_map (fun f => repeat 58 8 ++ [10] ++ fst f ++ [10] ++ repeat 58 8 ++ [10] ++ snd f) files.
Proof.
  intros E fl w cs a es files L S A B I NS. destruct (main_print E a fl w L) as (l & ID & SO & R); [apply S|]. rewrite R.
  pose proof (extract_opened _ _ _ _ (stored_generic E a _ w false false l S)) as X. unfold bindIO at 1. rewrite X.
  destruct (fuel_l es) as [k ->]. change (archivel es) with (entriesl es ++ [0]) in B |- *. set (w1 := set_wlha _ _).
  assert (ID1 : idle (w_lha w1)) by (apply idle_archive; exact ID). assert (SO1 : l_stdout (w_lha w1) = true) by exact SO. destruct ID1.
  destruct (test_prefix_l (with_generic false E) [0] es files NewLzHeader 233 w1 cs (Datatypes.S k)) as (h' & w' & cs' & W1 & W2 & W3 & PT & W4 & W5 & W6 & W7 & W8 & W9); auto; try reflexivity; try apply new_plain.
  { now apply intactl_decodable. } { now rewrite SO1. }
  unfold bindIO at 1. rewrite W1, loop_end. cbn. exists w'. split; [reflexivity|]. split; [exact W5|]. rewrite W9, SO1. change (w_verify w1) with false. cbv iota. change (w_out w1) with (w_out w). f_equal.
  clear. induction files as [|f files IH]; [reflexivity|]. cbn [flat_map]. rewrite IH. f_equal. unfold banner. now rewrite <- !app_assoc.
Qed.

Theorem C90_any_system_tested_partial :
  forall E fl w cs a es files,
    asks_test a fl -> stored_at E a (archivel es) w -> after cs (w_glob w) -> bytes (archivel es) -> intactl es files -> names_shrinkl 233 es ->
    exists w', main E fl w = Done (0, []) w' /\ w_fs w' = w_fs w /\ w_out w' = w_out w.
Proof.
  intros E fl w cs a es files L S A B I NS. destruct (main_test E a fl w L) as (g & l & ID & SO & R); [apply S|]. rewrite R.
  pose proof (extract_opened _ _ _ _ (stored_generic E a _ w g true l S)) as X. unfold bindIO at 1. rewrite X.
  destruct (fuel_l es) as [k ->]. change (archivel es) with (entriesl es ++ [0]) in B |- *. set (w1 := set_wlha _ _).
  assert (ID1 : idle (w_lha w1)) by (apply idle_archive; exact ID). assert (SO1 : l_stdout (w_lha w1) = false) by exact SO. destruct ID1.
  destruct (test_prefix_l (with_generic g E) [0] es files NewLzHeader 233 w1 cs (Datatypes.S k)) as (h' & w' & cs' & W1 & W2 & W3 & PT & W4 & W5 & W6 & W7 & W8 & W9); auto; try reflexivity; try apply new_plain.
  { now apply intactl_decodable. } { change (w_verify w1) with true. apply orb_true_r. }
  unfold bindIO at 1. rewrite W1, loop_end. cbn. exists w'. split; [reflexivity|]. split; [exact W5|]. rewrite W9, SO1. change (w_verify w1) with true. cbv iota. change (w_out w1) with (w_out w).
  clear. induction files as [|f files IH]; [apply app_nil_r|exact IH].
Qed.

(** ** The hypotheses can be met *)

Lemma holds_same e e' data body : e_method e' = e_method e -> e_packed e' = e_packed e -> e_original e' = e_original e -> e_crc e' = e_crc e -> holds e data body -> holds e' data body.
Proof. intros H1 H2 H3 H4. unfold holds, lh_entry, lzs_entry, lh1_entry. now rewrite H1, H2, H3, H4. Qed.

Lemma intact_other es files es' : intact es files ->
  Forall2 (fun x y => file_entryl (fst y) /\ e_method (as_unix (fst y)) = e_method (fst x) /\ e_packed (as_unix (fst y)) = e_packed (fst x) /\ e_original (as_unix (fst y)) = e_original (fst x) /\ e_crc (as_unix (fst y)) = e_crc (fst x) /\ snd y = snd x) es es' ->
  Forall2 (fun y f => exists dir, named (as_unix (fst y)) dir (fst f)) es' files -> intactl es' files.
Proof.
  intros I. revert es'. induction I as [|x f es files (_ & _ & H) I IH]; intros es' F N; inversion F as [|? y ? es'' (Y1 & Y2 & Y3 & Y4 & Y5 & Y6)]; subst; [constructor|]. inversion N; subst.
  constructor; [|now apply IH]. split; [exact Y1|]. split; [assumption|]. rewrite Y6. revert H. now apply holds_same.
Qed.

(** "dos\aa" without an area, "bb" of MS-DOS, "c" of Unix and "d" of OS/2. *)
Definition ex_any_es : list (entryl * list Z) :=
  [(EL [45; 108; 104; 49; 45] 12 86 545259520 32 [100; 111; 115; 92; 97; 97] 51676 [], ex_lh1_data);
   (EL [45; 108; 122; 115; 45] 10 25 545259520 32 [98; 98] 16602 [77], ex_lzs_data);
   (EL [45; 108; 104; 49; 45] 12 86 545259520 32 [99] 51676 [85; 0; 64; 66; 15; 0; 164; 129; 0; 0; 0; 0], ex_lh1_data);
   (EL [45; 108; 104; 53; 45] 18 24 545259520 32 [100] 47244 [50; 1; 2; 3], ex_lh_data)].
Definition ex_any_files : list (path * list Z) := ex_mix_files.

Lemma ex_any_entry e : In e (map fst ex_any_es) -> file_entryl e.
Proof.
  intros [<-|[<-|[<-|[<-|[]]]]]; (constructor; [constructor; cbn; try lia; try (split; [cbn; lia|]); repeat constructor; lia|cbn; lia|reflexivity|]); intros s t H; try discriminate H; injection H as <- <-; cbn; lia.
Qed.

Example C87_example :
  Forall (fun x => file_entryl (fst x)) ex_any_es /\ is_unix [] = false /\ is_unix [77] = false /\ is_unix [85; 0; 64; 66; 15; 0; 164; 129; 0; 0; 0; 0] = true /\
  valid_date (CAL 1996 4 1 10 0 0) /\ dos_of (CAL 1996 4 1 10 0 0) = 545345536 /\ unix_time (CAL 1996 4 1 10 0 0) = 828352800.
Proof.
  split. { apply Forall_forall. intros x X. apply ex_any_entry. now apply in_map. }
  split; [reflexivity|]. split; [reflexivity|]. split; [reflexivity|]. split; [unfold valid_date; cbn; lia|]. split; vm_compute; reflexivity.
Qed.

Example C88_example :
  stored_at ex_env [98] (archivel ex_any_es) (ex_listing (archivel ex_any_es)) /\ after [] (w_glob (ex_listing (archivel ex_any_es))) /\ bytes (archivel ex_any_es) /\
  intactl ex_any_es ex_any_files /\ sizedl ex_any_es /\ NoDup (map fst ex_any_files) /\ names_shrinkl 233 ex_any_es /\
  (forall f, In f ex_any_files -> w_fs (ex_listing (archivel ex_any_es)) (fst f) = None).
Proof.
  split; [apply ex_stored_at|]. split; [split; [constructor|reflexivity]|]. split; [apply bytes_dec; vm_compute; reflexivity|].
  destruct C66_example as (X1 & _ & X3 & _).
  split.
  { apply (intact_other _ _ _ X1).
    - unfold ex_mix_es, ex_any_es. repeat (apply Forall2_cons; [cbn [fst snd as_unix e_method e_packed e_original e_crc y_method y_packed y_original y_crc]; split; [|repeat split; reflexivity]|]); try apply Forall2_nil; apply ex_any_entry; cbn [map fst ex_any_es In]; tauto.
    - unfold ex_any_files, ex_mix_files, ex_any_es. repeat (apply Forall2_cons); try apply Forall2_nil; cbn [fst].
      1: { exists [100; 111; 115; 47]. constructor; [reflexivity|right; exists [100; 111; 115]; reflexivity|split; [discriminate|cbn; lia]]. }
      all: exists []; constructor; [reflexivity|now left|split; [discriminate|cbn; lia]]. }
  split; [repeat constructor|]. split; [exact X3|]. split; [cbn; lia|].
  intros f [<-|[<-|[<-|[<-|[]]]]]; reflexivity.
Qed.

Print Assumptions C87_any_system_header_partial.
Print Assumptions C87_dos_time_refuted.
Print Assumptions C88_any_system_listed_partial.
Print Assumptions C89_any_system_extracted_partial.
Print Assumptions C90_any_system_printed_partial.
Print Assumptions C90_any_system_tested_partial.
