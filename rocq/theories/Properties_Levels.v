(** Property C103: archives with headers of the levels 1, 2 and 3 on the command line.
    The headers are described in S_Header.v and S_Levels.v. *)
From Verif Require Import Go GoLemmas M_Crc M_Bitio M_Maketree M_Maketbl M_Huf M_Slide M_Lzhuf S_Header S_Listing S_Levels M_Header M_Os M_Archive M_Cli S_History S_Archive S_Cli
  P_Bitio P_Header P_Accept P_List P_Os P_RoundTrip P_Single P_Extract P_Read1 P_Select P_ExtractAll P_Verify P_Cli P_Plain P_Levels
  Properties_Slide Properties_Archive Properties_Extract Properties_Listing Properties_Select Properties_Lh1 Properties_Header Properties_Cli.

(** ** Where the commands are after some level 0 entries *)

(** The archive starts with the entries [es], which hold [files]; [tail] follows. *)
Record begins (E : env) (a : path) (w : world) (es : list (entry0 * list Z)) (files : list (path * list Z)) (tail : list Z) : Prop := {
  bg_stored : stored_at E a (entries_bytes es ++ tail) w;
  bg_history : exists cs, after cs (w_glob w);
  bg_bytes : bytes (entries_bytes es ++ tail);
  bg_intact : intact es files;
  bg_names : names_shrink 221 es
}.

Lemma fuel_tail es tail : exists k, S (length (entries_bytes es ++ tail)) = (length es + S k)%nat.
Proof.
  assert (L : (length es <= length (entries_bytes es))%nat).
  { induction es as [|x es IH]; [reflexivity|]. unfold entries_bytes in *. cbn [flat_map length]. unfold layout0 at 1. cbn [app length]. rewrite !app_length. lia. }
  rewrite app_length. exists (length (entries_bytes es) + length tail - length es)%nat. lia.
Qed.

Lemma intact_sized es files : intact es files -> sized es.
Proof.
  intros I. apply intact_decodable in I. unfold sized. induction I as [|x f es files (_ & _ & D) I IH]; constructor; [|exact IH].
  destruct D as (m & _ & _ & _ & D & _). exact (eq_sym D).
Qed.

Lemma intact_entries es files : intact es files -> Forall (fun x => file_entry (fst x)) es.
Proof. unfold intact. intros I. induction I as [|x f es files (D & _) I IH]; constructor; assumption. Qed.

Lemma reads_describe es : forall h, Forall (fun x => file_entry (fst x)) es -> Forall2 describes (map fst es) (reads h es).
Proof.
  induction es as [|[e d] es IH]; intros h F; cbn [reads map fst]; constructor; inversion F; subst; [|now apply IH]. constructor; try (repeat split; reflexivity). cbn [read0 Name]. now rewrite slash_back_slashes.
Qed.

(** What a header gives that is not accepted. *)
Definition refused (r : res lev_res) : Prop := r = Panic \/ exists h rest, r = Ok (EOther, false, h, rest).

Definition rejects (tail : list Z) : Prop := exists o h h2 r, GetHeader o h tail = Ok (EOther, false, h2, r).

Section Blocked.
  Context (E : env) (a : path) (w : world) (es : list (entry0 * list Z)) (files : list (path * list Z)) (tail : list Z) (m : nat).
  Hypothesis BG : begins E a w es files tail.
  Hypothesis LAST : (m <= last (map (fun x => length (e_name (fst x))) es) 221)%nat.
  Hypothesis REF : forall o h, zlen (Method h) = 5 -> Z.of_nat m < zlen (Name h) -> refused (GetHeader o h tail).

  Lemma blocked_list fl : asks_list a fl -> exists w', (main E fl w = Crash w' \/ exists headers, main E fl w = Done (1, headers) w' /\ Forall2 describes (map fst es) headers /\ rejects tail) /\ w_fs w' = w_fs w.
  Proof.
    intros L. destruct BG as [S _ B I NS]. destruct (main_list E a fl w L) as (l & ID & _ & R); [apply S|]. rewrite R. pose proof S as [[P1 P2] S2 S3 S4]. apply has_nul_notin in P2.
    unfold bindIO. rewrite (list_run (with_generic false E) a (started false l w) (entries_bytes es ++ tail)) by now apply open_file.
    destruct (fuel_tail es tail) as [k ->].
    destruct (list_prefix (with_generic false E) (set_archive a (w_lha (started false l w))) tail ltac:(apply ID) es NewLzHeader 221 [] (Datatypes.S k)) as (h' & X1 & X2 & X3); auto; try reflexivity.
    { eapply intact_entries, I. } { eapply intact_sized, I. }
    rewrite X1. cbn [list_loop app]. destruct (REF (e_opts (with_generic false E)) h' X2 ltac:(lia)) as [-> | (h2 & r & G)]; [|rewrite G]; cbn [bind negb lift].
    - eexists. split; [left; reflexivity|reflexivity].
    - eexists. split; [right; eexists; split; [reflexivity|split; [|do 4 eexists; exact G]]|reflexivity]. apply reads_describe. eapply intact_entries, I.
  Qed.

  Lemma blocked_extract fl : asks_extract a fl -> NoDup (map fst files) -> (forall f, In f files -> w_fs w (fst f) = None) ->
    exists w', (main E fl w = Crash w' \/ main E fl w = Done (1, []) w' /\ rejects tail) /\ (forall f, In f files -> w_fs w' (fst f) = Some (NFile (snd f))) /\ (forall q, ~ In q (map fst files) -> w_fs w' q = w_fs w q).
  Proof.
    intros L ND NF. destruct BG as [S [cs A] B I NS]. destruct (main_extract E a fl w L) as (l & ID & SO & R); [apply S|]. rewrite R.
    pose proof (extract_opened _ _ _ _ (stored_generic E a _ w false false l S)) as X. unfold bindIO. rewrite X.
    destruct (fuel_tail es tail) as [k ->]. set (w1 := set_wlha _ _).
    assert (ID1 : idle (w_lha w1)) by (apply idle_archive; exact ID). destruct ID1.
    destruct (extract_prefix (with_generic false E) tail es files NewLzHeader 221 w1 cs (Datatypes.S k)) as (h' & w' & cs' & W1 & W2 & W3 & _ & _ & _ & W4 & W5 & _); auto; try reflexivity.
    { now apply intact_decodable. }
    unfold bindIO. rewrite W1. exists w'. split; [|split; [exact W2|exact W3]].
    cbn [extract_loop]. destruct (REF (e_opts (with_generic false E)) h' W4 ltac:(lia)) as [-> | (h2 & r & G)]; [left; reflexivity|right; rewrite G; split; [reflexivity|do 4 eexists; exact G]].
  Qed.

  Lemma blocked_print fl : asks_print a fl ->
    exists w', (main E fl w = Crash w' \/ main E fl w = Done (1, []) w' /\ rejects tail) /\ w_fs w' = w_fs w /\ w_out w' = w_out w ++ flat_map (fun f => repeat 58 8 ++ [10] ++ fst f ++ [10] ++ repeat 58 8 ++ [10] ++ snd f) files.
  Proof.
    intros L. destruct BG as [S [cs A] B I NS]. destruct (main_print E a fl w L) as (l & ID & SO & R); [apply S|]. rewrite R.
    pose proof (extract_opened _ _ _ _ (stored_generic E a _ w false false l S)) as X. unfold bindIO. rewrite X.
    destruct (fuel_tail es tail) as [k ->]. set (w1 := set_wlha _ _).
    assert (ID1 : idle (w_lha w1)) by (apply idle_archive; exact ID). assert (SO1 : l_stdout (w_lha w1) = true) by exact SO. destruct ID1.
    destruct (test_prefix (with_generic false E) tail es files NewLzHeader 221 w1 cs (Datatypes.S k)) as (h' & w' & cs' & W1 & W2 & W3 & W4 & W5 & _ & _ & _ & W9); auto; try reflexivity.
    { now apply intact_decodable. } { now rewrite SO1. }
    unfold bindIO. rewrite W1. exists w'. split; [|split; [exact W5|]].
    - cbn [extract_loop]. destruct (REF (e_opts (with_generic false E)) h' W3 ltac:(lia)) as [-> | (h2 & r & G)]; [left; reflexivity|right; rewrite G; split; [reflexivity|do 4 eexists; exact G]].
    - rewrite W9, SO1. change (w_verify w1) with false. cbv iota. change (w_out w1) with (w_out w). f_equal.
      generalize files. intros fs. induction fs as [|f fs IH]; [reflexivity|]. cbn [flat_map]. rewrite IH. f_equal. unfold banner. now rewrite <- !app_assoc.
  Qed.

  Lemma blocked_test fl : asks_test a fl -> exists w', (main E fl w = Crash w' \/ main E fl w = Done (1, []) w' /\ rejects tail) /\ w_fs w' = w_fs w /\ w_out w' = w_out w.
  Proof.
    intros L. destruct BG as [S [cs A] B I NS]. destruct (main_test E a fl w L) as (g & l & ID & SO & R); [apply S|]. rewrite R.
    pose proof (extract_opened _ _ _ _ (stored_generic E a _ w g true l S)) as X. unfold bindIO. rewrite X.
    destruct (fuel_tail es tail) as [k ->]. set (w1 := set_wlha _ _).
    assert (ID1 : idle (w_lha w1)) by (apply idle_archive; exact ID). assert (SO1 : l_stdout (w_lha w1) = false) by exact SO. destruct ID1.
    destruct (test_prefix (with_generic g E) tail es files NewLzHeader 221 w1 cs (Datatypes.S k)) as (h' & w' & cs' & W1 & W2 & W3 & W4 & W5 & _ & _ & _ & W9); auto; try reflexivity.
    { now apply intact_decodable. } { change (w_verify w1) with true. apply orb_true_r. }
    unfold bindIO. rewrite W1. exists w'. split; [|split; [exact W5|]].
    - cbn [extract_loop]. destruct (REF (e_opts (with_generic g E)) h' W3 ltac:(lia)) as [-> | (h2 & r & G)]; [left; reflexivity|right; rewrite G; split; [reflexivity|do 4 eexists; exact G]].
    - rewrite W9, SO1. change (w_verify w1) with true. cbv iota. change (w_out w1) with (w_out w).
      generalize files. intros fs. induction fs as [|f fs IH]; [apply app_nil_r|exact IH].
  Qed.
End Blocked.

(** The same if every header panics. *)
Lemma crash_all E fl w a es files tail : begins E a w es files tail -> (forall o h, GetHeader o h tail = Panic) ->
  (asks_list a fl \/ asks_print a fl \/ asks_test a fl \/ asks_extract a fl /\ NoDup (map fst files) /\ (forall f, In f files -> w_fs w (fst f) = None)) ->
  exists w', main E fl w = Crash w' /\
    (forall q, w_fs w' q = w_fs w q \/ asks_extract a fl /\ exists f, In f files /\ fst f = q /\ w_fs w' q = Some (NFile (snd f))).
Proof.
  intros BG R H.
  assert (RF : forall o h, zlen (Method h) = 5 -> Z.of_nat 0 < zlen (Name h) -> refused (GetHeader o h tail)) by (intros; left; apply R).
  assert (NR : ~ rejects tail) by (intros (o & h & h2 & r & G); rewrite R in G; discriminate G).
  destruct H as [H|[H|[H|(H & ND & NF)]]].
  - destruct (blocked_list E a w es files tail 0 BG ltac:(lia) RF fl H) as (w' & [X|(hs & _ & _ & X)] & F); [|contradiction]. exists w'. split; [exact X|]. intros q. left. now rewrite F.
  - destruct (blocked_print E a w es files tail 0 BG ltac:(lia) RF fl H) as (w' & [X|(_ & X)] & F & _); [|contradiction]. exists w'. split; [exact X|]. intros q. left. now rewrite F.
  - destruct (blocked_test E a w es files tail 0 BG ltac:(lia) RF fl H) as (w' & [X|(_ & X)] & F & _); [|contradiction]. exists w'. split; [exact X|]. intros q. left. now rewrite F.
  - destruct (blocked_extract E a w es files tail 0 BG ltac:(lia) RF fl H ND NF) as (w' & [X|(_ & X)] & F & G); [|contradiction]. exists w'. split; [exact X|]. intros q.
    destruct (in_dec (list_eq_dec Z.eq_dec) q (map fst files)) as [I|I]; [right|left; now apply G].
    split; [exact H|]. apply in_map_iff in I. destruct I as (f & F1 & F2). exists f. split; [exact F2|]. split; [exact F1|]. rewrite <- F1. now apply F.
Qed.

(** ** C103 *)

(** The commands end in a crash at the first header of level 2 or 3, whatever it says
    and whatever follows.  The entries before it are extracted. *)
Theorem C103_level2_refuted :
  forall E fl w a es files e rest,
    begins E a w es files (layout2 e ++ rest) -> legal2 e ->
    (asks_list a fl \/ asks_print a fl \/ asks_test a fl \/ asks_extract a fl /\ NoDup (map fst files) /\ (forall f, In f files -> w_fs w (fst f) = None)) ->
    exists w', main E fl w = Crash w' /\
      (forall q, w_fs w' q = w_fs w q \/ asks_extract a fl /\ exists f, In f files /\ fst f = q /\ w_fs w' q = Some (NFile (snd f))).
Proof.
  intros E fl w a es files e rest BG LG H.
  assert (R : forall o h, GetHeader o h (layout2 e ++ rest) = Panic) by (intros; now apply GetHeader_layout2).
  exact (crash_all E fl w a es files _ BG R H).
Qed.

Theorem C103_level3_refuted :
  forall E fl w a es files e rest,
    begins E a w es files (layout3 e ++ rest) -> legal3 e ->
    (asks_list a fl \/ asks_print a fl \/ asks_test a fl \/ asks_extract a fl /\ NoDup (map fst files) /\ (forall f, In f files -> w_fs w (fst f) = None)) ->
    exists w', main E fl w = Crash w' /\
      (forall q, w_fs w' q = w_fs w q \/ asks_extract a fl /\ exists f, In f files /\ fst f = q /\ w_fs w' q = Some (NFile (snd f))).
Proof.
  intros E fl w a es files e rest BG LG H.
  assert (R : forall o h, GetHeader o h (layout3 e ++ rest) = Panic) by (intros; now apply GetHeader_layout3).
  exact (crash_all E fl w a es files _ BG R H).
Qed.

Lemma refused_ext o h e rest : legal1 e -> f_exts e <> [] -> zlen (Method h) = 5 -> zlen (f_name e) <= zlen (Name h) -> refused (GetHeader o h (layout1 e ++ rest)).
Proof.
  intros LG X HM HN. pose proof (GetHeader_ends o h (layout1 e ++ rest)) as EN. pose proof (C44_level1_extended_refuted o h e rest LG ltac:(lia) ltac:(lia) X) as NA.
  rewrite (GetHeader_layout1 o h e rest LG ltac:(lia) ltac:(lia)) in EN, NA |- *.
  destruct (set0 _ _) as [nm| |]; cbn [bind] in *; [|now left|exfalso; now apply EN].
  destruct (Z.ltb_spec 0 (next_size (f_exts e))) as [P|P].
  2: { destruct (f_exts e) as [|[ty d] l]; [contradiction|]. cbn [next_size] in P. lia. }
  destruct (getExtendedHeader _ _ _) as [[[x h1] r1]| |] eqn:G; cbn [bind] in *; [|now left|exfalso; now apply EN].
  destruct x as [t|]; [|right; do 2 eexists; reflexivity].
  exfalso. eapply ext_never; [|exact G]. cbn. rewrite body1_len by (apply LG). pose proof (zlen_nonneg (f_name e)). lia.
Qed.

(** A header of level 1 that has an extended header ends the commands too, with status 1
    or in a crash.  The entries before it are listed, extracted, printed. *)
Theorem C103_level1_extended_refuted :
  forall E fl w a es files e rest,
    begins E a w es files (layout1 e ++ rest) -> legal1 e -> f_exts e <> [] -> (length (f_name e) <= last (map (fun x => length (e_name (fst x))) es) 221)%nat ->
    (asks_list a fl ->
       exists w', (main E fl w = Crash w' \/ exists headers, main E fl w = Done (1, headers) w' /\ Forall2 describes (map fst es) headers) /\ w_fs w' = w_fs w) /\
    (asks_extract a fl -> NoDup (map fst files) -> (forall f, In f files -> w_fs w (fst f) = None) ->
       exists w', (main E fl w = Crash w' \/ main E fl w = Done (1, []) w') /\ (forall f, In f files -> w_fs w' (fst f) = Some (NFile (snd f))) /\ (forall q, ~ In q (map fst files) -> w_fs w' q = w_fs w q)) /\
    (asks_print a fl ->
       exists w', (main E fl w = Crash w' \/ main E fl w = Done (1, []) w') /\ w_fs w' = w_fs w /\ w_out w' = w_out w ++ flat_map (fun f => repeat 58 8 ++ [10] ++ fst f ++ [10] ++ repeat 58 8 ++ [10] ++ snd f) files) /\
    (asks_test a fl ->
       exists w', (main E fl w = Crash w' \/ main E fl w = Done (1, []) w') /\ w_fs w' = w_fs w /\ w_out w' = w_out w).
Proof.
  intros E fl w a es files e rest BG LG X LN.
  assert (R : forall o h, zlen (Method h) = 5 -> Z.of_nat (length (f_name e)) < zlen (Name h) -> refused (GetHeader o h (layout1 e ++ rest))).
  { intros o h HM HN. apply refused_ext; auto. unfold zlen at 1. lia. }
  split; [|split; [|split]].
  - intros H. destruct (blocked_list E a w es files _ _ BG LN R fl H) as (w' & [Y|(hs & Y1 & Y2 & _)] & F); exists w'; split; eauto.
  - intros H ND NF. destruct (blocked_extract E a w es files _ _ BG LN R fl H ND NF) as (w' & [Y|(Y & _)] & F); exists w'; split; auto.
  - intros H. destruct (blocked_print E a w es files _ _ BG LN R fl H) as (w' & [Y|(Y & _)] & F); exists w'; split; auto.
  - intros H. destruct (blocked_test E a w es files _ _ BG LN R fl H) as (w' & [Y|(Y & _)] & F); exists w'; split; auto.
Qed.

(** Entries of level 1 without extended headers are there, but the last byte of each
    name is lost: [shorter e base]. *)
Definition intact1 (es : list (entry1 * list Z)) (files : list (path * list Z)) : Prop :=
  Forall2 (fun x f => shorter (fst x) (fst f) /\ holds (as0 (fst x)) (snd x) (snd f)) es files.

Lemma intact1_good es files : intact1 es files -> Forall2 good1 es files.
Proof. unfold intact1. intros F. induction F as [|x f es files (X1 & X2) F IH]; constructor; [split; auto using holds_decodable|exact IH]. Qed.

Lemma intact1_plain es files : intact1 es files -> Forall (fun x => plain1 (fst x) /\ f_name (fst x) <> [] /\ zlen (snd x) = f_skip (fst x)) es.
Proof.
  intros F. apply intact1_good in F. induction F as [|x f es files (X1 & m & _ & _ & _ & X2 & _) F IH]; constructor; [|exact IH].
  split; [apply X1|]. split; [eapply shorter_ne, X1|]. exact (eq_sym X2).
Qed.

Lemma fuel1 es : (length es < S (length (archive1 es)))%nat.
Proof.
  unfold archive1. rewrite app_length. cbn [length]. induction es as [|x es IH]; cbn [flat_map length]; [lia|]. unfold layout1 at 1. cbn [app length]. rewrite !app_length. lia.
Qed.

Theorem C103_level1_extracted_partial :
  forall E fl w cs a es files,
    asks_extract a fl -> stored_at E a (archive1 es) w -> after cs (w_glob w) -> bytes (archive1 es) -> intact1 es files ->
    NoDup (map fst files) -> (forall f, In f files -> w_fs w (fst f) = None) -> names_shrink1 230 es ->
    exists w', main E fl w = Done (0, []) w' /\ (forall f, In f files -> w_fs w' (fst f) = Some (NFile (snd f))) /\
      (forall q, ~ In q (map fst files) -> w_fs w' q = w_fs w q).
Proof.
  intros E fl w cs a es files L S A B I ND NF NS. destruct (main_extract E a fl w L) as (l & ID & SO & R); [apply S|]. rewrite R.
  pose proof (extract_opened _ _ _ _ (stored_generic E a _ w false false l S)) as X. unfold bindIO at 1. rewrite X. set (w1 := set_wlha _ _).
  assert (ID1 : idle (w_lha w1)) by (apply idle_archive; exact ID). destruct ID1.
  destruct (extract1_all (with_generic false E) eq_refl es files NewLzHeader 230 w1 cs (Datatypes.S (length (archive1 es)))) as (w' & W1 & W2 & W3); auto; try reflexivity.
  { now apply intact1_good. } { vm_compute. discriminate. } { apply fuel1. }
  unfold bindIO at 1. rewrite W1. cbn. exists w'. split; [reflexivity|]. split; [exact W2|exact W3].
Qed.

Theorem C103_level1_printed_partial :
  forall E fl w cs a es files,
    asks_print a fl -> stored_at E a (archive1 es) w -> after cs (w_glob w) -> bytes (archive1 es) -> intact1 es files -> names_shrink1 230 es ->
    exists w', main E fl w = Done (0, []) w' /\ w_fs w' = w_fs w /\
      w_out w' = w_out w ++ flat_map (fun f => repeat 58 8 ++ [10] ++ fst f ++ [10] ++ repeat 58 8 ++ [10] ++ snd f) files.
Proof.
  intros E fl w cs a es files L S A B I NS. destruct (main_print E a fl w L) as (l & ID & SO & R); [apply S|]. rewrite R.
  pose proof (extract_opened _ _ _ _ (stored_generic E a _ w false false l S)) as X. unfold bindIO at 1. rewrite X. set (w1 := set_wlha _ _).
  assert (ID1 : idle (w_lha w1)) by (apply idle_archive; exact ID). assert (SO1 : l_stdout (w_lha w1) = true) by exact SO. destruct ID1.
  destruct (test1_all (with_generic false E) eq_refl es files NewLzHeader 230 w1 cs (Datatypes.S (length (archive1 es)))) as (w' & W1 & W2 & W3); auto; try reflexivity.
  { now apply intact1_good. } { vm_compute. discriminate. } { now rewrite SO1. } { apply fuel1. }
  unfold bindIO at 1. rewrite W1. cbn. exists w'. split; [reflexivity|]. split; [exact W2|]. rewrite W3, SO1. change (w_verify w1) with false. cbv iota. change (w_out w1) with (w_out w). f_equal.
  clear. induction files as [|f files IH]; [reflexivity|]. cbn [flat_map]. rewrite IH. f_equal. unfold banner. now rewrite <- !app_assoc.
Qed.

Theorem C103_level1_tested :
  forall E fl w cs a es files,
    asks_test a fl -> stored_at E a (archive1 es) w -> after cs (w_glob w) -> bytes (archive1 es) -> intact1 es files -> names_shrink1 230 es ->
    exists w', main E fl w = Done (0, []) w' /\ w_fs w' = w_fs w /\ w_out w' = w_out w.
Proof.
  intros E fl w cs a es files L S A B I NS. destruct (main_test E a fl w L) as (g & l & ID & SO & R); [apply S|]. rewrite R.
  pose proof (extract_opened _ _ _ _ (stored_generic E a _ w g true l S)) as X. unfold bindIO at 1. rewrite X. set (w1 := set_wlha _ _).
  assert (ID1 : idle (w_lha w1)) by (apply idle_archive; exact ID). assert (SO1 : l_stdout (w_lha w1) = false) by exact SO. destruct ID1.
  destruct (test1_all (with_generic g E) eq_refl es files NewLzHeader 230 w1 cs (Datatypes.S (length (archive1 es)))) as (w' & W1 & W2 & W3); auto; try reflexivity.
  { now apply intact1_good. } { vm_compute. discriminate. } { change (w_verify w1) with true. apply orb_true_r. } { apply fuel1. }
  unfold bindIO at 1. rewrite W1. cbn. exists w'. split; [reflexivity|]. split; [exact W2|]. rewrite W3, SO1. change (w_verify w1) with true. cbv iota. change (w_out w1) with (w_out w).
  clear. induction files as [|f files IH]; [apply app_nil_r|exact IH].
Qed.

(** In the listing, too, only the names are wrong. *)
Record describes1 (e : entry1) (h : hdr) : Prop := {
  d1_method : Method h = f_method e;
  d1_sizes : PackedSize h = f_skip e /\ OriginalSize h = f_original e;
  d1_name : Name h = slashes (removelast (f_name e)) ++ [0];
  d1_crc : HasCrc h = true /\ Crc h = f_crc e;
  d1_level : HeaderLevel h = 1
}.

Theorem C103_level1_listed_partial :
  forall E fl w a es files,
    asks_list a fl -> stored_at E a (archive1 es) w -> intact1 es files -> names_shrink1 230 es ->
    exists headers w', main E fl w = Done (0, headers) w' /\ w_fs w' = w_fs w /\ Forall2 describes1 (map fst es) headers.
Proof.
  intros E fl w a es files L S I NS. destruct (main_list E a fl w L) as (l & ID & _ & R); [apply S|]. rewrite R. pose proof S as [[P1 P2] S2 S3 S4]. apply has_nul_notin in P2.
  unfold bindIO at 1. rewrite (list_run (with_generic false E) a (started false l w) (archive1 es)) by now apply open_file. apply intact1_plain in I.
  destruct (list1_all (with_generic false E) (set_archive a (w_lha (started false l w))) ltac:(apply ID) eq_refl es NewLzHeader 230 [] (Datatypes.S (length (archive1 es)))) as (hs & X1 & X2); auto; try reflexivity.
  { vm_compute. discriminate. } { apply fuel1. }
  rewrite X1. cbn. exists hs. eexists. split; [reflexivity|]. split; [reflexivity|].
  clear -X2 I. induction X2 as [|[e d] h es hs (h0 & ->) X2 IH]; [constructor|]. inversion I as [|? ? (P & NE & _) I']; subst. constructor; [|now apply IH]. cbn [fst] in *.
  constructor; try (repeat split; reflexivity). change (Name (read1 h0 e)) with (slash_back (removelast (f_name e)) ++ [0]). rewrite slash_back_bytes; [reflexivity|].
  destruct (l1_name _ (p1_legal _ P)) as [_ BN]. destruct (exists_last NE) as (nm & c & HF). rewrite HF in *. rewrite removelast_snoc. apply Forall_app in BN. apply BN.
Qed.

(** ** The hypotheses can be met *)

(** "abc" and "z", both level 0, before something else. *)
Definition ex_front : list (entry0 * list Z) := [(ex_abc, ex_packed); (ex_entry 0, ex_packed)].
Definition ex_front_files : list (path * list Z) := [([97; 98; 99], repeat 0 100); ([122], repeat 0 100)].

Lemma ex_front_begins tail : bytes tail -> begins ex_env [98] (ex_listing (entries_bytes ex_front ++ tail)) ex_front ex_front_files tail.
Proof.
  intros B. constructor; [apply ex_stored_at|exists []; split; [constructor|reflexivity]| | |cbn; lia].
  - apply Forall_app. split; [apply bytes_dec; vm_compute; reflexivity|exact B].
  - pose proof ex_pair_ok as X. inversion X as [|? ? ? ? (A1 & A2 & A3) Y]; subst. inversion Y as [|? ? ? ? (B1 & B2 & B3) _]; subst.
    unfold intact. constructor; [|constructor; [|constructor]]; (split; [assumption|]; split; [assumption|]; now apply packs_holds).
Qed.

(** A file "a" of Unix, in each of the levels. *)
Definition ex_2 : entry2 := E2 [45; 108; 104; 48; 45] 0 0 1000000 32 0 85 [(1, [97])].
Definition ex_1 (name : list Z) (exts : list (Z * list Z)) : entry1 := E1 [45; 108; 104; 53; 45] 9 100 0 32 name 0 85 exts.
Definition ex_ext : entry1 := ex_1 [97] [(0, [0; 0])].

Example C103_example :
  legal2 ex_2 /\ legal3 ex_2 /\ legal1 ex_ext /\ f_exts ex_ext <> [] /\
  bytes (layout2 ex_2 ++ [0]) /\ bytes (layout3 ex_2 ++ [0]) /\ bytes (layout1 ex_ext ++ [0]) /\
  (length (f_name ex_ext) <= last (map (fun x => length (e_name (fst x))) ex_front) 221)%nat /\
  NoDup (map fst ex_front_files) /\ (forall c f, In f ex_front_files -> w_fs (ex_listing c) (fst f) = None).
Proof.
  split; [constructor; [reflexivity|vm_compute; repeat split; discriminate]|]. split; [constructor; reflexivity|].
  split. { constructor; cbn; try lia; [split; [reflexivity|repeat constructor; lia]|split; [lia|repeat constructor; lia]|repeat constructor; cbn; lia]. }
  split; [discriminate|]. split; [apply bytes_dec; vm_compute; reflexivity|]. split; [apply bytes_dec; vm_compute; reflexivity|]. split; [apply bytes_dec; vm_compute; reflexivity|].
  split; [cbn; lia|]. split.
  - constructor; [intros [X|[]]; discriminate X|]. constructor; [intros []|constructor].
  - intros c f [<-|[<-|[]]]; reflexivity.
Qed.

(** "d\xyz" and "ab": extracted as "xy" and "a". *)
Definition ex_ones : list (entry1 * list Z) := [(ex_1 [100; 92; 120; 121; 122] [], ex_packed); (ex_1 [97; 98] [], ex_packed)].
Definition ex_ones_files : list (path * list Z) := [([120; 121], repeat 0 100); ([97], repeat 0 100)].

Example C103_level1_example :
  stored_at ex_env [98] (archive1 ex_ones) (ex_listing (archive1 ex_ones)) /\ bytes (archive1 ex_ones) /\ intact1 ex_ones ex_ones_files /\ NoDup (map fst ex_ones_files) /\
  (forall f, In f ex_ones_files -> w_fs (ex_listing (archive1 ex_ones)) (fst f) = None) /\ names_shrink1 230 ex_ones.
Proof.
  split; [apply ex_stored_at|]. split; [apply bytes_dec; vm_compute; reflexivity|]. split.
  - unfold intact1. constructor; [|constructor; [|constructor]]; cbn [fst snd].
    + split; [|apply packs_holds, ex_packs; reflexivity]. constructor; [|exists [100; 47], 122; constructor; [reflexivity|right; exists [100]; reflexivity|split; [discriminate|cbn; lia]]|discriminate].
      constructor; [|cbn; lia|reflexivity|cbn; lia]. constructor; cbn; try lia; [split; [reflexivity|repeat constructor; lia]|split; [lia|repeat constructor; lia]|constructor].
    + split; [|apply packs_holds, ex_packs; reflexivity]. constructor; [|exists [], 98; constructor; [reflexivity|now left|split; [discriminate|cbn; lia]]|discriminate].
      constructor; [|cbn; lia|reflexivity|cbn; lia]. constructor; cbn; try lia; [split; [reflexivity|repeat constructor; lia]|split; [lia|repeat constructor; lia]|constructor].
  - split; [constructor; [intros [X|[]]; discriminate X|]; constructor; [intros []|constructor]|]. split; [intros f [<-|[<-|[]]]; reflexivity|]. cbn. lia.
Qed.

Print Assumptions C103_level2_refuted.
Print Assumptions C103_level3_refuted.
Print Assumptions C103_level1_extended_refuted.
Print Assumptions C103_level1_extracted_partial.
Print Assumptions C103_level1_printed_partial.
Print Assumptions C103_level1_tested.
Print Assumptions C103_level1_listed_partial.
