(** The text that lharc -l and lharc -lv print. *)
From Coq Require Import String.
From Verif Require Import Go GoLemmas M_Crc M_Bitio P_Bitio M_Maketree M_Maketbl M_Huf M_Slide M_Larc M_Decode M_Lzhuf S_Bits S_Huff S_Lz S_Lh1 S_Larc P_Larc S_Text S_Header S_Listing S_Level0 S_ListText M_Header M_Os M_Archive S_History S_Archive S_AnyEntry S_Add M_Cli S_Cli M_List S_CliList
  P_Header P_Accept P_List P_Os P_RoundTrip P_Single P_Extract P_Read1 P_ExtractAll P_Verify P_Still P_Add P_AddFiles P_Cli P_Level0 P_AnyEntry P_Ratio P_Text
  Properties_Slide Properties_Archive Properties_Extract Properties_Listing Properties_Larc Properties_Lh5 Properties_Lh1 Properties_Damage Properties_Stored Properties_Add Properties_Header Properties_Cli Properties_Level0.

Lemma main_listv E a fl w : asks_list_verbose a fl -> a <> [] -> exists g l, idle l /\ l_stdout l = false /\
  main E fl w = ('(hs, err) <~ CommandList (with_generic g E) a ;;; ret (if (err : bool) then 1 else 0, hs)) (started false l w).
Proof.
  intros [A L X P T C D V] NE. unfold main. rewrite A. destruct a as [|x a]; [contradiction|]. cbn [is_empty]. cbv zeta. unfold parseOption. rewrite L, X, P, T, C, D, V. cbn [is_empty].
  set (c := set_cmd CmdList _). set (c' := sortFiles _).
  assert (S : same_work c c') by (apply sort_same; [apply sub_same|]; unfold c; destruct (f_d fl), (f_u fl), (f_m fl); reflexivity).
  exists (c_generic c'), (c_lha c'). rewrite bind_modify, (sw_cmd _ _ S), (sw_verify _ _ S).
  assert (I : c_cmd c = CmdList /\ c_verify c = false /\ idle (c_lha c) /\ l_stdout (c_lha c) = false) by (unfold c; destruct (f_d fl), (f_u fl), (f_m fl); repeat split).
  destruct I as (I1 & I2 & I3 & I4). rewrite I1, I2. split; [|split; [|reflexivity]].
  - destruct S, I3. constructor; congruence.
  - rewrite (sw_stdout _ _ S). exact I4.
Qed.

Lemma asked_text v a fl hs : asks_listing v a fl -> main_text fl hs = list_text false v hs.
Proof.
  unfold main_text, verbose_listing. destruct v; cbn [asks_listing].
  - intros [A L X P T C D V]. rewrite L, X, P, V. reflexivity.
  - intros [A L]. rewrite L. reflexivity.
Qed.

(** What is printed for an archive: the headers read one after the other. *)
Lemma listed_text E fl w a es v : asks_listing v a fl -> stored_at E a (archivel es) w -> Forall (fun x => file_entryl (fst x)) es -> sizedl es -> names_shrinkl 233 es ->
  prints E fl w 0 (list_text false v (readsl NewLzHeader es)).
Proof.
  intros AS ST F Z N. pose proof ST as [[P1 P2] S2 S3 S4]. apply has_nul_notin in P2.
  assert (X : exists g l, idle l /\ main E fl w = ('(hs, err) <~ CommandList (with_generic g E) a ;;; ret (if (err : bool) then 1 else 0, hs)) (started false l w)).
  { destruct v; cbn [asks_listing] in AS; [destruct (main_listv E a fl w AS P1) as (g & l & ID & _ & R)|destruct (main_list E a fl w AS P1) as (l & ID & _ & R)]; eauto. }
  destruct X as (g & l & ID & R). assert (O : os_open (with_generic g E) (w_fs (started false l w)) a = Some (archivel es)) by (now apply open_file).
  pose proof (list_run _ a _ _ O) as L.
  rewrite (list_loop_l (with_generic g E) (set_archive a (w_lha (started false l w))) (id_filec _ ID) es NewLzHeader 233 [] _ F Z N eq_refl new_plain eq_refl ltac:(reflexivity) (entriesl_length es)) in L.
  eexists _, _. split; [rewrite R, (bindIO_done _ _ _ _ _ L); reflexivity|]. symmetry. eapply asked_text. exact AS.
Qed.

Lemma reads_length es : forall h, length (readsl h es) = length es.
Proof. induction es; intros; cbn [readsl length]; auto. Qed.
Lemma reads_totals es : forall h, fold_right Z.add 0 (map PackedSize (readsl h es)) = total y_packed (map fst es) /\ fold_right Z.add 0 (map OriginalSize (readsl h es)) = total y_original (map fst es).
Proof.
  induction es as [|[e d] es IH]; intros h; [split; reflexivity|]. cbn [readsl map fold_right fst]. destruct (IH (readl h e)) as [-> ->]. split; reflexivity.
Qed.

Lemma readl_anonymous h e : anonymous h -> anonymous (readl h e). Proof. intros A. exact A. Qed.
Lemma new_anonymous : anonymous NewLzHeader. Proof. split; reflexivity. Qed.

Lemma readl_system h e : (y_area e = [] -> ExtendType h = 0) -> ExtendType (readl h e) = y_system e.
Proof.
  intros A. unfold readl, y_system. cbn [ExtendType]. destruct (y_area e) as [|s t] eqn:Y; [auto|]. destruct (Z.eqb_spec s 85) as [-> |]; [|reflexivity]. destruct (is_unix (85 :: t)); reflexivity.
Qed.

Lemma file_sizes e : file_entryl e -> 0 <= y_packed e < 2 ^ 46 /\ 0 <= y_original e < 2 ^ 46.
Proof. intros F. pose proof (ll_packed _ (fl_legal _ F)). pose proof (ll_original _ (fl_legal _ F)). lia. Qed.

Lemma total_nonneg (f : entryl -> Z) es : Forall (fun e => 0 <= f e) es -> 0 <= total f es.
Proof. unfold total. induction 1; cbn [map fold_right]; lia. Qed.

Lemma lines_text v es : forall h, Forall (fun x => file_entryl (fst x)) es -> Forall (fun x => ~ In 0 (y_method (fst x))) es -> unmarked_first (ExtendType h) (map fst es) -> anonymous h -> plain_type (ExtendType h) ->
  exists lines, Forall2 (fun e line => exists r, ratio_shown (y_packed e) (y_original e) r /\ line = line_of v (y_system e) e r) (map fst es) lines /\
    without_nul (flat_map (listOne false v) (readsl h es)) = concat lines.
Proof.
  induction es as [|[e d] es IH]; intros h F M U A P; [exists []; split; [constructor|reflexivity]|]. cbn [map fst] in *. inversion F as [|? ? F1 F2]; subst. inversion M as [|? ? M1 M2]; subst. cbn [fst] in *. destruct U as [U1 U2].
  pose proof (readl_system h e U1) as SY. pose proof (readl_type h e F1 P) as PT.
  destruct (IH (readl h e) F2 M2) as (lines & L1 & L2); [now rewrite SY|exact A|exact PT|].
  destruct (file_sizes e F1) as [Z1 Z2]. destruct (size_text v _ _ Z1 Z2) as (r & R1 & R2 & R3).
  exists (line_of v (y_system e) e r :: lines). split; [constructor; eauto|]. cbn [readsl fst flat_map concat]. rewrite without_app, L2. f_equal.
  rewrite (line_text v h e r F1 A PT R2), SY. apply raw_without; auto. now apply clean_in.
Qed.

(** ** C93: the lines of the listing *)
Theorem C93_list_text_partial :
  forall E fl w a es v,
    asks_listing v a fl -> stored_at E a (archivel es) w -> Forall (fun x => file_entryl (fst x)) es -> sizedl es -> names_shrinkl 233 es ->
    Forall (fun x => ~ In 0 (y_method (fst x))) es -> unmarked_first 0 (map fst es) ->
    total y_packed (map fst es) < 2 ^ 46 -> total y_original (map fst es) < 2 ^ 46 ->
    exists out, prints E fl w 0 out /\ listing_of v (map fst es) (without_nul out).
Proof.
  intros E fl w a es v AS ST F Z N M U T1 T2. eexists. split; [eapply listed_text; eassumption|].
  destruct (lines_text v es NewLzHeader F M U new_anonymous new_plain) as (lines & L1 & L2).
  assert (G1 : 0 <= total y_packed (map fst es)) by (apply total_nonneg; apply Forall_map; eapply Forall_impl; [|exact F]; intros x X; apply (file_sizes _ X)).
  assert (G2 : 0 <= total y_original (map fst es)) by (apply total_nonneg; apply Forall_map; eapply Forall_impl; [|exact F]; intros x X; apply (file_sizes _ X)).
  destruct (size_text v _ _ (conj G1 T1) (conj G2 T2)) as (r & R1 & R2 & R3).
  exists lines, r. split; [exact L1|]. split; [exact R1|]. unfold list_text. rewrite !without_app, L2. destruct (reads_totals es NewLzHeader) as [-> ->]. rewrite reads_length.
  unfold listTailer. rewrite R2. rewrite map_length.
  assert (B : printBar false v = bar v) by (destruct v; reflexivity). rewrite B.
  assert (C1 : clean (bar v)) by (unfold bar; destruct v; ctext).
  assert (H1 : listHeader false v = title v ++ bar v) by (destruct v; reflexivity). rewrite H1, without_app, (clean_id (bar v) C1), (clean_id (title v)) by (unfold title; destruct v; ctext).
  rewrite <- app_assoc. f_equal. f_equal. f_equal. rewrite without_app, (clean_id _ C1). f_equal.
  unfold total_line, fmt_d. rewrite !without_app, (clean_id _ (clean_sizes v _ _ r R3)), (clean_id (right_of 9 _)) by (apply clean_right, clean_decimal).
  unfold printStamp. rewrite andb_false_r. destruct (Z.of_nat (length es) =? 1), v; reflexivity.
Qed.

(** ** C94: times *)

Lemma retimed_area e e' : retimed e e' -> is_unix (y_area e') = is_unix (y_area e) /\ y_mode e' = y_mode e /\ uid e' = uid e /\ gid e' = gid e /\ firstn 1 (y_area e') = firstn 1 (y_area e).
Proof.
  intros [_ _ _ _ _ [R|(U & t & T & R)]]; [unfold y_mode, uid, gid; rewrite R; repeat split|].
  destruct (is_unix_inv _ U) as (m & t1 & t2 & t3 & t4 & m1 & m2 & u1 & u2 & g1 & g2 & more & Y).
  destruct t as [|x1 [|x2 [|x3 [|x4 [|]]]]]; try discriminate T. unfold y_mode, uid, gid. rewrite R, Y. repeat split.
Qed.

Lemma retimed_type h h' e e' : retimed e e' -> ExtendType h' = ExtendType h -> ExtendType (readl h' e') = ExtendType (readl h e).
Proof.
  intros R T. destruct (retimed_area e e' R) as (U & _ & _ & _ & A). unfold readl. cbn [ExtendType]. rewrite U. destruct (y_area e') as [|s t], (y_area e) as [|s' t']; try discriminate A; [exact T|]. injection A as ->. reflexivity.
Qed.

Lemma retimed_line v t e e' r : retimed e e' -> raw_line v t e' r = raw_line v t e r.
Proof.
  intros R. destruct (retimed_area e e' R) as (_ & A1 & A2 & A3 & _). destruct R as [R1 [R2 R3] R4 R5 R6 _]. unfold raw_line, raw_who. rewrite A1, A2, A3, R1, R2, R3, R5, R6. reflexivity.
Qed.

Lemma retimed_lines v es es' : Forall2 (fun x x' => retimed (fst x) (fst x') /\ snd x' = snd x) es es' -> Forall (fun x => file_entryl (fst x)) es -> Forall (fun x => file_entryl (fst x)) es' ->
  forall h h', ExtendType h' = ExtendType h -> anonymous h -> anonymous h' -> plain_type (ExtendType h) ->
  flat_map (listOne false v) (readsl h' es') = flat_map (listOne false v) (readsl h es) /\
  total y_packed (map fst es') = total y_packed (map fst es) /\ total y_original (map fst es') = total y_original (map fst es).
Proof.
  induction 1 as [|[e d] [e' d'] es es' [R _] RS IH]; intros F F' h h' T A A' P; [repeat split|]. cbn [fst snd] in *. inversion F as [|? ? F1 F2]; subst. inversion F' as [|? ? F1' F2']; subst. cbn [fst] in *.
  pose proof (retimed_type h h' e e' R T) as T2. pose proof (readl_type h e F1 P) as P2.
  destruct (IH F2 F2' (readl h e) (readl h' e') T2 A A' P2) as (I1 & I2 & I3). cbn [readsl fst flat_map map]. rewrite I1. destruct (rt_sizes _ _ R) as [Z1 Z2].
  split; [|split; unfold total in *; cbn [map fold_right]; lia]. f_equal.
  destruct (size_shape v (y_packed e) (y_original e)) as (r & R2 & R3).
  rewrite (line_text v h e r F1 A P2 R2). rewrite (line_text v h' e' r F1' A'); [|now rewrite T2|now rewrite Z1, Z2]. rewrite T2. now apply retimed_line.
Qed.

Lemma retimed_shape es es' : Forall2 (fun x x' => retimed (fst x) (fst x') /\ snd x' = snd x) es es' ->
  (sizedl es -> sizedl es') /\ (forall n, names_shrinkl n es -> names_shrinkl n es').
Proof.
  induction 1 as [|[e d] [e' d'] es es' [R D] RS [I1 I2]]; [split; auto|]. cbn [fst snd] in *. subst d'. destruct (rt_sizes _ _ R) as [Z1 _]. split.
  - intros S. inversion S as [|? ? S1 S2]; subst. constructor; [cbn [fst snd] in *; now rewrite Z1|now apply I1].
  - intros n [N1 N2]. cbn [names_shrinkl fst] in *. rewrite (rt_name _ _ R). split; [exact N1|now apply I2].
Qed.

(** Archives that differ in the times of their entries are listed alike: the column for
    the time is empty. *)
Theorem C94_times_shown_refuted :
  forall E E' fl w w' a es es' v,
    asks_listing v a fl -> stored_at E a (archivel es) w -> stored_at E' a (archivel es') w' ->
    Forall (fun x => file_entryl (fst x)) es -> Forall (fun x => file_entryl (fst x)) es' -> sizedl es -> names_shrinkl 233 es ->
    Forall2 (fun x x' => retimed (fst x) (fst x') /\ snd x' = snd x) es es' ->
    exists out, prints E fl w 0 out /\ prints E' fl w' 0 out.
Proof.
  intros E E' fl w w' a es es' v AS S S' F F' Z N R. destruct (retimed_shape es es' R) as [Z2 N2].
  eexists. split; [eapply listed_text; eassumption|].
  assert (X : list_text false v (readsl NewLzHeader es) = list_text false v (readsl NewLzHeader es')).
  { destruct (retimed_lines v es es' R F F' NewLzHeader NewLzHeader eq_refl new_anonymous new_anonymous new_plain) as (X1 & X2 & X3). unfold list_text. rewrite X1. destruct (reads_totals es NewLzHeader) as [-> ->]. destruct (reads_totals es' NewLzHeader) as [-> ->].
    rewrite X2, X3, !reads_length. assert (LE : length es' = length es) by (clear -R; induction R; cbn [length]; auto). rewrite LE. reflexivity. }
  rewrite X. eapply listed_text; eauto.
Qed.

(** ** C95: one line of text for each entry *)

(** Every listing of an entry contains a NUL byte. *)
Theorem C95_nul_bytes_refuted :
  forall E fl w a es v,
    asks_listing v a fl -> stored_at E a (archivel es) w -> Forall (fun x => file_entryl (fst x)) es -> sizedl es -> names_shrinkl 233 es -> es <> [] ->
    exists out, prints E fl w 0 out /\ In 0 out.
Proof.
  intros E fl w a es v AS S F Z N NE. eexists. split; [eapply listed_text; eassumption|].
  destruct es as [|[e d] es]; [contradiction|]. inversion F as [|? ? F1 F2]; subst. cbn [fst] in F1. unfold list_text. cbn [readsl flat_map fst]. apply in_or_app. right. apply in_or_app. left. apply in_or_app. left.
  destruct (size_shape v (y_packed e) (y_original e)) as (r & R2 & R3). rewrite (line_text v NewLzHeader e r F1 new_anonymous (readl_type _ e F1 new_plain) R2).
  unfold raw_line. do 7 (apply in_or_app; right). apply in_or_app. left. left. reflexivity.
Qed.

(** An entry whose name contains newlines adds any line to the listing. *)
Definition forging (t : list Z) : entryl := EL (text "-lh0-") 0 0 0 32 (text "a" ++ newline ++ t ++ newline) 0 [].

Theorem C95_forged_line_refuted :
  forall t, (length t <= 200)%nat -> Forall (fun b => 0 < b < 256 /\ b <> 92) t ->
    file_entryl (forging t) /\
    forall E fl w a v, asks_listing v a fl -> stored_at E a (archivel [(forging t, [])]) w ->
      exists before after, prints E fl w 0 (before ++ newline ++ t ++ newline ++ after).
Proof.
  intros t L B.
  assert (LN : (length (y_name (forging t)) <= 203)%nat) by (cbn [forging y_name text]; rewrite !app_length; cbn; lia).
  assert (F : file_entryl (forging t)).
  { constructor.
    - constructor; try (cbn; lia).
      + split; [reflexivity|]. change (y_method (forging t)) with [45; 108; 104; 48; 45]. repeat (apply Forall_cons; [lia|]). apply Forall_nil.
      + split; [cbn [forging y_area length]; lia|]. cbn [forging y_name]. change (text "a") with [97]. unfold newline. apply Forall_app. split; [repeat (apply Forall_cons; [lia|]); apply Forall_nil|]. apply Forall_app. split; [repeat (apply Forall_cons; [lia|]); apply Forall_nil|].
        apply Forall_app. split; [eapply Forall_impl; [|exact B]; cbn; intros; lia|repeat (apply Forall_cons; [lia|]); apply Forall_nil].
      + constructor.
    - cbn [forging y_name]. intros X. apply in_app_or in X. destruct X as [X|X]; [cbn in X; lia|]. apply in_app_or in X. destruct X as [X|X]; [cbn in X; lia|]. apply in_app_or in X. destruct X as [X|X]; [|cbn in X; lia].
      rewrite Forall_forall in B. specialize (B 0 X). lia.
    - reflexivity.
    - discriminate. }
  split; [exact F|]. intros E fl w a v AS S.
  assert (P : prints E fl w 0 (list_text false v (readsl NewLzHeader [(forging t, [])]))).
  { eapply listed_text; [exact AS|exact S| | |]; [constructor; [exact F|constructor]|constructor; [reflexivity|constructor]|]. cbn [names_shrinkl fst]. split; [lia|exact Logic.I]. }
  unfold list_text in P. cbn [readsl flat_map fst] in P. destruct (size_shape v (y_packed (forging t)) (y_original (forging t))) as (r & R2 & R3).
  rewrite (line_text v NewLzHeader (forging t) r F new_anonymous (readl_type _ _ F new_plain) R2) in P. unfold raw_line in P.
  assert (NM : shown_path (y_name (forging t)) = text "a" ++ newline ++ t ++ newline).
  { cbn [forging y_name]. unfold shown_path. rewrite !map_app. f_equal. f_equal. f_equal. rewrite <- (map_id t) at 2. apply map_ext_in. intros c C. rewrite Forall_forall in B. specialize (B c C). destruct (Z.eqb_spec c 92); [lia|reflexivity]. }
  rewrite NM in P. rewrite <- !app_assoc in P. rewrite !(app_assoc _ _ (newline ++ t ++ _)) in P. eexists _, _. exact P.
Qed.

(** ** C96: the system of an entry *)

(** An entry without an area, which says nothing about its system, is shown with the
    system of the entry before it. *)
Theorem C96_system_shown_refuted :
  forall E fl w a v x d e d',
    asks_listing v a fl -> stored_at E a (archivel [(x, d); (e, d')]) w -> file_entryl x -> file_entryl e -> sizedl [(x, d); (e, d')] -> names_shrinkl 233 [(x, d); (e, d')] ->
    ~ In 0 (y_method x) -> ~ In 0 (y_method e) ->
    y_system x <> 0 -> y_area e = [] ->
    exists out first r rest, prints E fl w 0 out /\
      without_nul out = title v ++ bar v ++ first ++ line_of v (y_system x) e r ++ rest /\
      firstn 11 (line_of v (y_system x) e r) <> firstn 11 (line_of v (y_system e) e r).
Proof.
  intros E fl w a v x d e d' AS S F1 F2 Z N M1 M2 NS A.
  eexists. 
  destruct (size_shape v (y_packed x) (y_original x)) as (r & R2 & R3). destruct (size_shape v (y_packed e) (y_original e)) as (r' & R2' & R3').
  exists (line_of v (y_system x) x r), r'. eexists. split; [eapply listed_text; eauto|].
  assert (SX : ExtendType (readl NewLzHeader x) = y_system x) by (now apply readl_system).
  assert (SE : ExtendType (readl (readl NewLzHeader x) e) = y_system x) by (unfold readl at 1; cbn [ExtendType]; rewrite A; exact SX).
  pose proof (readl_type _ x F1 new_plain) as P1. pose proof (readl_type _ e F2 P1) as P2.
  unfold list_text. cbn [readsl flat_map fst]. rewrite (line_text v _ x r F1 new_anonymous P1 R2), SX, (line_text v (readl NewLzHeader x) e r' F2 (readl_anonymous _ _ new_anonymous) P2 R2'), SE.
  rewrite !without_app, !raw_without by (auto; now apply clean_in). 
  assert (H1 : listHeader false v = title v ++ bar v) by (destruct v; reflexivity). rewrite H1, without_app, (clean_id (bar v)), (clean_id (title v)) by (unfold bar, title; destruct v; ctext).
  split; [rewrite <- !app_assoc; cbn [without_nul filter app]; reflexivity|].
  assert (SY : y_system e = 0) by (unfold y_system; now rewrite A). rewrite SY. unfold line_of, who. change (0 =? 85) with false. cbv iota. destruct (Z.eqb_spec (y_system x) 85); [discriminate|].
  rewrite <- !app_assoc. set (tl1 := spaces 12 ++ _). clearbody tl1. unfold label, labels. cbn [find fst snd]. change (0 =? 0) with true. cbv iota. destruct (Z.eqb_spec 0 (y_system x)); [congruence|].
  repeat (destruct (_ =? y_system x); [discriminate|]). discriminate.
Qed.


(** ** The hypotheses can be met *)
Definition ex_lists (v : bool) : flags := FLAGS [98] (negb v) v false false false [] false [] false false false false 2 0 2 [].

(** The archive of C88: entries without an area, of MS-DOS, of Unix and of OS/2. *)
Example C93_example : forall v,
  asks_listing v [98] (ex_lists v) /\ stored_at ex_env [98] (archivel ex_any_es) (ex_listing (archivel ex_any_es)) /\ Forall (fun x => file_entryl (fst x)) ex_any_es /\
  sizedl ex_any_es /\ names_shrinkl 233 ex_any_es /\ Forall (fun x => ~ In 0 (y_method (fst x))) ex_any_es /\ unmarked_first 0 (map fst ex_any_es) /\
  total y_packed (map fst ex_any_es) = 52 /\ total y_original (map fst ex_any_es) = 221.
Proof.
  intros v. split; [destruct v; constructor; reflexivity|]. split; [apply ex_stored_at|]. split; [apply C87_example|]. split; [repeat constructor|]. split; [cbn; lia|].
  split; [repeat (apply Forall_cons; [cbn; lia|]); apply Forall_nil|]. split; [cbn; repeat split; intros; discriminate|]. split; reflexivity.
Qed.

(** The line of its third entry: -rw-r--r--     0/0         86  14.0%              c *)
Example C93_line : ratio_shown 12 86 (text " 14.0%") /\
  line_of false 85 (fst (nth 2 ex_any_es (forging [], []))) (text " 14.0%") = text "-rw-r--r--     0/0          86  14.0%              c" ++ newline.
Proof. split; [|reflexivity]. exists 140. split; [lia|]. split; [reflexivity|]. lia. Qed.

Definition ex_later : list (entryl * list Z) :=
  map (fun x => (EL (y_method (fst x)) (y_packed (fst x)) (y_original (fst x)) 545259521 (y_attr (fst x)) (y_name (fst x)) (y_crc (fst x)) (y_area (fst x)), snd x)) ex_any_es.
Example C94_example : Forall (fun x => file_entryl (fst x)) ex_later /\ Forall2 (fun x x' => retimed (fst x) (fst x') /\ snd x' = snd x) ex_any_es ex_later.
Proof.
  split.
  - apply Forall_map. eapply Forall_impl; [|apply C87_example]. intros [e d] [[] ? ? ?]. cbn [fst snd] in *. constructor; [constructor; try assumption; cbn; lia|assumption|assumption|assumption].
  - unfold ex_later. induction ex_any_es as [|x l IH]; constructor; [|exact IH]. split; [|reflexivity]. constructor; try reflexivity; [split; reflexivity|now left].
Qed.

(** An entry of MS-DOS and one
    without an area. *)
Definition ex_marked : entryl := fst (nth 1 ex_any_es (forging [], [])).
Definition ex_unmarked : entryl := EL [45; 108; 104; 49; 45] 12 86 545259520 32 [97] 51676 [].
Example C96_example : file_entryl ex_marked /\ file_entryl ex_unmarked /\ y_system ex_marked = 77 /\ y_area ex_unmarked = [] /\
  sizedl [(ex_marked, ex_lzs_data); (ex_unmarked, ex_lh1_data)] /\ names_shrinkl 233 [(ex_marked, ex_lzs_data); (ex_unmarked, ex_lh1_data)].
Proof.
  split; [apply ex_any_entry; cbn; tauto|]. split; [constructor; [constructor; cbn; try lia; try (split; [cbn; lia|]); repeat constructor; lia|cbn; lia|reflexivity|discriminate]|].
  split; [reflexivity|]. split; [reflexivity|]. split; [repeat constructor|cbn; lia].
Qed.

Example C95_example : (length (text "-rw-r--r--     0/0          10 100.0%              b") <= 200)%nat /\ Forall (fun b => 0 < b < 256 /\ b <> 92) (text "-rw-r--r--     0/0          10 100.0%              b").
Proof. split; [cbn; lia|]. repeat (apply Forall_cons; [cbn; lia|]). apply Forall_nil. Qed.

Print Assumptions C93_list_text_partial.
Print Assumptions C94_times_shown_refuted.
Print Assumptions C95_nul_bytes_refuted.
Print Assumptions C95_forged_line_refuted.
Print Assumptions C96_system_shown_refuted.
