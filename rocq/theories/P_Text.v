(** The text of a listing. *)
From Coq Require Import String.
From Verif Require Import Go GoLemmas S_Text S_Header S_Listing S_Level0 S_ListText M_Header M_List P_Header P_Accept P_Level0 P_AnyEntry P_Ratio.
From Coq Require Decimal Hexadecimal DecimalString HexadecimalString.

Definition clean (l : list Z) : Prop := Forall (fun b => b <> 0) l.

Lemma clean_app a b : clean a -> clean b -> clean (a ++ b).
Proof. intros A B. apply Forall_app. auto. Qed.
Lemma clean_id l : clean l -> without_nul l = l.
Proof. induction 1 as [|x l X L IH]; [reflexivity|]. cbn [without_nul filter]. destruct (Z.eqb_spec x 0); [contradiction|]. cbn [negb]. f_equal. exact IH. Qed.
Lemma without_app a b : without_nul (a ++ b) = without_nul a ++ without_nul b.
Proof. apply filter_app. Qed.
Lemma clean_repeat c n : c <> 0 -> clean (repeat c n).
Proof. intros C. apply Forall_forall. intros x X. apply repeat_spec in X. congruence. Qed.
Lemma clean_spaces n : clean (spaces n). Proof. apply clean_repeat. discriminate. Qed.
Lemma clean_in l : ~ In 0 l -> clean l.
Proof. intros H. apply Forall_forall. intros x X ->. contradiction. Qed.
Lemma in_clean l : clean l -> ~ In 0 l.
Proof. intros H X. unfold clean in H. rewrite Forall_forall in H. exact (H 0 X eq_refl). Qed.

Lemma text_string c s : text (String c s) = Z.of_nat (Ascii.nat_of_ascii c) :: text s. Proof. reflexivity. Qed.

Lemma clean_uint u : clean (text (DecimalString.NilEmpty.string_of_uint u)).
Proof. induction u; cbn [DecimalString.NilEmpty.string_of_uint]; [constructor|..]; rewrite text_string; (constructor; [discriminate|assumption]). Qed.
Lemma clean_huint u : clean (text (HexadecimalString.NilEmpty.string_of_uint u)).
Proof. induction u; cbn [HexadecimalString.NilEmpty.string_of_uint]; [constructor|..]; rewrite text_string; (constructor; [discriminate|assumption]). Qed.

Lemma clean_decimal n : clean (decimal n).
Proof.
  assert (X : forall u, clean (text (DecimalString.NilZero.string_of_uint u))).
  { intros u. unfold DecimalString.NilZero.string_of_uint. destruct u; try (apply (clean_uint (_ u))). constructor; [discriminate|constructor]. }
  unfold decimal. destruct (Z.to_int n) as [u|u]; cbn [DecimalString.NilZero.string_of_int]; [apply X|]. rewrite text_string. constructor; [discriminate|apply X].
Qed.
Lemma clean_hexadecimal n : clean (hexadecimal n).
Proof.
  unfold hexadecimal, HexadecimalString.NilZero.string_of_uint. destruct (N.to_hex_uint (Z.to_N n)); try (apply (clean_huint (_ u))). constructor; [discriminate|constructor].
Qed.
Lemma clean_right n s : clean s -> clean (right_of n s).
Proof. intros. apply clean_app; [apply clean_spaces|assumption]. Qed.
Lemma clean_left n s : clean s -> clean (left_of n s).
Proof. intros. apply clean_app; [assumption|apply clean_spaces]. Qed.

(** Constant texts. *)
Ltac ctext := repeat (apply Forall_cons; [discriminate|]); apply Forall_nil.

Lemma size_text v p o : 0 <= p < 2 ^ 46 -> 0 <= o < 2 ^ 46 -> exists r, ratio_shown p o r /\ printSize v p o = sizes v p o r /\ clean r.
Proof.
  intros P O. unfold printSize, sizes, ratio_shown, fmt_d. destruct (Z.eqb_spec o 0) as [-> |N].
  - eexists. split; [reflexivity|]. split; [reflexivity|]. ctext.
  - destruct (ratio_near p o P ltac:(lia)) as (q & Q1 & Q2 & Q3). rewrite Q2. eexists. split; [exists q; split; [exact Q1|split; [reflexivity|exact Q3]]|]. split; [reflexivity|].
    apply clean_app; [|ctext]. apply clean_right. apply clean_app; [apply clean_decimal|]. apply clean_app; [ctext|apply clean_decimal].
Qed.

Lemma size_shape v p o : exists r, printSize v p o = sizes v p o r /\ clean r.
Proof.
  unfold printSize, sizes, fmt_d. eexists. split; [reflexivity|]. destruct (o =? 0); [ctext|]. apply clean_app; [|ctext]. apply clean_right.
  destruct (SpecFloat.SFdiv _ _ _ _) as [s|s| |s m e]; try (destruct s; ctext); [ctext|]. apply clean_app; [destruct s; ctext|]. apply clean_app; [apply clean_decimal|]. apply clean_app; [ctext|apply clean_decimal].
Qed.

Lemma clean_sizes v p o r : clean r -> clean (sizes v p o r).
Proof.
  intros R. unfold sizes. apply clean_app; [destruct v; [apply clean_app; [apply clean_right, clean_decimal|ctext]|constructor]|]. apply clean_app; [apply clean_right, clean_decimal|]. apply clean_app; [ctext|exact R].
Qed.

Lemma has_bit mode k : 0 <= k -> has mode (2 ^ k) = Z.testbit mode k.
Proof.
  intros K. unfold has. destruct (Z.testbit mode k) eqn:T.
  - destruct (Z.eqb_spec (Z.land mode (2 ^ k)) 0) as [E|]; [|reflexivity]. apply (f_equal (fun x => Z.testbit x k)) in E. rewrite Z.land_spec, Z.pow2_bits_true, T, Z.bits_0 in E by lia. discriminate.
  - replace (Z.land mode (2 ^ k)) with 0; [reflexivity|]. symmetry. apply Z.bits_inj_0. intros n. rewrite Z.land_spec. destruct (Z.eq_dec n k) as [-> |N]; [rewrite T; reflexivity|]. rewrite (Z.pow2_bits_false k n) by lia. apply andb_false_r.
Qed.

Lemma modebits_text mode : Z.land mode 61440 = 32768 -> unix_modebits mode = permissions mode ++ [0].
Proof.
  intros H. unfold unix_modebits, permissions, letter_or, letter, mark.
  assert (D : has mode 16384 = false).
  { change 16384 with (2 ^ 14). rewrite has_bit by lia. apply (f_equal (fun x => Z.testbit x 14)) in H. rewrite Z.land_spec in H. change (Z.testbit 61440 14) with true in H. rewrite andb_true_r in H. exact H. }
  pose proof (mode_nolink mode H) as L. unfold isSymlinkMode in L. change UnixFileSymlink with 40960 in L. rewrite D.
  rewrite L.
  change (has mode 1) with (has mode (2 ^ 0)).
  change (has mode 2) with (has mode (2 ^ 1)).
  change (has mode 4) with (has mode (2 ^ 2)).
  change (has mode 8) with (has mode (2 ^ 3)).
  change (has mode 16) with (has mode (2 ^ 4)).
  change (has mode 32) with (has mode (2 ^ 5)).
  change (has mode 64) with (has mode (2 ^ 6)).
  change (has mode 128) with (has mode (2 ^ 7)).
  change (has mode 256) with (has mode (2 ^ 8)).
  change (has mode 512) with (has mode (2 ^ 9)).
  change (has mode 1024) with (has mode (2 ^ 10)).
  change (has mode 2048) with (has mode (2 ^ 11)).
  rewrite !has_bit by lia. reflexivity.
Qed.

Lemma labels_text t : t <> 85 -> t <> 109 -> t <> 75 -> t <> 88 -> system_name t = label t.
Proof.
  intros _ N _ _. unfold system_name, label, labels. cbn [find fst snd].
  rewrite (Z.eqb_sym 0 t), (Z.eqb_sym 67 t), (Z.eqb_sym 70 t), (Z.eqb_sym 57 t), (Z.eqb_sym 77 t), (Z.eqb_sym 50 t), (Z.eqb_sym 72 t), (Z.eqb_sym 51 t), (Z.eqb_sym 82 t), (Z.eqb_sym 84 t), (Z.eqb_sym 74 t).
  destruct (Z.eqb_spec t 109); [contradiction|]. repeat (destruct (_ =? _); [reflexivity|]). reflexivity.
Qed.

Lemma label_short t : firstn 11 (label t) = label t /\ clean (label t).
Proof.
  unfold label, labels. cbn [find fst snd]. repeat (destruct (_ =? t); [split; [reflexivity|ctext]|]). split; [reflexivity|ctext].
Qed.

Lemma clean_permissions m : clean (permissions m).
Proof.
  unfold permissions, letter_or, letter. repeat (constructor; [repeat (destruct (Z.testbit _ _); [discriminate|]); discriminate|]). constructor.
Qed.

Lemma clean_who t e : clean (who t e).
Proof.
  unfold who. destruct (t =? 85).
  - apply clean_app; [apply clean_permissions|]. apply clean_app; [ctext|]. apply clean_app; [apply clean_right, clean_decimal|]. apply clean_app; [ctext|]. apply clean_app; [apply clean_left, clean_decimal|ctext].
  - apply clean_app; [apply clean_left, label_short|apply clean_spaces].
Qed.

(** The line of an entry as it is printed: with NUL bytes behind the permissions, the
    method and the name. *)
Definition raw_who (t : Z) (e : entryl) : list Z :=
  if t =? 85 then permissions (y_mode e) ++ [0] ++ text " " ++ right_of 5 (decimal (uid e)) ++ text "/" ++ left_of 5 (decimal (gid e)) ++ text " "
  else left_of 11 (label t) ++ spaces 12.
Definition raw_line (v : bool) (t : Z) (e : entryl) (r : list Z) : list Z :=
  raw_who t e ++ sizes v (y_packed e) (y_original e) r ++
  (if v then text " " ++ y_method e ++ [0] ++ text " " ++ checksum_shown (y_crc e) else []) ++
  text " " ++ spaces 12 ++ text " " ++ shown_path (y_name e) ++ [0] ++ newline.

Definition anonymous (h : hdr) : Prop := nth 0 (User h) 0 = 0 /\ nth 0 (Group h) 0 = 0.

Lemma line_text v h e r : file_entryl e -> anonymous h -> plain_type (ExtendType (readl h e)) -> printSize v (y_packed e) (y_original e) = sizes v (y_packed e) (y_original e) r ->
  listOne false v (readl h e) = raw_line v (ExtendType (readl h e)) e r.
Proof.
  intros F [U G] T R. unfold listOne, raw_line. set (t := ExtendType (readl h e)) in *. cbn [app].
  change (PackedSize (readl h e)) with (y_packed e). change (OriginalSize (readl h e)) with (y_original e). rewrite R.
  change (Method (readl h e)) with (y_method e). change (HasCrc (readl h e)) with true. change (Crc (readl h e)) with (y_crc e). change (UnixMode (readl h e)) with (y_mode e).
  destruct (ll_method _ (fl_legal _ F)) as [LM _].
  replace (firstn 5 (y_method e ++ repeat 0 5)) with (y_method e) by (rewrite <- LM at 1; rewrite firstn_app, Nat.sub_diag, firstn_all, firstn_O, app_nil_r; reflexivity).
  assert (N : shown_name (readl h e) = shown_path (y_name e) ++ [0]).
  { unfold shown_name. change (UnixMode (readl h e)) with (y_mode e). pose proof (mode_nolink _ (fl_regular _ F)) as L. unfold isSymlinkMode in L. change UnixFileSymlink with 40960 in L. rewrite L.
    change (Name (readl h e)) with (slash_back (y_name e) ++ [0]). rewrite (slash_back_l e (fl_legal _ F)). reflexivity. }
  rewrite N. assert (W : (if t =? 85 then unix_modebits (y_mode e) ++ text " " ++ owner (readl h e) else if t =? 75 then owner (readl h e) else if t =? 88 then osk_modebits (y_mode e) ++ text " " ++ owner (readl h e)
     else left_of 11 (firstn 11 (system_name t)) ++ spaces 12) = raw_who t e).
  { unfold raw_who. destruct T as (T1 & T2 & T3 & T4). destruct (Z.eqb_spec t 85).
    - rewrite (modebits_text _ (fl_regular _ F)), <- app_assoc. unfold owner. change (User (readl h e)) with (User h). change (Group (readl h e)) with (Group h). rewrite U, G. reflexivity.
    - destruct (Z.eqb_spec t 75); [contradiction|]. destruct (Z.eqb_spec t 88); [contradiction|]. rewrite labels_text by assumption. now rewrite (proj1 (label_short t)). }
  rewrite W. unfold printStamp. rewrite andb_false_r. rewrite <- !app_assoc. destruct v; rewrite <- ?app_assoc; reflexivity.
Qed.

Lemma clean_path e : file_entryl e -> clean (shown_path (y_name e)).
Proof.
  intros F. pose proof (fl_name _ F) as N. apply clean_in. intros X. unfold shown_path in X. apply in_map_iff in X. destruct X as (c & X1 & X2). destruct (Z.eqb_spec c 92); [discriminate|]. subst c. contradiction.
Qed.

Lemma raw_without v t e r : file_entryl e -> clean (y_method e) -> clean r -> without_nul (raw_line v t e r) = line_of v t e r.
Proof.
  intros F M R. unfold raw_line, line_of. rewrite !without_app.
  assert (W : without_nul (raw_who t e) = who t e).
  { rewrite <- (clean_id _ (clean_who t e)). unfold raw_who, who. destruct (t =? 85); [|reflexivity]. rewrite !without_app. reflexivity. }
  rewrite W, (clean_id _ (clean_sizes v (y_packed e) (y_original e) r R)), (clean_id _ (clean_path e F)).
  assert (H : clean (checksum_shown (y_crc e))) by (apply clean_app; [apply clean_repeat; discriminate|apply clean_hexadecimal]).
  f_equal. f_equal. f_equal. destruct v; [|reflexivity]. rewrite !without_app, (clean_id _ M), (clean_id _ H). reflexivity.
Qed.
