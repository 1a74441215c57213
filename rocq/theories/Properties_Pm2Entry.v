(** Property C102: entries packed by the method -pm2-.  The format is written down in
    S_Pm2.v, S_Mtf.v and S_Lz.v; [reader], [file_entry], [named] and [asks_for] are
    defined in S_Archive.v, [after] in S_History.v. *)
From Verif Require Import Go GoLemmas M_Crc M_Bitio P_Bitio M_Maketree M_Maketbl M_Huf M_Dhuf M_Shuf M_Slide M_Larc M_Pm2hist M_Pm2 M_Decode M_Lzhuf S_Bits P_Bits S_Huff S_Lz S_Mtf S_Lh5 S_Pm2 S_Header S_Listing M_Header M_Os M_Archive S_History S_Archive
  P_Header P_Accept P_List P_Os P_RoundTrip P_Single P_Read1 P_ExtractAll P_Lz P_Lh1 P_Lh3 P_HufTables P_DecAny P_DecOld P_Pm2 P_PmKeep P_Stream Properties_Slide Properties_Archive Properties_Extract Properties_Listing Properties_Larc Properties_Lh5 Properties_Lh3 Properties_Ends.

(** [e] and [data] are an entry of [body], packed in the format -pm2- with codes that
    satisfy [P]. *)
Definition pm2_entry (P : codes -> Prop) (e : entry0) (data body : list Z) : Prop :=
  exists its bits pad, e_method e = [45; 112; 109; 50; 45] /\ pm2_stream P its bits /\ byte_string_bits data = bits ++ pad /\ (length pad < 16)%nat /\
    e_packed e = zlen data /\ e_original e = zlen body /\ body = lz_expand its /\ e_crc e = calcCrc 0 body.

(** Proved for codes with a single symbol each, in any process. *)
Theorem C102_pm2_extracted_partial :
  forall E cs w a e dir base header data body,
    reader E a w -> after cs (w_glob w) -> w_fs w a = Some (NFile (archive_bytes [(e, data)])) ->
    file_entry e -> named e dir base -> asks_for header (dir ++ base) -> bytes data ->
    pm2_entry single_codes e data body ->
    exists w', DecompresBytes E header w = Done (body, false) w' /\ w_fs w' = w_fs w.
Proof.
  intros E cs w a e dir base header data body R A Hf FE ND Hh B (its & bits & pad & M & ST & EB & HP & P1 & P2 & P3 & P4).
  unfold archive_bytes in Hf. cbn [flat_map fst snd] in Hf. rewrite app_nil_r, <- app_assoc in Hf.
  assert (B2 : bytes (data ++ [0])) by (apply Forall_app; split; [exact B|constructor; [unfold is_byte; lia|constructor]]).
  assert (MN : method_num (e_method e) = Some 13) by (rewrite M; reflexivity).
  destruct (pm2_decodes (w_glob w) its bits data [0] pad (after_hist _ _ A) ST B2 EB HP) as [g2 D].
  rewrite <- P3, <- P1, <- P2 in D.
  destruct (stream_any E e dir base 13 header w a (data ++ [0]) g2 _ _ _ _ FE ND MN ltac:(discriminate) Hf R Hh D) as [k X].
  rewrite X, P4, !Z.eqb_refl. cbn [negb]. rewrite loop_end. eexists. split; reflexivity.
Qed.

(** A space, by a code of two symbols with words of one bit. *)
Definition ex_pm2_two : codes := CODES (Some (lens_of [(0, 1); (1, 1)])) false None.
Definition ex_pm2_two_entry : entry0 := E0 [45; 112; 109; 50; 45] 3 1 0 32 [122] 55297 0 1000000 33188 0 0.

Lemma ex_pm2_two_ok : pm2_entry any_codes ex_pm2_two_entry [8; 156; 0] [32].
Proof.
  exists [LzByte 32], (false :: ((to_bits 5 2 ++ to_bits 3 1 ++ to_bits 3 1 ++ [true; true]) ++ []) ++ (([false] ++ to_bits 3 0) ++ [])), (repeat false 6).
  split; [reflexivity|]. split.
  { eexists _, _. split; [reflexivity|]. apply (pm2_renew _ _ _ ex_pm2_two); [cbn; lia| |exact Logic.I|].
    - apply (renew_start _ _ ex_pm2_two); [reflexivity| |].
      + eexists _, _. split; [|reflexivity]. apply (class_lengths 2 1 1 (fun c => fold_right (fun p k => if fst p =? c then snd p else k) 0 [(0, 1); (1, 1)])); try lia.
        * split; [|vm_compute; reflexivity]. intros c Hc. cbn [fold_right fst snd]. destruct (0 =? c), (1 =? c); lia.
        * intros c Hc. cbn [fold_right fst snd]. destruct (Z.eqb_spec 0 c), (Z.eqb_spec 1 c); lia.
        * intros c Hc. cbn [fold_right fst snd]. change (2 ^ 1) with 2. destruct (0 =? c), (1 =? c); lia.
      + split; [reflexivity|]. split; [reflexivity|]. split; reflexivity.
    - apply pm2_one; [vm_compute; reflexivity| |apply pm2_end].
      apply (item_byte ex_pm2_two [] (lens_of [(0, 1); (1, 1)]) 0 0); [reflexivity|split; [lia|cbn; intros X; discriminate X]|lia|cbn; lia]. }
  split; [vm_compute; reflexivity|]. split; [cbn; lia|]. repeat split; vm_compute; reflexivity.
Qed.

Lemma stream_panics E e dir base method header w a tail :
  file_entry e -> named e dir base -> method_num (e_method e) = Some method -> method <> LzhdirsMethodNum ->
  w_fs w a = Some (NFile (layout0 e ++ tail)) -> reader E a w -> asks_for header (dir ++ base) ->
  DecodeLzhuf method false (e_original e) (e_packed e) tail (w_glob w) = Panic ->
  exists w', DecompresBytes E header w = Crash w'.
Proof.
  intros FE ND HM HD Hf R Hh D. rewrite (DecompresBytes_open E header w a _ Hf R). set (w1 := set_wlha (set_level 2 (NewLha a)) w).
  assert (X : exists k, length (layout0 e ++ tail) = S k) by apply layout_fuel. destruct X as [k Hk].
  rewrite Hk. rewrite (loop_entry E e FE). unfold by_name at 1. rewrite bind_ret.
  unfold asks_for in Hh. rewrite (r0_name e FE dir base ND), Hh, list_eqb_refl. unfold one_stream at 1.
  rewrite !bind_assoc. unfold bindIO at 1.
  assert (EX : exists w2, extractOneStream (read0 NewLzHeader e) tail w1 = Crash w2).
  { unfold extractOneStream. change (Method (read0 NewLzHeader e)) with (e_method e). rewrite HM, (r0_reg e FE). apply Z.eqb_neq in HD. rewrite HD. cbn [negb andb].
    istep. change (l_noexec (w_lha w1)) with false. cbv iota. unfold run_decode. istep. istep. istep. change (l_broken (w_lha w1)) with false.
    change (OriginalSize (read0 NewLzHeader e)) with (e_original e). change (PackedSize (read0 NewLzHeader e)) with (e_packed e). change (w_glob w1) with (w_glob w).
    rewrite D. eexists. reflexivity. }
  destruct EX as [w2 EX]. rewrite EX. eexists. reflexivity.
Qed.

(** The claim is false of it: in a new process decompression panics. *)
Theorem C102_pm2_extracted_refuted :
  pm2_entry any_codes ex_pm2_two_entry [8; 156; 0] [32] /\
  forall E w a header,
    reader E a w -> w_glob w = glob0 -> w_fs w a = Some (NFile (archive_bytes [(ex_pm2_two_entry, [8; 156; 0])])) -> asks_for header [122] ->
    exists w', DecompresBytes E header w = Crash w'.
Proof.
  split; [exact ex_pm2_two_ok|]. intros E w a header R A Hf Hh.
  unfold archive_bytes in Hf. cbn [flat_map fst snd] in Hf. rewrite app_nil_r, <- app_assoc in Hf.
  assert (FE : file_entry ex_pm2_two_entry) by (constructor; [constructor; cbn; try lia; split; auto; repeat constructor; lia|cbn; lia|reflexivity]).
  assert (ND : named ex_pm2_two_entry [] [122]) by (constructor; [reflexivity|now left|split; [discriminate|cbn; lia]]).
  apply (stream_panics E ex_pm2_two_entry [] [122] 13 header w a _ FE ND eq_refl ltac:(discriminate) Hf R Hh). rewrite A. vm_compute. reflexivity.
Qed.

(** Sixteen copies of 256 spaces, which take no bits at all, with the renewals of the
    codes at 0, 1024, 2048 and 4096 bytes, the last with a new code, and four bytes by
    their places in the list. *)
Definition ex_pm2 : entry0 := E0 [45; 112; 109; 50; 45] 4 4100 0 32 [122] 36222 0 1000000 33188 0 0.
Definition ex_pm2_items : list lztok := repeat (LzCopy 256 1) 16 ++ [LzByte 36; LzByte 35; LzByte 35; LzByte 39].

Lemma spaces_copy d n : forall k, lz_copy n d (repeat 32 k) = repeat 32 (k + n).
Proof.
  induction n as [|n IH]; intros k; cbn [lz_copy]; [now rewrite Nat.add_0_r|].
  replace (back (repeat 32 k) d) with 32.
  - replace (repeat 32 k ++ [32]) with (repeat 32 (S k)) by (rewrite <- (repeat_cons k 32); reflexivity). rewrite IH. f_equal. lia.
  - unfold back. destruct (_ <=? _); [|reflexivity]. set (i := Z.to_nat _). clearbody i. revert i. induction k as [|k IHk]; intros [|i]; cbn [repeat nth]; auto.
Qed.

Lemma spaces_mtf k : mtf_after (repeat 32 k) = mtf_start.
Proof.
  assert (X : to_front 32 mtf_start = mtf_start) by (vm_compute; reflexivity). unfold mtf_after. induction k as [|k IH]; cbn [repeat fold_left]; [reflexivity|]. rewrite X. exact IH.
Qed.

Definition only28 : codes := CODES (Some (Single 28)) false None.
Definition only0 : codes := CODES (Some (Single 0)) false None.

Lemma copy28 k : pm2_item only28 (repeat 32 k) (LzCopy 256 1) [].
Proof. change (@nil bool) with (pm_word 29 (Single 28) 28 ++ to_bits (length_bits 28) 0 ++ []). apply (item_copy only28 (repeat 32 k) (Single 28) 28 0 0); [reflexivity|split; [lia|reflexivity]|lia|cbn; lia|now apply dist_one]. Qed.

Lemma copies28 next its bits k' : forall n k, Z.of_nat k' = Z.of_nat k + 256 * Z.of_nat n -> Z.of_nat k' <= next ->
  pm2_items single_codes next only28 (repeat 32 k') its bits -> pm2_items single_codes next only28 (repeat 32 k) (repeat (LzCopy 256 1) n ++ its) bits.
Proof.
  induction n as [|n IH]; intros k H1 H2 H; [now replace k with k' by lia|]. cbn [repeat app]. change bits with ([] ++ bits). apply pm2_one; [rewrite repeat_length; lia|apply copy28|].
  cbn [lz_step]. rewrite spaces_copy. apply IH; [lia|exact H2|exact H].
Qed.

Lemma same_dists n ks : p_need ks = false -> dist_part n ks ks [].
Proof. intros H. split; [reflexivity|]. split; [reflexivity|]. rewrite H. now split. Qed.

Lemma byte0 out x b : 0 <= x < 8 -> nth (Z.to_nat x) (mtf_after out) 0 = b -> pm2_item only0 out (LzByte b) (to_bits 3 x).
Proof. intros H <-. apply (item_byte only0 out (Single 0) 0 x); [reflexivity|split; [lia|reflexivity]|lia|exact H]. Qed.

Lemma single28 : single_codes only28. Proof. split; [now exists 28|now left]. Qed.
Lemma single0 : single_codes only0. Proof. split; [now exists 0|now left]. Qed.

Lemma renew28 next k its b1 b2 : Z.of_nat k = next -> renewal next only28 only28 b1 ->
  pm2_items single_codes (next_renewal next) only28 (repeat 32 k) (repeat (LzCopy 256 1) 4 ++ its) b2 -> pm2_items single_codes next only28 (repeat 32 k) (repeat (LzCopy 256 1) 4 ++ its) (b1 ++ b2).
Proof. intros H R X. cbn [repeat app] in *. apply (pm2_renew _ _ _ only28); [rewrite repeat_length; lia|exact R|exact single28|exact X]. Qed.

Lemma last4 bits k : Z.of_nat k = 4096 -> bits = true :: (to_bits 5 1 ++ to_bits 3 0) ++ [] ->
  pm2_items single_codes 4096 only28 (repeat 32 k) [LzByte 36; LzByte 35; LzByte 35; LzByte 39] (bits ++ to_bits 3 4 ++ to_bits 3 4 ++ to_bits 3 0 ++ to_bits 3 7 ++ []).
Proof.
  intros Hk ->. apply (pm2_renew _ _ _ only0); [rewrite repeat_length; lia| |exact single0|].
  { apply (renew_8_class _ _ only0); [reflexivity| |now apply same_dists]. eexists _, _. split; [|reflexivity]. apply (class_single 0). lia. }
  change (next_renewal 4096) with 8192.
  assert (M : forall l, mtf_after (repeat 32 k ++ l) = fold_left (fun l b => to_front b l) l mtf_start) by (intros l; unfold mtf_after; rewrite fold_left_app; fold (mtf_after (repeat 32 k)); now rewrite spaces_mtf).
  assert (L : forall l, (length l < 4)%nat -> Z.of_nat (length (repeat 32 k ++ l)) < 8192) by (intros l Hl; rewrite app_length, repeat_length; lia).
  rewrite <- (app_nil_r (repeat 32 k)).
  apply pm2_one; [apply L; cbn; lia|apply byte0; [lia|rewrite M; vm_compute; reflexivity]|]. cbn [lz_step]. rewrite <- app_assoc. cbn [app].
  apply pm2_one; [apply L; cbn; lia|apply byte0; [lia|rewrite M; vm_compute; reflexivity]|]. cbn [lz_step]. rewrite <- app_assoc. cbn [app].
  apply pm2_one; [apply L; cbn; lia|apply byte0; [lia|rewrite M; vm_compute; reflexivity]|]. cbn [lz_step]. rewrite <- app_assoc. cbn [app].
  apply pm2_one; [apply L; cbn; lia|apply byte0; [lia|rewrite M; vm_compute; reflexivity]|apply pm2_end].
Qed.

Definition ex_pm2_bits : list bool :=
  false :: ((to_bits 5 29 ++ to_bits 3 0) ++ []) ++ [] ++ [] ++ ((true :: (to_bits 5 1 ++ to_bits 3 0) ++ []) ++ to_bits 3 4 ++ to_bits 3 4 ++ to_bits 3 0 ++ to_bits 3 7 ++ []).

Lemma ex_pm2_stream_at k1 k2 k3 k4 : Z.of_nat k1 = 1024 -> Z.of_nat k2 = 2048 -> Z.of_nat k3 = 3072 -> Z.of_nat k4 = 4096 -> pm2_stream single_codes ex_pm2_items ex_pm2_bits.
Proof.
  intros H1 H2 H3 H4.
  eexists _, _. split; [reflexivity|]. unfold ex_pm2_items. change (repeat (LzCopy 256 1) 16) with (repeat (LzCopy 256 1) 4 ++ repeat (LzCopy 256 1) 4 ++ repeat (LzCopy 256 1) 4 ++ repeat (LzCopy 256 1) 4). rewrite <- !app_assoc.
  match goal with |- pm2_items _ _ _ _ (_ ++ ?t) _ => set (t1 := t) end.
  assert (X : forall b, pm2_items single_codes 1024 only28 (repeat 32 0) (repeat (LzCopy 256 1) 4 ++ t1) b -> pm2_items single_codes 0 no_codes [] (repeat (LzCopy 256 1) 4 ++ t1) (((to_bits 5 29 ++ to_bits 3 0) ++ []) ++ b)).
  { intros b X. cbn [repeat app] in *. apply (pm2_renew _ _ _ only28); [cbn; lia| |exact single28|exact X].
    apply (renew_start _ _ only28); [reflexivity| |now apply same_dists]. eexists _, _. split; [|reflexivity]. apply (class_single 28). lia. }
  apply X. clear X. apply (copies28 _ _ _ k1); [lia|lia|]. subst t1.
  apply renew28; [exact H1|apply renew_6; [reflexivity|now apply same_dists]|]. change (next_renewal 1024) with 2048.
  apply (copies28 _ _ _ k2); [lia|lia|].
  apply renew28; [exact H2|apply renew_7; [reflexivity|now apply same_dists]|]. change (next_renewal 2048) with 4096.
  apply (copies28 _ _ _ k3); [lia|lia|]. apply (copies28 _ _ _ k4); [lia|lia|]. apply last4; [exact H4|reflexivity].
Qed.

Lemma ex_pm2_stream : pm2_stream single_codes ex_pm2_items ex_pm2_bits.
Proof. apply (ex_pm2_stream_at (Z.to_nat 1024) (Z.to_nat 2048) (Z.to_nat 3072) (Z.to_nat 4096)); apply Z2Nat.id; lia. Qed.

Definition ex_pm2_body : list Z := repeat 32 (Z.to_nat 4096) ++ [36; 35; 35; 39].

Lemma fold_repeat {A B} (f : A -> B -> A) b n x : fold_left f (repeat b (S n)) x = fold_left f (repeat b n) (f x b).
Proof. reflexivity. Qed.

Lemma copy_step l d k : lz_step (repeat 32 k) (LzCopy l d) = repeat 32 (k + Z.to_nat l).
Proof. apply spaces_copy. Qed.

Lemma spaces_expand k' n : forall k, Z.of_nat k' = Z.of_nat k + 256 * Z.of_nat n -> fold_left lz_step (repeat (LzCopy 256 1) n) (repeat 32 k) = repeat 32 k'.
Proof.
  induction n as [|n IH]; intros k H; [replace k' with k by lia; reflexivity|]. rewrite fold_repeat, copy_step. apply IH. lia.
Qed.

Lemma ex_pm2_ok : pm2_entry single_codes ex_pm2 [116; 66; 36; 28] ex_pm2_body.
Proof.
  exists ex_pm2_items, ex_pm2_bits, (repeat false 2). split; [reflexivity|]. split; [exact ex_pm2_stream|]. split; [vm_compute; reflexivity|]. split; [cbn; lia|]. split; [reflexivity|].
  split; [vm_compute; reflexivity|]. split; [|vm_compute; reflexivity].
  unfold lz_expand, ex_pm2_items, ex_pm2_body. rewrite fold_left_app. assert (X : fold_left lz_step (repeat (LzCopy 256 1) 16) [] = repeat 32 (Z.to_nat 4096)) by (apply (spaces_expand (Z.to_nat 4096) 16 0); rewrite Z2Nat.id by lia; reflexivity). rewrite X. clear X. set (sp := repeat 32 (Z.to_nat 4096)). clearbody sp. cbn [fold_left lz_step]. rewrite <- !app_assoc. reflexivity.
Qed.

Example C102_pm2_example E w a header :
  reader E a w -> w_glob w = glob0 -> w_fs w a = Some (NFile (archive_bytes [(ex_pm2, [116; 66; 36; 28])])) -> asks_for header [122] ->
  exists w', DecompresBytes E header w = Done (ex_pm2_body, false) w' /\ w_fs w' = w_fs w.
Proof.
  intros R A Hf Hh. apply (C102_pm2_extracted_partial E [] w a ex_pm2 [] [122] header [116; 66; 36; 28]); auto.
  - rewrite A. split; [constructor|reflexivity].
  - constructor; [constructor; cbn; try lia; split; auto; repeat constructor; lia|cbn; lia|reflexivity].
  - constructor; [reflexivity|now left|split; [discriminate|cbn; lia]].
  - repeat constructor; cbn; unfold is_byte; lia.
  - exact ex_pm2_ok.
Qed.

(** ** C97 again: -pm2- data for which decompression does not end *)

(** A tree whose first node points to itself. *)
Lemma loop_never_stops t : aget (pt_left t) 0 = Ok 0 -> aget (pt_right t) 0 = Ok 0 -> forall r, rwf r -> never_stops (tree_step t) (0, r).
Proof.
  intros L R r W n. revert r W. induction n as [|n IH]; intros r W; [eexists; reflexivity|]. cbn [loopN].
  unfold tree_step at 1. change (0 <? 128) with true. cbv iota. rewrite R. cbn [bind].
  destruct (getbits_total 1 r W ltac:(lia)) as (x & r' & -> & _ & W' & _). cbn [bind]. destruct (x =? 0); [rewrite L; cbn [bind]|]; now apply IH.
Qed.

(** A code of one class with a word of one bit, which is not a complete code. *)
Definition endless_pm2 : list Z := [4; 128].

Lemma endless_pm2_state :
  match initGetbits 2 endless_pm2 with
  | Ok r0 => match decodeStartPm2 pm0 r0 with
    | Ok (m1, r1) => match renew 0 0 m1 r1 with
      | Ok (n, m2, r2) => match aget (pt_left (pm_tree1 m2)) 0, aget (pt_right (pm_tree1 m2)) 0 with
        | Ok a, Ok b => (n =? 1024) && (a =? 0) && (b =? 0) && (pt_root (pm_tree1 m2) =? 0) && (pm_last m1 =? 0)
        | _, _ => false end
      | _ => false end
    | _ => false end
  | _ => false end = true.
Proof. vm_compute. reflexivity. Qed.

Theorem C97_pm2_ends_refuted :
  exists data, bytes data /\ zlen data = 2 /\
    (forall original, 1 <= original -> DecodeLzhuf 13 false original 2 data glob0 = NoFuel) /\
    exists r0 m1 r1 m2 r2,
      initGetbits 2 data = Ok r0 /\ decodeStartPm2 (g_pm glob0) r0 = Ok (m1, r1) /\ renew 0 0 m1 r1 = Ok (1024, m2, r2) /\
      never_stops (tree_step (pm_tree1 m2)) (pt_root (pm_tree1 m2), r2).
Proof.
  exists endless_pm2. split; [repeat constructor; unfold is_byte; lia|]. split; [reflexivity|].
  pose proof endless_pm2_state as X.
  destruct (initGetbits_bits endless_pm2 [] ltac:(repeat constructor; unfold is_byte; lia)) as [r0 [E0 R0]]. rewrite app_nil_r in E0. change (zlen endless_pm2) with 2 in E0. rewrite E0 in X.
  destruct (decodeStartPm2 pm0 r0) as [[m1 r1]| |] eqn:E1; try discriminate X.
  destruct (renew 0 0 m1 r1) as [[[n m2] r2]| |] eqn:E2; try discriminate X.
  destruct (aget (pt_left (pm_tree1 m2)) 0) as [a| |] eqn:E3; try discriminate X.
  destruct (aget (pt_right (pm_tree1 m2)) 0) as [b| |] eqn:E4; try discriminate X.
  rewrite !andb_true_iff, !Z.eqb_eq in X. destruct X as [[[[-> ->] ->] RT] LU].
  assert (W0 : rwf r0) by (eapply Rd_rwf; exact R0).
  assert (W1 : rwf r1).
  { unfold decodeStartPm2 in E1. apply bind_ok in E1. destruct E1 as [hh [_ E1]]. apply bind_ok in E1. destruct E1 as [[y r3] [E5 E1]]. injection E1 as _ <-.
    apply getbits_moved in E5; [apply E5|exact W0|unfold is_byte; lia]. }
  assert (W2 : rwf r2) by (apply renew_any in E2; [apply E2|exact W1]).
  assert (C : never_stops (tree_step (pm_tree1 m2)) (pt_root (pm_tree1 m2), r2)) by (rewrite RT; now apply loop_never_stops).
  split; [|exists r0, m1, r1, m2, r2; auto].
  intros original H.
  unfold DecodeLzhuf. change (dec_dicbit 13) with (@None Z). cbv iota. change (old_dicbit 13) with 13. unfold decode_old. change (Z.shiftl 1 13) with 8192. cbv zeta.
  unfold decodeMethodStart. change (13 =? 1) with false. change (13 =? 2) with false. change (13 =? 3) with false. change (13 =? 8) with false. change (13 =? 9) with false. change (13 =? 13) with true. cbv iota. rewrite E0. cbn [bind x_pm x_dh x_cnt x_flag x_pos].
  change (g_pm glob0) with pm0. rewrite E1. cbn [bind]. rewrite loop_unfold by lia. unfold old_step at 1. cbn [d_count]. destruct (Z.ltb_spec 0 original); [|lia].
  unfold decodeMethodC. change (13 =? 1) with false. change (13 =? 2) with false. change (13 =? 3) with false. change (13 =? 8) with false. change (13 =? 9) with false. change (13 =? 13) with true. cbv iota.
  cbn [d_text d_loc d_count d_r x_pm x_dh]. unfold decodeCPm2 at 1.
  assert (CU : catch_up (afill 8192 32) 0 m1 = Ok m1) by (unfold catch_up; rewrite loop_unfold by lia; rewrite LU; reflexivity).
  rewrite CU. cbn [bind]. match goal with |- context [renew 0 ?k m1 r1] => change k with 0 end. rewrite E2. cbn [bind].
  assert (T : treeGet (pm_tree1 m2) r2 = NoFuel) by (unfold treeGet; rewrite loop_loopN by lia; destruct (C (Z.to_nat 100000)) as [s' ->]; reflexivity).
  rewrite T. reflexivity.
Qed.

Print Assumptions C102_pm2_extracted_partial.
Print Assumptions C102_pm2_extracted_refuted.
Print Assumptions C97_pm2_ends_refuted.
