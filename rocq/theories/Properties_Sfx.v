(** Self-extracting archives, whose names end in .exe or .com. *)
From Verif Require Import Go GoLemmas M_Crc M_Bitio P_Bitio M_Maketree M_Maketbl M_Huf M_Slide M_Larc M_Decode M_Lzhuf S_Bits S_Huff S_Lz S_Lh1 S_Larc P_Larc S_Header S_Listing M_Header M_Os M_Archive S_History S_Archive S_Add M_Cli S_Cli S_Sfx
  P_Header P_Accept P_List P_Os P_RoundTrip P_Single P_Extract P_Read1 P_ExtractAll P_Verify P_Still P_Add P_AddFiles P_Cli
  Properties_Slide Properties_Archive Properties_Extract Properties_Listing Properties_Larc Properties_Lh5 Properties_Lh1 Properties_Damage Properties_Stored Properties_Add Properties_Header Properties_Cli.

Lemma last_index_bound c l : forall i r, -1 <= r < i -> -1 <= last_index c l i r < i + zlen l.
Proof.
  induction l as [|x l IH]; intros i r H; cbn [last_index].
  - change (zlen (@nil Z)) with 0. lia.
  - specialize (IH (i + 1) (if x =? c then i else r)). rewrite zlen_cons. destruct (x =? c); lia.
Qed.

Lemma last_index_in c l2 : forall l1 i r, Forall (fun x => x <> c) l2 -> last_index c (l1 ++ l2) i r = last_index c l1 i r.
Proof.
  induction l1 as [|x l1 IH]; intros i r F; cbn [app last_index]; [now apply last_index_none|]. now apply IH.
Qed.

Lemma drop_front l1 l2 n : 0 <= n <= zlen l1 -> drop n (l1 ++ l2) = drop n l1 ++ l2.
Proof. intros H. unfold drop, zlen in *. rewrite skipn_app. replace (Z.to_nat n - length l1)%nat with 0%nat by lia. reflexivity. Qed.

Lemma program_sfx a : program_name a -> archiveIsMsdosSfx1 a = true.
Proof.
  intros (stem & x & y & z & -> & H). assert (N : Forall (fun v => v <> 46) [x; y; z] /\ Forall (fun v => v <> 47) [46; x; y; z]).
  { split; repeat constructor; destruct H as [([->| ->] & [->| ->] & [->| ->])|([->| ->] & [->| ->] & [->| ->])]; lia. }
  destruct N as [N1 N2]. unfold archiveIsMsdosSfx1. replace (4 <=? zlen (stem ++ [46; x; y; z])) with true by (rewrite zlen_app; unfold zlen; cbn [length]; symmetry; apply Z.leb_le; lia).
  assert (X : Ext (stem ++ [46; x; y; z]) = [46; x; y; z]).
  { unfold Ext, LastIndex. rewrite last_index_in by exact N2. pose proof (last_index_bound 47 stem 0 (-1)) as B. specialize (B ltac:(lia)).
    rewrite drop_front by lia. set (q := drop _ stem). rewrite last_index_app by exact N1. rewrite Z.add_0_l.
    replace (zlen q =? -1) with false by (symmetry; apply Z.eqb_neq; unfold zlen; lia).
    unfold drop. rewrite skipn_app. unfold zlen. rewrite Nat2Z.id, Nat.sub_diag, skipn_all. reflexivity. }
  rewrite X. destruct H as [([->| ->] & [->| ->] & [->| ->])|([->| ->] & [->| ->] & [->| ->])]; reflexivity.
Qed.

Lemma program_opened E a c w : program_at E a c w ->
  CommandExtract E a w = (rest <~ lift (SeekLhaHeader c) ;;; '(_, err) <~ extract_loop E (S (length rest)) everything (one_file E) NewLzHeader rest tt ;;; ret err) (set_wlha (set_archive a (w_lha w)) w).
Proof.
  intros [[Ha Hn] Hf Hr Hs]. apply has_nul_notin in Hn. apply program_sfx in Hs. unfold CommandExtract. rewrite bind_modl. unfold open_archive. istep. istep.
  cbn [w_fs w_lha set_wlha set_archive l_archive]. rewrite (open_file E _ a _ Ha Hn Hf Hr), Hs. destruct (SeekLhaHeader c); reflexivity.
Qed.

Lemma program_generic E a c w g v l : program_at E a c w -> program_at (with_generic g E) a c (started v l w).
Proof. intros [S1 S2 S3 S4]. constructor; assumption. Qed.

(** The search *)
Lemma seek_short k : forall i p buf, i + Z.of_nat k <= 32768 -> seek_loop k i p buf = Ok tt.
Proof.
  induction k as [|k IH]; intros i p buf H; [reflexivity|]. cbn [seek_loop]. replace (32767 <? i) with false by (symmetry; apply Z.ltb_ge; lia).
  cbv zeta. destruct (seek_match _); [reflexivity|]. apply IH. lia.
Qed.

Lemma seek_all_short c : zlen c <= 32768 -> SeekLhaHeader c = Ok [].
Proof.
  intros H. unfold SeekLhaHeader. cbv zeta. rewrite seek_short.
  - cbn [bind]. f_equal. unfold drop, zlen in *. apply skipn_all2. lia.
  - unfold take, zlen in *. rewrite firstn_length. lia.
Qed.

Lemma nth_copied p l j : (j < length p)%nat -> (length l <= length p)%nat -> nth j (copy p l) 0 = if (j <? length l)%nat then nth j l 0 else nth j p 0.
Proof.
  intros H1 H2. unfold copy. replace (Z.min (zlen p) (zlen l)) with (zlen l) by (unfold zlen; lia). cbv zeta. unfold take, drop, zlen. rewrite !Nat2Z.id, firstn_all.
  destruct (j <? length l)%nat eqn:X; [apply Nat.ltb_lt in X|apply Nat.ltb_ge in X].
  - now rewrite app_nth1.
  - rewrite app_nth2 by lia. rewrite nth_skipn. f_equal. lia.
Qed.

Lemma length_copied p l : (length l <= length p)%nat -> length (copy p l) = length p.
Proof. intros H. unfold copy, take, drop, zlen. rewrite app_length, firstn_length, skipn_length. lia. Qed.

Lemma drop_drop1 i B : 0 <= i -> drop 1 (drop i B) = drop (i + 1) B.
Proof. intros H. unfold drop. rewrite skipn_skipn. f_equal. lia. Qed.

(** The bytes the search looks at in step [i]. *)
Definition seen (i : Z) (B : list Z) : list Z := take (65535 - 2 * i) (take 21 (drop i B)).

Lemma seen_length i B : 0 <= i <= 32767 -> i + 21 <= zlen B -> length (seen i B) = Z.to_nat (Z.min 21 (65535 - 2 * i)).
Proof. intros H1 H2. unfold seen, take, drop, zlen in *. rewrite !firstn_length, skipn_length. lia. Qed.

Lemma seen_nth i B j : 0 <= i <= 32767 -> (j < Z.to_nat (Z.min 21 (65535 - 2 * i)))%nat -> nth j (seen i B) 0 = nth (Z.to_nat (i + Z.of_nat j)) B 0.
Proof.
  intros H1 H2. unfold seen, take, drop. rewrite nth_firstn by lia. rewrite nth_firstn by lia. rewrite nth_skipn. f_equal. lia.
Qed.

Lemma seek_step k i p B : i <= 32767 -> seek_loop (S k) i p (drop i B) = let p := copy p (seen i B) in if seek_match p then Ok tt else seek_loop k (i + 1) p (drop 1 (drop i B)).
Proof. intros H. cbn [seek_loop]. replace (32767 <? i) with false by (symmetry; apply Z.ltb_ge; lia). reflexivity. Qed.

(** Where -l or -p does not occur, nothing matches. *)
Lemma no_match p : (nth 2 p 0 = 45 -> nth 3 p 0 = 108 \/ nth 3 p 0 = 112 -> False) -> seek_match p = false.
Proof.
  intros H. unfold seek_match. destruct (nth 2 p 0 =? 45) eqn:X; [|reflexivity]. apply Z.eqb_eq in X.
  destruct (nth 3 p 0 =? 108) eqn:Y; [apply Z.eqb_eq in Y; exfalso; auto|]. destruct (nth 3 p 0 =? 112) eqn:Y'; [apply Z.eqb_eq in Y'; exfalso; auto|]. reflexivity.
Qed.

Lemma seek_panics B : 32800 <= zlen B ->
  (forall j, 0 <= j <= 32767 -> nth (Z.to_nat j) B 0 = 45 -> nth (Z.to_nat (j + 1)) B 0 = 108 \/ nth (Z.to_nat (j + 1)) B 0 = 112 -> False) ->
  forall k i p, 0 <= i <= 32768 -> 32768 < i + Z.of_nat k -> length p = 21%nat ->
    (i = 32766 -> nth 3 p 0 = nth (Z.to_nat 32768) B 0) -> (i = 32767 -> nth 2 p 0 = nth 3 p 0) ->
    seek_loop k i p (drop i B) = Panic.
Proof.
  intros L N. induction k as [|k IH]; intros i p Hi Hk Lp P1 P2; [lia|]. destruct (Z.eq_dec i 32768) as [->|Ni]; [reflexivity|].
  rewrite seek_step by lia. cbv zeta. pose proof (seen_length i B ltac:(lia) ltac:(lia)) as Ls.
  assert (S2 : nth 2 (copy p (seen i B)) 0 = if i <=? 32766 then nth (Z.to_nat (i + 2)) B 0 else nth 2 p 0).
  { rewrite nth_copied by lia. rewrite Ls. destruct (i <=? 32766) eqn:X; [apply Z.leb_le in X|apply Z.leb_gt in X].
    - replace (2 <? _)%nat with true by (symmetry; apply Nat.ltb_lt; lia). rewrite seen_nth by lia. reflexivity.
    - replace (2 <? _)%nat with false by (symmetry; apply Nat.ltb_ge; lia). reflexivity. }
  assert (S3 : nth 3 (copy p (seen i B)) 0 = if i <=? 32765 then nth (Z.to_nat (i + 3)) B 0 else nth 3 p 0).
  { rewrite nth_copied by lia. rewrite Ls. destruct (i <=? 32765) eqn:X; [apply Z.leb_le in X|apply Z.leb_gt in X].
    - replace (3 <? _)%nat with true by (symmetry; apply Nat.ltb_lt; lia). rewrite seen_nth by lia. reflexivity.
    - replace (3 <? _)%nat with false by (symmetry; apply Nat.ltb_ge; lia). reflexivity. }
  destruct (Z.leb_spec i 32766) as [X2|X2]; destruct (Z.leb_spec i 32765) as [X3|X3]; try lia.
  - rewrite no_match by (rewrite S2, S3; replace (i + 3) with (i + 2 + 1) by lia; apply N; lia).
    rewrite drop_drop1 by lia. apply IH; try lia; [rewrite length_copied; lia|]. intros Ei. rewrite S3. do 2 f_equal. lia.
  - assert (i = 32766) by lia. subst i. rewrite P1 in S3 by reflexivity. change (32766 + 2) with 32768 in S2.
    rewrite no_match by (rewrite S2, S3; lia). rewrite drop_drop1 by lia. apply IH; try lia. rewrite length_copied; lia.
  - rewrite no_match by (rewrite S2, S3, P2 by lia; lia). rewrite drop_drop1 by lia. apply IH; try lia. rewrite length_copied; lia.
Qed.

(** What looks like a header ends the search. *)
Lemma looks_match m : looks_like_header m -> seek_match m = true.
Proof.
  intros (size & check & kind & a & b & sizes & level & -> & L & K & H).
  do 13 (destruct sizes as [|? sizes]; [discriminate L|]). destruct sizes; [|unfold zlen in L; cbn [length] in L; lia].
  unfold seek_match. cbn [app nth] in *. destruct H as [(V & S & ->)|(-> & S & ->)].
  - apply Z.ltb_lt in S. rewrite S. destruct K as [-> | ->], V as [-> | ->]; reflexivity.
  - apply Z.leb_le in S. rewrite S. destruct K as [-> | ->]; reflexivity.
Qed.

Lemma seek_finds pre m post : zlen pre <= 32757 -> looks_like_header m ->
  forall k i p, 0 <= i <= zlen pre -> zlen pre < i + Z.of_nat k -> length p = 21%nat -> seek_loop k i p (drop i (pre ++ m ++ post)) = Ok tt.
Proof.
  intros L M. pose proof M as (size & check & kind & a & b & sizes & level & Em & Ls & _). assert (Lm : length m = 21%nat) by (rewrite Em, !app_length; unfold zlen in Ls; cbn [length]; lia).
  assert (LB : zlen (pre ++ m ++ post) = zlen pre + 21 + zlen post) by (rewrite !zlen_app; unfold zlen; lia).
  induction k as [|k IH]; intros i p Hi Hk Lp; [lia|]. rewrite seek_step by lia. cbv zeta.
  pose proof (seen_length i (pre ++ m ++ post) ltac:(lia)) as Lsn. rewrite Z.min_l in Lsn by lia. specialize (Lsn ltac:(unfold zlen in *; lia)). change (Z.to_nat 21) with 21%nat in Lsn.
  destruct (Z.eq_dec i (zlen pre)) as [->|Ni].
  - replace (copy p (seen (zlen pre) (pre ++ m ++ post))) with m; [now rewrite looks_match|].
    replace (seen (zlen pre) (pre ++ m ++ post)) with m.
    + unfold copy. replace (Z.min (zlen p) (zlen m)) with 21 by (unfold zlen; lia). cbv zeta. unfold take, drop. change (Z.to_nat 21) with 21%nat. rewrite <- Lm at 1. rewrite firstn_all. rewrite skipn_all2 by lia. now rewrite app_nil_r.
    + unfold seen, take, drop, zlen. rewrite Nat2Z.id, skipn_app, skipn_all, Nat.sub_diag. cbn [skipn app]. rewrite firstn_firstn. replace (Nat.min _ _) with 21%nat by (unfold zlen in L; lia).
      rewrite firstn_app, Lm, Nat.sub_diag. change (firstn 0 post) with (@nil Z). rewrite app_nil_r. rewrite <- Lm. now rewrite firstn_all.
  - destruct (seek_match _); [reflexivity|]. rewrite drop_drop1 by lia. apply IH; try lia. rewrite length_copied; lia.
Qed.

Lemma seek_past pre m post rest : zlen pre <= 32757 -> looks_like_header m -> zlen (pre ++ m ++ post) = 65536 -> SeekLhaHeader ((pre ++ m ++ post) ++ rest) = Ok rest.
Proof.
  intros L M F. unfold SeekLhaHeader. cbv zeta. set (c := pre ++ m ++ post) in *.
  assert (T : take 65536 (c ++ rest) = c /\ drop 65536 (c ++ rest) = rest).
  { rewrite <- F. unfold take, drop, zlen. rewrite !Nat2Z.id, firstn_app, firstn_all, skipn_app, skipn_all, Nat.sub_diag. cbn [firstn skipn app]. now rewrite app_nil_r. }
  destruct T as [T1 T2]. rewrite T1, T2, F. change (zeros (65536 - 65536)) with (@nil Z). rewrite app_nil_r.
  change (seek_loop (length c) 0 (zeros 21) c) with (seek_loop (length c) 0 (zeros 21) (drop 0 c)). unfold c.
  pose proof M as (size & check & kind & a & b & sizes & level & Em & Ls & _).
  rewrite (seek_finds pre m post L M); [reflexivity| | |reflexivity].
  - unfold zlen. lia.
  - rewrite !app_length. assert (1 <= length m)%nat by (rewrite Em; cbn; lia). unfold zlen. lia.
Qed.

Lemma drop_none l : drop 0 l = l.
Proof. reflexivity. Qed.

Lemma nth_here (j : nat) (c : list Z) y t : skipn j c = y :: t -> nth j c 0 = y.
Proof. intros K. rewrite <- (Nat.add_0_r j), <- nth_skipn, K. reflexivity. Qed.

Lemma nth_next (j : nat) (c : list Z) y x t : skipn j c = y :: x :: t -> nth (j + 1) c 0 = x.
Proof. intros K. rewrite <- nth_skipn, K. reflexivity. Qed.

Lemma no_marks c : 32768 < zlen c ->
  (forall front x rest, c = front ++ [45; x] ++ rest -> zlen front < 32768 -> x <> 108 /\ x <> 112) ->
  forall j, 0 <= j <= 32767 -> nth (Z.to_nat j) c 0 = 45 -> nth (Z.to_nat (j + 1)) c 0 = 108 \/ nth (Z.to_nat (j + 1)) c 0 = 112 -> False.
Proof.
  intros L N j Hj H45 Hx. assert (LL : (Z.to_nat j + 1 < length c)%nat) by (unfold zlen in L; lia).
  pose proof (firstn_skipn (Z.to_nat j) c) as F. pose proof (skipn_length (Z.to_nat j) c) as K'. destruct (skipn (Z.to_nat j) c) as [|y [|x rest]] eqn:K; [cbn in K'; lia|cbn [length] in K'; lia|].
  rewrite (nth_here _ _ _ _ K) in H45. replace (Z.to_nat (j + 1)) with (Z.to_nat j + 1)%nat in Hx by lia. rewrite (nth_next _ _ _ _ _ K) in Hx. subst y.
  destruct (N (firstn (Z.to_nat j) c) x rest) as [N1 N2]; [now rewrite <- F at 1|unfold zlen; rewrite firstn_length; lia|]. lia.
Qed.

Lemma seek_loop_long c B n : 32768 < zlen c -> 32800 <= zlen B -> 32768 < Z.of_nat n ->
  (forall j, 0 <= j <= 32768 -> nth (Z.to_nat j) B 0 = nth (Z.to_nat j) c 0) ->
  (forall front x rest, c = front ++ [45; x] ++ rest -> zlen front < 32768 -> x <> 108 /\ x <> 112) ->
  seek_loop n 0 (zeros 21) B = Panic.
Proof.
  intros L LB Ln S N. rewrite <- (drop_none B). apply (seek_panics B LB); try lia; [|reflexivity].
  intros j Hj. rewrite !S by lia. now apply no_marks.
Qed.

Lemma nth_padded n c t j : (j < n)%nat -> (j < length c)%nat -> nth j (firstn n c ++ t) 0 = nth j c 0.
Proof. intros H1 H2. rewrite app_nth1 by (rewrite firstn_length; lia). now apply nth_firstn. Qed.

Lemma seek_all_long c : 32768 < zlen c ->
  (forall front x rest, c = front ++ [45; x] ++ rest -> zlen front < 32768 -> x <> 108 /\ x <> 112) -> SeekLhaHeader c = Panic.
Proof.
  intros L N. unfold SeekLhaHeader. cbv zeta. rewrite (seek_loop_long c); [reflexivity|exact L| | | |exact N].
  - rewrite zlen_app. unfold zeros, zlen. rewrite repeat_length. unfold take. rewrite firstn_length. unfold zlen in L. lia.
  - unfold take. rewrite firstn_length. unfold zlen in L. lia.
  - intros j Hj. unfold take. apply nth_padded; unfold zlen in L; lia.
Qed.

(** ** C101: self-extracting archives *)

Lemma main_contents E a fl w : asks_contents a fl -> a <> [] -> exists g v l, idle l /\
  main E fl w = (err <~ CommandExtract (with_generic g E) a ;;; ret (if (err : bool) then 1 else 0, [])) (started v l w).
Proof.
  intros [H|[H|H]] N.
  - destruct (main_extract E a fl w H N) as (l & I & _ & X). exists false, false, l. auto.
  - destruct (main_print E a fl w H N) as (l & I & _ & X). exists false, false, l. auto.
  - destruct (main_test E a fl w H N) as (g & l & I & _ & X). exists g, true, l. auto.
Qed.

(** Up to 32768 bytes: whatever the file holds, nothing is extracted, printed or
    tested, and the status is 0. *)
Theorem C101_short_program_refuted :
  forall E fl w a c, asks_contents a fl -> program_at E a c w -> zlen c <= 32768 ->
    exists w', main E fl w = Done (0, []) w' /\ w_fs w' = w_fs w /\ w_out w' = w_out w.
Proof.
  intros E fl w a c A P L. destruct (main_contents E a fl w A) as (g & v & l & ID & R); [apply P|]. rewrite R. clear R.
  pose proof (program_opened _ _ _ _ (program_generic E a c w g v l P)) as X. unfold bindIO at 1. rewrite X, (seek_all_short c L). clear X.
  eexists. split; [reflexivity|]. split; reflexivity.
Qed.

(** Above that, if the first 32769 bytes have no -l and no -p in them: a crash. *)
Theorem C101_long_program_refuted :
  forall E fl w a c, asks_contents a fl -> program_at E a c w -> 32768 < zlen c ->
    (forall front x rest, c = front ++ [45; x] ++ rest -> zlen front < 32768 -> x <> 108 /\ x <> 112) ->
    exists w', main E fl w = Crash w' /\ w_fs w' = w_fs w /\ w_out w' = w_out w.
Proof.
  intros E fl w a c A P L N. destruct (main_contents E a fl w A) as (g & v & l & ID & R); [apply P|]. rewrite R. clear R.
  pose proof (program_opened _ _ _ _ (program_generic E a c w g v l P)) as X. unfold bindIO at 1. rewrite X. clear X.
  rewrite (seek_all_long c L N). eexists. split; [reflexivity|]. split; reflexivity.
Qed.

(** In memory: no data and no error. *)
Theorem C101_in_memory_refuted :
  forall E w a c h, program_at E a c w -> l_archive (w_lha w) = a -> zlen c <= 32768 ->
    exists w', DecompresBytes E h w = Done ([], false) w' /\ w_fs w' = w_fs w.
Proof.
  intros E w a c h [[Ha Hn] Hf Hr Hs] HA L. apply has_nul_notin in Hn. apply program_sfx in Hs. unfold DecompresBytes. rewrite bind_modl. unfold open_archive. istep. istep.
  cbn [w_fs w_lha set_wlha set_level l_archive]. rewrite HA, (open_file E _ a _ Ha Hn Hf Hr), Hs, (seek_all_short c L). eexists. split; reflexivity.
Qed.

(** The entries behind a program are extracted if the program is 65536 bytes long and
    something in its first half looks like a header with the checksum 0. *)
Theorem C101_program_extracted_partial :
  forall E fl w cs a pre m post es files,
    asks_extract a fl -> program_at E a ((pre ++ m ++ post) ++ archive_bytes es) w -> zlen pre <= 32757 -> looks_like_header m -> zlen (pre ++ m ++ post) = 65536 ->
    after cs (w_glob w) -> bytes (archive_bytes es) -> intact es files ->
    NoDup (map fst files) -> (forall f, In f files -> w_fs w (fst f) = None) -> names_shrink 221 es ->
    exists w', main E fl w = Done (0, []) w' /\ (forall f, In f files -> w_fs w' (fst f) = Some (NFile (snd f))) /\
      (forall q, ~ In q (map fst files) -> w_fs w' q = w_fs w q).
Proof.
  intros E fl w cs a pre m post es files L S HP HM HF A B I ND NF NS. destruct (main_extract E a fl w L) as (l & ID & SO & R); [apply S|]. rewrite R.
  pose proof (program_opened _ _ _ _ (program_generic E a _ w false false l S)) as X. unfold bindIO at 1. rewrite X, (seek_past pre m post _ HP HM HF). istep.
  destruct (fuel_all es) as [k ->]. rewrite archive_split in B |- *. set (w1 := set_wlha _ _).
  assert (ID1 : idle (w_lha w1)) by (apply idle_archive; exact ID). destruct ID1.
  destruct (extract_prefix (with_generic false E) [0] es files NewLzHeader 221 w1 cs (Datatypes.S k)) as (h' & w' & cs' & W1 & W2 & W3 & _); auto; try reflexivity.
  { now apply intact_decodable. }
  unfold bindIO at 1. rewrite W1, loop_end. cbn. exists w'. split; [reflexivity|]. split; [exact W2|exact W3].
Qed.

(** The archive of C66 under the name a.exe; 40000 bytes of program; a program of
    65536 bytes that begins like a header, in front of the archive. *)
Definition ex_exe : path := [97; 46; 101; 120; 101].
Definition ex_program (c : list Z) : world := W (fun p => if list_eqb p ex_exe then Some (NFile c) else None) [] glob0 false [] (NewLha ex_exe) [].
Definition ex_exe_flags (e p t : bool) : flags := FLAGS ex_exe false false e false false [] false [] t false false p 2 0 2 [].
Definition ex_mark : list Z := [22; 0; 45; 108; 104; 53; 45] ++ zeros 13 ++ [0].

Lemma ex_program_at c : program_at ex_env ex_exe c (ex_program c).
Proof.
  constructor; try reflexivity.
  - split; [discriminate|]. intros X. repeat (destruct X as [X|X]; [discriminate X|]). exact X.
  - exists [97], 101, 120, 101. split; [reflexivity|]. left. repeat split; now left.
Qed.

Example C101_example :
  asks_contents ex_exe (ex_exe_flags true false false) /\ asks_contents ex_exe (ex_exe_flags false true false) /\ asks_contents ex_exe (ex_exe_flags false false true) /\
  program_at ex_env ex_exe (archive_bytes ex_mix_es) (ex_program (archive_bytes ex_mix_es)) /\ zlen (archive_bytes ex_mix_es) <= 32768 /\ intact ex_mix_es ex_mix_files.
Proof.
  split; [left; constructor; reflexivity|]. split; [right; left; constructor; reflexivity|]. split; [right; right; constructor; reflexivity|].
  split; [apply ex_program_at|]. split; [vm_compute; discriminate|]. apply C66_example.
Qed.

Example C101_long_example : let c := zeros 40000 in
  program_at ex_env ex_exe c (ex_program c) /\ 32768 < zlen c /\ (forall front x rest, c = front ++ [45; x] ++ rest -> zlen front < 32768 -> x <> 108 /\ x <> 112).
Proof.
  intros c. split; [apply ex_program_at|]. split; [unfold c, zlen, zeros; rewrite repeat_length; lia|].
  intros front x rest H _. exfalso. assert (X : In 45 c) by (rewrite H; apply in_or_app; right; now left). apply repeat_spec in X. discriminate X.
Qed.

Example C101_partial_example : exists post,
  let c := ([] ++ ex_mark ++ post) ++ archive_bytes ex_mix_es in
  asks_extract ex_exe (ex_exe_flags true false false) /\ program_at ex_env ex_exe c (ex_program c) /\ looks_like_header ex_mark /\ zlen ([] ++ ex_mark ++ post) = 65536 /\
  after [] (w_glob (ex_program c)) /\ bytes (archive_bytes ex_mix_es) /\ intact ex_mix_es ex_mix_files /\ NoDup (map fst ex_mix_files) /\
  (forall f, In f ex_mix_files -> w_fs (ex_program c) (fst f) = None) /\ names_shrink 221 ex_mix_es.
Proof.
  exists (zeros 65515). intros c. split; [constructor; reflexivity|]. split; [apply ex_program_at|].
  split; [exists 22, 0, 108, 104, 53, (zeros 13), 0; split; [reflexivity|]; split; [reflexivity|]; split; [now left|left; split; [now left|split; [lia|reflexivity]]]|]. split; [rewrite !zlen_app; change (zlen ex_mark) with 21; unfold zlen, zeros; rewrite repeat_length; cbn [length]; lia|].
  split; [split; [constructor|reflexivity]|]. split; [apply bytes_dec; vm_compute; reflexivity|]. destruct C66_example as (X1 & X2 & X3 & _).
  split; [exact X1|]. split; [exact X3|]. split; [|exact X2]. clearbody c. intros f Hf. clear -Hf. unfold ex_mix_files in Hf. repeat (destruct Hf as [<-|Hf]; [reflexivity|]). destruct Hf.
Qed.

Print Assumptions C101_short_program_refuted.
Print Assumptions C101_long_program_refuted.
Print Assumptions C101_in_memory_refuted.
Print Assumptions C101_program_extracted_partial.
