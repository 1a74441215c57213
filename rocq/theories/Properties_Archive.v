(** Properties C18, C33, C34, C40: making archives. *)
From Verif Require Import Go GoLemmas M_Crc P_Crc M_Bitio P_Bitio M_Maketree M_Maketbl M_Huf M_Slide M_Lzhuf S_Header M_Header M_Os M_Archive S_Archive
  P_Header P_Os P_Add P_RoundTrip P_Single Properties_Slide.

Lemma has_nul_in p : ~ In 0 p -> has_nul p = false.
Proof.
  intros H. unfold has_nul. destruct (existsb (Z.eqb 0) p) eqn:X; [|reflexivity]. apply existsb_exists in X. destruct X as [x [I Y]].
  apply Z.eqb_eq in Y. subst x. contradiction.
Qed.

(** ** C34: a crash never leaves a half-written archive *)

Lemma run_tmp E ops f p : Forall (tmpop E) ops -> p <> e_tmp E -> run_ops ops f p = f p.
Proof.
  intros F Hp. revert f. induction F as [|o ops Ho F IH]; intros f; [reflexivity|]. change (run_ops (o :: ops) f) with (run_ops ops (run_op o f)). rewrite IH.
  destruct o; cbn [tmpop run_op] in *; try contradiction; [destruct Ho as [_ ->]|subst]; now apply fs_set_other.
Qed.

Lemma run_removes a ops f : Forall (fun o => exists p, o = ORemove p /\ p <> a) ops -> run_ops ops f a = f a.
Proof.
  intros F. revert f. induction F as [|o ops [p [-> Hp]] F IH]; intros f; [reflexivity|].
  change (run_ops (ORemove p :: ops) f) with (run_ops ops (run_op (ORemove p) f)). rewrite IH. cbn [run_op]. apply fs_set_other. congruence.
Qed.

Lemma firstn_app_cases {A} k (a b : list A) : (exists a1 a2, a = a1 ++ a2 /\ firstn k (a ++ b) = a1) \/ (exists j, firstn k (a ++ b) = a ++ firstn j b).
Proof.
  rewrite firstn_app. destruct (Nat.le_ge_cases k (length a)) as [L|L].
  - left. exists (firstn k a), (skipn k a). split; [symmetry; apply firstn_skipn|]. replace (k - length a)%nat with 0%nat by lia. now rewrite firstn_O, app_nil_r.
  - right. exists (k - length a)%nat. now rewrite firstn_all2.
Qed.

Lemma ordered_crash {A} E a w (o : outcome A) w' ops : ordered E a w o -> final o = Some w' -> did ops w w' -> e_tmp E <> a ->
  w_fs w' = run_ops ops (w_fs w) /\
  forall k, files_after k ops (w_fs w) a = w_fs w a \/ files_after k ops (w_fs w) a = w_fs w' a.
Proof.
  intros O F D T. assert (X : exists pre post rm, w_ops w' = rev (pre ++ rm ++ post) ++ w_ops w /\ Forall (tmpop E) pre /\
    (rm = [] \/ exists n, rm = [ORename (e_tmp E) n]) /\ Forall (fun o => exists p, o = ORemove p /\ p <> a) post /\ w_fs w' = run_ops (pre ++ rm ++ post) (w_fs w)).
  { unfold ordered in O. destruct o as [x w0|w0|]; cbn [final] in F; try discriminate; injection F as <-; exact O. }
  destruct X as [pre [post [rm [X1 [X2 [X3 [X4 X5]]]]]]]. unfold did in D. rewrite D in X1. apply app_inv_tail in X1.
  apply (f_equal (@rev op)) in X1. rewrite !rev_involutive in X1. subst ops. split; [exact X5|]. intros k. unfold files_after. fold (run_ops (firstn k (pre ++ rm ++ post)) (w_fs w)).
  destruct (firstn_app_cases k pre (rm ++ post)) as [[a1 [a2 [-> ->]]]|[j ->]].
  { left. apply Forall_app in X2. eapply run_tmp; [apply X2|congruence]. }
  rewrite run_ops_app. set (f1 := run_ops pre (w_fs w)). assert (Y1 : f1 a = w_fs w a) by (eapply run_tmp; eauto).
  assert (Y : forall p, Forall (fun o => exists q, o = ORemove q /\ q <> a) (firstn p post)).
  { intros p. apply Forall_forall. intros x I. rewrite Forall_forall in X4. apply X4. rewrite <- (firstn_skipn p post). apply in_or_app. now left. }
  destruct X3 as [->|[n ->]]; cbn [app].
  - left. rewrite run_removes by apply Y. exact Y1.
  - destruct j as [|j]; [left; exact Y1|]. right. cbn [firstn]. rewrite X5. rewrite run_ops_app. fold f1. cbn [app].
    change (run_ops (ORename (e_tmp E) n :: firstn j post) f1) with (run_ops (firstn j post) (run_op (ORename (e_tmp E) n) f1)).
    change (run_ops (ORename (e_tmp E) n :: post) f1) with (run_ops post (run_op (ORename (e_tmp E) n) f1)).
    rewrite (run_removes a (firstn j post)) by apply Y. now rewrite run_removes.
Qed.

(** Whatever the options, the file names and the state of the files, and whether
    the call returns or panics: after each single operation on the file system
    the archive is what it was before the call, or what it is at the end. *)
Theorem C34_archive_never_torn :
  forall E a w w' ops,
    e_tmp E <> a ->
    final (CommandAdd E a w) = Some w' -> did ops w w' ->
    w_fs w' = files_after (length ops) ops (w_fs w) /\
    forall k, files_after k ops (w_fs w) a = w_fs w a \/ files_after k ops (w_fs w) a = w_fs w' a.
Proof.
  intros E a w w' ops T F D.
  destruct (ordered_crash E a w (CommandAdd E a w) w' ops) as [X Y]; auto.
  - apply add_command_ordered. intros name o. apply d_appendIt.
  - split; [|exact Y]. unfold files_after. rewrite firstn_all. exact X.
Qed.

(** The same for the two functions that make an archive from one file or from
    bytes in memory. *)
Theorem C34_compress_never_torn :
  forall E filename method level w w' ops,
    e_tmp E <> l_archive (w_lha w) ->
    final (Compress E filename method level w) = Some w' -> did ops w w' ->
    forall k, files_after k ops (w_fs w) (l_archive (w_lha w)) = w_fs w (l_archive (w_lha w)) \/
              files_after k ops (w_fs w) (l_archive (w_lha w)) = w_fs w' (l_archive (w_lha w)).
Proof.
  intros E filename method level w w' ops T F D. set (a := l_archive (w_lha w)).
  unfold Compress, archive_test in F. rewrite bind_assoc, bind_get, bind_assoc, bind_getl in F. fold a in F.
  destruct (stat (w_fs w) a).
  - rewrite bind_ret in F. cbn in F. injection F as <-. unfold did in D. intros k. right. apply (app_inv_tail (w_ops w) []) in D.
    apply (f_equal (@rev op)) in D. rewrite rev_involutive in D. subst ops. unfold files_after. now rewrite firstn_nil.
  - rewrite bind_assoc, bind_modl, bind_ret, bind_modl, bind_getl in F. cbn [w_lha set_wlha set_new set_files set_method set_level l_archive] in F. fold a in F.
    match type of F with final (_ ?x) = _ => destruct (ordered_crash E a x (CommandAdd E a x) w' ops) as [X Y]; auto end.
    apply add_command_ordered. intros name o. apply d_appendIt.
  - rewrite bind_ret in F. cbn in F. injection F as <-. unfold did in D. intros k. right. apply (app_inv_tail (w_ops w) []) in D.
    apply (f_equal (@rev op)) in D. rewrite rev_involutive in D. subst ops. unfold files_after. now rewrite firstn_nil.
Qed.

Theorem C34_compressbytes_never_torn :
  forall E filename body method level w w' ops,
    e_tmp E <> l_archive (w_lha w) ->
    final (CompressBytes E filename body method level w) = Some w' -> did ops w w' ->
    forall k, files_after k ops (w_fs w) (l_archive (w_lha w)) = w_fs w (l_archive (w_lha w)) \/
              files_after k ops (w_fs w) (l_archive (w_lha w)) = w_fs w' (l_archive (w_lha w)).
Proof.
  intros E filename body method level w w' ops T F D. set (a := l_archive (w_lha w)).
  unfold CompressBytes, archive_test in F. rewrite bind_modl, bind_assoc, bind_get, bind_assoc, bind_getl in F.
  cbn [w_lha w_fs set_wlha set_new set_files set_method set_level l_archive] in F. fold a in F.
  destruct (stat (w_fs w) a).
  - rewrite bind_ret in F. cbn in F. injection F as <-. unfold did in D. intros k. right. apply (app_inv_tail (w_ops w) []) in D.
    apply (f_equal (@rev op)) in D. rewrite rev_involutive in D. subst ops. unfold files_after. now rewrite firstn_nil.
  - rewrite bind_assoc, bind_modl, bind_ret, bind_getl in F. cbn [w_lha set_wlha set_new set_files set_method set_level l_archive] in F. fold a in F.
    match type of F with final (_ ?x) = _ => destruct (ordered_crash E a x (compressBytes E a body x) w' ops) as [X Y]; auto end.
    apply add_command_ordered. intros name o. apply d_appendBytes.
  - rewrite bind_ret in F. cbn in F. injection F as <-. unfold did in D. intros k. right. apply (app_inv_tail (w_ops w) []) in D.
    apply (f_equal (@rev op)) in D. rewrite rev_involutive in D. subst ops. unfold files_after. now rewrite firstn_nil.
Qed.

(** An archive [b] (an end mark only) to which the file [f] is added: eight
    operations, the last but one of which replaces the archive. *)
Definition ex_env : env := ENV (OPTS false false) (fun t => t) (fun _ => 420) (fun _ => 1000000) (fun _ => true) (fun _ => []) 2000000 0 0 [116].
Definition ex_fs : fs := fun p => if list_eqb p [98] then Some (NFile [0]) else if list_eqb p [102] then Some (NFile [65; 66; 67]) else None.
Definition ex_lha : lha := LHA [98] false false false false false false false false true false false false false 0 0 [] [] [[102]] 1 [].
Definition ex_world : world := W ex_fs [] glob0 false [] ex_lha [].
Definition is_rename (o : op) (a b : path) : bool := match o with ORename x y => list_eqb x a && list_eqb y b | _ => false end.
Definition is_remove (o : op) (a : path) : bool := match o with ORemove x => list_eqb x a | _ => false end.
Example C34_example : exists w' ops, final (CommandAdd ex_env [98] ex_world) = Some w' /\ did ops ex_world w' /\
  length ops = 8%nat /\ is_rename (nth 6 ops (ORemove [])) [116] [98] = true /\ is_remove (nth 7 ops (ORename [] [])) [102] = true /\
  w_fs w' [98] <> w_fs ex_world [98] /\ w_fs w' [102] = None.
Proof.
  assert (X : (match CommandAdd ex_env [98] ex_world with
               | Done false w' => Nat.eqb (length (w_ops w')) 8 && is_rename (nth 1 (w_ops w') (ORemove [])) [116] [98] && is_remove (nth 0 (w_ops w') (ORename [] [])) [102]
                   && (match w_fs w' [98] with Some (NFile c) => negb (zlen c =? 1) | _ => false end) && (match w_fs w' [102] with None => true | _ => false end)
               | _ => false end) = true) by (vm_compute; reflexivity).
  destruct (CommandAdd ex_env [98] ex_world) as [[] w'|w'|]; try discriminate X. exists w', (rev (w_ops w')).
  apply andb_true_iff in X. destruct X as [X X5]. apply andb_true_iff in X. destruct X as [X X4]. apply andb_true_iff in X. destruct X as [X X3].
  apply andb_true_iff in X. destruct X as [X1 X2]. apply Nat.eqb_eq in X1.
  split; [reflexivity|].
  split; [unfold did; rewrite rev_involutive; cbn [ex_world w_ops]; now rewrite app_nil_r|]. split; [rewrite rev_length; exact X1|].
  split; [rewrite rev_nth by lia; rewrite X1; exact X2|]. split; [rewrite rev_nth by lia; rewrite X1; exact X3|].
  split; [|destruct (w_fs w' [102]); [discriminate X5|reflexivity]]. intros Y. rewrite Y in X4. discriminate X4.
Qed.

(** ** C33: updating an existing archive *)

(** The claim is false: if the archive exists, both functions return without an
    error and change no file. *)
Theorem C33_existing_archive_refuted :
  forall E filename body method level w n,
    file_path (l_archive (w_lha w)) ->
    w_fs w (follow (w_fs w) (l_archive (w_lha w))) = Some n ->
    (exists w', Compress E filename method level w = Done false w' /\ w_fs w' = w_fs w /\ w_ops w' = w_ops w) /\
    (exists w', CompressBytes E filename body method level w = Done false w' /\ w_fs w' = w_fs w /\ w_ops w' = w_ops w).
Proof.
  intros E filename body method level w n [Hne Hnul] Hn. apply has_nul_in in Hnul.
  assert (S : stat (w_fs w) (l_archive (w_lha w)) = SNode n).
  { unfold stat. rewrite Hnul, Hn. destruct (l_archive (w_lha w)); [contradiction|reflexivity]. }
  split.
  - unfold Compress, archive_test. rewrite bind_assoc, bind_get, bind_assoc, bind_getl, S, bind_ret. exists w. split; [reflexivity|]. auto.
  - unfold CompressBytes, archive_test. rewrite bind_modl, bind_assoc, bind_get, bind_assoc, bind_getl.
    cbn [w_lha w_fs set_wlha set_files set_method set_level l_archive]. rewrite S, bind_ret. eexists. split; [reflexivity|]. auto.
Qed.
Example C33_example : file_path (l_archive (w_lha ex_world)) /\ w_fs ex_world (follow (w_fs ex_world) (l_archive (w_lha ex_world))) = Some (NFile [0]).
Proof. split; [split; [discriminate|intros [X|[]]; discriminate X]|vm_compute; reflexivity]. Qed.

(** ** C40: bytes in, bytes out *)

Lemma method_num_lh m : m = 5 \/ m = 6 \/ m = 7 -> method_num (meth 104 (m + 48)) = Some m.
Proof. intros [-> | [-> | ->]]; reflexivity. Qed.

(** The state before [append] in CompressBytes. *)
Lemma compressbytes_start E filename body method w a : w_lha w = NewLha a -> file_path a -> w_fs w a = None ->
  exists w1, CompressBytes E filename body method 0 w = compressBytes E a body w1 /\ w_fs w1 = w_fs w /\ w_glob w1 = w_glob w /\ w_verify w1 = w_verify w /\
    w_lha w1 = set_new true (set_files [filename] 1 (set_method method (NewLha a))).
Proof.
  intros Hl [Ha Hn] Hf. apply has_nul_in in Hn. unfold CompressBytes, archive_test. rewrite bind_modl, bind_assoc, bind_get, bind_assoc, bind_getl.
  cbn [w_lha w_fs set_wlha set_files set_method set_level l_archive]. rewrite Hl. change (l_archive (NewLha a)) with a.
  rewrite stat_none by assumption. rewrite bind_assoc, bind_modl, bind_ret, bind_getl. eexists. split; [reflexivity|].
  split; [reflexivity|]. split; [reflexivity|]. split; reflexivity.
Qed.

Lemma fresh_start E a filename w w1 method : usual E -> file_path a -> w_fs w a = None -> w_fs w (e_tmp E) = None -> e_tmp E <> a -> filename <> a ->
  w_fs w1 = w_fs w -> w_lha w1 = set_new true (set_files [filename] 1 (set_method method (NewLha a))) -> fresh_add E a filename w1.
Proof.
  intros [U1 U2 U3 U4] [Ha Hn] Fa Ft Ht Hf F1 L1. constructor; rewrite ?L1, ?F1; try reflexivity; try assumption; now apply has_nul_in.
Qed.

(** What CompressBytes leaves behind when the data shrink: one level 0 header, the
    packed data and a zero byte. *)
Lemma compressbytes_packed E filename body method w a eo :
  usual E -> file_path a -> entry_name (Base filename) -> filename <> a -> e_tmp E <> a ->
  w_lha w = NewLha a -> w_fs w a = None -> w_fs w (e_tmp E) = None ->
  body <> [] -> zlen body < 2 ^ 32 ->
  EncodeLzhuf method (zlen body) body (w_glob w) = Ok eo -> eo_packed eo < eo_original eo ->
  0 <= eo_packed eo < 2 ^ 32 -> 0 <= eo_original eo < 2 ^ 32 -> 0 <= eo_crc eo < 2 ^ 16 -> 0 <= eo_method eo < 256 ->
  exists h w', CompressBytes E filename body method 0 w = Done false w' /\ w_glob w' = eo_glob eo /\
    w_lha w' = set_new true (set_files [filename] 1 (set_method method (NewLha a))) /\
    w_fs w' a = Some (NFile (layout0 (entry_of (e_stamp E) (packed_hdr h eo) (Base filename)) ++ eo_out eo ++ [0])) /\
    w_fs w' (e_tmp E) = None /\ (forall q, q <> a -> q <> e_tmp E -> w_fs w' q = w_fs w q) /\
    plain (packed_hdr h eo) (Base filename) /\ Z.land (UnixMode h) UnixFileTypemask = UnixFileRegular.
Proof.
  intros U Ha Hnm Hfa Ht Hl Fa Ft Hne Hlen HE Hlt B1 B2 B3 B4.
  destruct (compressbytes_start E filename body method w a Hl Ha Fa) as [w1 [R1 [F1 [G1 [V1 L1]]]]].
  pose proof (fresh_start E a filename w w1 method U Ha Fa Ft Ht Hfa F1 L1) as FA.
  set (wm := made E w1 a).
  assert (Lm : w_lha wm = set_new true (set_files [filename] 1 (set_method method (NewLha a)))) by (unfold wm, made; cbn [w_lha set_wlha]; rewrite L1; reflexivity).
  set (h := initHeader_file E (w_lha wm) (w_fs wm) filename (zlen body) (e_now E)).
  pose proof (zlen_nonneg body) as Zn.
  assert (P : plain h (Base filename)).
  { apply initHeader_plain; [apply U|rewrite Lm; reflexivity|exact Hnm|lia|apply U]. }
  assert (P' : plain (packed_hdr h eo) (Base filename)) by (apply plain_packed; assumption).
  assert (Zb : zlen body <> 0) by (destruct body; [contradiction|rewrite zlen_cons; pose proof (zlen_nonneg body); lia]).
  destruct (addOne_packed E (us_format _ U) h (Base filename) body [] wm eo P Zb) as [w2 [R2 [S2 [G2 C2]]]]; try assumption.
  { unfold wm, made. cbn [w_fs]. apply fs_set_same. }
  { rewrite Lm. unfold wm, made. cbn [w_glob set_wlha]. rewrite G1. exact HE. }
  cbn [app] in C2. rewrite (overwrite_header E) in C2 by assumption.
  assert (R3 : appendBytes E body filename None wm = Done None w2).
  { unfold appendBytes. rewrite bind_get, bind_get. fold h. rewrite (bindIO_done _ _ wm None w2).
    - rewrite Lm. change (l_recursive _) with false. cbv iota. reflexivity.
    - apply append_new_none; [rewrite Lm; reflexivity|exact R2]. }
  destruct (add_command_single E (appendBytes E body) a filename w1 None w2 _ FA R3 S2 C2) as [w' [R4 [G4 [L4 [A4 [T4 O4]]]]]].
  exists h, w'. rewrite R1. split; [exact R4|]. split; [rewrite G4, G2; reflexivity|]. split; [rewrite L4, L1; reflexivity|].
  split; [rewrite A4, <- app_assoc; reflexivity|]. split; [exact T4|]. split; [intros q Q1 Q2; rewrite O4, F1 by assumption; reflexivity|]. split; [exact P'|].
  unfold h, initHeader_file. cbn [UnixMode set_UnixMode]. apply mode_plain. destruct (stat (w_fs wm) filename); try lia; apply U.
Qed.

(** A file that shrinks.  Every process may do the reading, [cs'] being what it did
    before; listing the archive gives the one entry, and extracting the entry of
    that name gives the bytes. *)
Theorem C40_bytes_round_trip :
  forall E w cs a filename body method eo,
    usual E -> file_path a -> entry_name (Base filename) -> filename <> a -> e_tmp E <> a ->
    w_lha w = NewLha a -> w_fs w a = None -> w_fs w (e_tmp E) = None -> after cs (w_glob w) ->
    method = 5 \/ method = 6 \/ method = 7 /\ zlen body < 65536 -> bytes body -> body <> [] -> zlen body < 2 ^ 32 ->
    EncodeLzhuf method (zlen body) body (w_glob w) = Ok eo -> eo_packed eo < zlen body ->
    exists w' c,
      CompressBytes E filename body method 0 w = Done false w' /\
      w_fs w' a = Some (NFile c) /\ w_fs w' (e_tmp E) = None /\ (forall q, q <> a -> q <> e_tmp E -> w_fs w' q = w_fs w q) /\
      forall cs' w2,
        w_fs w2 a = Some (NFile c) -> e_readable E a = true -> w_lha w2 = NewLha a -> w_verify w2 = false -> after cs' (w_glob w2) ->
        (exists h w3, Headers E w2 = Done ([h], false) w3 /\ w_fs w3 = w_fs w2 /\
          Name h = Base filename ++ [0] /\ Method h = meth 104 (48 + method) /\ OriginalSize h = zlen body /\ PackedSize h = eo_packed eo) /\
        (forall h, Name h = Base filename ++ [0] -> archiveIsMsdosSfx1 a = false ->
          exists w3, DecompresBytes E h w2 = Done (body, false) w3 /\ w_fs w3 = w_fs w2).
Proof.
  intros E w cs a filename body method eo U Ha Hnm Hfa Ht Hl Fa Ft A Hm HB Hne Hlen HE Hlt. pose proof Ha as [Ha1 Ha2]. apply has_nul_in in Ha2.
  assert (Hm3 : method = 5 \/ method = 6 \/ method = 7) by tauto.
  assert (Hlt' : eo_packed eo < eo_original eo).
  { destruct (Z_lt_ge_dec (eo_packed eo) (eo_original eo)) as [L|L]; [exact L|exfalso].
    destruct (Z.testbit (hd 0 body) 5) eqn:H5. { rewrite (C16_compress_never_panics_refuted cs (w_glob w) method (zlen body) body) in HE; auto. discriminate. }
    assert (R : room cs method).
    { intros m0 F. destruct (Z_lt_ge_dec m0 method) as [L'|L']; [|lia]. rewrite (EncodeLzhuf_panic_window cs (w_glob w) method m0 (zlen body) body) in HE; auto. discriminate. }
    destruct (encode_lzhuf cs (w_glob w) method (zlen body) body A R Hm3 (zlen_nonneg _) HB Hne H5) as (eo' & k & n & pb & er & toks & w0 & X1 & X2 & X3 & X4 & X5 & X6 & X7 & X8 & X9 & X10 & X11).
    rewrite HE in X1. injection X1 as <-.
    assert (Un : er_unpackable er = false). { destruct (er_unpackable er); [|reflexivity]. specialize (X10 eq_refl). lia. }
    destruct X3. destruct (ep_good Un) as [Y1 [Y2 _]]. lia. }
  destruct (round_trip_567 cs (w_glob w) [] glob0 method body eo []) as [M1 [M2 [M3 [M4 _]]]]; auto; [split; [constructor|reflexivity]|constructor|].
  assert (B4 : 0 <= eo_crc eo < 2 ^ 16) by (rewrite M3; apply calcCrc_range; [lia|exact HB]).
  destruct (compressbytes_packed E filename body method w a eo) as (h & w' & R1 & G1 & L1 & A1 & T1 & O1 & P & Rg); auto; try lia.
  { split; [rewrite <- M4; apply zlen_nonneg|lia]. } { rewrite M2. pose proof (zlen_nonneg body). lia. }
  exists w', (layout0 (entry_of (e_stamp E) (packed_hdr h eo) (Base filename)) ++ eo_out eo ++ [0]).
  split; [exact R1|]. split; [exact A1|]. split; [exact T1|]. split; [exact O1|]. intros cs' w2 F2 Hr L2 V2 A2.
  destruct (round_trip_567 cs (w_glob w) cs' (w_glob w2) method body eo [0]) as [_ [_ [_ [_ [g2 D]]]]]; auto.
  { constructor; [unfold is_byte; lia|constructor]. }
  assert (Nm : Forall (fun c => c <> 92 /\ c <> 47) (Base filename)) by (destruct Hnm as [_ F]; eapply Forall_impl; [|exact F]; cbv beta; tauto).
  assert (Mt : method_num (Method (packed_hdr h eo)) = Some method) by (change (Method (packed_hdr h eo)) with (meth 104 (eo_method eo)); rewrite M1; now apply method_num_lh).
  assert (Nd : method <> LzhdirsMethodNum) by (unfold LzhdirsMethodNum; lia).
  split.
  - eexists _, _. split; [apply (Headers_single E (packed_hdr h eo) (Base filename) (eo_out eo) P Nm Rg method Mt Nd body w2 a g2); auto; left; assert (M56 : method = 5 \/ method = 6 \/ method = 7 /\ zlen body < 65536) by lia; destruct M56 as [-> | [-> | [-> _]]]; reflexivity|].
    split; [reflexivity|]. cbn [read0 Name Method OriginalSize PackedSize]. rewrite (e_names E _ _ P Nm). cbn [entry_of e_method e_original e_packed].
    split; [reflexivity|]. split; [|split; [exact M2|reflexivity]]. change (Method (packed_hdr h eo)) with (meth 104 (eo_method eo)). rewrite M1, Z.add_comm. reflexivity.
  - intros h2 N2 Sx. eexists. split; [apply (DecompresBytes_single E (packed_hdr h eo) (Base filename) (eo_out eo) P Nm Rg method Mt Nd body w2 a g2 h2); auto; try (rewrite L2; reflexivity)|reflexivity].
    rewrite L2. exact D.
Qed.

(** A hundred zero bytes under the name "d/z", in the archive "b". *)
Definition ex_new : world := W (fun _ => None) [] glob0 false [] (NewLha [98]) [].
Example C40_example : exists eo, usual ex_env /\ file_path [98] /\ entry_name (Base [100; 47; 122]) /\ after [] (w_glob ex_new) /\
  EncodeLzhuf 5 (zlen (repeat 0 100)) (repeat 0 100) (w_glob ex_new) = Ok eo /\ eo_packed eo < zlen (repeat 0 100).
Proof.
  destruct C14_example as [eo [X1 [X2 _]]]. exists eo. split.
  { constructor; [reflexivity|cbn; lia|cbn; lia|intros [X|[]]; discriminate X]. }
  split; [split; [discriminate|intros [X|[]]; discriminate X]|]. split; [split; [vm_compute; discriminate|repeat constructor; lia]|].
  split; [split; [constructor|reflexivity]|]. change (zlen (repeat 0 100)) with 100. split; [exact X1|]. rewrite X2. reflexivity.
Qed.

(** An empty file. *)
Lemma compressbytes_empty E filename method w a :
  usual E -> file_path a -> entry_name (Base filename) -> filename <> a -> e_tmp E <> a ->
  w_lha w = NewLha a -> w_fs w a = None -> w_fs w (e_tmp E) = None ->
  exists h w', CompressBytes E filename [] method 0 w = Done false w' /\
    w_fs w' a = Some (NFile (layout0 (entry_of (e_stamp E) h (Base filename)) ++ [] ++ [0])) /\
    w_fs w' (e_tmp E) = None /\ (forall q, q <> a -> q <> e_tmp E -> w_fs w' q = w_fs w q) /\
    plain h (Base filename) /\ Z.land (UnixMode h) UnixFileTypemask = UnixFileRegular /\
    Method h = Lzhuff0Method /\ OriginalSize h = 0 /\ PackedSize h = 0 /\ Crc h = 0.
Proof.
  intros U Ha Hnm Hfa Ht Hl Fa Ft.
  destruct (compressbytes_start E filename [] method w a Hl Ha Fa) as [w1 [R1 [F1 [G1 [V1 L1]]]]].
  pose proof (fresh_start E a filename w w1 method U Ha Fa Ft Ht Hfa F1 L1) as FA.
  set (wm := made E w1 a).
  assert (Lm : w_lha wm = set_new true (set_files [filename] 1 (set_method method (NewLha a)))) by (unfold wm, made; cbn [w_lha set_wlha]; rewrite L1; reflexivity).
  set (h := initHeader_file E (w_lha wm) (w_fs wm) filename 0 (e_now E)).
  assert (P : plain h (Base filename)).
  { apply initHeader_plain; [apply U|rewrite Lm; reflexivity|exact Hnm|lia|apply U]. }
  destruct (addOne_empty E (us_format _ U) h (Base filename) [] [] wm P eq_refl) as [w2 [R2 [S2 [G2 C2]]]].
  { unfold wm, made. cbn [w_fs]. apply fs_set_same. }
  assert (R3 : appendBytes E [] filename None wm = Done None w2).
  { unfold appendBytes. rewrite bind_get, bind_get. change (zlen []) with 0. fold h. rewrite (bindIO_done _ _ wm None w2).
    - rewrite Lm. change (l_recursive _) with false. cbv iota. reflexivity.
    - apply append_new_none; [rewrite Lm; reflexivity|exact R2]. }
  destruct (add_command_single E (appendBytes E []) a filename w1 None w2 _ FA R3 S2 C2) as [w' [R4 [G4 [L4 [A4 [T4 O4]]]]]].
  exists h, w'. rewrite R1. split; [exact R4|]. split; [exact A4|]. split; [exact T4|].
  split; [intros q Q1 Q2; rewrite O4, F1 by assumption; reflexivity|]. split; [exact P|]. split; [|repeat split].
  unfold h, initHeader_file. cbn [UnixMode set_UnixMode]. apply mode_plain. destruct (stat (w_fs wm) filename); try lia; apply U.
Qed.

Theorem C40_empty_round_trip :
  forall E w a filename method,
    usual E -> file_path a -> entry_name (Base filename) -> filename <> a -> e_tmp E <> a ->
    w_lha w = NewLha a -> w_fs w a = None -> w_fs w (e_tmp E) = None ->
    exists w' c,
      CompressBytes E filename [] method 0 w = Done false w' /\
      w_fs w' a = Some (NFile c) /\ w_fs w' (e_tmp E) = None /\ (forall q, q <> a -> q <> e_tmp E -> w_fs w' q = w_fs w q) /\
      forall w2,
        w_fs w2 a = Some (NFile c) -> e_readable E a = true -> w_lha w2 = NewLha a -> w_verify w2 = false ->
        (exists h w3, Headers E w2 = Done ([h], false) w3 /\ w_fs w3 = w_fs w2 /\
          Name h = Base filename ++ [0] /\ Method h = meth 104 48 /\ OriginalSize h = 0 /\ PackedSize h = 0) /\
        (forall h, Name h = Base filename ++ [0] -> archiveIsMsdosSfx1 a = false ->
          exists w3, DecompresBytes E h w2 = Done ([], false) w3 /\ w_fs w3 = w_fs w2).
Proof.
  intros E w a filename method U Ha Hnm Hfa Ht Hl Fa Ft. pose proof Ha as [Ha1 Ha2]. apply has_nul_in in Ha2.
  destruct (compressbytes_empty E filename method w a) as (h & w' & R1 & A1 & T1 & O1 & P & Rg & M1 & M2 & M3 & M4); auto.
  exists w', (layout0 (entry_of (e_stamp E) h (Base filename)) ++ [] ++ [0]).
  split; [exact R1|]. split; [exact A1|]. split; [exact T1|]. split; [exact O1|]. intros w2 F2 Hr L2 V2.
  assert (Nm : Forall (fun c => c <> 92 /\ c <> 47) (Base filename)) by (destruct Hnm as [_ F]; eapply Forall_impl; [|exact F]; cbv beta; tauto).
  assert (Mt : method_num (Method h) = Some 0) by (rewrite M1; reflexivity).
  assert (Nd : 0 <> LzhdirsMethodNum) by discriminate.
  assert (D : forall b, decodes h [] 0 [] b (w_glob w2) (w_glob w2)) by (intros b; unfold decodes; rewrite M2, M3, M4; reflexivity).
  split.
  - eexists _, _. split; [apply (Headers_single E h (Base filename) [] P Nm Rg 0 Mt Nd [] w2 a (w_glob w2)); auto|].
    split; [reflexivity|]. cbn [read0 Name Method OriginalSize PackedSize]. rewrite (e_names E _ _ P Nm). cbn [entry_of e_method e_original e_packed].
    rewrite M1, M2, M3. repeat split.
  - intros h2 N2 Sx. eexists. split; [apply (DecompresBytes_single E h (Base filename) [] P Nm Rg 0 Mt Nd [] w2 a (w_glob w2) h2); auto; try (rewrite L2; reflexivity)|reflexivity].
Qed.

(** ** C18: data that do not shrink *)

Lemma copy_loop_size : forall fuel buf inp n, (length inp < fuel)%nat -> exists out, copy_loop fuel buf inp n = Ok (out, n + zlen inp).
Proof.
  induction fuel as [|fuel IH]; intros buf inp n L; [lia|]. cbn [copy_loop].
  assert (Z1 : zlen (take buffersize inp) = Z.min buffersize (zlen inp)) by (apply zlen_take_min; unfold buffersize; lia).
  destruct inp as [|x inp]. { exists []. change (n + @zlen Z []) with (n + 0). rewrite Z.add_0_r. change (zlen (take buffersize [])) with 0. change (0 =? 0) with true. cbv iota. now rewrite Z.add_0_r. }
  rewrite zlen_cons in Z1. pose proof (zlen_nonneg inp). rewrite Z1. destruct (Z.eqb_spec (Z.min buffersize (1 + zlen inp)) 0) as [Y|_]; [unfold buffersize in Y; lia|].
  match goal with |- context [copy_loop fuel ?b ?i ?m] => destruct (IH b i m) as [out Eo] end.
  { unfold drop. rewrite skipn_length. change (Z.to_nat buffersize) with 2048%nat. cbn [length] in *. lia. }
  rewrite Eo. cbn [bind]. eexists. f_equal. f_equal. unfold drop, zlen in *. rewrite skipn_length. cbn [length] in *. unfold buffersize in *. lia.
Qed.

Lemma copyfile_size size inp : 0 < size -> exists out, copyfile size inp = Ok (out, zlen inp, []).
Proof.
  intros H. unfold copyfile. destruct (Z.ltb_spec 0 size); [|lia].
  destruct (copy_loop_size (S (length inp)) (repeat 0 (Z.to_nat buffersize)) inp 0) as [out Eo]; [lia|]. rewrite Eo. cbn [bind]. eauto.
Qed.

(** What is made of data that do not shrink: the header announces only what the
    coder had not yet read. *)
Lemma compressbytes_stored E filename body method w a eo :
  usual E -> file_path a -> entry_name (Base filename) -> filename <> a -> e_tmp E <> a ->
  w_lha w = NewLha a -> w_fs w a = None -> w_fs w (e_tmp E) = None ->
  body <> [] -> zlen body < 2 ^ 32 -> zlen (eo_rest eo) <= zlen body ->
  EncodeLzhuf method (zlen body) body (w_glob w) = Ok eo -> eo_original eo <= eo_packed eo ->
  exists h out w', CompressBytes E filename body method 0 w = Done false w' /\ w_glob w' = eo_glob eo /\
    encodeStoredCrc (zlen body) (eo_rest eo) = Ok (out, 0, zlen (eo_rest eo)) /\
    w_fs w' a = Some (NFile (layout0 (entry_of (e_stamp E) (stored_hdr h 0 (zlen (eo_rest eo))) (Base filename)) ++ eo_out eo ++ out ++ [0])) /\
    plain (stored_hdr h 0 (zlen (eo_rest eo))) (Base filename) /\ Z.land (UnixMode h) UnixFileTypemask = UnixFileRegular.
Proof.
  intros U Ha Hnm Hfa Ht Hl Fa Ft Hne Hlen Hrest HE Hge.
  destruct (compressbytes_start E filename body method w a Hl Ha Fa) as [w1 [R1 [F1 [G1 [V1 L1]]]]].
  pose proof (fresh_start E a filename w w1 method U Ha Fa Ft Ht Hfa F1 L1) as FA.
  set (wm := made E w1 a).
  assert (Lm : w_lha wm = set_new true (set_files [filename] 1 (set_method method (NewLha a)))) by (unfold wm, made; cbn [w_lha set_wlha]; rewrite L1; reflexivity).
  set (h := initHeader_file E (w_lha wm) (w_fs wm) filename (zlen body) (e_now E)).
  pose proof (zlen_nonneg body) as Zn. pose proof (zlen_nonneg (eo_rest eo)) as Zr.
  assert (P : plain h (Base filename)).
  { apply initHeader_plain; [apply U|rewrite Lm; reflexivity|exact Hnm|lia|apply U]. }
  assert (P' : plain (stored_hdr h 0 (zlen (eo_rest eo))) (Base filename)) by (apply plain_stored; [assumption|lia|lia]).
  assert (Zb : 0 < zlen body) by (destruct body; [contradiction|rewrite zlen_cons; pose proof (zlen_nonneg body); lia]).
  destruct (copyfile_size (zlen body) (eo_rest eo) Zb) as [out Eo].
  assert (ES : encodeStoredCrc (zlen body) (eo_rest eo) = Ok (out, 0, zlen (eo_rest eo))) by (unfold encodeStoredCrc; rewrite Eo; reflexivity).
  destruct (addOne_stored E (us_format _ U) h (Base filename) body [] wm eo out 0 (zlen (eo_rest eo)) P) as [w2 [R2 [S2 [G2 C2]]]]; try assumption.
  { change (zlen body <> 0). lia. }
  { unfold wm, made. cbn [w_fs]. apply fs_set_same. }
  { rewrite Lm. unfold wm, made. cbn [w_glob set_wlha]. rewrite G1. exact HE. }
  cbn [app] in C2. rewrite (overwrite_header E) in C2 by assumption.
  assert (R3 : appendBytes E body filename None wm = Done None w2).
  { unfold appendBytes. rewrite bind_get, bind_get. fold h. rewrite (bindIO_done _ _ wm None w2).
    - rewrite Lm. change (l_recursive _) with false. cbv iota. reflexivity.
    - apply append_new_none; [rewrite Lm; reflexivity|exact R2]. }
  destruct (add_command_single E (appendBytes E body) a filename w1 None w2 _ FA R3 S2 C2) as [w' [R4 [G4 [L4 [A4 [T4 O4]]]]]].
  exists h, out, w'. rewrite R1. split; [exact R4|]. split; [rewrite G4, G2; reflexivity|]. split; [exact ES|].
  split; [rewrite A4, <- !app_assoc; reflexivity|]. split; [exact P'|].
  unfold h, initHeader_file. cbn [UnixMode set_UnixMode]. apply mode_plain. destruct (stat (w_fs wm) filename); try lia; apply U.
Qed.

(** The claim is false.  For every process and every body that does not shrink,
    CompressBytes reports success, and the archive starts with a -lh0- header
    announcing fewer bytes than the body has: none at all if the body has at most
    8192 + 256 bytes. *)
Theorem C18_incompressible_refuted :
  forall E w cs a filename body method eo,
    usual E -> file_path a -> entry_name (Base filename) -> filename <> a -> e_tmp E <> a ->
    w_lha w = NewLha a -> w_fs w a = None -> w_fs w (e_tmp E) = None -> after cs (w_glob w) ->
    method = 5 \/ method = 6 \/ method = 7 -> bytes body -> body <> [] -> zlen body < 2 ^ 32 ->
    EncodeLzhuf method (zlen body) body (w_glob w) = Ok eo -> eo_original eo <= eo_packed eo ->
    exists w' e data,
      CompressBytes E filename body method 0 w = Done false w' /\
      w_fs w' a = Some (NFile (layout0 e ++ data)) /\ legal0 e /\
      e_method e = [45; 108; 104; 48; 45] /\ e_packed e = e_original e /\ e_original e < zlen body /\ e_crc e = 0 /\
      (zlen body <= 8448 -> e_original e = 0).
Proof.
  intros E w cs a filename body method eo U Ha Hnm Hfa Ht Hl Fa Ft A Hm HB Hne Hlen HE Hge.
  destruct (Z.testbit (hd 0 body) 5) eqn:H5. { rewrite (C16_compress_never_panics_refuted cs (w_glob w) method (zlen body) body) in HE; auto. discriminate. }
  assert (R : room cs method).
  { intros m0 F. destruct (Z_lt_ge_dec m0 method) as [L'|L']; [|lia]. rewrite (EncodeLzhuf_panic_window cs (w_glob w) method m0 (zlen body) body) in HE; auto. discriminate. }
  destruct (encode_lzhuf cs (w_glob w) method (zlen body) body A R Hm (zlen_nonneg _) HB Hne H5) as (eo' & k & n & pb & er & toks & w0 & X1 & X2 & X3 & X4 & X5 & X6 & X7 & X8 & X9 & X10 & X11).
  rewrite HE in X1. injection X1 as <-. destruct (mpar_cases method Hm) as (k' & n' & pb' & E1 & _ & _ & _ & _ & E6 & _).
  rewrite X2 in E1. injection E1 as <- <- <-. destruct X3.
  destruct (compressbytes_stored E filename body method w a eo) as (h & out & w' & C1 & C2 & C3 & C4 & C5 & C6); auto; [rewrite X9; lia|].
  exists w', (entry_of (e_stamp E) (stored_hdr h 0 (zlen (eo_rest eo))) (Base filename)), (eo_out eo ++ out ++ [0]).
  split; [exact C1|]. split; [exact C4|]. split; [now apply plain_legal|]. split; [reflexivity|]. split; [reflexivity|].
  cbn [entry_of e_original e_crc stored_hdr set_PackedSize set_OriginalSize set_Method set_Crc OriginalSize Crc].
  split; [rewrite X9; exact ep_short|]. split; [reflexivity|]. intros L. rewrite X9, ep_in; [reflexivity|]. assert (2 ^ 13 <= 2 ^ k) by (apply Z.pow_le_mono_r; lia). lia.
Qed.

(** With method 0 (store) nothing is ever kept, whatever the data. *)
Theorem C18_stored_method_refuted :
  forall E w a filename body,
    usual E -> file_path a -> entry_name (Base filename) -> filename <> a -> e_tmp E <> a ->
    w_lha w = NewLha a -> w_fs w a = None -> w_fs w (e_tmp E) = None ->
    body <> [] -> zlen body < 2 ^ 32 ->
    exists w' e data,
      CompressBytes E filename body 0 0 w = Done false w' /\
      w_fs w' a = Some (NFile (layout0 e ++ data)) /\ legal0 e /\
      e_method e = [45; 108; 104; 48; 45] /\ e_packed e = 0 /\ e_original e = 0 /\ e_crc e = 0.
Proof.
  intros E w a filename body U Ha Hnm Hfa Ht Hl Fa Ft Hne Hlen.
  assert (Zb : 0 < zlen body) by (destruct body; [contradiction|rewrite zlen_cons; pose proof (zlen_nonneg body); lia]).
  destruct (copyfile_size (zlen body) body Zb) as [out1 Eo].
  set (eo := EO (w_glob w) 0 out1 (zlen body) (zlen body) 48 []).
  assert (HE : EncodeLzhuf 0 (zlen body) body (w_glob w) = Ok eo).
  { unfold EncodeLzhuf. change (0 <? 0) with false. cbv iota zeta. rewrite Eo. cbn [bind]. destruct (Z.eqb_spec (zlen body) 0); [lia|reflexivity]. }
  destruct (compressbytes_stored E filename body 0 w a eo) as (h & out & w' & C1 & C2 & C3 & C4 & C5 & C6); auto; [cbn [eo eo_rest]; rewrite zlen_nil; lia|cbn; lia|].
  exists w', (entry_of (e_stamp E) (stored_hdr h 0 (zlen (eo_rest eo))) (Base filename)), (eo_out eo ++ out ++ [0]).
  split; [exact C1|]. split; [exact C4|]. split; [now apply plain_legal|]. repeat split.
Qed.

(** One byte, [A]: it does not shrink; extracting the entry gives nothing, and no
    error is reported. *)
Example C18_example : exists eo, EncodeLzhuf 5 (zlen [65]) [65] (w_glob ex_new) = Ok eo /\ eo_original eo <= eo_packed eo /\
  match CompressBytes ex_env [102] [65] 5 0 ex_new with
  | Done false w => match DecompresBytes ex_env (set_Name [102; 0] NewLzHeader) w with Done (l, err) _ => l = [] /\ err = false | _ => False end
  | _ => False
  end.
Proof.
  assert (X : match EncodeLzhuf 5 (zlen [65]) [65] (w_glob ex_new) with Ok eo => eo_original eo <=? eo_packed eo | _ => false end = true) by (vm_compute; reflexivity).
  destruct (EncodeLzhuf 5 (zlen [65]) [65] (w_glob ex_new)) as [eo| |]; try discriminate X. exists eo. split; [reflexivity|]. split; [now apply Z.leb_le|].
  assert (Y : match CompressBytes ex_env [102] [65] 5 0 ex_new with
  | Done false w => match DecompresBytes ex_env (set_Name [102; 0] NewLzHeader) w with Done ([], false) _ => true | _ => false end
  | _ => false
  end = true) by (vm_compute; reflexivity).
  destruct (CompressBytes ex_env [102] [65] 5 0 ex_new) as [[] w'|w'|]; try discriminate Y.
  destruct (DecompresBytes ex_env (set_Name [102; 0] NewLzHeader) w') as [[[|x l] []] w''|w''|]; try discriminate Y. auto.
Qed.

Print Assumptions C34_archive_never_torn.
Print Assumptions C34_compress_never_torn.
Print Assumptions C34_compressbytes_never_torn.
Print Assumptions C33_existing_archive_refuted.
Print Assumptions C40_bytes_round_trip.
Print Assumptions C40_empty_round_trip.
Print Assumptions C18_incompressible_refuted.
Print Assumptions C18_stored_method_refuted.
