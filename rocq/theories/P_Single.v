(** Making an archive with one entry and reading it back. *)
From Verif Require Import Go GoLemmas M_Crc M_Bitio P_Bitio M_Maketree M_Maketbl M_Huf M_Slide M_Lzhuf S_Header M_Header M_Os M_Archive P_Header P_Os P_Backup P_RoundTrip.

(** Everything but the file [p] is as before. *)
Record same_but (p : path) (w w' : world) : Prop := {
  sb_fs : forall q, q <> p -> w_fs w' q = w_fs w q;
  sb_lha : w_lha w' = w_lha w;
  sb_verify : w_verify w' = w_verify w;
  sb_stdin : w_stdin w' = w_stdin w
}.

Lemma sb_refl p w : same_but p w w.
Proof. constructor; auto. Qed.

Lemma sb_trans p a b c : same_but p a b -> same_but p b c -> same_but p a c.
Proof. intros [A1 A2 A3 A4] [B1 B2 B3 B4]. constructor; try congruence. intros q Hq. rewrite B1, A1; auto. Qed.

Lemma bindIO_done {A B} (m : IO A) (k : A -> IO B) w a w' : m w = Done a w' -> bindIO m k w = k a w'.
Proof. intros H. unfold bindIO. now rewrite H. Qed.

Lemma bind_lift {A B} (a : A) (k : A -> IO B) w : bindIO (lift (Ok a)) k w = k a w.
Proof. reflexivity. Qed.
Lemma bind_get {A B} f (k : A -> IO B) w : bindIO (get f) k w = k (f w) w.
Proof. reflexivity. Qed.
Lemma bind_getl {A B} f (k : A -> IO B) w : bindIO (getl f) k w = k (f (w_lha w)) w.
Proof. reflexivity. Qed.
Lemma bind_ret {A B} (a : A) (k : A -> IO B) w : bindIO (ret a) k w = k a w.
Proof. reflexivity. Qed.
Lemma bind_modify {B} f (k : unit -> IO B) w : bindIO (modify f) k w = k tt (f w).
Proof. reflexivity. Qed.
Lemma bind_modl {B} f (k : unit -> IO B) w : bindIO (modl f) k w = k tt (set_wlha (f (w_lha w)) w).
Proof. reflexivity. Qed.
Lemma bind_assoc {A B C} (m : IO A) (k : A -> IO B) (j : B -> IO C) w : bindIO (bindIO m k) j w = bindIO m (fun x => bindIO (k x) j) w.
Proof. unfold bindIO. destruct (m w); reflexivity. Qed.
Lemma bind_print {B} l (k : unit -> IO B) w : bindIO (print l) k w = k tt (printed l w).
Proof. reflexivity. Qed.

Ltac istep := rewrite ?bind_assoc; first [rewrite bind_lift | rewrite bind_get | rewrite bind_getl | rewrite bind_ret | rewrite bind_modify | rewrite bind_modl | rewrite bind_print]; cbv beta.

Lemma emit_write p off l c w : w_fs w p = Some (NFile c) ->
  exists w', emit (OWrite p off l) w = Done tt w' /\ same_but p w w' /\ w_glob w' = w_glob w /\ w_fs w' p = Some (NFile (write_at off l c)).
Proof.
  intros H. eexists. split; [reflexivity|]. cbn [w_glob w_fs run_op]. split; [|split; [reflexivity|]].
  - constructor; try reflexivity. intros q Hq. cbn [w_fs run_op]. now rewrite fs_set_other.
  - rewrite fs_set_same. unfold content. now rewrite H.
Qed.

Lemma drop_past n (l : list Z) : zlen l <= n -> drop n l = [].
Proof. intros H. unfold drop. apply skipn_all2. unfold zlen in H. lia. Qed.

Lemma append_run p l c w : w_fs w p = Some (NFile c) ->
  exists w', os_append p l w = Done tt w' /\ same_but p w w' /\ w_glob w' = w_glob w /\ w_fs w' p = Some (NFile (c ++ l)).
Proof.
  intros H. destruct (emit_write p (zlen c) l c w H) as [w' [E1 [E2 [E3 E4]]]]. exists w'. unfold os_append, bindIO, get.
  unfold content. rewrite H. split; [exact E1|]. split; [exact E2|]. split; [exact E3|]. rewrite E4. unfold write_at.
  rewrite take_zlen, drop_past by (pose proof (zlen_nonneg l); lia). now rewrite app_nil_r.
Qed.

(** A header that level 0 can represent. *)
Record plain (h : hdr) (nm : list Z) : Prop := {
  pl_level : HeaderLevel h = 0;
  pl_name : exists k, Name h = nm ++ zeros k;
  pl_nm : Forall (fun c => 0 < c < 256) nm;
  pl_len : zlen nm <= 221;
  pl_meth : zlen (Method h) = 5 /\ Forall (fun c => 0 <= c < 256) (Method h);
  pl_packed : 0 <= PackedSize h < 2 ^ 32;
  pl_orig : 0 <= OriginalSize h < 2 ^ 32;
  pl_attr : 0 <= Attribute h < 256;
  pl_crc : 0 <= Crc h < 2 ^ 16;
  pl_time : 0 <= UnixLastModifiedStamp h < 2 ^ 32;
  pl_mode : 0 <= UnixMode h < 2 ^ 16;
  pl_link : isSymlinkMode (UnixMode h) = false;
  pl_uid : 0 <= UnixUID h < 2 ^ 16;
  pl_gid : 0 <= UnixGid h < 2 ^ 16
}.

Lemma plain_legal stamp h nm : plain h nm -> legal0 (entry_of stamp h nm).
Proof.
  intros [? ? Fn Ln [Lm Fm] ? ? ? ? ? ? ? ? ?].
  constructor; cbn [entry_of e_method e_packed e_original e_dostime e_attr e_name e_crc e_minor e_time e_mode e_uid e_gid]; try assumption; try lia.
  - split; [unfold zlen in Lm; lia|exact Fm].
  - apply Z.mod_pos_bound. lia.
  - split; [unfold to_backslash; rewrite map_length; unfold zlen in Ln; lia|].
    unfold to_backslash. clear -Fn. induction Fn as [|x l Hx F IH]; cbn [map]; constructor; [destruct (x =? 47); lia|exact IH].
Qed.

Lemma plain_write o stamp h nm : GenericFormat o = false -> plain h nm ->
  WriteHeader o stamp h = Ok (Some (layout0 (entry_of stamp h nm))).
Proof.
  intros Ho P. pose proof (plain_legal stamp h nm P) as L. destruct P as [? [k Hk] Fn ? ? ? ? ? ? ? ? ? ? ?].
  apply (WriteHeader_layout0 o stamp h nm (zeros k)); try assumption.
  - unfold zeros. destruct (Z.to_nat k); reflexivity.
  - rewrite Hk. apply Forall_app. split; [eapply Forall_impl; [|exact Fn]; cbv beta; lia|apply bytesP_zeros].
  - eapply Forall_impl; [|exact Fn]; cbv beta; lia.
Qed.

Lemma plain_size stamp h nm : plain h nm -> zlen (layout0 (entry_of stamp h nm)) = 36 + zlen nm.
Proof.
  intros P. destruct (plain_legal stamp h nm P) as [[L _] _ _ _ _ _ _ _ _ _ _ _]. unfold layout0. rewrite !zlen_cons.
  rewrite body0_len by exact L. cbn [entry_of e_name]. unfold to_backslash. rewrite zlen_map. lia.
Qed.

(** The header of the entry once its data have been compressed. *)
Definition packed_hdr (h : hdr) (eo : encout) : hdr :=
  set_PackedSize (eo_packed eo) (set_OriginalSize (eo_original eo) (set_Method (meth 104 (eo_method eo)) (set_Crc (eo_crc eo) h))).

Lemma plain_packed h nm eo : plain h nm -> 0 <= eo_packed eo < 2 ^ 32 -> 0 <= eo_original eo < 2 ^ 32 -> 0 <= eo_crc eo < 2 ^ 16 ->
  0 <= eo_method eo < 256 -> plain (packed_hdr h eo) nm.
Proof.
  intros [? ? ? ? [? ?] ? ? ? ? ? ? ? ? ?] ? ? ? ?. constructor; try assumption. split; [reflexivity|]. repeat constructor; lia.
Qed.

Section Single.
  Variable E : env.
  Hypothesis Hgen : GenericFormat (e_opts E) = false.
  Let tmp := e_tmp E.
  Let hd0 h nm := layout0 (entry_of (e_stamp E) h nm).

  (** Adding an entry whose data shrink. *)
  Lemma addOne_packed h nm body c w eo : plain h nm -> OriginalSize h <> 0 -> w_fs w tmp = Some (NFile c) ->
    EncodeLzhuf (l_method (w_lha w)) (OriginalSize h) body (w_glob w) = Ok eo -> eo_packed eo < eo_original eo ->
    plain (packed_hdr h eo) nm ->
    exists w', addOne E h body w = Done tt w' /\ same_but tmp w w' /\ w_glob w' = eo_glob eo /\
      w_fs w' tmp = Some (NFile (write_at 0 (hd0 (packed_hdr h eo) nm) (c ++ hd0 h nm ++ eo_out eo))).
  Proof.
    intros P Ho Hc HE Hlt P'. unfold addOne. rewrite (plain_write _ _ h nm Hgen P). istep. cbn [put_header].
    destruct (append_run tmp (layout0 (entry_of (e_stamp E) h nm)) c w Hc) as [w1 [R1 [S1 [G1 C1]]]].
    fold tmp. rewrite (bindIO_done _ _ _ _ _ R1). destruct (Z.eqb_spec (OriginalSize h) 0) as [X|_]; [contradiction|].
    unfold run_encode. istep. istep. rewrite (sb_lha _ _ _ S1), G1, HE. istep. istep. istep.
    set (w2 := set_wglob (eo_glob eo) w1). assert (C2 : w_fs w2 tmp = Some (NFile (c ++ hd0 h nm))) by exact C1.
    assert (S2 : same_but tmp w w2) by (eapply sb_trans; [exact S1|constructor; auto]).
    destruct (append_run tmp (eo_out eo) _ w2 C2) as [w3 [R3 [S3 [G3 C3]]]]. rewrite (bindIO_done _ _ _ _ _ R3). cbv zeta.
    destruct (Z.ltb_spec (eo_packed eo) (eo_original eo)) as [_|X]; [|lia].
    istep. fold (packed_hdr h eo). rewrite (plain_write _ _ _ nm Hgen P'). istep. cbn [put_header].
    destruct (emit_write tmp 0 (hd0 (packed_hdr h eo) nm) _ w3 C3) as [w4 [R4 [S4 [G4 C4]]]]. exists w4. unfold hd0 in R4. fold tmp.
    split; [exact R4|]. split; [eapply sb_trans; [eapply sb_trans; [exact S2|exact S3]|exact S4]|]. split; [rewrite G4, G3; reflexivity|].
    rewrite C4, <- app_assoc. reflexivity.
  Qed.

  Lemma overwrite_header h h' nm rest : plain h nm -> plain h' nm -> write_at 0 (hd0 h' nm) (hd0 h nm ++ rest) = hd0 h' nm ++ rest.
  Proof.
    intros P P'. unfold write_at. change (take 0 (hd0 h nm ++ rest)) with (@nil Z). cbn [app]. f_equal.
    unfold hd0. rewrite Z.add_0_l, (plain_size _ h' nm P'), <- (plain_size (e_stamp E) h nm P). now rewrite (drop_app _ _ _ eq_refl).
  Qed.

  (** The header of an entry that does not shrink. *)
  Definition stored_hdr (h : hdr) (crc r : Z) : hdr :=
    set_PackedSize r (set_OriginalSize r (set_Method Lzhuff0Method (set_Crc crc h))).

  Lemma plain_stored h nm crc r : plain h nm -> 0 <= r < 2 ^ 32 -> 0 <= crc < 2 ^ 16 -> plain (stored_hdr h crc r) nm.
  Proof. intros [? ? ? ? [? ?] ? ? ? ? ? ? ? ? ?] ? ?. constructor; try assumption. split; [reflexivity|]. repeat constructor; lia. Qed.

  Lemma addOne_stored h nm body c w eo out crc r : plain h nm -> OriginalSize h <> 0 -> w_fs w tmp = Some (NFile c) ->
    EncodeLzhuf (l_method (w_lha w)) (OriginalSize h) body (w_glob w) = Ok eo -> eo_original eo <= eo_packed eo ->
    encodeStoredCrc (OriginalSize h) (eo_rest eo) = Ok (out, crc, r) ->
    plain (stored_hdr h crc r) nm ->
    exists w', addOne E h body w = Done tt w' /\ same_but tmp w w' /\ w_glob w' = eo_glob eo /\
      w_fs w' tmp = Some (NFile (write_at 0 (hd0 (stored_hdr h crc r) nm) (c ++ hd0 h nm ++ eo_out eo ++ out))).
  Proof.
    intros P Ho Hc HE Hge HS P'. unfold addOne. rewrite (plain_write _ _ h nm Hgen P). istep. cbn [put_header].
    destruct (append_run tmp (layout0 (entry_of (e_stamp E) h nm)) c w Hc) as [w1 [R1 [S1 [G1 C1]]]].
    fold tmp. rewrite (bindIO_done _ _ _ _ _ R1). destruct (Z.eqb_spec (OriginalSize h) 0) as [X|_]; [contradiction|].
    unfold run_encode. istep. istep. rewrite (sb_lha _ _ _ S1), G1, HE. istep. istep. istep.
    set (w2 := set_wglob (eo_glob eo) w1). assert (C2 : w_fs w2 tmp = Some (NFile (c ++ hd0 h nm))) by exact C1.
    assert (S2 : same_but tmp w w2) by (eapply sb_trans; [exact S1|constructor; auto]).
    destruct (append_run tmp (eo_out eo) _ w2 C2) as [w3 [R3 [S3 [G3 C3]]]]. rewrite (bindIO_done _ _ _ _ _ R3). cbv zeta.
    destruct (Z.ltb_spec (eo_packed eo) (eo_original eo)) as [X|_]; [lia|].
    change (OriginalSize (set_Method (meth 104 (eo_method eo)) (set_Crc (eo_crc eo) h))) with (OriginalSize h). rewrite HS. istep.
    destruct (append_run tmp out _ w3 C3) as [w5 [R5 [S5 [G5 C5]]]]. rewrite !bind_assoc. rewrite (bindIO_done _ _ _ _ _ R5). istep.
    match goal with |- context [WriteHeader _ _ ?x] => change x with (stored_hdr h crc r) end.
    rewrite (plain_write _ _ _ nm Hgen P'). istep. cbn [put_header].
    destruct (emit_write tmp 0 (hd0 (stored_hdr h crc r) nm) _ w5 C5) as [w4 [R4 [S4 [G4 C4]]]]. exists w4. unfold hd0 in R4.
    split; [exact R4|]. split; [repeat (eapply sb_trans; [eassumption|]); apply sb_refl|]. split; [rewrite G4, G5, G3; reflexivity|].
    rewrite C4, <- !app_assoc. reflexivity.
  Qed.

  (** Adding an empty entry. *)
  Lemma addOne_empty h nm body c w : plain h nm -> OriginalSize h = 0 -> w_fs w tmp = Some (NFile c) ->
    exists w', addOne E h body w = Done tt w' /\ same_but tmp w w' /\ w_glob w' = w_glob w /\ w_fs w' tmp = Some (NFile (c ++ hd0 h nm)).
  Proof.
    intros P Ho Hc. unfold addOne. rewrite (plain_write _ _ h nm Hgen P). istep. cbn [put_header].
    destruct (append_run tmp (layout0 (entry_of (e_stamp E) h nm)) c w Hc) as [w1 [R1 [S1 [G1 C1]]]].
    fold tmp. rewrite (bindIO_done _ _ _ _ _ R1), Ho. exists w1. cbn [Z.eqb]. auto.
  Qed.

  (** A new archive and one entry. *)
  Record fresh_add (a name : path) (w : world) : Prop := {
    fa_update : l_update (w_lha w) = false;
    fa_noexec : l_noexec (w_lha w) = false;
    fa_exclude : l_exclude (w_lha w) = [];
    fa_delete : l_delete (w_lha w) = false;
    fa_sort : l_sort (w_lha w) = false;
    fa_rec : l_recursive (w_lha w) = false;
    fa_files : l_filev (w_lha w) = [name];
    fa_filec : l_filec (w_lha w) = 1;
    fa_name : name <> a;
    fa_none : w_fs w a = None;
    fa_tmp : w_fs w tmp = None;
    fa_diff : tmp <> a;
    fa_nul : has_nul a = false;
    fa_tnul : has_nul tmp = false
  }.

  Lemma resolve_none f p : f p = None -> follow f p = p.
  Proof. intros H. unfold follow. cbn [resolve]. now rewrite H. Qed.

  Lemma stat_none f p : has_nul p = false -> f p = None -> stat f p = SNotExist.
  Proof. intros H1 H2. unfold stat. rewrite H1. destruct p; [reflexivity|]. now rewrite resolve_none, H2. Qed.

  Lemma open_none f p : has_nul p = false -> f p = None -> os_open E f p = None.
  Proof. intros H1 H2. unfold os_open. now rewrite stat_none. Qed.

  Definition made (w : world) (a : path) : world :=
    let w := set_wlha (set_archive a (w_lha w)) w in
    W (fs_set tmp (Some (NFile [])) (w_fs w)) (OCreate tmp tmp :: w_ops w) (w_glob w) (w_verify w) (w_stdin w) (w_lha w) (w_out w).

  Lemma add_command_single append a name w o w1 c : fresh_add a name w ->
    append name None (made w a) = Done o w1 -> same_but tmp (made w a) w1 -> w_fs w1 tmp = Some (NFile c) ->
    exists w', add_command E append a w = Done false w' /\ w_glob w' = w_glob w1 /\ w_lha w' = set_archive a (w_lha w) /\
      w_fs w' a = Some (NFile (c ++ [0])) /\ w_fs w' tmp = None /\ (forall q, q <> a -> q <> tmp -> w_fs w' q = w_fs w q).
  Proof.
    intros [F1 F2 F3 F4 F5 F6 F7 F8 F9 F10 F11 F12 F13 F14] HA HS HC. unfold add_command. istep. istep.
    set (w0 := set_wlha (set_archive a (w_lha w)) w). set (l := w_lha w0).
    change (l_update l) with (l_update (w_lha w)). change (l_filec l) with (l_filec (w_lha w)). change (l_noexec l) with (l_noexec (w_lha w)).
    rewrite F1, F2, F8. change (1 =? 0) with false. cbn [negb andb]. istep. cbv zeta.
    change (w_fs w0) with (w_fs w). rewrite open_none by assumption. cbn [andb]. istep.
    unfold os_createtemp. istep. change (w_fs w0 (e_tmp E)) with (w_fs w (e_tmp E)). fold tmp. rewrite F11.
    rewrite bind_assoc. rewrite (bindIO_done (emit (OCreate tmp tmp)) _ w0 tt (made w a) eq_refl). istep. cbn [negb]. istep.
    assert (AF : add_files append (Z.to_nat 1) 0 None (made w a) = Done o w1).
    { change (Z.to_nat 1) with 1%nat. cbn [add_files]. istep. change (w_lha (made w a)) with l.
      change (l_filec l) with (l_filec (w_lha w)). change (l_filev l) with (l_filev (w_lha w)). change (l_exclude l) with (l_exclude (w_lha w)). rewrite F8, F7, F3.
      change (0 <? 1) with true. cbv iota. change (nth_error [name] (Z.to_nat 0)) with (Some name). cbv iota.
      change (l_archive l) with a. apply list_eqb_neq in F9. rewrite F9. rewrite (bindIO_done _ _ _ _ _ HA). reflexivity. }
    rewrite (bindIO_done _ _ _ _ _ AF). istep.
    destruct (append_run tmp [0] c w1 HC) as [w2 [R2 [S2 [G2 C2]]]]. rewrite (bindIO_done _ _ _ _ _ R2), bind_backup.
    pose proof (sb_trans _ _ _ _ HS S2) as S3.
    assert (A2 : w_fs w2 a = None).
    { rewrite (sb_fs _ _ _ S3) by congruence. cbn [made w_fs set_wlha]. rewrite fs_set_other by congruence. exact F10. }
    unfold os_rename. istep. rewrite F14, F13. cbn [orb]. rewrite C2, A2. rewrite bind_assoc.
    set (w3 := W (run_op (ORename tmp a) (w_fs w2)) (ORename tmp a :: w_ops w2) (w_glob w2) (w_verify w2) (w_stdin w2) (w_lha w2) (w_out w2)).
    rewrite (bindIO_done (emit (ORename tmp a)) _ w2 tt w3 eq_refl). istep. cbn [negb]. istep.
    assert (L3 : w_lha w3 = set_archive a (w_lha w)) by (cbn [w3 w_lha]; rewrite (sb_lha _ _ _ S3); reflexivity).
    rewrite L3. change (l_delete (set_archive a (w_lha w))) with (l_delete (w_lha w)). rewrite F4. istep.
    exists w3. split; [reflexivity|]. split; [exact G2|]. split; [exact L3|]. cbn [w3 w_fs run_op].
    split; [rewrite fs_set_other by congruence; rewrite fs_set_same; exact C2|]. split; [apply fs_set_same|].
    intros q Q1 Q2. rewrite !fs_set_other by assumption. rewrite (sb_fs _ _ _ S3) by assumption. cbn [made w_fs set_wlha]. now rewrite fs_set_other.
  Qed.

  Lemma append_new_none h inp w w' : l_noexec (w_lha w) = false -> addOne E h inp w = Done tt w' -> append_new E None h inp w = Done None w'.
  Proof.
    intros H1 H2. unfold append_new. istep. istep. istep. istep. cbn [orb]. rewrite H1. rewrite (bindIO_done _ _ _ _ _ H2). reflexivity.
  Qed.
End Single.

(** The header made for a regular file or a byte slice. *)
Lemma mode_plain perm : 0 <= perm < 512 -> isSymlinkMode (u16 (perm + 33000)) = false /\ 0 <= u16 (perm + 33000) < 2 ^ 16 /\
  Z.land (u16 (perm + 33000)) UnixFileTypemask = UnixFileRegular.
Proof.
  intros H. assert (X : forallb (fun p => negb (isSymlinkMode (u16 (p + 33000))) && (Z.land (u16 (p + 33000)) UnixFileTypemask =? UnixFileRegular)) (map Z.of_nat (List.seq 0 512)) = true) by (vm_compute; reflexivity).
  rewrite forallb_forall in X. specialize (X perm). rewrite andb_true_iff, negb_true_iff, Z.eqb_eq in X.
  assert (I : In perm (map Z.of_nat (List.seq 0 512))).
  { apply in_map_iff. exists (Z.to_nat perm). split; [apply Z2Nat.id; lia|]. apply List.in_seq. lia. }
  destruct (X I) as [X1 X2]. split; [exact X1|]. split; [|exact X2]. change (2 ^ 16) with 65536. apply u16_range.
Qed.

(** A name of an entry that level 0 can hold. *)
Definition plain_name (nm : list Z) : Prop := zlen nm <= 221 /\ Forall (fun c => 0 < c < 256 /\ c <> 92 /\ c <> 47) nm.

Lemma copy_name nm : zlen nm <= 221 -> copy (zeros FilenameLength) nm = nm ++ zeros (FilenameLength - zlen nm).
Proof.
  intros H. pose proof (zlen_nonneg nm). unfold copy. assert (Z : zlen (zeros FilenameLength) = FilenameLength) by reflexivity. rewrite Z.
  rewrite Z.min_r by (unfold FilenameLength; lia). rewrite take_zlen. f_equal. unfold drop, zeros. unfold zlen in *.
  replace (Z.to_nat FilenameLength) with (Z.to_nat (Z.of_nat (length nm)) + Z.to_nat (FilenameLength - Z.of_nat (length nm)))%nat by (unfold FilenameLength; lia).
  rewrite repeat_app, skipn_app, repeat_length, Nat.sub_diag, skipn_all2; [reflexivity|]. rewrite repeat_length. lia.
Qed.

Lemma initHeader_plain E l f name size mtime : (forall p, 0 <= e_perm E p < 512) -> l_level l = 0 -> plain_name (Base name) ->
  0 <= size < 2 ^ 32 -> 0 <= mtime < 2 ^ 32 -> plain (initHeader_file E l f name size mtime) (Base name).
Proof.
  intros Hp Hl [L F] Hs Ht. unfold initHeader_file.
  set (perm := match stat f name with SNode _ => e_perm E name | _ => 511 end).
  assert (P : 0 <= perm < 512) by (unfold perm; destruct (stat f name); try lia; apply Hp).
  destruct (mode_plain perm P) as [M1 [M2 _]]. constructor; cbn [HeaderLevel Name Method PackedSize OriginalSize Attribute Crc UnixLastModifiedStamp UnixMode UnixUID UnixGid
    set_UnixMode set_UnixGid set_UnixUID set_Stamp set_ExtendType set_Crc set_Name set_HeaderLevel set_Attribute set_OriginalSize set_PackedSize set_Method NewLzHeader]; try assumption; try lia.
  - now rewrite Hl.
  - exists (FilenameLength - zlen (Base name)). now apply copy_name.
  - eapply Forall_impl; [|exact F]. cbv beta. lia.
  - split; [reflexivity|]. repeat constructor; lia.
  - unfold genericAttribute. lia.
  - change (2 ^ 16) with 65536. apply u16_range.
  - change (2 ^ 16) with 65536. apply u16_range.
Qed.

(** ** Reading an archive with one entry *)

Lemma open_file E f p c : p <> [] -> has_nul p = false -> f p = Some (NFile c) -> e_readable E p = true -> os_open E f p = Some c.
Proof.
  intros H0 H1 H2 H3. unfold os_open, stat. rewrite H1. destruct p as [|x p]; [contradiction|]. unfold follow. cbn [resolve]. rewrite H2, H2, H3. reflexivity.
Qed.

Lemma traversal_plain nm : Forall (fun c => c <> 47) nm -> forall st, traversal st (nm ++ [0]) = false.
Proof.
  induction 1 as [|c nm Hc F IH]; intros st; cbn [app traversal].
  - destruct (st =? 0); [reflexivity|]. destruct (st =? 1); [reflexivity|]. destruct (st =? 2); reflexivity.
  - apply Z.eqb_neq in Hc. rewrite Hc, !IH. destruct (st =? 0); [reflexivity|]. destruct (st =? 1); [reflexivity|]. destruct (st =? 2); reflexivity.
Qed.

Lemma last_index_none c l : Forall (fun x => x <> c) l -> forall i r, last_index c l i r = r.
Proof. induction 1 as [|x l Hx F IH]; intros i r; cbn [last_index]; [reflexivity|]. apply Z.eqb_neq in Hx. now rewrite Hx. Qed.

Lemma find_byte_none c l : Forall (fun x => x <> c) l -> forall i, find_byte c l i = None.
Proof. induction 1 as [|x l Hx F IH]; intros i; cbn [find_byte]; [reflexivity|]. apply Z.eqb_neq in Hx. now rewrite Hx. Qed.

Lemma Forall_app1 {A} (P : A -> Prop) l x : Forall P l -> P x -> Forall P (l ++ [x]).
Proof. intros. apply Forall_app. split; auto. Qed.

Lemma name_start_plain l h nm : l_ignoredir l = false -> Name h = nm ++ [0] -> Forall (fun c => c <> 47) nm -> name_start l h = Ok (Some (h, 0)).
Proof.
  intros H1 H2 F. assert (F' : Forall (fun c => c <> 47) (nm ++ [0])) by (apply Forall_app1; [exact F|discriminate]).
  unfold name_start. rewrite H2, H1. unfold LastIndex. rewrite last_index_none by exact F'. change (-1 =? -1) with true. cbv iota.
  change (drop 0 (nm ++ [0])) with (nm ++ [0]). unfold isDirectoryTraversal. rewrite traversal_plain by exact F.
  change (Z.to_nat 0) with 0%nat. destruct nm as [|c nm]; cbn [app nth_error]; [reflexivity|]. inversion F as [|? ? X]; subst. apply Z.eqb_neq in X. rewrite X. reflexivity.
Qed.

Lemma pathcheck_plain l f nm : l_extractdir l = [] -> Forall (fun c => c <> 47) nm -> makeNameWithPathcheck l f (nm ++ [0]) = Ok (Some nm).
Proof.
  intros H F. assert (F' : Forall (fun c => c <> 47) (nm ++ [0])) by (apply Forall_app1; [exact F|discriminate]).
  unfold makeNameWithPathcheck. rewrite H. unfold Index47. rewrite find_byte_none by exact F'. cbn [pathcheck_loop]. change (-1 =? -1) with true. cbv iota. cbn [bind].
  change (0 =? 0) with true. cbv iota. unfold subslice. rewrite zlen_app. change (zlen [0]) with 1. pose proof (zlen_nonneg nm).
  destruct (Z.leb_spec 0 0); [|lia]. destruct (Z.leb_spec 0 (zlen nm + 1 - 1)); [|lia]. destruct (Z.leb_spec (zlen nm + 1 - 1) (zlen nm + 1)); [|lia]. cbn [andb bind].
  change (drop 0 (nm ++ [0])) with (nm ++ [0]). rewrite take_app by lia. reflexivity.
Qed.

(** What is in the archive: a header [h], the packed data, and the end mark. *)
Section Read.
  Variable E : env.
  Variable h : hdr.
  Variable nm data : list Z.
  Hypothesis P : plain h nm.
  Hypothesis Hnm : Forall (fun c => c <> 92 /\ c <> 47) nm.
  Hypothesis Hreg : Z.land (UnixMode h) UnixFileTypemask = UnixFileRegular.
  Let e := entry_of (e_stamp E) h nm.

  Lemma e_names : slash_back (e_name e) = nm.
  Proof. unfold e. cbn [entry_of e_name]. apply slash_back_to; [eapply Forall_impl; [|exact (pl_nm _ _ P)]; cbv beta; lia|eapply Forall_impl; [|exact Hnm]; cbv beta; tauto]. Qed.

  Lemma get_single h0 rest : zlen (Method h0) >= 5 -> zlen (Name h0) > zlen nm -> GetHeader (e_opts E) h0 (layout0 e ++ rest) = Ok (ENil, true, read0 h0 e, rest).
  Proof.
    intros H1 H2. apply GetHeader_layout0; [now apply plain_legal|exact H1| |apply P].
    unfold e. cbn [entry_of e_name]. unfold to_backslash. rewrite zlen_map. exact H2.
  Qed.

  Lemma get_single_new rest : GetHeader (e_opts E) NewLzHeader (layout0 e ++ rest) = Ok (ENil, true, read0 NewLzHeader e, rest).
  Proof.
    apply get_single; [change (zlen (Method NewLzHeader)) with 5; lia|]. change (zlen (Name NewLzHeader)) with 1024. pose proof (pl_len _ _ P). lia.
  Qed.

  (** The decoder gives back [body]. *)
  Variable method : Z.
  Hypothesis Hmeth : method_num (Method h) = Some method.
  Hypothesis Hdir : method <> LzhdirsMethodNum.
  Variable body : list Z.

  Definition decodes (broken : bool) (g g2 : glob) : Prop :=
    DecodeLzhuf method broken (OriginalSize h) (PackedSize h) (data ++ [0]) g = Ok (g2, Crc h, body, PackedSize h, [0]).

  Lemma reg_read h0 : isRegular (read0 h0 e) = true.
  Proof. unfold isRegular. cbn [read0 UnixMode]. unfold e. cbn [entry_of e_mode]. rewrite Hreg. reflexivity. Qed.

  Lemma ndir : (method =? LzhdirsMethodNum) = false.
  Proof. now apply Z.eqb_neq. Qed.

  Theorem Headers_single w a g2 : w_fs w a = Some (NFile (layout0 e ++ data ++ [0])) -> a <> [] -> has_nul a = false -> e_readable E a = true ->
    w_lha w = NewLha a -> decodes false (w_glob w) g2 -> copied method = false \/ body = [] ->
    Headers E w = Done ([read0 NewLzHeader e], false) (set_wverify false (set_wglob g2 w)).
  Proof.
    intros Hf Ha Hn Hr Hl D HC. unfold Headers, with_verify. istep. istep.
    set (w1 := set_wverify true w). change (w_lha w1) with (w_lha w). change (w_fs w1) with (w_fs w). rewrite Hl. change (l_archive (NewLha a)) with a.
    rewrite (open_file E _ a _ Ha Hn Hf Hr).
    assert (N0 : exists n, length (layout0 e ++ data ++ [0]) = S n) by (unfold layout0; cbn [app length]; eauto).
    destruct N0 as [n ->]. cbn [headers_loop]. rewrite get_single_new. istep. istep.
    change (w_lha w1) with (w_lha w). rewrite Hl. change (needFile (NewLha a) _) with true. cbv iota.
    set (r0 := read0 NewLzHeader e).
    assert (Nm : Name r0 = nm ++ [0]) by (unfold r0; cbn [read0 Name]; now rewrite e_names).
    assert (F : Forall (fun c => c <> 47) nm) by (eapply Forall_impl; [|exact Hnm]; cbv beta; tauto).
    assert (X : extractOne E r0 (data ++ [0]) w1 = Done (false, PackedSize h, r0, [0]) (set_wglob g2 w1)).
    { unfold extractOne. istep. istep. istep. change (w_lha w1) with (w_lha w). rewrite Hl.
      rewrite (name_start_plain (NewLha a) r0 nm) by (try reflexivity; assumption). istep. rewrite Nm. change (drop 0 (nm ++ [0])) with (nm ++ [0]).
      rewrite (pathcheck_plain (NewLha a)) by (try reflexivity; exact F). istep.
      change (Method r0) with (Method h). rewrite Hmeth. unfold r0 at 1. rewrite reg_read, ndir. cbn [negb andb].
      change (w_verify w1) with true. rewrite orb_true_r.
      change (l_macbin (NewLha a)) with false. rewrite andb_false_r. cbn [andb]. change (l_noexec (NewLha a)) with false. cbv iota.
      istep. change (l_stdout (NewLha a)) with false. cbv iota. change (printed [] w1) with w1.
      unfold run_decode. istep. istep. istep. change (w_glob w1) with (w_glob w). change (w_lha w1) with (w_lha w). rewrite Hl.
      change (l_broken (NewLha a)) with false. change (OriginalSize r0) with (OriginalSize h). change (PackedSize r0) with (PackedSize h).
      unfold decodes in D. rewrite D. istep. istep. istep. istep. change (HasCrc r0) with true. change (Crc r0) with (Crc h). rewrite Z.eqb_refl.
      assert (SH : (if w_verify w1 && negb (copied method) then [] else body) = []) by (destruct HC as [-> | ->]; [reflexivity|destruct (w_verify w1 && negb (copied method)); reflexivity]).
      rewrite SH. reflexivity. }
    rewrite (bindIO_done _ _ _ _ _ X). cbv iota. change (PackedSize r0) with (PackedSize h). rewrite Z.eqb_refl.
    change (GetHeader (e_opts E) NewLzHeader [0]) with (@Ok lev_res (ENil, false, NewLzHeader, [])). istep. reflexivity.
  Qed.

  Theorem DecompresBytes_single w a g2 header : w_fs w a = Some (NFile (layout0 e ++ data ++ [0])) -> a <> [] -> has_nul a = false -> e_readable E a = true ->
    archiveIsMsdosSfx1 a = false -> l_archive (w_lha w) = a -> l_noexec (w_lha w) = false -> w_verify w = false -> decodes (l_broken (w_lha w)) (w_glob w) g2 -> Name header = nm ++ [0] ->
    DecompresBytes E header w = Done (body, false) (set_wglob g2 (set_wlha (set_level 2 (w_lha w)) w)).
  Proof.
    intros Hf Ha Hn Hr Hs Hl Hx Hv D Hh. unfold DecompresBytes. istep. set (w1 := set_wlha (set_level 2 (w_lha w)) w).
    unfold open_archive. istep. istep. change (w_fs w1) with (w_fs w). change (l_archive (w_lha w1)) with (l_archive (w_lha w)). rewrite Hl.
    rewrite (open_file E _ a _ Ha Hn Hf Hr), Hs. istep.
    assert (N0 : exists n, length (layout0 e ++ data ++ [0]) = S n) by (unfold layout0; cbn [app length]; eauto).
    destruct N0 as [n ->]. cbn [extract_loop]. rewrite get_single_new. istep. cbn [negb]. set (r0 := read0 NewLzHeader e).
    assert (Nm : Name r0 = nm ++ [0]) by (unfold r0; cbn [read0 Name]; now rewrite e_names).
    unfold by_name. istep. rewrite Nm, Hh, list_eqb_refl.
    assert (X : extractOneStream r0 (data ++ [0]) w1 = Done (false, PackedSize h, body, [0]) (set_wglob g2 w1)).
    { unfold extractOneStream. change (Method r0) with (Method h). rewrite Hmeth. unfold r0 at 1. rewrite reg_read, ndir. cbn [negb andb].
      istep. change (l_noexec (w_lha w1)) with (l_noexec (w_lha w)). rewrite Hx.
      unfold run_decode. istep. istep. istep. change (w_glob w1) with (w_glob w). change (l_broken (w_lha w1)) with (l_broken (w_lha w)).
      change (w_verify w1) with (w_verify w). rewrite Hv.
      change (OriginalSize r0) with (OriginalSize h). change (PackedSize r0) with (PackedSize h).
      unfold decodes in D. rewrite D. istep. istep. istep. change (HasCrc r0) with true. change (Crc r0) with (Crc h). rewrite Z.eqb_refl. reflexivity. }
    unfold one_stream at 1. rewrite !bind_assoc. rewrite (bindIO_done _ _ _ _ _ X). istep. cbv iota. change (PackedSize r0) with (PackedSize h). rewrite Z.eqb_refl.
    change (GetHeader (e_opts E) r0 [0]) with (@Ok lev_res (ENil, false, r0, [])). istep. reflexivity.
  Qed.
End Read.
