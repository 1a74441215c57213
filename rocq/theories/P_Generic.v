(** Writing level 0 headers in the generic format: without an area after the CRC. *)
From Verif Require Import Go GoLemmas M_Crc M_Bitio P_Bitio M_Maketree M_Maketbl M_Huf M_Slide M_Lzhuf S_Header S_Listing S_Level0 M_Header M_Os M_Archive S_History S_Archive
  P_Header P_Level0 P_Os P_Single.

(** The entry of S_Level0 written for a header object. *)
Definition entry_gen (stamp : Z -> Z) (h : hdr) (nm : list Z) : entryl :=
  EL (Method h) (PackedSize h) (OriginalSize h) (stamp (UnixLastModifiedStamp h) mod 2 ^ 32) (Attribute h) (to_backslash nm) (Crc h) [].

Lemma gen_legal stamp h nm : plain h nm -> legall (entry_gen stamp h nm).
Proof.
  intros P. destruct (plain_legal stamp h nm P) as [? ? ? ? ? [L B] ? ? ? ? ? ?].
  constructor; cbn [entry_gen y_method y_packed y_original y_dostime y_attr y_name y_crc y_area]; try assumption.
  - split; [cbn [entry_of e_name] in L; cbn [length]; lia|exact B].
  - constructor.
Qed.

Lemma gen_write o stamp h nm : GenericFormat o = true -> ConvertCase o = false -> plain h nm -> WriteHeader o stamp h = Ok (Some (layoutl (entry_gen stamp h nm))).
Proof.
  intros Ho Hc P. pose proof (gen_legal stamp h nm P) as L. destruct P as [Hl [k Hn] Fn LN' [LM' FM] ? ? ? ? ? ? Hs ? ?].
  destruct L as [[LM BM] ? ? ? ? [LN BN] ? ?]. cbn [entry_gen y_method y_packed y_original y_dostime y_attr y_name y_crc y_area] in *. pose proof (zlen_nonneg nm) as N0.
  unfold WriteHeader. rewrite Ho, Hc, Hl, Hs. cbn [andb]. change (0 =? 0) with true. cbv iota.
  unfold convertFilename. change ((none =? codeSJIS) && (none =? toLower)) with false. cbn [andb]. cbv iota.
  rewrite Hn in *. rewrite <- app_assoc, map_app.
  assert (Bnm : Forall (fun c => 0 <= c < 256) nm) by (eapply Forall_impl; [|exact Fn]; cbv beta; lia).
  rewrite (conv_slash nm) by exact Bnm. set (z := zeros k).
  assert (Hz : hd 0 z = 0) by (unfold z, zeros; destruct (Z.to_nat k); reflexivity).
  assert (Hz' : hd 0 (map (conv_byte [47] [92] none) (z ++ [0])) = 0) by (destruct z as [|y z]; [reflexivity|cbn in Hz; subst; reflexivity]).
  unfold writeHeaderLevel0. rewrite Ho, Hl. cbv iota.
  unfold putBytes at 1. rewrite LM'. change (5 <=? 5) with true. cbv iota. cbn [bind].
  rewrite (take_all 5) by lia.
  assert (NZ : Forall (fun c => c <> 0) (to_backslash nm)).
  { unfold to_backslash. clear -Fn. induction Fn as [|x l Hx F IH]; cbn [map]; constructor; [|exact IH]. destruct (x =? 47); lia. }
  rewrite cstrlen_app by (exact NZ || exact Hz').
  assert (LB : zlen (to_backslash nm) = zlen nm) by (unfold to_backslash; apply zlen_map).
  rewrite LB. destruct (Z.ltb_spec 233 (zlen nm)); [lia|].
  unfold putBytes. rewrite zlen_app, LB. pose proof (zlen_nonneg (map (conv_byte [47] [92] none) (z ++ [0]))).
  destruct (Z.leb_spec (zlen nm) (zlen nm + zlen (map (conv_byte [47] [92] none) (z ++ [0])))); [|lia]. cbn [bind].
  rewrite take_app by exact LB. set (bs := to_backslash nm) in *. cbv zeta.
  set (body := (Method h ++ _)).
  assert (EB : body = bodyl (entry_gen stamp h nm)).
  { unfold body, bodyl, entry_gen. fold bs. cbn [y_method y_packed y_original y_dostime y_attr y_name y_crc y_area].
    rewrite !le32_put, !le16_put, le32_mod. rewrite (u8_id (Attribute h)) by lia. change (u8 0) with 0.
    fold (zlen bs). rewrite LB. rewrite (u8_id (zlen nm)) by lia. rewrite app_nil_r. repeat (rewrite <- !app_assoc || cbn [app]). reflexivity. }
  rewrite EB. set (e := entry_gen stamp h nm).
  assert (LE : zlen (bodyl e) = 22 + zlen nm).
  { unfold e. rewrite bodyl_len by exact LM. cbn [entry_gen y_name y_area]. fold bs. rewrite LB, zlen_nil. lia. }
  replace (24 + zlen nm - 2) with (zlen (bodyl e)) by lia.
  rewrite u8_id by lia. rewrite calcSum_sum. rewrite (drop_app 2 [0; 0]) by reflexivity. rewrite take_zlen.
  rewrite u8_id by (apply Z.mod_pos_bound; lia). cbn [bind]. reflexivity.
Qed.

Lemma gen_size stamp h nm : plain h nm -> zlen (layoutl (entry_gen stamp h nm)) = 24 + zlen nm.
Proof.
  intros P. destruct (gen_legal stamp h nm P) as [[L _] _ _ _ _ _ _ _]. unfold layoutl. rewrite !zlen_cons.
  rewrite bodyl_len by exact L. cbn [entry_gen y_name y_area]. unfold to_backslash. rewrite zlen_map, zlen_nil. lia.
Qed.

Section Gen.
  Variable E : env.
  Hypothesis Hgen : GenericFormat (e_opts E) = true.
  Hypothesis Hcase : ConvertCase (e_opts E) = false.
  Let tmp := e_tmp E.
  Let hd0 h nm := layoutl (entry_gen (e_stamp E) h nm).

  Lemma gen_packed h nm body c w eo : plain h nm -> OriginalSize h <> 0 -> w_fs w tmp = Some (NFile c) ->
    EncodeLzhuf (l_method (w_lha w)) (OriginalSize h) body (w_glob w) = Ok eo -> eo_packed eo < eo_original eo ->
    plain (packed_hdr h eo) nm ->
    exists w', addOne E h body w = Done tt w' /\ same_but tmp w w' /\ w_glob w' = eo_glob eo /\
      w_fs w' tmp = Some (NFile (write_at 0 (hd0 (packed_hdr h eo) nm) (c ++ hd0 h nm ++ eo_out eo))).
  Proof.
    intros P Ho Hc HE Hlt P'. unfold addOne. rewrite (gen_write _ _ h nm Hgen Hcase P). istep. cbn [put_header].
    destruct (append_run tmp (layoutl (entry_gen (e_stamp E) h nm)) c w Hc) as [w1 [R1 [S1 [G1 C1]]]].
    fold tmp. rewrite (bindIO_done _ _ _ _ _ R1). destruct (Z.eqb_spec (OriginalSize h) 0) as [X|_]; [contradiction|].
    unfold run_encode. istep. istep. rewrite (sb_lha _ _ _ S1), G1, HE. istep. istep. istep.
    set (w2 := set_wglob (eo_glob eo) w1). assert (C2 : w_fs w2 tmp = Some (NFile (c ++ hd0 h nm))) by exact C1.
    assert (S2 : same_but tmp w w2) by (eapply sb_trans; [exact S1|constructor; auto]).
    destruct (append_run tmp (eo_out eo) _ w2 C2) as [w3 [R3 [S3 [G3 C3]]]]. rewrite (bindIO_done _ _ _ _ _ R3). cbv zeta.
    destruct (Z.ltb_spec (eo_packed eo) (eo_original eo)) as [_|X]; [|lia].
    istep. fold (packed_hdr h eo). rewrite (gen_write _ _ _ nm Hgen Hcase P'). istep. cbn [put_header].
    destruct (emit_write tmp 0 (hd0 (packed_hdr h eo) nm) _ w3 C3) as [w4 [R4 [S4 [G4 C4]]]]. exists w4. unfold hd0 in R4. fold tmp.
    split; [exact R4|]. split; [eapply sb_trans; [eapply sb_trans; [exact S2|exact S3]|exact S4]|]. split; [rewrite G4, G3; reflexivity|].
    rewrite C4, <- app_assoc. reflexivity.
  Qed.

  Lemma gen_overwrite h h' nm rest : plain h nm -> plain h' nm -> write_at 0 (hd0 h' nm) (hd0 h nm ++ rest) = hd0 h' nm ++ rest.
  Proof.
    intros P P'. unfold write_at. change (take 0 (hd0 h nm ++ rest)) with (@nil Z). cbn [app]. f_equal.
    unfold hd0. rewrite Z.add_0_l, (gen_size _ h' nm P'), <- (gen_size (e_stamp E) h nm P). now rewrite (drop_app _ _ _ eq_refl).
  Qed.
End Gen.
