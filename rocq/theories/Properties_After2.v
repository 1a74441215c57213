(** C124: -lh3- entries after an -lh2- entry. *)
From Verif Require Import Go GoLemmas M_Crc M_Bitio P_Bitio M_Maketree M_Maketbl M_Huf M_Dhuf M_Shuf M_Slide M_Larc M_Decode M_Lzhuf S_Header S_Listing M_Header M_Os M_Archive S_History S_Archive
  P_HufTables P_Header P_Accept P_List P_Os P_RoundTrip P_Single P_Read1 P_ExtractAll P_Verify Properties_Slide Properties_Archive Properties_Extract Properties_Listing Properties_Larc Properties_Lh5 Properties_Lh1 Properties_Damage.
From Verif Require Import S_Bits S_Huff S_Lz S_Lh1 S_Lh2 P_HufLens P_Dhuf P_DhKeep P_Lz P_Lh1 P_Lh2Dec P_Stream P_KeepN1 Properties_Lh2 Properties_Malformed.

Lemma for_past n : forall i (a : arr), 0 <= i <= alen a -> alen a < i + Z.of_nat n -> for_up n i (fun i t => aset t i 0) a = Panic.
Proof.
  induction n as [|n IH]; intros i a I N; [lia|]. cbn [for_up]. destruct (Z.eq_dec i (alen a)) as [->|NE].
  - rewrite aset_panic by lia. reflexivity.
  - rewrite aset_ok by lia. cbn [bind]. apply IH; rewrite alen_upd; lia.
Qed.

Lemma readTree_panic h r : alen (cLen h) = 510 -> rwf r -> readTreeC 512 h r = Panic.
Proof.
  intros L W. unfold readTreeC. match goal with |- context [loop ?f ?s ?i] => set (step := s); assert (X : loop f step i = Panic); [|rewrite X; reflexivity] end.
  change (Z.abs 512 + 2) with 514.
  assert (G : forall n i len r fuel, Z.of_nat n = 510 - i -> 0 <= i -> alen len = 510 -> rwf r -> 511 - i < fuel -> loop fuel step (i, len, r) = Panic).
  { clear h r L W. induction n as [|n IH]; intros i len r fuel N I L W F; rewrite loop_unfold by lia; unfold step at 1; (destruct (Z.ltb_spec i 512); [|lia]).
    - destruct (getbits_total 1 r W ltac:(lia)) as (b & r1 & E1 & _ & W1 & _). rewrite E1. cbn [bind].
      assert (V : exists v r2, (if b =? 0 then Ok (0, r1) else '(x, r) <- getbits 4 r1 ;; Ok (u8 (x + 1), r)) = Ok (v, r2)).
      { destruct (b =? 0); [eexists _, _; reflexivity|]. destruct (getbits_total 4 r1 W1 ltac:(lia)) as (x & r2 & E2 & _). rewrite E2. eexists _, _. reflexivity. }
      destruct V as (v & r2 & ->). cbn [bind]. rewrite aset_panic by lia. reflexivity.
    - destruct (getbits_total 1 r W ltac:(lia)) as (b & r1 & E1 & _ & W1 & _). rewrite E1. cbn [bind].
      assert (V : exists v r2, (if b =? 0 then Ok (0, r1) else '(x, r) <- getbits 4 r1 ;; Ok (u8 (x + 1), r)) = Ok (v, r2) /\ rwf r2).
      { destruct (b =? 0); [eexists _, _; split; [reflexivity|exact W1]|]. destruct (getbits_total 4 r1 W1 ltac:(lia)) as (x & r2 & E2 & _ & W2 & _). rewrite E2. eexists _, _. split; [reflexivity|exact W2]. }
      destruct V as (v & r2 & -> & W2). cbn [bind]. rewrite aset_ok by lia. cbn [bind]. set (len' := upd len i v). assert (L' : alen len' = 510) by (unfold len'; rewrite alen_upd; exact L).
      rewrite !aget_ok by lia. cbn [bind]. destruct ((i + 1 =? 3) && (at_ len' 0 =? 1) && (at_ len' 1 =? 1) && (at_ len' 2 =? 1)).
      + destruct (getbits_total cbit r2 W2 ltac:(unfold cbit; lia)) as (c & r3 & E3 & _). rewrite E3. cbn [bind].
        unfold forZ. change (Z.to_nat (512 - 0)) with 512%nat. rewrite for_past by (rewrite L'; lia). reflexivity.
      + cbn [bind]. apply IH; [lia|lia|exact L'|exact W2|lia]. }
  apply (G 510%nat); [lia|lia|exact L|exact W|lia].
Qed.

(** Any -lh3- data panic at the first block when [n1] is 512. *)
Lemma lh3_panic g size packed inp : k_n1 (g_dh g) = 512 -> blocksize (g_huf g) = 0 -> alen (cLen (g_huf g)) = 510 -> 0 < size -> 0 <= packed -> bytes inp ->
  DecodeLzhuf 3 false size packed inp g = Panic.
Proof.
  intros N1 B0 L S P B. unfold DecodeLzhuf. change (dec_dicbit 3) with (@None Z). cbv iota. unfold decode_old, decodeMethodStart. cbv zeta. change (3 =? 1) with false. change (3 =? 2) with false. change (3 =? 3) with true. cbv iota.
  assert (W0 : rwf (RS 0 0 0 packed inp)) by (constructor; simpl; auto; lia).
  unfold initGetbits. destruct (fillbuf_total 16 _ W0 ltac:(lia)) as (r & E & W & _). rewrite E. unfold decodeStartSt0. cbn [bind].
  match goal with |- context [loop ?f ?s ?i] => assert (X : loop f s i = Panic); [|rewrite X; reflexivity] end.
  apply loop_unfold_panic; [lia|]. unfold old_step. cbn [d_count]. destruct (Z.ltb_spec 0 size); [|lia].
  unfold decodeMethodC. change (3 =? 1) with false. change (3 =? 2) with false. change (3 =? 3) with true. cbn [orb d_huf d_r x_dh]. change (k_n1 (set_nMax 286 (g_dh g))) with (k_n1 (g_dh g)). rewrite N1.
  unfold decodeCSt0. change (blocksize (set_np 128 (g_huf g))) with (blocksize (g_huf g)). rewrite B0. change (0 =? 0) with true. cbv iota.
  unfold block_head. destruct (getbits_total 16 r W ltac:(lia)) as (b & r1 & E1 & _ & W1 & _). rewrite E1. cbn [bind].
  rewrite readTree_panic; [reflexivity|exact L|exact W1].
Qed.

(** Once any -lh2- data were decoded in a process, decoding -lh3- data panics, whatever
    the data are: startCDyn left 512 in [n1], and the table of lengths has 510 places. *)
Theorem C124_lh3_data_after_lh2_refuted :
  forall broken size2 packed2 inp2 g crc out n rest size packed inp,
    DecodeLzhuf 2 broken size2 packed2 inp2 glob0 = Ok (g, crc, out, n, rest) ->
    0 < size -> 0 <= packed -> bytes inp -> DecodeLzhuf 3 false size packed inp g = Panic.
Proof.
  intros broken size2 packed2 inp2 g crc out n rest size packed inp E S P B.
  destruct (lh2_leaves _ _ _ _ _ _ _ _ _ _ E) as (N & H & _).
  apply lh3_panic; [exact N|rewrite H; reflexivity|rewrite H; reflexivity|exact S|exact P|exact B].
Qed.

(** An -lh2- entry is taken out of an archive by a new process, as it should be.  After
    that the process panics when it takes any -lh3- entry that is not empty out of any
    archive, and when it asks for the headers of an archive that starts with one. *)
Theorem C124_lh3_after_lh2_refuted :
  forall E w a e dir base header data body,
    reader E a w -> w_glob w = glob0 -> w_fs w a = Some (NFile (archive_bytes [(e, data)])) ->
    file_entry e -> named e dir base -> asks_for header (dir ++ base) -> bytes data ->
    lh2_entry 31 e data body -> zlen body <= 1856 ->
    exists w', DecompresBytes E header w = Done (body, false) w' /\
      forall E2 w2 a2 e2 dir2 base2 header2 rest,
        w_glob w2 = w_glob w' -> reader E2 a2 w2 -> w_fs w2 a2 = Some (NFile (layout0 e2 ++ rest)) ->
        file_entry e2 -> named e2 dir2 base2 -> asks_for header2 (dir2 ++ base2) ->
        e_method e2 = [45; 108; 104; 51; 45] -> 0 < e_original e2 -> bytes rest ->
        (exists w3, DecompresBytes E2 header2 w2 = Crash w3) /\ (exists w3, Headers E2 w2 = Crash w3).
Proof.
  intros E w a e dir base header data body R G Hf FE ND Hh B (ts & pad & HM & OK & EB & HP & P1 & P2 & P3 & P4) HL.
  unfold archive_bytes in Hf. cbn [flat_map fst snd] in Hf. rewrite app_nil_r, <- app_assoc in Hf.
  assert (B2 : bytes (data ++ [0])) by (apply Forall_app; split; [exact B|constructor; [unfold is_byte; lia|constructor]]).
  assert (MN : method_num (e_method e) = Some 2) by (rewrite HM; reflexivity). rewrite P3 in HL.
  assert (A : after [] (w_glob w)) by (rewrite G; split; [constructor|reflexivity]).
  destruct (lh2_decodes (w_glob w) ts data [0] pad (after_sz _ _ A) (after_blank _ _ A (Forall_nil _)) OK HL B2 EB HP) as [g2 X].
  assert (EO : e_original e = zlen (lz_expand ts)) by congruence. rewrite <- EO, <- P1 in X.
  destruct (stream_any E e dir base 2 header w a (data ++ [0]) g2 _ _ _ _ FE ND MN ltac:(discriminate) Hf R Hh X) as [k Z0].
  rewrite Z0, P4, P3, !Z.eqb_refl. cbn [negb]. rewrite loop_end. eexists. split; [reflexivity|].
  clear Z0 Hf Hh R FE ND. rewrite G in X. intros E2 w2 a2 e2 dir2 base2 header2 rest G2 R Hf FE ND Hh HM2 EO2 BR.
  cbn [w_glob set_wglob] in G2.
  assert (EP : 0 <= e_packed e2) by (apply FE).
  assert (D : DecodeLzhuf 3 false (e_original e2) (e_packed e2) rest (w_glob w2) = Panic).
  { rewrite G2. eapply C124_lh3_data_after_lh2_refuted; [exact X|exact EO2|exact EP|exact BR]. }
  assert (HM3 : method_num (e_method e2) = Some 3) by (rewrite HM2; reflexivity).
  assert (HD : 3 <> LzhdirsMethodNum) by (unfold LzhdirsMethodNum; lia).
  split.
  - rewrite (DecompresBytes_open E2 header2 w2 a2 _ Hf R). set (w1 := set_wlha (set_level 2 (NewLha a2)) w2).
    destruct (layout_fuel e2 rest) as [k2 Hk]. rewrite Hk.
    rewrite (loop_entry E2 e2 FE). unfold by_name at 1. rewrite bind_ret.
    unfold asks_for in Hh. rewrite (r0_name e2 FE dir2 base2 ND), Hh, list_eqb_refl. unfold one_stream at 1.
    assert (EX : exists w3, extractOneStream (read0 NewLzHeader e2) rest w1 = Crash w3).
    { unfold extractOneStream. change (Method (read0 NewLzHeader e2)) with (e_method e2). rewrite HM3, (r0_reg e2 FE). apply Z.eqb_neq in HD. rewrite HD. cbn [negb andb].
      istep. change (l_noexec (w_lha w1)) with false. cbv iota. unfold run_decode. istep. istep. istep. change (l_broken (w_lha w1)) with false.
      change (OriginalSize (read0 NewLzHeader e2)) with (e_original e2). change (PackedSize (read0 NewLzHeader e2)) with (e_packed e2). change (w_glob w1) with (w_glob w2). rewrite D. eexists. reflexivity. }
    destruct EX as [w3 EX]. exists w3. rewrite bind_assoc. unfold bindIO at 1. rewrite EX. reflexivity.
  - pose proof R as [Hl Hv Ha Hr Hs]. rewrite (open_headers E2 a2 w2 _ R Hf). cbn [headers_loop]. rewrite (fe_get_new E2 e2 FE). istep. istep. set (w1 := set_wverify true w2).
    assert (L1 : w_lha w1 = NewLha a2) by exact Hl.
    rewrite L1. change (needFile (NewLha a2) (Name (read0 NewLzHeader e2))) with true. cbv iota.
    destruct (test_crash E2 NewLzHeader e2 dir2 base2 3 w1 rest FE ND HM3 HD) as [w3 Y]; rewrite ?L1; auto.
    exists (set_wverify false w3). unfold bindIO at 1. rewrite Y. reflexivity.
Qed.

(** The -lh2- entry is the one of Properties_Lh2.v. *)
Definition ex_lh3_later : entry0 := E0 [45; 108; 104; 51; 45] 6 3 0 32 [121] 60465 0 1000000 33188 0 0.
Example C124_example :
  file_entry ex_lh2_2 /\ named ex_lh2_2 [] [122] /\ lh2_entry 31 ex_lh2_2 ex_lh2_data2 (lz_expand ex_lh2_items2) /\
  file_entry ex_lh3_later /\ named ex_lh3_later [] [121] /\ asks_for (read0 NewLzHeader ex_lh3_later) [121] /\ 0 < e_original ex_lh3_later.
Proof.
  destruct C110_example as (A & B & C & _). split; [exact A|]. split; [exact B|]. split; [exact C|].
  split. { constructor; [constructor; cbn; try lia; split; auto; repeat constructor; lia|cbn; lia|reflexivity]. }
  split. { constructor; [reflexivity|now left|split; [discriminate|cbn; lia]]. }
  split; [reflexivity|cbn; lia].
Qed.

Print Assumptions C124_lh3_data_after_lh2_refuted.
Print Assumptions C124_lh3_after_lh2_refuted.
Print Assumptions C124_example.
