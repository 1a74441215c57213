(** Reading the header of an entry whose name is longer than that of the entry before it,
    the header object being reused. *)
From Verif Require Import Go GoLemmas S_Header S_Listing M_Header P_Bitio P_Header.

(** The bytes from the name on. *)
Definition from_name (e : entry0) : list Z :=
  e_name e ++ le16 (e_crc e) ++ [85; e_minor e] ++ le32 (e_time e) ++ le16 (e_mode e) ++ le16 (e_uid e) ++ le16 (e_gid e).

(** What reading [e] into [h0] gives if there is room for [n] bytes of the name only. *)
Definition readcut (o : opts) (h0 : hdr) (n : Z) (e : entry0) : hdr :=
  let et := byte_at (from_name e) (n + 2) in
  HDR (zlen (layout0 e)) 2 (e_method e) (e_packed e) (e_original e) (e_attr e) 0
      (let low := if ConvertCase o then toLower else none in
       let fcase := if (et =? ExtendHuman) || (et =? ExtendOs68k) || (et =? ExtendXosk) || (et =? ExtendUnix) || (et =? ExtendJava) || (et =? ExtendMacos) || (et =? ExtendAmiga) then none else low in
       let '(from, to) := if et =? ExtendMacos then ([255; 47; 58; 92], [47; 58; 47; 47]) else ([255; 92], [47; 47]) in
       convertFilename (take n (e_name e) ++ zeros (zlen (e_name e) + 1 - n)) codeSJIS from to fcase)
      (Realname h0) (byte_at (from_name e) n + 256 * byte_at (from_name e) (n + 1)) true (HeaderCrc h0) et (MinorVersion h0) (e_dostime e)
      (Z.lor UnixFileRegular UnixRwRwRw) 0 0 (User h0) (Group h0).

Lemma GetHeader_cut o h0 e rest : legal0 e -> zlen (Method h0) >= 5 -> 0 < zlen (Name h0) <= zlen (e_name e) -> byte_at (from_name e) (zlen (Name h0) + 1) <> 85 ->
  GetHeader o h0 (layout0 e ++ rest) = Ok (ENil, true, readcut o h0 (zlen (Name h0) - 1) e, rest).
Proof.
  intros [[LM BM] ? ? ? ? [LN BN] ? ? ? ? ? ?] HM HN HU.
  assert (LB : zlen (body0 e) = 34 + zlen (e_name e)) by now apply body0_len.
  assert (LN' : 0 <= zlen (e_name e) <= 221) by (split; [apply zlen_nonneg|unfold zlen; lia]).
  assert (LM' : zlen (e_method e) = 5) by (unfold zlen; rewrite LM; reflexivity).
  unfold layout0. fold (zlen (body0 e)). set (hs := zlen (body0 e)) in *. set (cs := checksum (body0 e)). cbn [app].
  unfold GetHeader. destruct (Z.eqb_spec hs 0); [lia|].
  set (inp := cs :: body0 e ++ rest).
  assert (LI : zlen inp >= 21) by (unfold inp; rewrite zlen_cons, zlen_app; pose proof (zlen_nonneg rest); lia).
  rewrite read_first by exact LI. rewrite zlen_take_min by lia. rewrite Z.min_l by lia. change (20 =? 0) with false. cbv iota.
  assert (RT : take (hs + 2) (hs :: inp) = hs :: cs :: body0 e).
  { unfold inp. change (hs :: cs :: body0 e ++ rest) with ((hs :: cs :: body0 e) ++ rest). apply take_app. rewrite !zlen_cons. fold hs. lia. }
  assert (B20 : getByte (hs :: take 20 inp ++ zeros 4075) 20 = Ok (0, 21)).
  { assert (E : drop 20 (hs :: take 20 inp ++ zeros 4075) = 0 :: zeros 4075).
    { unfold inp, body0. replace (drop 20) with (drop (19 + 1)) by reflexivity. rewrite drop_drop1 by lia.
      assert (T : take 20 (cs :: (e_method e ++ le32 (e_packed e) ++ le32 (e_original e) ++ le32 (e_dostime e) ++ [e_attr e; 0; Z.of_nat (length (e_name e))] ++ e_name e ++ le16 (e_crc e) ++ [85; e_minor e] ++ le32 (e_time e) ++ le16 (e_mode e) ++ le16 (e_uid e) ++ le16 (e_gid e)) ++ rest)
              = (cs :: e_method e ++ le32 (e_packed e) ++ le32 (e_original e) ++ le32 (e_dostime e) ++ [e_attr e]) ++ [0]).
      { rewrite <- !app_assoc. cbn [app]. 
        replace (cs :: e_method e ++ le32 (e_packed e) ++ le32 (e_original e) ++ le32 (e_dostime e) ++ e_attr e :: 0 :: Z.of_nat (length (e_name e)) :: e_name e ++ le16 (e_crc e) ++ 85 :: e_minor e :: le32 (e_time e) ++ le16 (e_mode e) ++ le16 (e_uid e) ++ le16 (e_gid e) ++ rest)
          with ((cs :: e_method e ++ le32 (e_packed e) ++ le32 (e_original e) ++ le32 (e_dostime e) ++ [e_attr e; 0]) ++ Z.of_nat (length (e_name e)) :: e_name e ++ le16 (e_crc e) ++ 85 :: e_minor e :: le32 (e_time e) ++ le16 (e_mode e) ++ le16 (e_uid e) ++ le16 (e_gid e) ++ rest).
        2: { cbn [app]. rewrite <- !app_assoc. reflexivity. }
        rewrite take_app.
        - cbn [app]. rewrite <- !app_assoc. reflexivity.
        - rewrite zlen_cons, !zlen_app, LM'. reflexivity. }
      rewrite T. rewrite <- app_assoc. apply drop_app. rewrite zlen_cons, !zlen_app, LM'. reflexivity. }
    destruct (gb _ 20 _ _ ltac:(lia) E) as [G _]. exact G. }
  rewrite B20. cbn [bind]. change (0 =? 0) with true. cbv iota.
  rename n into HS0. set (n := zlen (Name h0) - 1) in *.
  assert (SP : exists x t, e_name e = take n (e_name e) ++ x :: t).
  { destruct (drop n (e_name e)) as [|x t] eqn:Q.
    - exfalso. assert (zlen (drop n (e_name e)) = 0) by (rewrite Q; reflexivity). rewrite zlen_drop_max in * by lia. lia.
    - exists x, t. rewrite <- Q. symmetry. apply take_drop. }
  destruct SP as (b0 & t & SP).
  assert (LT : zlen (take n (e_name e)) = n) by (rewrite zlen_take_min by lia; lia).
  assert (SQ : exists b1 b2 t2, from_name e = take n (e_name e) ++ b0 :: b1 :: b2 :: t2).
  { assert (FN : from_name e = (take n (e_name e) ++ b0 :: t) ++ le16 (e_crc e) ++ [85; e_minor e] ++ le32 (e_time e) ++ le16 (e_mode e) ++ le16 (e_uid e) ++ le16 (e_gid e)) by (rewrite <- SP; reflexivity).
    rewrite FN, <- app_assoc. cbn [app]. unfold le16 at 1. cbn [app].
    destruct t as [|b1 [|b2 t]]; cbn [app]; eexists _, _, _; reflexivity. }
  destruct SQ as (b1 & b2 & t2 & SQ).
  assert (NB : byte_at (from_name e) n = b0 /\ byte_at (from_name e) (n + 1) = b1 /\ byte_at (from_name e) (n + 2) = b2).
  { rewrite SQ. unfold byte_at. rewrite !app_nth2 by (unfold zlen in *; lia). unfold zlen in LT.
    replace (Z.to_nat n - length (take n (e_name e)))%nat with 0%nat by lia. replace (Z.to_nat (n + 1) - length (take n (e_name e)))%nat with 1%nat by lia. replace (Z.to_nat (n + 2) - length (take n (e_name e)))%nat with 2%nat by lia. auto. }
  destruct NB as (N0 & N1 & N2). replace (zlen (Name h0) + 1) with (n + 2) in HU by (unfold n; lia). rewrite N2 in HU.
  assert (GL : getHeaderLevel0 h0 (hs :: take 20 inp ++ zeros 4075) (drop 20 inp) =
    Ok (ENil, true, HDR (hs + 2) 2 (e_method e) (e_packed e) (e_original e) (e_attr e) 0 (take n (e_name e) ++ zeros (zlen (e_name e) + 1 - n)) (Realname h0)
      (b0 + 256 * b1) true (HeaderCrc h0) b2 (MinorVersion h0) (e_dostime e) (Z.lor UnixFileRegular UnixRwRwRw) 0 0 (User h0) (Group h0), rest)).
  { unfold getHeaderLevel0.
    assert (I1 : exists t, inp = cs :: t) by (eexists; reflexivity). destruct I1 as [t1 I1].
    destruct (gb (hs :: take 20 inp ++ zeros 4075) 0 hs (take 20 inp ++ zeros 4075) ltac:(lia) eq_refl) as [G0 D0]. rewrite G0. cbn [bind].
    assert (D0' : drop (0 + 1) (hs :: take 20 inp ++ zeros 4075) = cs :: (take 19 t1 ++ zeros 4075)) by (rewrite D0, I1; reflexivity).
    destruct (gb _ (0 + 1) _ _ ltac:(lia) D0') as [G1 _]. rewrite G1. cbn [bind].
    destruct (Z.leb_spec (hs + 2 - 21) 0); [lia|]. rewrite read_second by lia.
    rewrite RT. set (c := take (hs + 2 - 21) (drop 20 inp)).
    destruct (Z.eqb_spec (zlen c) 0) as [Q|Q].
    { exfalso. unfold c in Q. rewrite zlen_take_min, zlen_drop_max in Q by lia. lia. }
    rewrite calcSum_sum.
    set (data := (hs :: cs :: body0 e) ++ zeros (4096 - zlen (hs :: cs :: body0 e))).
    assert (SD : take hs (drop 2 data) = body0 e).
    { unfold data. change ((hs :: cs :: body0 e) ++ zeros (4096 - zlen (hs :: cs :: body0 e))) with ([hs; cs] ++ body0 e ++ zeros (4096 - zlen (hs :: cs :: body0 e))).
      rewrite drop_app by reflexivity. apply take_app. reflexivity. }
    rewrite SD. change (sumz (body0 e) mod 256) with cs. rewrite Z.eqb_refl. cbn [negb]. cbv iota.
    set (post := zeros (4096 - zlen (hs :: cs :: body0 e))) in *.
    assert (D2 : drop (0 + 1 + 1) data = e_method e ++ le32 (e_packed e) ++ le32 (e_original e) ++ le32 (e_dostime e) ++
       e_attr e :: 0 :: Z.of_nat (length (e_name e)) :: (e_name e ++ le16 (e_crc e) ++ 85 :: e_minor e :: le32 (e_time e) ++ le16 (e_mode e) ++ le16 (e_uid e) ++ le16 (e_gid e) ++ post)).
    { unfold data. change (0 + 1 + 1) with 2. change ((hs :: cs :: body0 e) ++ post) with ([hs; cs] ++ body0 e ++ post).
      rewrite drop_app by reflexivity. unfold body0. repeat (rewrite <- !app_assoc || cbn [app]). reflexivity. }
    destruct (gbs data _ _ (0 + 1 + 1) 5 (zlen (Method (set_HeaderSize hs (set_SizeFieldLength 2 h0)))) ltac:(lia) D2 LM' ltac:(cbn; lia)) as [G2 D3].
    rewrite G2. cbn [bind].
    destruct (gl32' _ _ _ _ D3 ltac:(npos) l0_packed) as [G3 D4]. rewrite G3. cbn [bind].
    destruct (gl32' _ _ _ _ D4 ltac:(npos) l0_original) as [G4 D5]. rewrite G4. cbn [bind].
    destruct (gl32' _ _ _ _ D5 ltac:(npos) l0_dostime) as [G5 D6]. rewrite G5. cbn [bind].
    destruct (gb' _ _ _ _ D6 ltac:(npos)) as [G6 D7]. rewrite G6. cbn [bind].
    destruct (gb' _ _ _ _ D7 ltac:(npos)) as [G7 D8]. rewrite G7. cbn [bind].
    destruct (gb' _ _ _ _ D8 ltac:(npos)) as [G8 D9]. rewrite G8. cbn [bind]. fold (zlen (e_name e)) in *.
    set (nl := zlen (e_name e)) in *. set (p := 0 + 1 + 1 + 5 + 4 + 4 + 4 + 1 + 1 + 1) in *.
    assert (D9' : drop p data = take n (e_name e) ++ b0 :: b1 :: b2 :: t2 ++ post).
    { rewrite D9. transitivity (from_name e ++ post); [unfold from_name; repeat (rewrite <- !app_assoc || cbn [app]); reflexivity|]. rewrite SQ, <- app_assoc. reflexivity. }
    assert (D9'' : drop p data = (take n (e_name e) ++ [b0]) ++ b1 :: b2 :: t2 ++ post) by (rewrite D9', <- app_assoc; reflexivity).
    assert (G9 : getBytes data p (nl + 1) (zlen (Name (set_HeaderSize hs (set_SizeFieldLength 2 h0)))) = Ok ((take n (e_name e) ++ [b0]) ++ zeros (nl - n), n + 1, p + (n + 1))).
    { unfold getBytes. destruct (Z.ltb_spec (nl + 1) 0); [lia|]. change (Name (set_HeaderSize hs (set_SizeFieldLength 2 h0))) with (Name h0). replace (zlen (Name h0)) with (n + 1) by (unfold n; lia). rewrite Z.min_r by lia.
      assert (LL : length (take n (e_name e) ++ [b0]) = Z.to_nat (n + 1)) by (rewrite app_length; cbn [length]; unfold zlen in LT; lia).
      rewrite <- LL. destruct (gn data _ _ p ltac:(unfold p; lia) D9'') as [G9 _]. rewrite G9. cbn [bind]. replace (nl + 1 - (n + 1)) with (nl - n) by lia.
      do 3 f_equal. unfold zlen. rewrite LL. lia. }
    rewrite G9. cbn [bind]. replace (n + 1 - 1) with n by lia.
    assert (S0 : set0 ((take n (e_name e) ++ [b0]) ++ zeros (nl - n)) n = Ok (take n (e_name e) ++ zeros (nl + 1 - n))).
    { unfold set0. rewrite !zlen_app, LT. change (zlen [b0]) with 1. pose proof (zlen_nonneg (zeros (nl - n))).
      destruct (Z.leb_spec 0 n); [|lia]. destruct (Z.ltb_spec n (n + 1 + zlen (zeros (nl - n)))); [|lia]. cbn [andb].
      rewrite <- app_assoc. rewrite take_app by exact LT. rewrite drop_add by lia. rewrite drop_app by exact LT. cbn [app]. do 2 f_equal.
      change (drop 1 (b0 :: zeros (nl - n))) with (zeros (nl - n)). unfold zeros. replace (Z.to_nat (nl + 1 - n)) with (S (Z.to_nat (nl - n))) by lia. reflexivity. }
    rewrite S0. cbn [bind].
    assert (D10 : drop (p + n) data = b0 :: b1 :: b2 :: t2 ++ post).
    { rewrite drop_add by (unfold p; lia). rewrite D9'. apply drop_app. exact LT. }
    replace (hs + 2 - nl - 24) with 12 by lia. change (12 <? 0) with false. cbv iota.
    replace (p + (n + 1) - 1) with (p + n) by lia.
    destruct (gw _ (p + n) _ _ _ ltac:(unfold p; lia) D10) as [G10 D11]. rewrite G10. cbn [bind]. change (12 =? 0) with false. cbv iota.
    unfold level0_ext. destruct (gb' _ _ _ _ D11 ltac:(npos)) as [G11 D12]. rewrite G11. cbn [bind].
    destruct (Z.eqb_spec b2 ExtendUnix) as [|_]; [contradiction|]. cbn [bind].
    f_equal. f_equal.
    - f_equal. unfold set_HeaderSize, set_ExtendType, set_Crc, set_HasCrc. cbn [HeaderSize SizeFieldLength Method PackedSize OriginalSize Attribute HeaderLevel Name Realname Crc HasCrc HeaderCrc ExtendType MinorVersion UnixLastModifiedStamp UnixMode UnixUID UnixGid User Group set_UnixUID set_UnixGid set_UnixMode set_Name set_HeaderLevel set_Attribute set_Stamp set_OriginalSize set_PackedSize set_Method set_SizeFieldLength].
      f_equal. rewrite Z.shiftl_mul_pow2 by lia. change (2 ^ 8) with 256. lia.
    - unfold inp. replace (hs + 2 - 1) with (hs + 1) by lia. rewrite drop_drop1 by lia. apply drop_app. reflexivity. }
  rewrite GL. cbn [bind]. unfold finishHeader. cbn [ExtendType Name]. unfold readcut. rewrite N0, N1, N2.
  assert (LZ : last (take n (e_name e) ++ zeros (zlen (e_name e) + 1 - n)) 0 = 0).
  { replace (zeros (zlen (e_name e) + 1 - n)) with (zeros (zlen (e_name e) - n) ++ [0]); [rewrite app_assoc; apply last_last|].
    unfold zeros. rewrite <- repeat_cons. replace (Z.to_nat (zlen (e_name e) + 1 - n)) with (S (Z.to_nat (zlen (e_name e) - n))) by lia. reflexivity. }
  rewrite LZ. change (0 =? lhaPathsep) with false. rewrite !andb_false_r. cbn [andb].
  replace (zlen (layout0 e)) with (hs + 2) by (unfold layout0; rewrite !zlen_cons; fold hs; lia).
  destruct (b2 =? ExtendMacos); reflexivity.
Qed.
