(** Reading and writing level 0 headers with any area after the CRC. *)
From Verif Require Import Go GoLemmas M_Crc M_Bitio S_Header S_Listing S_Level0 M_Header P_Bitio P_Header P_Accept.

(** The header that reading the layout of [e] into [h0] gives. *)
Definition readl (h0 : hdr) (e : entryl) : hdr :=
  let a := y_area e in
  let u := is_unix a in
  HDR (match a with [] => zlen (bodyl e) | _ => zlen (layoutl e) end) 2 (y_method e) (y_packed e) (y_original e) (y_attr e) 0 (slash_back (y_name e) ++ [0]) (Realname h0)
      (y_crc e) true (HeaderCrc h0)
      (match a with [] => ExtendType h0 | s :: _ => if s =? 85 then if u then 85 else 0 else s end)
      (if u then byte_at a 1 else MinorVersion h0) (if u then long_at a 2 else y_dostime e) (y_mode e)
      (if u then word_at a 8 else 0) (if u then word_at a 10 else 0) (User h0) (Group h0).

Lemma bodyl_len e : length (y_method e) = 5%nat -> zlen (bodyl e) = 22 + zlen (y_name e) + zlen (y_area e).
Proof. intros H. unfold bodyl. rewrite !zlen_app. unfold zlen at 1. rewrite H. unfold le32, le16. rewrite !zlen_cons, !zlen_nil. lia. Qed.

(** Systems whose names are only freed of backslashes. *)
Definition plain_type (t : Z) : Prop := t <> 109 /\ t <> 65 /\ t <> 75 /\ t <> 88.

Lemma readl_type h0 e : file_entryl e -> plain_type (ExtendType h0) -> plain_type (ExtendType (readl h0 e)).
Proof.
  intros [_ _ _ S] P. unfold readl. cbn [ExtendType]. destruct (y_area e) as [|s t]; [exact P|]. specialize (S s t eq_refl). cbn [In] in S. unfold plain_type.
  destruct (Z.eqb_spec s 85); [|repeat split; intros ->; apply S; auto]. destruct (is_unix (s :: t)); repeat split; discriminate.
Qed.

Lemma is_unix_inv a : is_unix a = true -> exists m t1 t2 t3 t4 m1 m2 u1 u2 g1 g2 more, a = 85 :: m :: t1 :: t2 :: t3 :: t4 :: m1 :: m2 :: u1 :: u2 :: g1 :: g2 :: more.
Proof.
  unfold is_unix. destruct a as [|s t]; [discriminate|]. intros H.
  assert (X : s = 85 /\ (11 <=? length t)%nat = true).
  { destruct s as [|s|s]; try discriminate. do 7 (destruct s as [s|s|]; try discriminate). auto. }
  destruct X as [-> X]. apply Nat.leb_le in X. do 11 (destruct t as [|? t]; [cbn in X; lia|]). repeat eexists.
Qed.

Lemma not_unix_inv s t : is_unix (s :: t) = false -> s = 85 -> (length t < 11)%nat.
Proof. intros H ->. cbn [is_unix] in H. now apply Nat.leb_gt in H. Qed.

Lemma word_pair a b : Z.shiftl b 8 + a = a + 256 * b.
Proof. rewrite Z.shiftl_mul_pow2 by lia. lia. Qed.

Lemma long_area m a b c d t : Z.shiftl d 24 + Z.shiftl c 16 + Z.shiftl b 8 + a = long_at (85 :: m :: a :: b :: c :: d :: t) 2.
Proof.
  rewrite !Z.shiftl_mul_pow2 by lia. change (2 ^ 24) with 16777216. change (2 ^ 16) with 65536. change (2 ^ 8) with 256.
  unfold long_at, byte_at. change (Z.to_nat 2) with 2%nat. change (Z.to_nat (2 + 1)) with 3%nat. change (Z.to_nat (2 + 2)) with 4%nat. change (Z.to_nat (2 + 3)) with 5%nat. cbn [nth]. lia.
Qed.

Lemma gw2 data p a b t : drop p data = a :: b :: t -> 0 <= p -> getWord data p = Ok (Z.shiftl b 8 + a, p + 2) /\ drop (p + 2) data = t.
Proof. intros; now apply gw. Qed.
Lemma gl4 data p a b c d t : drop p data = a :: b :: c :: d :: t -> 0 <= p ->
  getLongword data p = Ok (Z.shiftl d 24 + Z.shiftl c 16 + Z.shiftl b 8 + a, p + 4) /\ drop (p + 4) data = t.
Proof. intros; now apply gl. Qed.

(** What the reader of level 0 hands over, before the name is converted. *)
Definition rawl (h0 : hdr) (e : entryl) : hdr :=
  HDR (HeaderSize (readl h0 e)) 2 (y_method e) (y_packed e) (y_original e) (y_attr e) 0 (y_name e ++ [0]) (Realname h0)
      (y_crc e) true (HeaderCrc h0) (ExtendType (readl h0 e)) (MinorVersion (readl h0 e)) (UnixLastModifiedStamp (readl h0 e)) (y_mode e) (UnixUID (readl h0 e)) (UnixGid (readl h0 e)) (User h0) (Group h0).

Lemma GetHeader_layoutl_raw o h0 e rest : legall e -> zlen (Method h0) >= 5 -> zlen (Name h0) > zlen (y_name e) ->
  GetHeader o h0 (layoutl e ++ rest) = finishHeader o (rawl h0 e) rest.
Proof.
  intros [[LM BM] ? ? ? ? [LN BN] ? BA] HM HN.
  assert (LB : zlen (bodyl e) = 22 + zlen (y_name e) + zlen (y_area e)) by now apply bodyl_len.
  assert (LN' : 0 <= zlen (y_name e) /\ 0 <= zlen (y_area e) /\ zlen (y_name e) + zlen (y_area e) <= 233) by (unfold zlen; lia).
  assert (LM' : zlen (y_method e) = 5) by (unfold zlen; rewrite LM; reflexivity).
  unfold layoutl. fold (zlen (bodyl e)). set (hs := zlen (bodyl e)) in *. set (cs := checksum (bodyl e)). cbn [app].
  unfold GetHeader. destruct (Z.eqb_spec hs 0); [lia|].
  set (inp := cs :: bodyl e ++ rest).
  assert (LI : zlen inp >= 21) by (unfold inp; rewrite zlen_cons, zlen_app; pose proof (zlen_nonneg rest); lia).
  rewrite read_first by exact LI. rewrite zlen_take_min by lia. rewrite Z.min_l by lia. change (20 =? 0) with false. cbv iota.
  assert (RT : take (hs + 2) (hs :: inp) = hs :: cs :: bodyl e).
  { unfold inp. change (hs :: cs :: bodyl e ++ rest) with ((hs :: cs :: bodyl e) ++ rest). apply take_app. rewrite !zlen_cons. fold hs. lia. }
  assert (B20 : getByte (hs :: take 20 inp ++ zeros 4075) 20 = Ok (0, 21)).
  { assert (E : drop 20 (hs :: take 20 inp ++ zeros 4075) = 0 :: zeros 4075).
    { unfold inp, bodyl. replace (drop 20) with (drop (19 + 1)) by reflexivity. rewrite drop_drop1 by lia.
      set (tail := y_name e ++ le16 (y_crc e) ++ y_area e).
      assert (T : take 20 (cs :: (y_method e ++ le32 (y_packed e) ++ le32 (y_original e) ++ le32 (y_dostime e) ++ [y_attr e; 0; Z.of_nat (length (y_name e))] ++ tail) ++ rest)
              = (cs :: y_method e ++ le32 (y_packed e) ++ le32 (y_original e) ++ le32 (y_dostime e) ++ [y_attr e]) ++ [0]).
      { rewrite <- !app_assoc. cbn [app].
        replace (cs :: y_method e ++ le32 (y_packed e) ++ le32 (y_original e) ++ le32 (y_dostime e) ++ y_attr e :: 0 :: Z.of_nat (length (y_name e)) :: tail ++ rest)
          with ((cs :: y_method e ++ le32 (y_packed e) ++ le32 (y_original e) ++ le32 (y_dostime e) ++ [y_attr e; 0]) ++ Z.of_nat (length (y_name e)) :: tail ++ rest).
        2: { cbn [app]. rewrite <- !app_assoc. reflexivity. }
        rewrite take_app.
        - cbn [app]. rewrite <- !app_assoc. reflexivity.
        - rewrite zlen_cons, !zlen_app, LM'. reflexivity. }
      rewrite T. rewrite <- app_assoc. apply drop_app. rewrite zlen_cons, !zlen_app, LM'. reflexivity. }
    destruct (gb _ 20 _ _ ltac:(lia) E) as [G _]. exact G. }
  rewrite B20. cbn [bind]. change (0 =? 0) with true. cbv iota.
  set (rl := rawl h0 e).
  assert (GL : getHeaderLevel0 h0 (hs :: take 20 inp ++ zeros 4075) (drop 20 inp) = Ok (ENil, true, rl, rest)).
  { unfold getHeaderLevel0.
    assert (I1 : exists t, inp = cs :: t) by (eexists; reflexivity). destruct I1 as [t1 I1].
    destruct (gb (hs :: take 20 inp ++ zeros 4075) 0 hs (take 20 inp ++ zeros 4075) ltac:(lia) eq_refl) as [G0 D0]. rewrite G0. cbn [bind].
    assert (D0' : drop (0 + 1) (hs :: take 20 inp ++ zeros 4075) = cs :: (take 19 t1 ++ zeros 4075)) by (rewrite D0, I1; reflexivity).
    destruct (gb _ (0 + 1) _ _ ltac:(lia) D0') as [G1 _]. rewrite G1. cbn [bind].
    destruct (Z.leb_spec (hs + 2 - 21) 0); [lia|]. rewrite read_second by lia.
    rewrite RT. set (c := take (hs + 2 - 21) (drop 20 inp)).
    destruct (Z.eqb_spec (zlen c) 0) as [Q|Q].
    { exfalso. unfold c in Q. rewrite zlen_take_min, zlen_drop_max in Q by lia. lia. }
    rewrite calcSum_sum.
    set (data := (hs :: cs :: bodyl e) ++ zeros (4096 - zlen (hs :: cs :: bodyl e))).
    assert (SD : take hs (drop 2 data) = bodyl e).
    { unfold data. change ((hs :: cs :: bodyl e) ++ zeros (4096 - zlen (hs :: cs :: bodyl e))) with ([hs; cs] ++ bodyl e ++ zeros (4096 - zlen (hs :: cs :: bodyl e))).
      rewrite drop_app by reflexivity. apply take_app. reflexivity. }
    rewrite SD. change (sumz (bodyl e) mod 256) with cs. rewrite Z.eqb_refl. cbn [negb]. cbv iota.
    set (post := zeros (4096 - zlen (hs :: cs :: bodyl e))) in *.
    assert (D2 : drop (0 + 1 + 1) data = y_method e ++ le32 (y_packed e) ++ le32 (y_original e) ++ le32 (y_dostime e) ++
       y_attr e :: 0 :: Z.of_nat (length (y_name e)) :: (y_name e ++ le16 (y_crc e) ++ y_area e ++ post)).
    { unfold data. change (0 + 1 + 1) with 2. change ((hs :: cs :: bodyl e) ++ post) with ([hs; cs] ++ bodyl e ++ post).
      rewrite drop_app by reflexivity. unfold bodyl. repeat (rewrite <- !app_assoc || cbn [app]). reflexivity. }
    destruct (gbs data _ _ (0 + 1 + 1) 5 (zlen (Method (set_HeaderSize hs (set_SizeFieldLength 2 h0)))) ltac:(lia) D2 LM' ltac:(cbn; lia)) as [G2 D3].
    rewrite G2. cbn [bind].
    destruct (gl32' _ _ _ _ D3 ltac:(npos) ll_packed) as [G3 D4]. rewrite G3. cbn [bind].
    destruct (gl32' _ _ _ _ D4 ltac:(npos) ll_original) as [G4 D5]. rewrite G4. cbn [bind].
    destruct (gl32' _ _ _ _ D5 ltac:(npos) ll_dostime) as [G5 D6]. rewrite G5. cbn [bind].
    destruct (gb' _ _ _ _ D6 ltac:(npos)) as [G6 D7]. rewrite G6. cbn [bind].
    destruct (gb' _ _ _ _ D7 ltac:(npos)) as [G7 D8]. rewrite G7. cbn [bind].
    destruct (gb' _ _ _ _ D8 ltac:(npos)) as [G8 D9]. rewrite G8. cbn [bind]. fold (zlen (y_name e)) in *.
    set (nl := zlen (y_name e)) in *. set (p := 0 + 1 + 1 + 5 + 4 + 4 + 4 + 1 + 1 + 1) in *.
    assert (D9' : drop p data = (y_name e ++ [y_crc e mod 256]) ++ (y_crc e / 256 mod 256) :: y_area e ++ post).
    { rewrite D9. unfold le16 at 1. cbn [app]. rewrite <- app_assoc. reflexivity. }
    destruct (gbs data _ _ p (nl + 1) (zlen (Name (set_HeaderSize hs (set_SizeFieldLength 2 h0)))) ltac:(unfold p; lia) D9') as [G9 _].
    { rewrite zlen_app. reflexivity. } { cbn. lia. }
    rewrite G9. cbn [bind]. replace (nl + 1 - 1) with nl by lia. unfold nl at 1. rewrite set0_last. cbn [bind].
    assert (D10 : drop (p + nl) data = le16 (y_crc e) ++ y_area e ++ post).
    { rewrite drop_add by (unfold p; lia). rewrite D9. apply drop_app. reflexivity. }
    replace (hs + 2 - nl - 24) with (zlen (y_area e)) by lia. destruct (Z.ltb_spec (zlen (y_area e)) 0); [lia|].
    replace (p + (nl + 1) - 1) with (p + nl) by lia.
    destruct (gw16' _ _ _ _ D10 ltac:(npos) ll_crc) as [G10 D11]. rewrite G10. cbn [bind].
    assert (RS : drop (hs + 2 - 1) inp = rest).
    { unfold inp. replace (hs + 2 - 1) with (hs + 1) by lia. rewrite drop_drop1 by lia. apply drop_app. reflexivity. }
    assert (HL : zlen (layoutl e) = hs + 2) by (unfold layoutl; rewrite !zlen_cons; fold hs; lia).
    unfold rl, rawl, y_mode. destruct (y_area e) as [|s t] eqn:EA.
    { change (zlen (@nil Z) =? 0) with true. cbv iota. cbn [readl HeaderSize ExtendType MinorVersion UnixLastModifiedStamp UnixUID UnixGid]. unfold readl. rewrite EA.
      cbn [is_unix HeaderSize ExtendType MinorVersion UnixLastModifiedStamp UnixUID UnixGid]. fold hs. f_equal. f_equal. exact RS. }
    destruct (Z.eqb_spec (zlen (s :: t)) 0) as [Y|_]; [rewrite zlen_cons in Y; pose proof (zlen_nonneg t); lia|].
    unfold level0_ext. set (q := p + nl + 2) in *. cbn [app] in D11.
    destruct (gb' _ _ _ _ D11 ltac:(npos)) as [G11 D12]. rewrite G11. cbn [bind].
    unfold readl. rewrite EA. cbv zeta. cbn [HeaderSize ExtendType MinorVersion UnixLastModifiedStamp UnixUID UnixGid].
    destruct (is_unix (s :: t)) eqn:U.
    - destruct (is_unix_inv _ U) as (m & b1 & b2 & b3 & b4 & m1 & m2 & u1 & u2 & g1 & g2 & more & X). injection X as -> ->.
      change (85 =? ExtendUnix) with true. change (85 =? 85) with true. cbv iota.
      destruct (Z.leb_spec 11 (zlen (85 :: m :: b1 :: b2 :: b3 :: b4 :: m1 :: m2 :: u1 :: u2 :: g1 :: g2 :: more) - 1)) as [_|Y].
      2: { exfalso. rewrite !zlen_cons in Y. pose proof (zlen_nonneg more). lia. }
      cbn [app] in D12.
      destruct (gb' _ _ _ _ D12 ltac:(npos)) as [G12 D13]. rewrite G12. cbn [bind].
      destruct (gl4 _ _ _ _ _ _ _ D13 ltac:(npos)) as [G13 D14]. rewrite G13. cbn [bind].
      destruct (gw2 _ _ _ _ _ D14 ltac:(npos)) as [G14 D15]. rewrite G14. cbn [bind].
      destruct (gw2 _ _ _ _ _ D15 ltac:(npos)) as [G15 D16]. rewrite G15. cbn [bind].
      destruct (gw2 _ _ _ _ _ D16 ltac:(npos)) as [G16 D17]. rewrite G16. cbn [bind].
      rewrite RS, HL, !word_pair, (long_area m b1 b2 b3 b4 (m1 :: m2 :: u1 :: u2 :: g1 :: g2 :: more)). reflexivity.
    - change ExtendUnix with 85. destruct (Z.eqb_spec s 85) as [->|NU].
      + pose proof (not_unix_inv _ _ U eq_refl) as LT. destruct (Z.leb_spec 11 (zlen (85 :: t) - 1)) as [Y|_]; [exfalso; rewrite zlen_cons in Y; unfold zlen in Y; lia|].
        cbn [bind]. rewrite RS, HL. reflexivity.
      + cbn [bind]. rewrite RS, HL. reflexivity. }
  rewrite GL. reflexivity.
Qed.

Lemma GetHeader_layoutl_gen o h0 e rest : legall e -> ConvertCase o = false -> zlen (Method h0) >= 5 -> zlen (Name h0) > zlen (y_name e) ->
  (forall t, ExtendType (readl h0 e) = t -> t <> 109 /\ t <> 65) -> isSymlinkMode (y_mode e) = false ->
  GetHeader o h0 (layoutl e ++ rest) = Ok (ENil, true, readl h0 e, rest).
Proof.
  intros LG CC HM HN HT HS. specialize (HT _ eq_refl).
  rewrite GetHeader_layoutl_raw by assumption. unfold finishHeader, rawl. cbn [ExtendType]. change ExtendMacos with 109. change ExtendAmiga with 65.
  set (et := ExtendType (readl h0 e)) in *. destruct HT as [T1 T2]. apply Z.eqb_neq in T1, T2. rewrite T1, T2. cbv iota. cbn [andb]. rewrite CC. cbv iota.
  match goal with |- context [set_Name ?n ?h] => replace (set_Name n h) with (readl h0 e) end.
  - change (UnixMode (readl h0 e)) with (y_mode e). rewrite HS. reflexivity.
  - unfold set_Name, convertFilename. cbn [Name].
    match goal with |- context [if ?b then none else none] => replace (if b then none else none) with none by (destruct b; reflexivity) end.
    change ((codeSJIS =? codeSJIS) && (none =? toLower)) with false. cbn [andb]. cbv iota.
    rewrite map_app. unfold readl at 1, slash_back. unfold et.
    cbn [HeaderSize SizeFieldLength Method PackedSize OriginalSize Attribute HeaderLevel Realname Crc HasCrc HeaderCrc ExtendType MinorVersion UnixLastModifiedStamp UnixMode UnixUID UnixGid User Group].
    change (map (conv_byte [255; 92] [47; 47] none) [0]) with [0]. reflexivity.
Qed.
