(** Proofs about header.go. *)
From Verif Require Import Go GoLemmas M_Crc M_Bitio M_Header S_Header.

(** ** Lists *)

Lemma drop_add a b (l : list Z) : 0 <= a -> 0 <= b -> drop (a + b) l = drop b (drop a l).
Proof. intros. unfold drop. rewrite Z2Nat.inj_add by lia. revert l. induction (Z.to_nat a) as [|n IH]; intros l; [reflexivity|]. destruct l; cbn; [now rewrite skipn_nil|apply IH]. Qed.

Lemma take_app a (l m : list Z) : zlen l = a -> take a (l ++ m) = l.
Proof. intros <-. unfold take, zlen. rewrite Nat2Z.id, firstn_app, Nat.sub_diag, firstn_O, app_nil_r. apply firstn_all. Qed.

Lemma drop_app a (l m : list Z) : zlen l = a -> drop a (l ++ m) = m.
Proof. intros <-. unfold drop, zlen. rewrite Nat2Z.id, skipn_app, Nat.sub_diag, skipn_O, skipn_all. reflexivity. Qed.

Lemma zlen_zeros n : 0 <= n -> zlen (zeros n) = n.
Proof. intros. unfold zlen, zeros. rewrite repeat_length. lia. Qed.

Lemma zeros_S n : 0 < n -> zeros n = 0 :: zeros (n - 1).
Proof. intros. unfold zeros. replace (Z.to_nat n) with (S (Z.to_nat (n - 1))) by lia. reflexivity. Qed.

Lemma drop_zeros a n : 0 <= a <= n -> drop a (zeros n) = zeros (n - a).
Proof.
  intros. unfold drop, zeros. replace (Z.to_nat n) with (Z.to_nat a + Z.to_nat (n - a))%nat by lia. rewrite repeat_app.
  rewrite skipn_app, repeat_length, Nat.sub_diag, skipn_O, skipn_all2 by (rewrite repeat_length; lia). reflexivity.
Qed.

Lemma drop_0 (l : list Z) : drop 0 l = l.
Proof. reflexivity. Qed.

Lemma drop_drop1 x (l : list Z) n : 0 <= n -> drop (n + 1) (x :: l) = drop n l.
Proof. intros. unfold drop. replace (Z.to_nat (n + 1)) with (S (Z.to_nat n)) by lia. reflexivity. Qed.

Lemma take_take1 x (l : list Z) n : 0 <= n -> take (n + 1) (x :: l) = x :: take n l.
Proof. intros. unfold take. replace (Z.to_nat (n + 1)) with (S (Z.to_nat n)) by lia. reflexivity. Qed.

Lemma take_all n (l : list Z) : zlen l <= n -> take n l = l.
Proof. intros. unfold take. apply firstn_all2. unfold zlen in *. lia. Qed.

Lemma take_add a b (l : list Z) : 0 <= a -> 0 <= b -> take (a + b) l = take a l ++ take b (drop a l).
Proof.
  intros. unfold take, drop. rewrite Z2Nat.inj_add by lia. revert l. induction (Z.to_nat a) as [|n IH]; intros l; [reflexivity|].
  destruct l; cbn; [now rewrite firstn_nil|]. now rewrite IH.
Qed.

Lemma zlen_take_min n (l : list Z) : 0 <= n -> zlen (take n l) = Z.min n (zlen l).
Proof. intros. unfold zlen, take. rewrite firstn_length. lia. Qed.

Lemma zlen_drop_max n (l : list Z) : 0 <= n -> zlen (drop n l) = Z.max 0 (zlen l - n).
Proof. intros. unfold zlen, drop. rewrite skipn_length. lia. Qed.

(** ** The cursor *)

Lemma gb data p x t : 0 <= p -> drop p data = x :: t -> getByte data p = Ok (x, p + 1) /\ drop (p + 1) data = t.
Proof.
  intros Hp H. unfold getByte. destruct (Z.ltb_spec p 0); [lia|].
  assert (E : nth_error data (Z.to_nat p) = Some x /\ skipn (S (Z.to_nat p)) data = t).
  { unfold drop in H. revert data H. induction (Z.to_nat p) as [|n IH]; intros data H.
    - cbn in H. subst data. auto.
    - destruct data; [discriminate|]. cbn [skipn] in H. apply IH in H. exact H. }
  destruct E as [E1 E2]. rewrite E1. split; [reflexivity|]. unfold drop. replace (Z.to_nat (p + 1)) with (S (Z.to_nat p)) by lia. exact E2.
Qed.

Lemma gw data p a b t : 0 <= p -> drop p data = a :: b :: t -> getWord data p = Ok (Z.shiftl b 8 + a, p + 2) /\ drop (p + 2) data = t.
Proof.
  intros Hp H. unfold getWord. destruct (gb _ _ _ _ Hp H) as [E1 H1]. rewrite E1. cbn [bind].
  destruct (gb _ (p + 1) _ _ ltac:(lia) H1) as [E2 H2]. rewrite E2. cbn [bind]. replace (p + 2) with (p + 1 + 1) by lia. auto.
Qed.

Lemma gl data p a b c d t : 0 <= p -> drop p data = a :: b :: c :: d :: t ->
  getLongword data p = Ok (Z.shiftl d 24 + Z.shiftl c 16 + Z.shiftl b 8 + a, p + 4) /\ drop (p + 4) data = t.
Proof.
  intros Hp H. unfold getLongword. destruct (gb _ _ _ _ Hp H) as [E1 H1]. rewrite E1. cbn [bind].
  destruct (gb _ (p + 1) _ _ ltac:(lia) H1) as [E2 H2]. rewrite E2. cbn [bind].
  destruct (gb _ (p + 1 + 1) _ _ ltac:(lia) H2) as [E3 H3]. rewrite E3. cbn [bind].
  destruct (gb _ (p + 1 + 1 + 1) _ _ ltac:(lia) H3) as [E4 H4]. rewrite E4. cbn [bind].
  replace (p + 4) with (p + 1 + 1 + 1 + 1) by lia. auto.
Qed.

Lemma gn data l t : forall p, 0 <= p -> drop p data = l ++ t -> get_n data p (length l) = Ok (l, p + zlen l) /\ drop (p + zlen l) data = t.
Proof.
  induction l as [|x l IH]; intros p Hp H.
  - cbn [get_n length]. rewrite zlen_nil, Z.add_0_r. auto.
  - cbn [get_n length]. destruct (gb _ _ _ _ Hp H) as [E1 H1]. rewrite E1. cbn [bind]. destruct (IH (p + 1)) as [E2 H2]; [lia|exact H1|].
    rewrite E2. cbn [bind]. rewrite zlen_cons. replace (p + (zlen l + 1)) with (p + 1 + zlen l) by lia. replace (p + (1 + zlen l)) with (p + 1 + zlen l) by lia. auto.
Qed.

Lemma gbs data l t p len size : 0 <= p -> drop p data = l ++ t -> zlen l = len -> len <= size ->
  getBytes data p len size = Ok (l, len, p + len) /\ drop (p + len) data = t.
Proof.
  intros Hp H Hl Hs. unfold getBytes. pose proof (zlen_nonneg l). destruct (Z.ltb_spec len 0); [lia|]. rewrite Z.min_l by lia.
  destruct (gn _ _ _ _ Hp H) as [E1 G1]. replace (Z.to_nat len) with (length l) by (unfold zlen in Hl; lia). rewrite E1. cbn [bind].
  rewrite Z.sub_diag. unfold zeros. cbn [Z.to_nat repeat]. rewrite app_nil_r. rewrite Hl in *. auto.
Qed.

(** In range reads never fail. *)
Lemma getByte_in data p : 0 <= p < zlen data -> exists x, getByte data p = Ok (x, p + 1) /\ In x data.
Proof.
  intros H. unfold getByte. destruct (Z.ltb_spec p 0); [lia|].
  destruct (nth_error data (Z.to_nat p)) eqn:E.
  - exists z. split; [reflexivity|]. now apply nth_error_In in E.
  - apply nth_error_None in E. unfold zlen in H. lia.
Qed.

(** ** Numbers *)

Lemma word_back v : 0 <= v < 65536 -> Z.shiftl (u8 (Z.shiftr v 8)) 8 + u8 v = v.
Proof.
  intros H. unfold u8. rewrite Z.shiftl_mul_pow2, Z.shiftr_div_pow2 by lia. change (2 ^ 8) with 256.
  rewrite (Z.mod_small (v / 256)) by (split; [apply Z.div_pos; lia|apply Z.div_lt_upper_bound; lia]).
  pose proof (Z.div_mod v 256). lia.
Qed.

Lemma long_back v : 0 <= v < 2 ^ 32 -> Z.shiftl (u8 (Z.shiftr v 24)) 24 + Z.shiftl (u8 (Z.shiftr v 16)) 16 + Z.shiftl (u8 (Z.shiftr v 8)) 8 + u8 v = v.
Proof.
  intros H. unfold u8. rewrite !Z.shiftl_mul_pow2, !Z.shiftr_div_pow2 by lia.
  assert (E1 : v / 2 ^ 16 = v / 2 ^ 8 / 2 ^ 8) by (rewrite Z.div_div by lia; reflexivity).
  assert (E2 : v / 2 ^ 24 = v / 2 ^ 16 / 2 ^ 8) by (rewrite Z.div_div by lia; reflexivity).
  rewrite E2, E1. change (2 ^ 24) with 16777216. change (2 ^ 16) with 65536. change (2 ^ 8) with 256.
  set (a := v / 256). set (b := a / 256). set (c := b / 256).
  pose proof (Z.div_mod v 256 ltac:(lia)) as D1. fold a in D1. pose proof (Z.div_mod a 256 ltac:(lia)) as D2. fold b in D2.
  pose proof (Z.div_mod b 256 ltac:(lia)) as D3. fold c in D3.
  assert (0 <= a) by (apply Z.div_pos; lia). assert (0 <= b) by (apply Z.div_pos; lia). assert (0 <= c) by (apply Z.div_pos; lia).
  assert (c < 256). { change (2 ^ 32) with 4294967296 in H. pose proof (Z.mod_pos_bound v 256 ltac:(lia)). pose proof (Z.mod_pos_bound a 256 ltac:(lia)). pose proof (Z.mod_pos_bound b 256 ltac:(lia)). lia. }
  rewrite (Z.mod_small c) by lia. lia.
Qed.

Lemma putLong_len v : zlen (putLongWord v) = 4.
Proof. reflexivity. Qed.
Lemma putWord_len v : zlen (putWord v) = 2.
Proof. reflexivity. Qed.

Lemma byte_u8 v : is_byte (u8 v).
Proof. unfold is_byte, u8. pose proof (Z.mod_pos_bound v 256). lia. Qed.
Lemma putWord_bytes v : bytes (putWord v).
Proof. repeat constructor; apply byte_u8. Qed.
Lemma putLong_bytes v : bytes (putLongWord v).
Proof. repeat constructor; apply byte_u8. Qed.

(** ** The two reads *)

Lemma read_first b inp' : zlen inp' >= 21 -> readInto (b :: zeros (lzheaderStorage - 1)) 1 20 inp' =
  (take 20 inp', b :: take 20 inp' ++ zeros 4075, drop 20 inp').
Proof.
  intros H. unfold readInto. rewrite (zlen_take_min 20) by lia. rewrite Z.min_l by lia.
  change (1 + 20) with (20 + 1). rewrite drop_drop1 by lia. rewrite drop_zeros by (unfold lzheaderStorage; lia). reflexivity.
Qed.

(** After both reads the buffer holds the input's prefix and zeros. *)
Lemma read_second b inp' n : zlen inp' >= 21 -> 21 < n <= 4096 ->
  readInto (b :: take 20 inp' ++ zeros 4075) 21 (n - 21) (drop 20 inp') =
  (take (n - 21) (drop 20 inp'), take n (b :: inp') ++ zeros (4096 - zlen (take n (b :: inp'))), drop (n - 1) inp').
Proof.
  intros H Hn. unfold readInto. set (c := take (n - 21) (drop 20 inp')).
  assert (L20 : zlen (take 20 inp') = 20) by (rewrite zlen_take_min by lia; lia).
  assert (TN : take n (b :: inp') = b :: take 20 inp' ++ c).
  { replace n with ((20 + (n - 21)) + 1) by lia. rewrite take_take1 by lia. rewrite take_add by lia. reflexivity. }
  f_equal; [f_equal|].
  - rewrite TN. change (b :: take 20 inp' ++ zeros 4075) with ((b :: take 20 inp') ++ zeros 4075).
    rewrite take_app by (rewrite zlen_cons; lia). cbn [app]. f_equal. rewrite <- app_assoc. f_equal. f_equal.
    rewrite drop_add by (pose proof (zlen_nonneg c); lia). change (b :: take 20 inp' ++ zeros 4075) with ((b :: take 20 inp') ++ zeros 4075).
    rewrite drop_app by (rewrite zlen_cons; lia).
    assert (zlen c <= n - 21) by (unfold c; rewrite zlen_take_min by lia; lia).
    rewrite drop_zeros by (pose proof (zlen_nonneg c); lia). f_equal. rewrite zlen_cons, zlen_app. lia.
  - rewrite <- drop_add by lia. f_equal. lia.
Qed.

(** ** The checksum *)

Definition sumz (l : list Z) : Z := fold_right Z.add 0 l.

Lemma fold_left_sum l : forall a, fold_left Z.add l a = a + sumz l.
Proof. induction l as [|x l IH]; intros a; cbn; [lia|]. rewrite IH. unfold sumz. cbn. lia. Qed.

Lemma calcSum_sum data s n : calcSum data s n = sumz (take n (drop s data)) mod 256.
Proof. unfold calcSum. rewrite fold_left_sum. change 255 with (Z.ones 8). rewrite Z.land_ones by lia. reflexivity. Qed.

Lemma sumz_app l m : sumz (l ++ m) = sumz l + sumz m.
Proof. induction l; cbn in *; [reflexivity|]. unfold sumz in *. cbn. lia. Qed.

Lemma sumz_zeros n : sumz (zeros n) = 0.
Proof. unfold zeros. induction (Z.to_nat n); cbn; [reflexivity|]. unfold sumz in *. cbn. lia. Qed.

(** ** Reading the level 0 layout *)

Lemma le16_put v : putWord v = le16 v.
Proof. unfold putWord, le16, u8. now rewrite Z.shiftr_div_pow2 by lia. Qed.
Lemma le32_put v : putLongWord v = le32 v.
Proof. unfold putLongWord, le32, u8. now rewrite !Z.shiftr_div_pow2 by lia. Qed.

Lemma gw16 data p v t : 0 <= p -> 0 <= v < 65536 -> drop p data = le16 v ++ t -> getWord data p = Ok (v, p + 2) /\ drop (p + 2) data = t.
Proof. intros Hp Hv H. rewrite <- le16_put in H. destruct (gw _ _ _ _ _ Hp H) as [E1 E2]. rewrite E1, word_back by lia. auto. Qed.
Lemma gl32 data p v t : 0 <= p -> 0 <= v < 2 ^ 32 -> drop p data = le32 v ++ t -> getLongword data p = Ok (v, p + 4) /\ drop (p + 4) data = t.
Proof. intros Hp Hv H. rewrite <- le32_put in H. destruct (gl _ _ _ _ _ _ _ Hp H) as [E1 E2]. rewrite E1, long_back by lia. auto. Qed.

Lemma set0_last l x : set0 (l ++ [x]) (zlen l) = Ok (l ++ [0]).
Proof.
  unfold set0. rewrite zlen_app. change (zlen [x]) with 1. pose proof (zlen_nonneg l).
  destruct (Z.leb_spec 0 (zlen l)); [|lia]. destruct (Z.ltb_spec (zlen l) (zlen l + 1)); [|lia]. cbn [andb].
  rewrite take_app by reflexivity. do 2 f_equal. rewrite drop_add by lia. rewrite drop_app by reflexivity. reflexivity.
Qed.

Definition slash_back (l : list Z) : list Z := map (conv_byte [255; 92] [47; 47] none) l.

(** The header that reading the layout of [e] into [h0] gives. *)
Definition read0 (h0 : hdr) (e : entry0) : hdr :=
  HDR (zlen (layout0 e)) 2 (e_method e) (e_packed e) (e_original e) (e_attr e) 0 (slash_back (e_name e) ++ [0]) (Realname h0)
      (e_crc e) true (HeaderCrc h0) ExtendUnix (e_minor e) (e_time e) (e_mode e) (e_uid e) (e_gid e) (User h0) (Group h0).

Lemma body0_len e : length (e_method e) = 5%nat -> zlen (body0 e) = 34 + zlen (e_name e).
Proof. intros H. unfold body0. rewrite !zlen_app. unfold zlen at 1. rewrite H. unfold le32, le16. rewrite !zlen_cons, !zlen_nil. lia. Qed.

(** Same lemmas, with the position last. *)
Lemma gb' data p x t : drop p data = x :: t -> 0 <= p -> getByte data p = Ok (x, p + 1) /\ drop (p + 1) data = t.
Proof. intros; now apply gb. Qed.
Lemma gw16' data p v t : drop p data = le16 v ++ t -> 0 <= p -> 0 <= v < 65536 -> getWord data p = Ok (v, p + 2) /\ drop (p + 2) data = t.
Proof. intros; now apply gw16. Qed.
Lemma gl32' data p v t : drop p data = le32 v ++ t -> 0 <= p -> 0 <= v < 2 ^ 32 -> getLongword data p = Ok (v, p + 4) /\ drop (p + 4) data = t.
Proof. intros; now apply gl32. Qed.
Ltac npos := repeat match goal with p := _ |- _ => progress unfold p end; lia.

Lemma GetHeader_layout0_any o h0 e rest : legal0 e -> zlen (Method h0) >= 5 -> zlen (Name h0) > zlen (e_name e) ->
  GetHeader o h0 (layout0 e ++ rest) =
  if isSymlinkMode (e_mode e) then
    match find_byte 124 (Name (read0 h0 e)) 0 with
    | Some p => Ok (ENil, true, set_Realname (copy (Realname h0) (take (zlen (Name (read0 h0 e)) - 1 - p) (drop p (Name (read0 h0 e))))) (read0 h0 e), rest)
    | None => Ok (EOther, false, read0 h0 e, rest)
    end
  else Ok (ENil, true, read0 h0 e, rest).
Proof.
  intros [[LM BM] ? ? ? ? [LN BN] ? ? ? ? ? ?] HM HN.
  assert (LB : zlen (body0 e) = 34 + zlen (e_name e)) by now apply body0_len.
  assert (LN' : 0 <= zlen (e_name e) <= 221) by (split; [apply zlen_nonneg|unfold zlen; lia]).
  assert (LM' : zlen (e_method e) = 5) by (unfold zlen; rewrite LM; reflexivity).
  unfold layout0. fold (zlen (body0 e)). set (hs := zlen (body0 e)) in *. set (cs := checksum (body0 e)). cbn [app].
  unfold GetHeader. destruct (Z.eqb_spec hs 0); [lia|].
  set (inp := cs :: body0 e ++ rest).
  assert (LI : zlen inp >= 21) by (unfold inp; rewrite zlen_cons, zlen_app; pose proof (zlen_nonneg rest); lia).
  rewrite read_first by exact LI. rewrite zlen_take_min by lia. rewrite Z.min_l by lia. change (20 =? 0) with false. cbv iota.
  assert (RT : take (hs + 2) (hs :: inp) = hs :: cs :: body0 e).
  { unfold inp. change (hs :: cs :: body0 e ++ rest) with ((hs :: cs :: body0 e) ++ rest). apply take_app. rewrite !zlen_cons. fold hs. lia. }
  assert (B20 : getByte (hs :: take 20 inp ++ zeros 4075) 20 = Ok (0, 21)).
  { assert (E : drop 20 (hs :: take 20 inp ++ zeros 4075) = 0 :: zeros 4075).
    { unfold inp, body0. replace (drop 20) with (drop (19 + 1)) by reflexivity. rewrite drop_drop1 by lia.
      assert (T : take 20 (cs :: (e_method e ++ le32 (e_packed e) ++ le32 (e_original e) ++ le32 (e_dostime e) ++ [e_attr e; 0; Z.of_nat (length (e_name e))] ++ e_name e ++ le16 (e_crc e) ++ [85; e_minor e] ++ le32 (e_time e) ++ le16 (e_mode e) ++ le16 (e_uid e) ++ le16 (e_gid e)) ++ rest)
              = (cs :: e_method e ++ le32 (e_packed e) ++ le32 (e_original e) ++ le32 (e_dostime e) ++ [e_attr e]) ++ [0]).
      { rewrite <- !app_assoc. cbn [app]. 
        replace (cs :: e_method e ++ le32 (e_packed e) ++ le32 (e_original e) ++ le32 (e_dostime e) ++ e_attr e :: 0 :: Z.of_nat (length (e_name e)) :: e_name e ++ le16 (e_crc e) ++ 85 :: e_minor e :: le32 (e_time e) ++ le16 (e_mode e) ++ le16 (e_uid e) ++ le16 (e_gid e) ++ rest)
          with ((cs :: e_method e ++ le32 (e_packed e) ++ le32 (e_original e) ++ le32 (e_dostime e) ++ [e_attr e; 0]) ++ Z.of_nat (length (e_name e)) :: e_name e ++ le16 (e_crc e) ++ 85 :: e_minor e :: le32 (e_time e) ++ le16 (e_mode e) ++ le16 (e_uid e) ++ le16 (e_gid e) ++ rest).
        2: { cbn [app]. rewrite <- !app_assoc. reflexivity. }
        rewrite take_app.
        - cbn [app]. rewrite <- !app_assoc. reflexivity.
        - rewrite zlen_cons, !zlen_app, LM'. reflexivity. }
      rewrite T. rewrite <- app_assoc. apply drop_app. rewrite zlen_cons, !zlen_app, LM'. reflexivity. }
    destruct (gb _ 20 _ _ ltac:(lia) E) as [G _]. exact G. }
  rewrite B20. cbn [bind]. change (0 =? 0) with true. cbv iota.
  assert (GL : getHeaderLevel0 h0 (hs :: take 20 inp ++ zeros 4075) (drop 20 inp) =
    Ok (ENil, true, HDR (hs + 2) 2 (e_method e) (e_packed e) (e_original e) (e_attr e) 0 (e_name e ++ [0]) (Realname h0)
      (e_crc e) true (HeaderCrc h0) ExtendUnix (e_minor e) (e_time e) (e_mode e) (e_uid e) (e_gid e) (User h0) (Group h0), rest)).
  { unfold getHeaderLevel0.
    assert (I1 : exists t, inp = cs :: t) by (eexists; reflexivity). destruct I1 as [t1 I1].
    destruct (gb (hs :: take 20 inp ++ zeros 4075) 0 hs (take 20 inp ++ zeros 4075) ltac:(lia) eq_refl) as [G0 D0]. rewrite G0. cbn [bind].
    assert (D0' : drop (0 + 1) (hs :: take 20 inp ++ zeros 4075) = cs :: (take 19 t1 ++ zeros 4075)) by (rewrite D0, I1; reflexivity).
    destruct (gb _ (0 + 1) _ _ ltac:(lia) D0') as [G1 _]. rewrite G1. cbn [bind].
    destruct (Z.leb_spec (hs + 2 - 21) 0); [lia|]. rewrite read_second by lia.
    rewrite RT. set (c := take (hs + 2 - 21) (drop 20 inp)).
    destruct (Z.eqb_spec (zlen c) 0) as [Q|Q].
    { exfalso. unfold c in Q. rewrite zlen_take_min, zlen_drop_max in Q by lia. lia. }
    rewrite calcSum_sum.
    set (data := (hs :: cs :: body0 e) ++ zeros (4096 - zlen (hs :: cs :: body0 e))).
    assert (SD : take hs (drop 2 data) = body0 e).
    { unfold data. change ((hs :: cs :: body0 e) ++ zeros (4096 - zlen (hs :: cs :: body0 e))) with ([hs; cs] ++ body0 e ++ zeros (4096 - zlen (hs :: cs :: body0 e))).
      rewrite drop_app by reflexivity. apply take_app. reflexivity. }
    rewrite SD. change (sumz (body0 e) mod 256) with cs. rewrite Z.eqb_refl. cbn [negb]. cbv iota.
    set (post := zeros (4096 - zlen (hs :: cs :: body0 e))) in *.
    assert (D2 : drop (0 + 1 + 1) data = e_method e ++ le32 (e_packed e) ++ le32 (e_original e) ++ le32 (e_dostime e) ++
       e_attr e :: 0 :: Z.of_nat (length (e_name e)) :: (e_name e ++ le16 (e_crc e) ++ 85 :: e_minor e :: le32 (e_time e) ++ le16 (e_mode e) ++ le16 (e_uid e) ++ le16 (e_gid e) ++ post)).
    { unfold data. change (0 + 1 + 1) with 2. change ((hs :: cs :: body0 e) ++ post) with ([hs; cs] ++ body0 e ++ post).
      rewrite drop_app by reflexivity. unfold body0. repeat (rewrite <- !app_assoc || cbn [app]). reflexivity. }
    destruct (gbs data _ _ (0 + 1 + 1) 5 (zlen (Method (set_HeaderSize hs (set_SizeFieldLength 2 h0)))) ltac:(lia) D2 LM' ltac:(cbn; lia)) as [G2 D3].
    rewrite G2. cbn [bind].
    destruct (gl32' _ _ _ _ D3 ltac:(npos) l0_packed) as [G3 D4]. rewrite G3. cbn [bind].
    destruct (gl32' _ _ _ _ D4 ltac:(npos) l0_original) as [G4 D5]. rewrite G4. cbn [bind].
    destruct (gl32' _ _ _ _ D5 ltac:(npos) l0_dostime) as [G5 D6]. rewrite G5. cbn [bind].
    destruct (gb' _ _ _ _ D6 ltac:(npos)) as [G6 D7]. rewrite G6. cbn [bind].
    destruct (gb' _ _ _ _ D7 ltac:(npos)) as [G7 D8]. rewrite G7. cbn [bind].
    destruct (gb' _ _ _ _ D8 ltac:(npos)) as [G8 D9]. rewrite G8. cbn [bind]. fold (zlen (e_name e)) in *.
    set (nl := zlen (e_name e)) in *. set (p := 0 + 1 + 1 + 5 + 4 + 4 + 4 + 1 + 1 + 1) in *.
    assert (D9' : drop p data = (e_name e ++ [e_crc e mod 256]) ++ (e_crc e / 256 mod 256) :: 85 :: e_minor e :: le32 (e_time e) ++ le16 (e_mode e) ++ le16 (e_uid e) ++ le16 (e_gid e) ++ post).
    { rewrite D9. unfold le16 at 1. cbn [app]. rewrite <- app_assoc. reflexivity. }
    destruct (gbs data _ _ p (nl + 1) (zlen (Name (set_HeaderSize hs (set_SizeFieldLength 2 h0)))) ltac:(unfold p; lia) D9') as [G9 _].
    { rewrite zlen_app. reflexivity. } { cbn. lia. }
    rewrite G9. cbn [bind]. replace (nl + 1 - 1) with nl by lia. unfold nl at 1. rewrite set0_last. cbn [bind].
    assert (D10 : drop (p + nl) data = le16 (e_crc e) ++ 85 :: e_minor e :: le32 (e_time e) ++ le16 (e_mode e) ++ le16 (e_uid e) ++ le16 (e_gid e) ++ post).
    { rewrite drop_add by (unfold p; lia). rewrite D9. apply drop_app. reflexivity. }
    replace (hs + 2 - nl - 24) with 12 by lia. change (12 <? 0) with false. cbv iota.
    replace (p + (nl + 1) - 1) with (p + nl) by lia.
    destruct (gw16' _ _ _ _ D10 ltac:(npos) l0_crc) as [G10 D11]. rewrite G10. cbn [bind]. change (12 =? 0) with false. cbv iota.
    unfold level0_ext. set (q := p + nl + 2) in *.
    destruct (gb' _ _ _ _ D11 ltac:(npos)) as [G11 D12]. rewrite G11. cbn [bind].
    change (85 =? ExtendUnix) with true. change (11 <=? 12 - 1) with true. cbv iota.
    destruct (gb' _ _ _ _ D12 ltac:(npos)) as [G12 D13]. rewrite G12. cbn [bind].
    destruct (gl32' _ _ _ _ D13 ltac:(npos) l0_time) as [G13 D14]. rewrite G13. cbn [bind].
    destruct (gw16' _ _ _ _ D14 ltac:(npos) l0_mode) as [G14 D15]. rewrite G14. cbn [bind].
    destruct (gw16' _ _ _ _ D15 ltac:(npos) l0_uid) as [G15 D16]. rewrite G15. cbn [bind].
    destruct (gw16' _ _ _ _ D16 ltac:(npos) l0_gid) as [G16 D17]. rewrite G16. cbn [bind].
    f_equal. f_equal.
    unfold inp. replace (hs + 2 - 1) with (hs + 1) by lia. rewrite drop_drop1 by lia. apply drop_app. reflexivity. }
  rewrite GL. cbn [bind]. unfold finishHeader. cbn [ExtendType].
  change ((ExtendUnix =? ExtendHuman) || (ExtendUnix =? ExtendOs68k) || (ExtendUnix =? ExtendXosk) || (ExtendUnix =? ExtendUnix)
       || (ExtendUnix =? ExtendJava) || (ExtendUnix =? ExtendMacos) || (ExtendUnix =? ExtendAmiga)) with true.
  change (ExtendUnix =? ExtendMacos) with false. change (ExtendUnix =? ExtendAmiga) with false. cbv iota. cbn [andb]. cbv iota.
  match goal with |- context [set_Name ?n ?h] => replace (set_Name n h) with (read0 h0 e) end.
  - reflexivity.
  - unfold set_Name, convertFilename. cbn [Name].
    change ((codeSJIS =? codeSJIS) && (none =? toLower)) with false. cbn [andb]. cbv iota.
    rewrite map_app. unfold read0, slash_back. cbn [HeaderSize SizeFieldLength Method PackedSize OriginalSize Attribute HeaderLevel Realname Crc HasCrc HeaderCrc ExtendType MinorVersion UnixLastModifiedStamp UnixMode UnixUID UnixGid User Group].
    unfold layout0. rewrite !zlen_cons. fold hs. change (map (conv_byte [255; 92] [47; 47] none) [0]) with [0]. f_equal. lia.
Qed.

Lemma GetHeader_layout0 o h0 e rest : legal0 e -> zlen (Method h0) >= 5 -> zlen (Name h0) > zlen (e_name e) -> isSymlinkMode (e_mode e) = false ->
  GetHeader o h0 (layout0 e ++ rest) = Ok (ENil, true, read0 h0 e, rest).
Proof. intros H1 H2 H3 HS. rewrite GetHeader_layout0_any, HS by assumption. reflexivity. Qed.

(** ** Writing the level 0 layout *)

Definition to_backslash (l : list Z) : list Z := map (fun c => if c =? 47 then 92 else c) l.

Definition entry_of (stamp : Z -> Z) (h : hdr) (nm : list Z) : entry0 :=
  E0 (Method h) (PackedSize h) (OriginalSize h) (stamp (UnixLastModifiedStamp h) mod 2 ^ 32) (Attribute h) (to_backslash nm) (Crc h) 0
     (UnixLastModifiedStamp h) (UnixMode h) (UnixUID h) (UnixGid h).

Lemma le32_mod v : le32 (v mod 2 ^ 32) = le32 v.
Proof.
  unfold le32. change (2 ^ 32) with 4294967296.
  assert (E : v = 4294967296 * (v / 4294967296) + v mod 4294967296) by (apply Z.div_mod; lia).
  set (q := v / 4294967296) in *. set (r := v mod 4294967296) in *. rewrite E.
  replace (4294967296 * q + r) with (r + (q * 16777216) * 256) at 1 by lia.
  rewrite Z_mod_plus_full.
  replace ((4294967296 * q + r) / 256) with (r / 256 + (q * 65536) * 256).
  2: { replace (4294967296 * q + r) with (r + (q * 16777216) * 256) by lia. rewrite Z.div_add by lia. lia. }
  rewrite Z_mod_plus_full.
  replace ((4294967296 * q + r) / 65536) with (r / 65536 + (q * 256) * 256).
  2: { replace (4294967296 * q + r) with (r + (q * 65536) * 65536) by lia. rewrite Z.div_add by lia. lia. }
  rewrite Z_mod_plus_full.
  replace ((4294967296 * q + r) / 16777216) with (r / 16777216 + q * 256).
  2: { replace (4294967296 * q + r) with (r + (q * 256) * 16777216) by lia. rewrite Z.div_add by lia. lia. }
  rewrite Z_mod_plus_full. reflexivity.
Qed.

Lemma cstrlen_app nm z : Forall (fun c => c <> 0) nm -> hd 0 z = 0 -> cstrlen (nm ++ z) = zlen nm.
Proof.
  intros F Hz. induction F as [|x l Hx F IH]; cbn [app cstrlen].
  - destruct z as [|y z]; [reflexivity|]. cbn in Hz. subst. reflexivity.
  - destruct (Z.eqb_spec x 0); [contradiction|]. rewrite IH, zlen_cons. lia.
Qed.

Lemma conv_slash l : Forall (fun c => 0 <= c < 256) l -> map (conv_byte [47] [92] none) l = to_backslash l.
Proof.
  intros F. unfold to_backslash. apply map_ext_in. intros c Hc. rewrite Forall_forall in F. specialize (F c Hc).
  unfold conv_byte, delim_index, index_of, option_map. rewrite (Z.eqb_sym 47 c).
  destruct (Z.eqb_spec c 47) as [->|]; [reflexivity|]. destruct (c <? 128); reflexivity.
Qed.

Lemma zlen_map {A} (f : Z -> A) l : zlen (map f l) = zlen l.
Proof. unfold zlen. now rewrite map_length. Qed.

Lemma take_zlen (l : list Z) : take (zlen l) l = l.
Proof. apply take_all. lia. Qed.

Lemma WriteHeader_layout0 o stamp h nm z : GenericFormat o = false -> HeaderLevel h = 0 -> isSymlinkMode (UnixMode h) = false ->
  Name h = nm ++ z -> hd 0 z = 0 -> Forall (fun c => 0 <= c < 256) (Name h) -> Forall (fun c => c <> 0) nm ->
  legal0 (entry_of stamp h nm) ->
  WriteHeader o stamp h = Ok (Some (layout0 (entry_of stamp h nm))).
Proof.
  intros Ho Hl Hs Hn Hz HB HF L. destruct L as [[LM BM] ? ? ? ? [LN BN] ? ? ? ? ? ?]. cbn [entry_of e_method e_packed e_original e_dostime e_attr e_name e_crc e_minor e_time e_mode e_uid e_gid] in *.
  assert (LN' : 0 <= zlen nm <= 221). { split; [apply zlen_nonneg|]. unfold to_backslash in LN. rewrite map_length in LN. unfold zlen. lia. }
  unfold WriteHeader. rewrite Ho, Hl, Hs. cbn [andb]. change (0 =? 0) with true. cbv iota.
  unfold convertFilename. change ((none =? codeSJIS) && (none =? toLower)) with false. cbn [andb]. cbv iota.
  rewrite Hn in *. rewrite <- app_assoc, map_app.
  assert (Bnm : Forall (fun c => 0 <= c < 256) nm) by (apply Forall_app in HB; tauto).
  rewrite (conv_slash nm) by exact Bnm.
  assert (Hz' : hd 0 (map (conv_byte [47] [92] none) (z ++ [0])) = 0) by (destruct z as [|y z]; [reflexivity|cbn in Hz; subst; reflexivity]).
  unfold writeHeaderLevel0. rewrite Ho, Hl. cbv iota.
  assert (LM' : zlen (Method h) = 5) by (unfold zlen; rewrite LM; reflexivity).
  unfold putBytes at 1. rewrite LM'. change (5 <=? 5) with true. cbv iota. cbn [bind].
  rewrite (take_all 5) by lia.
  assert (NZ : Forall (fun c => c <> 0) (to_backslash nm)).
  { unfold to_backslash. clear -HF. induction HF as [|x l Hx F IH]; cbn [map]; constructor; [|exact IH]. destruct (x =? 47); lia. }
  rewrite cstrlen_app by (exact NZ || exact Hz').
  assert (LB : zlen (to_backslash nm) = zlen nm) by (unfold to_backslash; apply zlen_map).
  rewrite LB. destruct (Z.ltb_spec 221 (zlen nm)); [lia|].
  unfold putBytes. rewrite zlen_app, LB. pose proof (zlen_nonneg (map (conv_byte [47] [92] none) (z ++ [0]))).
  destruct (Z.leb_spec (zlen nm) (zlen nm + zlen (map (conv_byte [47] [92] none) (z ++ [0])))); [|lia]. cbn [bind].
  rewrite take_app by exact LB. set (bs := to_backslash nm) in *.
  set (body := ((Method h ++ _) ++ _)).
  assert (EB : body = body0 (entry_of stamp h nm)).
  { unfold body, body0, entry_of. fold bs. cbn [e_method e_packed e_original e_dostime e_attr e_name e_crc e_minor e_time e_mode e_uid e_gid].
    rewrite !le32_put, !le16_put, le32_mod. rewrite (u8_id (Attribute h)) by lia. change (u8 0) with 0.
    fold (zlen bs). rewrite LB. rewrite (u8_id (zlen nm)) by lia. repeat (rewrite <- !app_assoc || cbn [app]). reflexivity. }
  rewrite EB. set (e := entry_of stamp h nm).
  assert (LE : zlen (body0 e) = 34 + zlen nm).
  { unfold e. rewrite body0_len by exact LM. cbn [entry_of e_name]. fold bs. rewrite LB. reflexivity. }
  replace (36 + zlen nm - 2) with (zlen (body0 e)) by lia.
  rewrite u8_id by lia. rewrite calcSum_sum. rewrite (drop_app 2 [0; 0]) by reflexivity. rewrite take_zlen.
  rewrite u8_id by (apply Z.mod_pos_bound; lia). cbn [bind]. reflexivity.
Qed.

Lemma slash_back_to nm : Forall (fun c => 0 <= c < 256) nm -> Forall (fun c => c <> 92) nm -> slash_back (to_backslash nm) = nm.
Proof.
  intros F G. unfold slash_back, to_backslash. rewrite map_map. rewrite <- (map_id nm) at 2. apply map_ext_in. intros c Hc.
  rewrite Forall_forall in F, G. specialize (F c Hc). specialize (G c Hc). cbv beta in F, G.
  destruct (Z.eqb_spec c 47) as [->|N]; [reflexivity|].
  unfold conv_byte, delim_index, index_of, option_map.
  destruct (Z.ltb_spec c 128).
  - destruct (Z.eqb_spec 255 c); [lia|]. destruct (Z.eqb_spec 92 c); [lia|]. reflexivity.
  - reflexivity.
Qed.

(** ** The header checksum *)

Lemma short_read b inp' : zlen inp' <= 20 ->
  readInto (b :: zeros (lzheaderStorage - 1)) 1 20 inp' = (inp', b :: inp' ++ zeros (4095 - zlen inp'), []).
Proof.
  intros H. unfold readInto. rewrite (take_all 20) by lia. pose proof (zlen_nonneg inp').
  f_equal; [f_equal|].
  - cbn [app]. change (take 1 (b :: zeros (lzheaderStorage - 1))) with [b]. cbn [app]. f_equal. f_equal.
    replace (1 + zlen inp') with (zlen inp' + 1) by lia. rewrite drop_drop1 by lia. rewrite drop_zeros by (unfold lzheaderStorage; lia). f_equal.
  - unfold drop. apply skipn_all2. unfold zlen in *. lia.
Qed.

Lemma nth_zlen (l : list Z) n d : nth_error l n = Some d -> Z.of_nat n < zlen l.
Proof. intros H. assert (nth_error l n <> None) by congruence. apply nth_error_Some in H0. unfold zlen. lia. Qed.

Lemma accept_checksum o h inp e h' rest : GetHeader o h inp = Ok (e, true, h', rest) -> Forall (fun c => 0 <= c < 256) inp ->
  exists hs cs t, inp = hs :: cs :: t /\ 20 <= hs /\ 20 <= zlen t /\ sumz (take hs t) mod 256 = cs.
Proof.
  intros H F. destruct inp as [|b inp']; [discriminate H|]. inversion F as [|? ? Hb F']; subst.
  unfold GetHeader in H. destruct (Z.eqb_spec b 0); [discriminate H|].
  destruct (Z.le_gt_cases (zlen inp') 20) as [S|S].
  - exfalso. rewrite short_read in H by exact S. destruct (Z.eqb_spec (zlen inp') 0); [discriminate H|].
    destruct (getByte _ 20) as [[lv ?]| |] eqn:E; cbn [bind] in H; [|discriminate H..].
    assert (R : forall D n, readInto D 21 n [] = ([], D, [])).
    { intros D n1. unfold readInto. replace (take n1 []) with (@nil Z) by (unfold take; now rewrite firstn_nil). replace (drop n1 []) with (@nil Z) by (unfold drop; now rewrite skipn_nil).
      cbn [app]. change (zlen (@nil Z)) with 0. rewrite Z.add_0_r, take_drop. reflexivity. }
    destruct (lv =? 0).
    { unfold getHeaderLevel0 in H. destruct (getByte _ 0) as [[hs0 p0]| |]; cbn [bind] in H; [|discriminate H..].
      destruct (getByte _ p0) as [[cs0 p1]| |]; cbn [bind] in H; [|discriminate H..].
      destruct (hs0 + 2 - 21 <=? 0); [discriminate H|]. rewrite R in H. discriminate H. }
    destruct (lv =? 1).
    { unfold getHeaderLevel1 in H. destruct (getByte _ 0) as [[hs0 p0]| |]; cbn [bind] in H; [|discriminate H..].
      destruct (getByte _ p0) as [[cs0 p1]| |]; cbn [bind] in H; [|discriminate H..].
      destruct (hs0 + 2 - 21 <=? 0); [discriminate H|]. rewrite R in H. discriminate H. }
    destruct (lv =? 2).
    { unfold getHeaderLevel2 in H. destruct (getWord _ 0) as [[hs0 p0]| |]; cbn [bind] in H; [|discriminate H..].
      destruct (hs0 - 26 <? 0); [discriminate H|]. rewrite R in H. discriminate H. }
    destruct (lv =? 3).
    { unfold getHeaderLevel3 in H. destruct (getWord _ 0) as [[hs0 p0]| |]; cbn [bind] in H; [|discriminate H..].
      rewrite R in H. discriminate H. }
    discriminate H.
  - assert (S' : zlen inp' >= 21) by lia. rewrite read_first in H by exact S'.
    rewrite zlen_take_min in H by lia. rewrite Z.min_l in H by lia. change (20 =? 0) with false in H. cbv iota in H.
    destruct (getByte _ 20) as [[lv ?]| |] eqn:E; cbn [bind] in H; [|discriminate H..].
    destruct inp' as [|cs t]; [rewrite zlen_nil in S; lia|]. rewrite zlen_cons in S.
    assert (G0 : getByte (b :: take 20 (cs :: t) ++ zeros 4075) 0 = Ok (b, 1)) by reflexivity.
    assert (G1 : getByte (b :: take 20 (cs :: t) ++ zeros 4075) 1 = Ok (cs, 2)) by reflexivity.
    assert (Sum : forall n, b + 2 = n -> 21 < n <= 4096 -> calcSum (take n (b :: cs :: t) ++ zeros (4096 - zlen (take n (b :: cs :: t)))) 2 b = sumz (take b t) mod 256).
    { intros n0 <- Hn. rewrite calcSum_sum. f_equal.
      replace (b + 2) with (b + 1 + 1) by lia. rewrite take_take1 by lia. rewrite take_take1 by lia.
      set (zz := zeros _). change ((b :: cs :: take b t) ++ zz) with ([b; cs] ++ take b t ++ zz). rewrite drop_app by reflexivity.
      unfold take at 1. rewrite firstn_app. rewrite sumz_app.
      replace (firstn (Z.to_nat b) (take b t)) with (take b t) by (unfold take; rewrite firstn_firstn, Nat.min_id; reflexivity).
      assert (Q : sumz (firstn (Z.to_nat b - length (take b t)) zz) = 0).
      { unfold zz, zeros. generalize (Z.to_nat (4096 - zlen (b :: cs :: take b t))) as k. generalize (Z.to_nat b - length (take b t))%nat as j.
        clear. induction j as [|j IH]; intros [|k]; cbn [firstn repeat]; try reflexivity. cbn. rewrite Z.add_0_l. apply IH. }
      rewrite Q. lia. }
    exists b, cs, t. split; [reflexivity|].
    inversion F' as [|? ? Hcs Ft]; subst.
    destruct (lv =? 0).
    { unfold getHeaderLevel0 in H. rewrite G0 in H. cbn [bind] in H. rewrite G1 in H. cbn [bind] in H.
      destruct (Z.leb_spec (b + 2 - 21) 0); [discriminate H|]. rewrite read_second in H by (auto; lia).
      destruct (zlen (take (b + 2 - 21) (drop 20 (cs :: t))) =? 0); [discriminate H|].
      rewrite (Sum (b + 2)) in H by lia.
      destruct (Z.eqb_spec (sumz (take b t) mod 256) cs); [|discriminate H]. repeat split; lia. }
    destruct (lv =? 1).
    { unfold getHeaderLevel1 in H. rewrite G0 in H. cbn [bind] in H. rewrite G1 in H. cbn [bind] in H.
      destruct (Z.leb_spec (b + 2 - 21) 0); [discriminate H|]. rewrite read_second in H by (auto; lia).
      destruct (zlen (take (b + 2 - 21) (drop 20 (cs :: t))) =? 0); [discriminate H|].
      rewrite (Sum (b + 2)) in H by lia.
      destruct (Z.eqb_spec (sumz (take b t) mod 256) cs); [|discriminate H]. repeat split; lia. }
    exfalso. destruct (lv =? 2).
    { unfold getHeaderLevel2 in H. destruct (getWord _ 0) as [[hs0 p0]| |]; cbn [bind] in H; [|discriminate H..].
      destruct (hs0 - 26 <? 0); [discriminate H|]. destruct (readInto _ 21 5 _) as [[c d] r].
      destruct (zlen c =? 0); [discriminate H|]. destruct (lzheaderStorage <? _); discriminate H. }
    destruct (lv =? 3).
    { unfold getHeaderLevel3 in H. destruct (getWord _ 0) as [[hs0 p0]| |]; cbn [bind] in H; [|discriminate H..].
      destruct (readInto _ 21 11 _) as [[c d] r]. destruct (zlen c =? 0); [discriminate H|].
      destruct (getLongword _ 24) as [[hs1 p1]| |]; cbn [bind] in H; [|discriminate H..].
      destruct (hs1 - 32 <? 0); [discriminate H|]. destruct (lzheaderStorage <? _); discriminate H. }
    discriminate H.
Qed.

(** One byte changed. *)
Lemma sumz_change a x y b : sumz (a ++ x :: b) - sumz (a ++ y :: b) = x - y.
Proof. rewrite !sumz_app. cbn. unfold sumz. lia. Qed.

Lemma checksum_change o h1 h2 pre x y post e1 h1' r1 e2 h2' r2 :
  Forall (fun c => 0 <= c < 256) (pre ++ x :: post) -> 0 <= y < 256 -> x <> y ->
  GetHeader o h1 (pre ++ x :: post) = Ok (e1, true, h1', r1) ->
  1 <= zlen pre < hd 0 pre + 2 ->
  GetHeader o h2 (pre ++ y :: post) = Ok (e2, true, h2', r2) -> False.
Proof.
  intros F Hy Hxy H1 Hp H2.
  assert (F2 : Forall (fun c => 0 <= c < 256) (pre ++ y :: post)).
  { apply Forall_app in F. destruct F as [Fa Fb]. inversion Fb; subst. apply Forall_app. split; [exact Fa|]. constructor; assumption. }
  destruct (accept_checksum _ _ _ _ _ _ H1 F) as (s1 & c1 & t1 & E1 & A1 & B1 & S1).
  destruct (accept_checksum _ _ _ _ _ _ H2 F2) as (s2 & c2 & t2 & E2 & A2 & B2 & S2).
  destruct pre as [|a pre]; [rewrite zlen_nil in Hp; lia|]. cbn [app hd] in *. injection E1 as -> E1. injection E2 as -> E2.
  rewrite zlen_cons in Hp. destruct pre as [|b pre]; cbn [app] in *.
  - injection E1 as -> ->. injection E2 as -> ->. lia.
  - injection E1 as -> <-. injection E2 as -> <-. rewrite zlen_cons in Hp.
    assert (T : forall z, take s2 (pre ++ z :: post) = pre ++ z :: take (s2 - zlen pre - 1) post).
    { intros z. pose proof (zlen_nonneg pre). unfold take. rewrite firstn_app. rewrite firstn_all2 by (unfold zlen in *; lia).
      f_equal. replace (Z.to_nat s2 - length pre)%nat with (S (Z.to_nat (s2 - zlen pre - 1))) by (unfold zlen in *; lia). reflexivity. }
    rewrite T in S1, S2. pose proof (sumz_change pre x y (take (s2 - zlen pre - 1) post)) as D.
    inversion F as [|? ? _ F']; subst. inversion F' as [|? ? _ F'']; subst.
    apply Forall_app in F''. destruct F'' as [_ Fb]. inversion Fb as [|? ? Fx _]; subst.
    set (u := sumz (pre ++ x :: _)) in *. set (v := sumz (pre ++ y :: _)) in *.
    pose proof (Z.div_mod u 256). pose proof (Z.div_mod v 256). lia.
Qed.

(** ** Safety of level 0 *)

Definition bytesP (l : list Z) : Prop := Forall (fun c => 0 <= c < 256) l.

Lemma bytesP_nth l n x : bytesP l -> nth_error l n = Some x -> 0 <= x < 256.
Proof. intros F H. apply nth_error_In in H. unfold bytesP in F. rewrite Forall_forall in F. now apply F. Qed.

Lemma getByte_total data p : 0 <= p < zlen data -> bytesP data -> exists x, getByte data p = Ok (x, p + 1) /\ 0 <= x < 256.
Proof.
  intros H F. unfold getByte. destruct (Z.ltb_spec p 0); [lia|].
  destruct (nth_error data (Z.to_nat p)) as [x|] eqn:E.
  - exists x. split; [reflexivity|]. eapply bytesP_nth; eassumption.
  - apply nth_error_None in E. unfold zlen in H. lia.
Qed.

Lemma getWord_total data p : 0 <= p -> p + 2 <= zlen data -> bytesP data -> exists x, getWord data p = Ok (x, p + 2) /\ 0 <= x < 65536.
Proof.
  intros H H2 F. unfold getWord. destruct (getByte_total data p) as (x0 & E0 & B0); [lia|auto|]. rewrite E0. cbn [bind].
  destruct (getByte_total data (p + 1)) as (x1 & E1 & B1); [lia|auto|]. rewrite E1. cbn [bind].
  eexists. split; [replace (p + 2) with (p + 1 + 1) by lia; reflexivity|]. rewrite Z.shiftl_mul_pow2 by lia. lia.
Qed.

Lemma getLong_total data p : 0 <= p -> p + 4 <= zlen data -> bytesP data -> exists x, getLongword data p = Ok (x, p + 4) /\ 0 <= x < 2 ^ 32.
Proof.
  intros H H2 F. unfold getLongword.
  destruct (getByte_total data p) as (x0 & E0 & B0); [lia|auto|]. rewrite E0. cbn [bind].
  destruct (getByte_total data (p + 1)) as (x1 & E1 & B1); [lia|auto|]. rewrite E1. cbn [bind].
  destruct (getByte_total data (p + 1 + 1)) as (x2 & E2 & B2); [lia|auto|]. rewrite E2. cbn [bind].
  destruct (getByte_total data (p + 1 + 1 + 1)) as (x3 & E3 & B3); [lia|auto|]. rewrite E3. cbn [bind].
  eexists. split; [replace (p + 4) with (p + 1 + 1 + 1 + 1) by lia; reflexivity|]. rewrite !Z.shiftl_mul_pow2 by lia. lia.
Qed.

Lemma get_n_total data n : bytesP data -> forall p, 0 <= p -> p + Z.of_nat n <= zlen data ->
  exists l, get_n data p n = Ok (l, p + Z.of_nat n) /\ zlen l = Z.of_nat n /\ bytesP l.
Proof.
  intros F. induction n as [|n IH]; intros p Hp Hn; cbn [get_n].
  - exists []. split; [repeat f_equal; lia|]. split; [reflexivity|constructor].
  - destruct (getByte_total data p) as (x & E & B); [lia|auto|]. rewrite E. cbn [bind].
    destruct (IH (p + 1)) as (l & E' & L' & B'); [lia|lia|]. rewrite E'. cbn [bind].
    exists (x :: l). split; [replace (p + Z.of_nat (S n)) with (p + 1 + Z.of_nat n) by lia; reflexivity|]. split; [rewrite zlen_cons; lia|constructor; auto].
Qed.

Lemma bytesP_zeros n : bytesP (zeros n).
Proof. unfold zeros, bytesP. apply Forall_forall. intros x H. apply repeat_spec in H. lia. Qed.

Lemma getBytes_total data p len size : bytesP data -> 0 <= p -> 0 <= len -> 0 <= size -> p + len <= zlen data ->
  exists l, getBytes data p len size = Ok (l, Z.min len size, p + Z.min len size) /\ zlen l = len /\ bytesP l.
Proof.
  intros F Hp Hl Hs H. unfold getBytes. destruct (Z.ltb_spec len 0); [lia|].
  destruct (get_n_total data (Z.to_nat (Z.min len size)) F p Hp) as (l & E & L & B); [lia|]. rewrite E. cbn [bind].
  rewrite Z2Nat.id in * by lia. eexists. split; [reflexivity|]. split.
  - rewrite zlen_app, zlen_zeros by lia. lia.
  - apply Forall_app. split; [exact B|apply bytesP_zeros].
Qed.

Lemma set0_total l i : 0 <= i < zlen l -> exists l', set0 l i = Ok l' /\ zlen l' = zlen l.
Proof.
  intros H. unfold set0. destruct (Z.leb_spec 0 i); [|lia]. destruct (Z.ltb_spec i (zlen l)); [|lia]. cbn [andb].
  eexists. split; [reflexivity|]. rewrite zlen_app, zlen_cons, zlen_take_min, zlen_drop_max by lia. lia.
Qed.

Lemma bytesP_take n l : bytesP l -> bytesP (take n l).
Proof. unfold bytesP, take. rewrite !Forall_forall. intros F x H. apply F. rewrite <- (firstn_skipn (Z.to_nat n) l). apply in_or_app. now left. Qed.

Lemma level0_ext_total h data p ext : bytesP data -> 0 <= p -> p + 12 <= zlen data ->
  exists h', level0_ext h data p ext = Ok h' /\ Name h' = Name h.
Proof.
  intros F Hp Hd. unfold level0_ext. destruct (getByte_total data p) as (x & E & B); [lia|auto|]. rewrite E. cbn [bind].
  destruct (x =? ExtendUnix); [|eexists; split; reflexivity].
  destruct (11 <=? ext - 1); [|eexists; split; reflexivity].
  destruct (getByte_total data (p + 1)) as (x1 & E1 & B1); [lia|auto|]. rewrite E1. cbn [bind].
  destruct (getLong_total data (p + 1 + 1)) as (x2 & E2 & B2); [lia|lia|auto|]. rewrite E2. cbn [bind].
  destruct (getWord_total data (p + 1 + 1 + 4)) as (x3 & E3 & B3); [lia|lia|auto|]. rewrite E3. cbn [bind].
  destruct (getWord_total data (p + 1 + 1 + 4 + 2)) as (x4 & E4 & B4); [lia|lia|auto|]. rewrite E4. cbn [bind].
  destruct (getWord_total data (p + 1 + 1 + 4 + 2 + 2)) as (x5 & E5 & B5); [lia|lia|auto|]. rewrite E5. cbn [bind].
  eexists. split; reflexivity.
Qed.

(** The first 21 bytes, whatever their number. *)
Lemma read_first_any b inp' : readInto (b :: zeros (lzheaderStorage - 1)) 1 20 inp' =
  (take 20 inp', b :: take 20 inp' ++ zeros (4095 - zlen (take 20 inp')), drop 20 inp').
Proof.
  unfold readInto. pose proof (zlen_nonneg inp').
  f_equal. f_equal.
  change (take 1 (b :: zeros (lzheaderStorage - 1))) with [b]. cbn [app]. f_equal. f_equal.
  set (k := zlen (take 20 inp')). assert (0 <= k <= 20) by (unfold k; rewrite zlen_take_min by lia; lia).
  replace (1 + k) with (k + 1) by lia. rewrite drop_drop1 by lia. rewrite drop_zeros by (unfold lzheaderStorage; lia). f_equal.
Qed.

Lemma level0_total h data inp : bytesP data -> bytesP inp -> zlen data = 4096 -> 1 <= zlen (Name h) ->
  exists e ok h' rest, getHeaderLevel0 h data inp = Ok (e, ok, h', rest) /\ 1 <= zlen (Name h') /\
    (exists n, rest = drop n inp) /\ (ok = true -> exists n, 1 <= n /\ rest = drop n inp /\ inp <> []).
Proof.
  intros FD FI LD LN. unfold getHeaderLevel0.
  destruct (getByte_total data 0) as (hs & E0 & B0); [lia|auto|]. rewrite E0. cbn [bind].
  destruct (getByte_total data (0 + 1)) as (cs & E1 & B1); [lia|auto|]. rewrite E1. cbn [bind].
  assert (D0 : inp = drop 0 inp) by reflexivity.
  destruct (Z.leb_spec (hs + 2 - 21) 0).
  { do 4 eexists. split; [reflexivity|]. cbn. split; [lia|]. split; [exists 0; reflexivity|discriminate]. }
  unfold readInto. set (c := take (hs + 2 - 21) inp). set (rest := drop (hs + 2 - 21) inp).
  destruct (Z.eqb_spec (zlen c) 0) as [Q|Q].
  { do 4 eexists. split; [reflexivity|]. cbn. split; [lia|]. split; [eexists; reflexivity|discriminate]. }
  assert (NE : inp <> []) by (intros ->; apply Q; unfold c, take; now rewrite firstn_nil).
  set (data' := take 21 data ++ c ++ drop (21 + zlen c) data).
  assert (LC : 0 <= zlen c <= 236) by (unfold c; rewrite zlen_take_min by lia; pose proof (zlen_nonneg inp); lia).
  assert (LD' : zlen data' = 4096) by (unfold data'; rewrite !zlen_app, zlen_take_min, zlen_drop_max by lia; lia).
  assert (FD' : bytesP data').
  { unfold data'. apply Forall_app. split; [now apply bytesP_take|]. apply Forall_app. split; [now apply bytesP_take|].
    unfold drop. apply Forall_forall. intros x Hx. unfold bytesP in FD. rewrite Forall_forall in FD. apply FD.
    rewrite <- (firstn_skipn (Z.to_nat (21 + zlen c)) data). apply in_or_app. now right. }
  destruct (negb _).
  { do 4 eexists. split; [reflexivity|]. cbn. split; [lia|]. split; [eexists; reflexivity|discriminate]. }
  cbn [Method Name set_HeaderSize set_SizeFieldLength].
  destruct (getBytes_total data' (0 + 1 + 1) 5 (zlen (Method h)) FD') as (m & E2 & L2 & B2); [lia|lia|apply zlen_nonneg|lia|].
  rewrite E2. cbn [bind]. set (p := 0 + 1 + 1 + Z.min 5 (zlen (Method h))).
  assert (Hp : 2 <= p <= 7) by (unfold p; pose proof (zlen_nonneg (Method h)); lia).
  destruct (getLong_total data' p) as (ps & E3 & B3); [lia|lia|auto|]. rewrite E3. cbn [bind].
  destruct (getLong_total data' (p + 4)) as (os & E4 & B4); [lia|lia|auto|]. rewrite E4. cbn [bind].
  destruct (getLong_total data' (p + 4 + 4)) as (st & E5 & B5); [lia|lia|auto|]. rewrite E5. cbn [bind].
  destruct (getByte_total data' (p + 4 + 4 + 4)) as (at' & E6 & B6); [lia|auto|]. rewrite E6. cbn [bind].
  destruct (getByte_total data' (p + 4 + 4 + 4 + 1)) as (lv & E7 & B7); [lia|auto|]. rewrite E7. cbn [bind].
  destruct (getByte_total data' (p + 4 + 4 + 4 + 1 + 1)) as (nl & E8 & B8); [lia|auto|]. rewrite E8. cbn [bind].
  destruct (getBytes_total data' (p + 4 + 4 + 4 + 1 + 1 + 1) (nl + 1) (zlen (Name h)) FD') as (nm & E9 & L9 & B9); [lia|lia|lia|lia|].
  rewrite E9. cbn [bind]. set (i := Z.min (nl + 1) (zlen (Name h))) in *. assert (1 <= i <= 256) by (unfold i; lia).
  destruct (set0_total nm (i - 1)) as (nm' & E10 & L10); [unfold i in *; lia|]. rewrite E10. cbn [bind].
  assert (OKn : exists n, 1 <= n /\ rest = drop n inp /\ inp <> []) by (exists (hs + 2 - 21); repeat split; [lia|exact NE]).
  destruct (hs + 2 - nl - 24 <? 0).
  { destruct (hs + 2 - nl - 24 =? -2); (do 4 eexists; split; [reflexivity|]; cbn; split; [lia|]; split; [eexists; reflexivity|auto]). }
  destruct (getWord_total data' (p + 4 + 4 + 4 + 1 + 1 + 1 + i - 1)) as (crc & E11 & B11); [lia|lia|auto|]. rewrite E11. cbn [bind].
  destruct (hs + 2 - nl - 24 =? 0).
  { do 4 eexists; split; [reflexivity|]; cbn; split; [lia|]; split; [eexists; reflexivity|auto]. }
  match goal with |- context [level0_ext ?hh data' ?q ?ee] => destruct (level0_ext_total hh data' q ee FD') as (h' & E12 & N12); [lia|lia|] end.
  rewrite E12. cbn [bind].
  do 4 eexists; split; [reflexivity|]. split; [|split; [eexists; reflexivity|auto]].
  cbn [Name set_HeaderSize]. rewrite N12. cbn. lia.
Qed.

Lemma finish_total o h rest : exists e ok h', finishHeader o h rest = Ok (e, ok, h', rest) /\ zlen (Name h') = zlen (Name h).
Proof.
  unfold finishHeader.
  set (fcase := if (ExtendType h =? ExtendHuman) || _ || _ || _ || _ || _ || _ then none else _). clearbody fcase.
  destruct (ExtendType h =? ExtendMacos); cbv iota.
  all: set (b0 := (ExtendType h =? ExtendAmiga) && _ && _ && _); clearbody b0.
  all: set (h1 := if b0 then _ else h); assert (N1 : Name h1 = Name h) by (unfold h1; destruct b0; reflexivity); clearbody h1.
  all: destruct (isSymlinkMode _); [destruct (find_byte _ _ _)|]; do 3 eexists; (split; [reflexivity|]); cbn [Name set_Realname set_Name];
    unfold convertFilename; rewrite zlen_map, N1; reflexivity.
Qed.

(** The byte that says the level of the header. *)
Definition level_byte (inp : list Z) : Z := nth 20 inp 0.

Lemma nth_zeros n k : nth n (zeros k) 0 = 0.
Proof. unfold zeros. generalize (Z.to_nat k) as m. revert n. induction n as [|n IH]; intros [|m]; cbn; auto. Qed.

Lemma getByte_level b inp' : getByte (b :: take 20 inp' ++ zeros (4095 - zlen (take 20 inp'))) 20 = Ok (level_byte (b :: inp'), 21).
Proof.
  set (k := zlen (take 20 inp')). assert (Hk : 0 <= k <= 20) by (unfold k; rewrite zlen_take_min by lia; pose proof (zlen_nonneg inp'); lia).
  unfold getByte. change (20 <? 0) with false. cbv iota. change (Z.to_nat 20) with 20%nat. unfold level_byte.
  change (nth 20 (b :: inp') 0) with (nth 19 inp' 0). change (nth_error (b :: take 20 inp' ++ zeros (4095 - k)) 20) with (nth_error (take 20 inp' ++ zeros (4095 - k)) 19).
  assert (E : nth_error (take 20 inp' ++ zeros (4095 - k)) 19 = Some (nth 19 inp' 0)).
  { assert (LT : (19 < length (take 20 inp' ++ zeros (4095 - k)))%nat).
    { rewrite app_length. unfold zeros. rewrite repeat_length. unfold k, zlen in *. lia. }
    rewrite nth_error_nth' with (d := 0) by exact LT. f_equal.
    destruct (Nat.lt_ge_cases 19 (length inp')) as [L|L].
    - rewrite app_nth1 by (unfold take; rewrite firstn_length; lia). unfold take. change (Z.to_nat 20) with 20%nat.
      rewrite <- (firstn_skipn 20 inp') at 2. rewrite app_nth1 by (rewrite firstn_length; lia). reflexivity.
    - rewrite app_nth2 by (unfold take; rewrite firstn_length; lia). rewrite nth_zeros. symmetry. apply nth_overflow. exact L. }
  rewrite E. reflexivity.
Qed.

Lemma GetHeader_level0_total o h inp : bytesP inp -> 1 <= zlen (Name h) ->
  ~ In (level_byte inp) [1; 2; 3] ->
  exists e ok h' rest, GetHeader o h inp = Ok (e, ok, h', rest) /\ 1 <= zlen (Name h') /\ bytesP rest /\
    (ok = true -> zlen rest + 22 <= zlen inp).
Proof.
  intros F LN HL. destruct inp as [|b inp'].
  { do 4 eexists. split; [reflexivity|]. repeat split; auto. discriminate. }
  inversion F as [|? ? Hb F']; subst. unfold GetHeader.
  assert (DB : forall n, bytesP (drop n inp')).
  { intros n. unfold drop. apply Forall_forall. intros x Hx. rewrite Forall_forall in F'. apply F'.
    rewrite <- (firstn_skipn (Z.to_nat n) inp'). apply in_or_app. now right. }
  destruct (b =? 0).
  { do 4 eexists. split; [reflexivity|]. repeat split; auto. discriminate. }
  rewrite read_first_any. set (k := zlen (take 20 inp')).
  assert (Hk : 0 <= k <= 20) by (unfold k; rewrite zlen_take_min by lia; pose proof (zlen_nonneg inp'); lia).
  destruct (k =? 0).
  { do 4 eexists. split; [reflexivity|]. repeat split; auto. discriminate. }
  unfold k at 1. rewrite getByte_level. cbn [bind].
  assert (FD : bytesP (b :: take 20 inp' ++ zeros (4095 - k))).
  { constructor; [exact Hb|]. apply Forall_app. split; [now apply bytesP_take|apply bytesP_zeros]. }
  assert (LD : zlen (b :: take 20 inp' ++ zeros (4095 - k)) = 4096) by (rewrite zlen_cons, zlen_app, zlen_zeros by lia; fold k; lia).
  destruct (Z.eqb_spec (level_byte (b :: inp')) 0).
  - destruct (level0_total h _ _ FD (DB 20) LD LN) as (e1 & ok1 & h1 & r1 & E1 & N1 & (n1 & R1) & O1). rewrite E1. cbn [bind].
    assert (BR : bytesP r1). { rewrite R1. destruct (Z.le_gt_cases 0 n1). - rewrite <- drop_add by lia. apply DB. - unfold drop at 1. replace (Z.to_nat n1) with 0%nat by lia. apply DB. }
    destruct ok1; destruct e1; try (do 4 eexists; split; [reflexivity|]; repeat split; auto; discriminate).
    destruct (finish_total o h1 r1) as (e2 & ok2 & h2 & E2 & N2). rewrite E2. do 4 eexists. split; [reflexivity|]. split; [lia|]. split; [exact BR|].
    intros _. destruct (O1 eq_refl) as (n2 & Hn2 & R2 & NE). rewrite R2. rewrite zlen_drop_max, zlen_cons by lia.
    assert (zlen (drop 20 inp') > 0) by (destruct (drop 20 inp') eqn:ED; [now elim NE|rewrite zlen_cons; pose proof (zlen_nonneg l); lia]).
    rewrite zlen_drop_max in * by lia. lia.
  - cbn [In] in HL. set (lv := level_byte (b :: inp')) in *. destruct (Z.eqb_spec lv 1); [lia|]. destruct (Z.eqb_spec lv 2); [lia|].
    destruct (Z.eqb_spec lv 3); [lia|]. cbn [bind].
    do 4 eexists. split; [reflexivity|]. repeat split; auto. discriminate.
Qed.

(** ** Extended headers of level 1 *)

Lemma ext_switch_hs x x' p : ext_switch x = Ok (x', p) -> HeaderSize (x_hdr x') = HeaderSize (x_hdr x).
Proof.
  unfold ext_switch. intros H.
  repeat match type of H with
  | bind ?e _ = _ => destruct e as [[]| |]; cbn [bind] in H; [|discriminate H..]
  | bind ?e _ = _ => destruct e; cbn [bind] in H; [|discriminate H..]
  | (let '(_, _) := ?q in _) = _ => destruct q
  | (if ?b then _ else _) = _ => destruct b
  end; injection H as <- _; reflexivity.
Qed.

Lemma ext_never h size inp : HeaderSize h <> 0 -> forall t h' r, getExtendedHeader h size inp <> Ok (Some t, h', r).
Proof.
  intros Hs t h' r H. unfold getExtendedHeader in H.
  apply (loop_partial (fun x => HeaderSize (x_hdr x) = HeaderSize h) (fun q => fst (fst q) = None)) in H.
  - discriminate H.
  - intros x c0 Ix Sx. unfold ext_step in Sx. destruct (Z.eqb_spec (HeaderSize (x_hdr x)) 0); [congruence|].
    destruct (lzheaderStorage <? _); [injection Sx as <-; reflexivity|].
    destruct (readInto _ 0 _ _) as [[c d] r0]. destruct (zlen c =? 0); [injection Sx as <-; reflexivity|].
    destruct (ext_switch _) as [[x1 p1]| |] eqn:E; cbn [bind] in Sx; [|discriminate Sx..].
    destruct (getWord _ _) as [[? ?]| |]; cbn [bind] in Sx; [|discriminate Sx..].
    injection Sx as <-. cbn [x_hdr]. apply ext_switch_hs in E. cbn [x_hdr] in E. congruence.
  - reflexivity.
Qed.

Lemma body1_len e : length (f_method e) = 5%nat -> zlen (body1 e) = 25 + zlen (f_name e).
Proof. intros H. unfold body1. rewrite !zlen_app. unfold zlen at 1. rewrite H. unfold le32, le16. rewrite !zlen_cons, !zlen_nil. lia. Qed.

(** The header level 1 leaves after its fixed part. *)
Definition fixed1 (h0 : hdr) (e : entry1) (nm : list Z) : hdr :=
  HDR (zlen (body1 e)) 2 (f_method e) (f_skip e) (f_original e) (f_attr e) 1 nm (Realname h0)
      (f_crc e) true (HeaderCrc h0) (f_os e) (MinorVersion h0) (f_dostime e) (Z.lor UnixFileRegular UnixRwRwRw) 0 0 (User h0) (Group h0).

Lemma GetHeader_layout1 o h0 e rest : legal1 e -> zlen (Method h0) >= 5 -> zlen (Name h0) >= zlen (f_name e) ->
  GetHeader o h0 (layout1 e ++ rest) =
  '(er, ok, h, r) <- (nm <- set0 (f_name e) (zlen (f_name e) - 1) ;;
    (if 0 <? next_size (f_exts e) then
      '(x, h, r) <- getExtendedHeader (fixed1 h0 e nm) (next_size (f_exts e)) (ext_bytes (f_exts e) ++ rest) ;;
      match x with
      | None => Ok (EOther, false, h, r)
      | Some t => Ok (ENil, true, set_HeaderSize (HeaderSize h + t + 2) (set_PackedSize (PackedSize h - t) h), r)
      end
    else Ok (ENil, true, set_HeaderSize (zlen (body1 e) + 2) (fixed1 h0 e nm), ext_bytes (f_exts e) ++ rest)) : res lev_res) ;;
  match er, ok with
  | ENil, true => finishHeader o h r
  | _, _ => Ok (er, false, h, r)
  end.
Proof.
  intros [[LM BM] ? ? ? ? [LN BN] ? ? LX] HM HN.
  assert (LB : zlen (body1 e) = 25 + zlen (f_name e)) by now apply body1_len.
  assert (LN' : 0 <= zlen (f_name e) <= 230) by (split; [apply zlen_nonneg|unfold zlen; lia]).
  assert (LM' : zlen (f_method e) = 5) by (unfold zlen; rewrite LM; reflexivity).
  assert (NX : 0 <= next_size (f_exts e) < 65536).
  { destruct (f_exts e) as [|[ty d] l]; cbn [next_size]; [lia|]. inversion LX as [|? ? [? [? ?]] ?]; subst. cbn [snd] in *. lia. }
  unfold layout1. fold (zlen (body1 e)). set (hs := zlen (body1 e)) in *. set (cs := checksum (body1 e)). cbn [app]. rewrite <- app_assoc.
  set (more := ext_bytes (f_exts e) ++ rest).
  unfold GetHeader. destruct (Z.eqb_spec hs 0); [lia|].
  set (inp := cs :: body1 e ++ more).
  assert (LI : zlen inp >= 21) by (unfold inp; rewrite zlen_cons, zlen_app; pose proof (zlen_nonneg more); lia).
  rewrite read_first by exact LI. rewrite zlen_take_min by lia. rewrite Z.min_l by lia. change (20 =? 0) with false. cbv iota.
  assert (RT : take (hs + 2) (hs :: inp) = hs :: cs :: body1 e).
  { unfold inp. change (hs :: cs :: body1 e ++ more) with ((hs :: cs :: body1 e) ++ more). apply take_app. rewrite !zlen_cons. fold hs. lia. }
  assert (B20 : getByte (hs :: take 20 inp ++ zeros 4075) 20 = Ok (1, 21)).
  { replace (zeros 4075) with (zeros (4095 - zlen (take 20 inp))) by (rewrite zlen_take_min by lia; f_equal; lia).
    rewrite getByte_level. repeat f_equal. unfold level_byte, inp, body1.
    change (nth 20 (hs :: cs :: ?x) 0) with (nth 18 x 0). destruct (f_method e) as [|m1 [|m2 [|m3 [|m4 [|m5 [|]]]]]]; try discriminate LM. reflexivity. }
  rewrite B20. cbn [bind]. change (1 =? 0) with false. change (1 =? 1) with true. cbv iota.
  match goal with |- bind ?a _ = bind ?b _ => assert (GL : a = b); [|rewrite GL; reflexivity] end.
  unfold getHeaderLevel1.
  assert (I1 : exists t, inp = cs :: t) by (eexists; reflexivity). destruct I1 as [t1 I1].
  destruct (gb (hs :: take 20 inp ++ zeros 4075) 0 hs (take 20 inp ++ zeros 4075) ltac:(lia) eq_refl) as [G0 D0]. rewrite G0. cbn [bind].
  assert (D0' : drop (0 + 1) (hs :: take 20 inp ++ zeros 4075) = cs :: (take 19 t1 ++ zeros 4075)) by (rewrite D0, I1; reflexivity).
  destruct (gb _ (0 + 1) _ _ ltac:(lia) D0') as [G1 _]. rewrite G1. cbn [bind].
  destruct (Z.leb_spec (hs + 2 - 21) 0); [lia|]. rewrite read_second by lia.
  rewrite RT. set (c := take (hs + 2 - 21) (drop 20 inp)).
  destruct (Z.eqb_spec (zlen c) 0) as [Q|Q].
  { exfalso. unfold c in Q. rewrite zlen_take_min, zlen_drop_max in Q by lia. lia. }
  rewrite calcSum_sum.
  set (data := (hs :: cs :: body1 e) ++ zeros (4096 - zlen (hs :: cs :: body1 e))).
  assert (SD : take hs (drop 2 data) = body1 e).
  { unfold data. change ((hs :: cs :: body1 e) ++ zeros (4096 - zlen (hs :: cs :: body1 e))) with ([hs; cs] ++ body1 e ++ zeros (4096 - zlen (hs :: cs :: body1 e))).
    rewrite drop_app by reflexivity. apply take_app. reflexivity. }
  rewrite SD. change (sumz (body1 e) mod 256) with cs. rewrite Z.eqb_refl. cbn [negb]. cbv iota.
  set (post := zeros (4096 - zlen (hs :: cs :: body1 e))) in *.
  assert (D2 : drop (0 + 1 + 1) data = f_method e ++ le32 (f_skip e) ++ le32 (f_original e) ++ le32 (f_dostime e) ++
     f_attr e :: 1 :: Z.of_nat (length (f_name e)) :: (f_name e ++ le16 (f_crc e) ++ f_os e :: le16 (next_size (f_exts e)) ++ post)).
  { unfold data. change (0 + 1 + 1) with 2. change ((hs :: cs :: body1 e) ++ post) with ([hs; cs] ++ body1 e ++ post).
    rewrite drop_app by reflexivity. unfold body1. repeat (rewrite <- !app_assoc || cbn [app]). reflexivity. }
  destruct (gbs data _ _ (0 + 1 + 1) 5 (zlen (Method (set_HeaderSize hs (set_SizeFieldLength 2 h0)))) ltac:(lia) D2 LM' ltac:(cbn; lia)) as [G2 D3].
  rewrite G2. cbn [bind].
  destruct (gl32' _ _ _ _ D3 ltac:(npos) l1_skip) as [G3 D4]. rewrite G3. cbn [bind].
  destruct (gl32' _ _ _ _ D4 ltac:(npos) l1_original) as [G4 D5]. rewrite G4. cbn [bind].
  destruct (gl32' _ _ _ _ D5 ltac:(npos) l1_dostime) as [G5 D6]. rewrite G5. cbn [bind].
  destruct (gb' _ _ _ _ D6 ltac:(npos)) as [G6 D7]. rewrite G6. cbn [bind].
  destruct (gb' _ _ _ _ D7 ltac:(npos)) as [G7 D8]. rewrite G7. cbn [bind].
  destruct (gb' _ _ _ _ D8 ltac:(npos)) as [G8 D9]. rewrite G8. cbn [bind]. fold (zlen (f_name e)) in *.
  set (nl := zlen (f_name e)) in *. set (p := 0 + 1 + 1 + 5 + 4 + 4 + 4 + 1 + 1 + 1) in *.
  destruct (gbs data _ _ p nl (zlen (Name (set_HeaderSize hs (set_SizeFieldLength 2 h0)))) ltac:(unfold p; lia) D9) as [G9 D10].
  { reflexivity. } { cbn. lia. }
  rewrite G9. cbn [bind]. destruct (set0 (f_name e) (nl - 1)) as [nm| |]; cbn [bind]; [|reflexivity..].
  destruct (gw16' _ _ _ _ D10 ltac:(npos) l1_crc) as [G10 D11]. rewrite G10. cbn [bind].
  destruct (gb' _ _ _ _ D11 ltac:(npos)) as [G11 D12]. rewrite G11. cbn [bind].
  replace (hs + 2 - nl - 27) with 0 by lia. change (0 <? 0) with false. cbv iota.
  destruct (gw16' _ _ _ _ D12 ltac:(npos) NX) as [G12 D13]. rewrite G12. cbn [bind].
  replace (drop (hs + 2 - 1) inp) with more; [reflexivity|].
  unfold inp. replace (hs + 2 - 1) with (hs + 1) by lia. rewrite drop_drop1 by lia. symmetry. apply drop_app. reflexivity.
Qed.

(** ** Levels 2 and 3 *)

Lemma shift8 v : Z.shiftl v 8 = 256 * v.
Proof. rewrite Z.shiftl_mul_pow2 by lia. change (2 ^ 8) with 256. lia. Qed.

Lemma level2_panics o h inp : 22 <= zlen inp -> nth 0 inp 0 <> 0 -> level_byte inp = 2 -> 26 <= nth 0 inp 0 + 256 * nth 1 inp 0 ->
  GetHeader o h inp = Panic.
Proof.
  intros L N0 LV HS. destruct inp as [|b [|c t]]; [rewrite zlen_nil in L; lia|rewrite zlen_cons, zlen_nil in L; lia|].
  rewrite zlen_cons in L. unfold GetHeader. cbn [nth] in N0, HS. destruct (Z.eqb_spec b 0); [contradiction|].
  rewrite read_first_any. rewrite zlen_take_min at 1 by lia. rewrite Z.min_l by lia. change (20 =? 0) with false. cbv iota.
  rewrite getByte_level. rewrite LV. cbn [bind]. change (2 =? 0) with false. change (2 =? 1) with false. change (2 =? 2) with true. cbv iota.
  unfold getHeaderLevel2.
  assert (GW : getWord (b :: take 20 (c :: t) ++ zeros (4095 - zlen (take 20 (c :: t)))) 0 = Ok (Z.shiftl c 8 + b, 2)) by reflexivity.
  rewrite GW. cbn [bind]. rewrite shift8. destruct (Z.ltb_spec (256 * c + b - 26) 0); [lia|].
  unfold readInto. set (k := zlen (take 5 (drop 20 (c :: t)))).
  assert (Hk : 1 <= k <= 5). { unfold k. rewrite zlen_take_min, zlen_drop_max by lia. rewrite zlen_cons in *. lia. }
  destruct (Z.eqb_spec k 0); [lia|].
  assert (U : u64 (k - lzheaderStorage) = k - 4096 + 2 ^ 64).
  { unfold u64, lzheaderStorage. symmetry. apply (Z.mod_unique _ _ (-1)); lia. }
  rewrite U. destruct (Z.ltb_spec lzheaderStorage (k - 4096 + 2 ^ 64)) as [|Q]; [reflexivity|]. unfold lzheaderStorage in Q. lia.
Qed.

Lemma nth_drop (l : list Z) n k : nth k (drop n l) 0 = nth (Z.to_nat n + k) l 0.
Proof. unfold drop. revert l. induction (Z.to_nat n) as [|m IH]; intros l; [reflexivity|]. destruct l; cbn; [now destruct k|apply IH]. Qed.

Lemma getByte_nth data p : 0 <= p < zlen data -> getByte data p = Ok (nth (Z.to_nat p) data 0, p + 1).
Proof.
  intros H. unfold getByte. destruct (Z.ltb_spec p 0); [lia|].
  rewrite nth_error_nth' with (d := 0) by (unfold zlen in H; lia). reflexivity.
Qed.

Lemma level3_panics o h inp : 28 <= zlen inp -> nth 0 inp 0 <> 0 -> level_byte inp = 3 ->
  32 <= nth 24 inp 0 + 256 * nth 25 inp 0 + 65536 * nth 26 inp 0 + 16777216 * nth 27 inp 0 ->
  GetHeader o h inp = Panic.
Proof.
  intros L N0 LV HS. destruct inp as [|b inp']; [rewrite zlen_nil in L; lia|].
  rewrite zlen_cons in L. unfold GetHeader. change (nth 0 (b :: inp') 0) with b in N0. destruct (Z.eqb_spec b 0); [contradiction|].
  rewrite read_first by lia. rewrite zlen_take_min at 1 by lia. rewrite Z.min_l by lia. change (20 =? 0) with false. cbv iota.
  pose proof (getByte_level b inp') as GL. rewrite zlen_take_min in GL by lia. rewrite Z.min_l in GL by lia. change (4095 - 20) with 4075 in GL.
  rewrite GL. rewrite LV. cbn [bind]. change (3 =? 0) with false. change (3 =? 1) with false. change (3 =? 2) with false. change (3 =? 3) with true. cbv iota.
  unfold getHeaderLevel3. destruct inp' as [|c t]; [rewrite zlen_nil in L; lia|].
  assert (GW : getWord (b :: take 20 (c :: t) ++ zeros 4075) 0 = Ok (Z.shiftl c 8 + b, 2)) by reflexivity.
  rewrite GW. cbn [bind].
  pose proof (read_second b (c :: t) 32 ltac:(lia) ltac:(lia)) as RS. change (32 - 21) with 11 in RS. rewrite RS.
  set (k := zlen (take 11 (drop 20 (c :: t)))).
  assert (Hk : 1 <= k <= 11). { unfold k. rewrite zlen_take_min, zlen_drop_max by lia. lia. }
  destruct (Z.eqb_spec k 0); [lia|].
  set (inp := b :: c :: t) in *. set (D := take 32 inp ++ zeros (4096 - zlen (take 32 inp))).
  assert (LT : zlen (take 32 inp) = Z.min 32 (zlen inp)) by (apply zlen_take_min; lia).
  assert (LI : zlen inp >= 28) by (unfold inp; rewrite !zlen_cons in *; lia).
  assert (LD : zlen D = 4096) by (unfold D; rewrite zlen_app, zlen_zeros by lia; lia).
  assert (NT : forall i, (i < 28)%nat -> nth i D 0 = nth i inp 0).
  { intros i Hi. unfold D. rewrite app_nth1 by (unfold zlen in *; lia).
    rewrite <- (firstn_skipn 32 inp) at 2. rewrite app_nth1 by (rewrite firstn_length; unfold zlen in *; lia). reflexivity. }
  assert (GLW : exists q, getLongword D 24 = Ok (nth 24 inp 0 + 256 * nth 25 inp 0 + 65536 * nth 26 inp 0 + 16777216 * nth 27 inp 0, q)).
  { unfold getLongword. rewrite !getByte_nth by lia. cbn [bind]. rewrite !getByte_nth by lia. cbn [bind]. rewrite !getByte_nth by lia. cbn [bind]. rewrite !getByte_nth by lia. cbn [bind].
    eexists. f_equal. f_equal. change (Z.to_nat 24) with 24%nat. change (Z.to_nat (24 + 1)) with 25%nat. change (Z.to_nat (24 + 1 + 1)) with 26%nat. change (Z.to_nat (24 + 1 + 1 + 1)) with 27%nat.
    rewrite !NT by lia. rewrite !Z.shiftl_mul_pow2 by lia. change (2 ^ 8) with 256. change (2 ^ 16) with 65536. change (2 ^ 24) with 16777216. lia. }
  destruct GLW as [q GLW]. rewrite GLW. cbn [bind].
  destruct (Z.ltb_spec (nth 24 inp 0 + 256 * nth 25 inp 0 + 65536 * nth 26 inp 0 + 16777216 * nth 27 inp 0 - 32) 0); [lia|].
  assert (U : u64 (k - lzheaderStorage) = k - 4096 + 2 ^ 64).
  { unfold u64, lzheaderStorage. symmetry. apply (Z.mod_unique _ _ (-1)); lia. }
  rewrite U. destruct (Z.ltb_spec lzheaderStorage (k - 4096 + 2 ^ 64)) as [|Q]; [reflexivity|]. unfold lzheaderStorage in Q. lia.
Qed.

(** ** Writing levels 1 and 2 *)

Lemma writeLevel1_panics o stamp h path : writeHeaderLevel1 o stamp h path = Panic.
Proof.
  unfold writeHeaderLevel1. destruct (index_ff path 0 =? -1); [reflexivity|].
  destruct (if negb _ then _ else _) as [[[bn nl] dn] dl].
  assert (PB : forall l n, putBytes l n = Panic \/ exists x, putBytes l n = Ok x).
  { intros l n. unfold putBytes. destruct (n <=? zlen l); [right; eexists; reflexivity|left; reflexivity]. }
  destruct (PB (Method h) 5) as [E|[m E]]; rewrite E; cbn [bind]; [reflexivity|].
  assert (Q : forall (l r : list Z), l <> [] -> (if lzheaderStorage <? zlen (l ++ r) + lzheaderStorage then Panic else Ok (l ++ r) : res (list Z)) = Panic).
  { intros l r NE. rewrite zlen_app. destruct l; [contradiction|]. rewrite zlen_cons. pose proof (zlen_nonneg l). pose proof (zlen_nonneg r).
    destruct (Z.ltb_spec lzheaderStorage (1 + zlen l + zlen r + lzheaderStorage)); [reflexivity|lia]. }
  destruct (230 <? nl).
  - cbn [bind]. destruct (PB bn nl) as [E1|[x E1]]; rewrite E1; cbn [bind]; [reflexivity|].
    destruct (0 <? dl).
    + destruct (PB dn dl) as [E2|[y E2]]; rewrite E2; cbn [bind]; [reflexivity|]. apply Q. discriminate.
    + cbn [bind]. apply Q. discriminate.
  - destruct (PB bn nl) as [E1|[x E1]]; rewrite E1; cbn [bind]; [reflexivity|].
    destruct (0 <? dl).
    + destruct (PB dn dl) as [E2|[y E2]]; rewrite E2; cbn [bind]; [reflexivity|]. apply Q. discriminate.
    + cbn [bind]. apply Q. discriminate.
Qed.

Lemma write_level2_unreadable o stamp h l o' h' rest : HeaderLevel h = 2 -> zlen (Method h) = 5 ->
  WriteHeader o stamp h = Ok (Some l) -> zlen l < 65536 -> GetHeader o' h' (l ++ rest) = Panic.
Proof.
  intros HL HM H SM. unfold WriteHeader in H. rewrite HL in H. change (2 =? 0) with false in H. change (2 =? 1) with false in H. change (2 =? 2) with true in H. cbv iota in H.
  set (path := if isSymlinkMode _ then _ else _) in H. destruct path as [path|]; [|discriminate H].
  set (pt := convertFilename _ _ _ _ _) in H. destruct (writeHeaderLevel2 o h pt) as [l0| |] eqn:E; cbn [bind] in H; [|discriminate H..].
  injection H as ->. unfold writeHeaderLevel2 in E.
  destruct (if negb _ then _ else _) as [[[bn nl] dn] dl].
  unfold putBytes at 1 in E. rewrite HM in E. change (5 <=? 5) with true in E. cbv iota in E. cbn [bind] in E. rewrite take_all in E by lia.
  destruct (putBytes bn nl) as [nm| |]; cbn [bind] in E; [|discriminate E..].
  match type of E with bind ?a _ = _ => destruct a as [e2| |]; cbn [bind] in E; [|discriminate E..] end.
  set (h1 := Method h ++ _) in E. set (h2 := putWord nl ++ _) in E.
  assert (L1 : zlen h1 = 25). { unfold h1. rewrite !zlen_app, HM, !putLong_len, !putWord_len. destruct (GenericFormat o); reflexivity. }
  assert (L2 : 2 <= zlen h2) by (unfold h2; rewrite zlen_app, putWord_len; pose proof (zlen_nonneg (nm ++ e2 ++ (if GenericFormat o then [] else writeUnixInfo h) ++ putWord 0)); lia).
  set (hs0 := zlen h1 + zlen h2 + 4) in *. set (h2' := if Z.land hs0 255 =? 0 then h2 ++ [0] else h2) in E.
  set (hs := if Z.land hs0 255 =? 0 then hs0 + 1 else hs0) in E.
  assert (L2' : zlen h2 <= zlen h2' <= zlen h2 + 1) by (unfold h2'; destruct (_ =? 0); [rewrite zlen_app; change (zlen [0]) with 1; lia|lia]).
  assert (Hhs : hs0 <= hs <= hs0 + 1 /\ hs mod 256 <> 0).
  { unfold hs. change 255 with (Z.ones 8). rewrite Z.land_ones by lia. change (2 ^ 8) with 256. destruct (Z.eqb_spec (hs0 mod 256) 0); split; try lia.
    pose proof (Z.div_mod hs0 256). intros Q. pose proof (Z.div_mod (hs0 + 1) 256). lia. }
  apply (f_equal (fun r => match r with Ok x => x | _ => [] end)) in E. cbv beta iota in E.
  assert (HV : hs < 65536). { rewrite <- E in SM. rewrite !zlen_app, !putWord_len, L1 in SM.
    assert (QQ : zlen h2' - zlen h2 = hs - hs0) by (unfold h2', hs; destruct (_ =? 0); [rewrite zlen_app; change (zlen [0]) with 1; lia|lia]). unfold hs0 in *. lia. }
  assert (W : putWord hs = [hs mod 256; hs / 256]).
  { unfold putWord, u8. rewrite Z.shiftr_div_pow2 by lia. change (2 ^ 8) with 256. rewrite (Z.mod_small (hs / 256)); [reflexivity|]. split; [apply Z.div_pos; lia|]. apply Z.div_lt_upper_bound; lia. }
  rewrite <- E. apply level2_panics.
  - rewrite !zlen_app, !putWord_len, L1. pose proof (zlen_nonneg h2'). pose proof (zlen_nonneg rest). lia.
  - rewrite W. cbn [app nth]. tauto.
  - unfold level_byte. rewrite W. unfold h1. rewrite HL. clear -HM. destruct (Method h) as [|m1 [|m2 [|m3 [|m4 [|m5 [|]]]]]]; rewrite ?zlen_cons, ?zlen_nil in HM; try lia.
    + reflexivity.
    + pose proof (zlen_nonneg l). lia.
  - rewrite W. cbn [app nth]. pose proof (Z.div_mod hs 256). lia.
Qed.

(** ** Windows time stamps *)

(** Value of bytes, least significant first. *)
Fixpoint val_le (l : list Z) : Z := match l with [] => 0 | x :: l' => x + 256 * val_le l' end.

Lemma val_le_range l : bytesP l -> 0 <= val_le l < 256 ^ zlen l.
Proof.
  induction 1 as [|x l Hx F IH]; [change (256 ^ zlen (@nil Z)) with 1; cbn [val_le]; lia|]. cbn [val_le]. rewrite zlen_cons.
  replace (1 + zlen l) with (zlen l + 1) by lia. rewrite Z.pow_add_r by (try apply zlen_nonneg; lia). change (256 ^ 1) with 256. lia.
Qed.

Lemma wintime_sub_val e : bytesP e -> forall b br, bytesP b -> length b = length e -> 0 <= br <= 1 ->
  bytesP (wintime_sub e b br) /\ zlen (wintime_sub e b br) = zlen e /\
  val_le (wintime_sub e b br) = (val_le b - val_le e - br) mod 256 ^ zlen e.
Proof.
  induction 1 as [|e0 e He0 Fe IH]; intros [|b0 b] br Fb L Hbr; try discriminate L.
  - cbn. repeat split; [constructor|]. now rewrite Z.mod_1_r.
  - inversion Fb as [|? ? Hb0 Fb']; subst. injection L as L. cbn [wintime_sub val_le].
    set (d := u64 (b0 - e0 - br)).
    assert (D : Z.land d 255 = (b0 - e0 - br) mod 256 /\ (if 255 <? d then 1 else 0) = - ((b0 - e0 - br) / 256) /\ 0 <= (if 255 <? d then 1 else 0) <= 1).
    { change 255 with (Z.ones 8) at 1. rewrite Z.land_ones by lia. change (2 ^ 8) with 256. unfold d.
      destruct (Z_lt_le_dec (b0 - e0 - br) 0) as [N|N].
      - assert (E : u64 (b0 - e0 - br) = b0 - e0 - br + 2 ^ 64) by (unfold u64; symmetry; apply (Z.mod_unique _ _ (-1)); lia). rewrite E.
        destruct (Z.ltb_spec 255 (b0 - e0 - br + 2 ^ 64)); [|lia]. split; [|split; [|lia]].
        + replace (2 ^ 64) with (2 ^ 56 * 256) by lia. apply Z_mod_plus_full.
        + assert (Q : (b0 - e0 - br) / 256 = -1) by (symmetry; apply (Z.div_unique _ _ _ (b0 - e0 - br + 256)); lia). lia.
      - assert (E : u64 (b0 - e0 - br) = b0 - e0 - br) by (unfold u64; apply Z.mod_small; lia). rewrite E.
        destruct (Z.ltb_spec 255 (b0 - e0 - br)); [lia|]. split; [reflexivity|]. split; [|lia]. rewrite Z.div_small by lia. reflexivity. }
    destruct D as (D1 & D2 & D3). rewrite D1. set (br' := if 255 <? d then 1 else 0) in *.
    destruct (IH b br' Fb' L D3) as (I1 & I2 & I3). split; [|split].
    + constructor; [|exact I1]. apply Z.mod_pos_bound. lia.
    + rewrite !zlen_cons, I2. reflexivity.
    + rewrite I3. rewrite zlen_cons. set (n := zlen e) in *. assert (0 <= n) by apply zlen_nonneg.
      replace (1 + n) with (n + 1) by lia. rewrite Z.pow_add_r by lia. change (256 ^ 1) with 256. set (M := 256 ^ n). assert (0 < M) by (apply Z.pow_pos_nonneg; lia).
      pose proof (Z.div_mod (b0 - e0 - br) 256). set (q := (b0 - e0 - br) / 256) in *. set (r := (b0 - e0 - br) mod 256) in *.
      assert (0 <= r < 256) by (apply Z.mod_pos_bound; lia).
      set (X := val_le b - val_le e - br'). pose proof (Z.mod_pos_bound X M). pose proof (Z.div_mod X M).
      apply (Z.mod_unique _ _ (X / M)); [left; nia|]. unfold X in *. nia.
Qed.

Lemma wintime_div_val w : forall V, bytesP w -> 0 <= V -> (V + 1) * 256 ^ zlen w <= 2 ^ 64 ->
  fst (fold_left (fun '(q, t) x => let t := u64 (Z.shiftl t 8 + x) in (u64 (u64 (Z.shiftl q 8) + t / 10000000), t mod 10000000)) w (V / 10000000, V mod 10000000))
  = (V * 256 ^ zlen w + val_le (rev w)) / 10000000.
Proof.
  induction w as [|x w IH]; intros V F HV HB.
  - cbn [fold_left fst rev val_le]. change (256 ^ zlen (@nil Z)) with 1. f_equal. lia.
  - inversion F as [|? ? Hx F']; subst. cbn [fold_left rev].
    rewrite zlen_cons in *. replace (1 + zlen w) with (zlen w + 1) in * by lia. rewrite Z.pow_add_r in * by (try apply zlen_nonneg; lia). change (256 ^ 1) with 256 in *.
    set (M := 256 ^ zlen w) in *. assert (HM : 0 < M) by (apply Z.pow_pos_nonneg; [lia|apply zlen_nonneg]).
    set (D := 10000000) in *. assert (HD : D = 10000000) by reflexivity. clearbody D.
    pose proof (Z.div_mod V D ltac:(lia)) as DM. pose proof (Z.mod_pos_bound V D ltac:(lia)) as MB.
    assert (Q0 : 0 <= V / D) by (apply Z.div_pos; lia).
    assert (VB : 256 * (V + 1) <= 2 ^ 64) by nia.
    rewrite !shift8.
    assert (U1 : u64 (256 * (V mod D) + x) = 256 * (V mod D) + x) by (unfold u64; apply Z.mod_small; lia). rewrite U1.
    assert (U2 : u64 (256 * (V / D)) = 256 * (V / D)) by (unfold u64; apply Z.mod_small; nia). rewrite U2.
    assert (N1 : 256 * (V / D) + (256 * (V mod D) + x) / D = (256 * V + x) / D).
    { replace (256 * V + x) with (256 * (V mod D) + x + (256 * (V / D)) * D) by lia. rewrite Z.div_add by lia. lia. }
    assert (N2 : (256 * (V mod D) + x) mod D = (256 * V + x) mod D).
    { replace (256 * V + x) with (256 * (V mod D) + x + (256 * (V / D)) * D) by lia. rewrite Z_mod_plus_full. reflexivity. }
    rewrite N1, N2.
    assert (U3 : u64 ((256 * V + x) / D) = (256 * V + x) / D).
    { unfold u64. apply Z.mod_small. split; [apply Z.div_pos; lia|]. apply Z.div_lt_upper_bound; nia. }
    rewrite U3. rewrite IH; [|exact F'|lia|nia]. f_equal.
    assert (A : forall l y, val_le (l ++ [y]) = val_le l + y * 256 ^ zlen l).
    { clear. induction l as [|a l IH]; intros y; [change (256 ^ zlen (@nil Z)) with 1; cbn [app val_le]; lia|]. cbn [app val_le]. rewrite IH, zlen_cons. replace (1 + zlen l) with (zlen l + 1) by lia.
      rewrite Z.pow_add_r by (try apply zlen_nonneg; lia). change (256 ^ 1) with 256. lia. }
    rewrite A. assert (LR : zlen (rev w) = zlen w) by (unfold zlen; now rewrite rev_length). rewrite LR. fold M. lia.
Qed.

Lemma wintime_exact data p b t : 0 <= p -> bytesP b -> zlen b = 8 -> drop p data = b ++ t ->
  wintimeToUnixStamp data p = Ok ((val_le b - 116444736000000000) mod 2 ^ 64 / 10000000, p + 8).
Proof.
  intros Hp F L H. unfold wintimeToUnixStamp.
  destruct (gbs data b t p 8 8 Hp H L ltac:(lia)) as [G _]. unfold getBytes in G. change (8 <? 0) with false in G. cbv iota in G.
  change (Z.to_nat (Z.min 8 8)) with 8%nat in G. destruct (get_n data p 8) as [[l q]| |]; cbn [bind] in G; [|discriminate G..].
  change (zeros (8 - Z.min 8 8)) with (@nil Z) in G. rewrite app_nil_r in G. injection G as -> ->. cbn [bind].
  assert (FE : bytesP (rev epochBytes)) by (cbn; repeat constructor; lia).
  assert (LL : length b = 8%nat) by (unfold zlen in L; lia).
  destruct (wintime_sub_val (rev epochBytes) FE b 0 F LL ltac:(lia)) as (S1 & S2 & S3).
  set (w := wintime_sub (rev epochBytes) b 0) in *.
  unfold wintime_div. change (0, 0) with (0 / 10000000, 0 mod 10000000).
  assert (LW : zlen (rev w) = 8) by (unfold zlen in *; rewrite rev_length; exact S2).
  rewrite wintime_div_val.
  - rewrite rev_involutive, S3. change (zlen (rev epochBytes)) with 8. change (256 ^ 8) with (2 ^ 64).
    change (val_le (rev epochBytes)) with 116444736000000000. rewrite Z.mul_0_l, Z.add_0_l, Z.sub_0_r. reflexivity.
  - unfold bytesP in *. apply Forall_rev. exact S1.
  - lia.
  - rewrite LW. lia.
Qed.
