(** The LZ coder: state invariant, and the operations on the hash chains. *)
From Verif Require Import Go GoLemmas M_Crc P_Crc M_Bitio M_Maketree M_Maketbl M_Huf P_HufLens M_Slide P_Decode.

(** The input as an infinite sequence; blanks before the beginning. *)
Definition vin (body : list Z) (k : Z) : Z := if k <? 0 then 32 else nth (Z.to_nat k) body 0.

(** The parameters of a call. *)
Record pok (k : Z) (P : prm) : Prop := {
  pk_k : 8 <= k <= 16;
  pk_d : p_dicsiz P = 2 ^ k;
  pk_mx : 4 <= p_maxmatch P <= 256;
  pk_t : p_txtsiz P = 2 * 2 ^ k + p_maxmatch P
}.

Lemma pok_bounds k P : pok k P -> 256 <= 2 ^ k <= 65536 /\ p_dicsiz P = 2 ^ k /\ 4 <= p_maxmatch P <= 256 /\ p_txtsiz P = 2 * 2 ^ k + p_maxmatch P.
Proof.
  intros [A B C D]. split; [|auto]. change 256 with (2 ^ 8). change 65536 with (2 ^ 16).
  split; apply Z.pow_le_mono_r; lia.
Qed.

(** [SI body k P s pos q ni]: byte [q] of the input is at [text[pos]], and [ni] is
    the next position to be entered into the hash chains. *)
Record SI (body : list Z) (k : Z) (P : prm) (s : sl) (pos q ni : Z) : Prop := {
  si_text : p_txtsiz P + 1 <= alen (s_text s);
  si_hpos : alen (s_hpos s) = hshsiz;
  si_hflag : alen (s_hflag s) = hshsiz;
  si_prevs : alen (s_prevs s) = maxDicsiz;
  si_pos : 2 ^ k <= pos < 2 * 2 ^ k;
  si_off : pos - q <= 2 ^ k;
  si_q : 0 <= q;
  si_rem : 0 <= s_rem s;
  si_tot : q + s_rem s <= zlen body;
  si_lim : pos + s_rem s <= p_txtsiz P;
  si_in : s_in s = drop (q + s_rem s) body;
  si_full : q + s_rem s < zlen body -> pos + s_rem s = p_txtsiz P;
  si_crc : s_crc s = calcCrc 0 (take (q + s_rem s) body);
  si_cont : forall i, 0 <= i < pos + s_rem s -> at_ (s_text s) i = vin body (q + i - pos);
  si_head : forall t, 0 <= t < hshsiz -> at_ (s_hpos s) t = 0 \/ (0 <= at_ (s_hpos s) t /\ pos - q <= at_ (s_hpos s) t < ni);
  si_chain : forall p, pos - q <= p < ni -> ni - 2 ^ k <= p -> 0 < p ->
     at_ (s_prevs s) (p mod 2 ^ k) = 0 \/ (0 <= at_ (s_prevs s) (p mod 2 ^ k) /\ pos - q <= at_ (s_prevs s) (p mod 2 ^ k) < p)
}.

Lemma nextHash_ok text tok pos : 0 <= pos + 2 < alen text -> exists t', nextHash text tok pos = Ok t' /\ 0 <= t' < hshsiz.
Proof.
  intros H. unfold nextHash. rewrite aget_ok by lia. cbn [bind]. eexists. split; [reflexivity|].
  change (hshsiz - 1) with (2 ^ 15 - 1). rewrite land_mask by lia. unfold hshsiz. apply Z.mod_pos_bound. lia.
Qed.

(** *** insertHash *)
Lemma insertHash_ok body k P s pos q tok : pok k P -> SI body k P s pos q pos -> 0 <= tok < hshsiz ->
  exists s', insertHash P tok pos s = Ok s' /\ SI body k P s' pos q (pos + 1) /\ s_text s' = s_text s /\ s_rem s' = s_rem s.
Proof.
  intros PK I Ht. destruct (pok_bounds _ _ PK) as [B1 [B2 [B3 B4]]]. pose proof (pk_k _ _ PK) as KK. destruct I. unfold insertHash.
  rewrite aget_ok by lia. cbn [bind]. rewrite B2. rewrite land_mask by lia.
  pose proof (Z.mod_pos_bound pos (2 ^ k) ltac:(lia)) as MB. unfold maxDicsiz in *. rewrite aset_ok by lia. cbn [bind].
  rewrite aset_ok by lia. cbn [bind]. eexists. split; [reflexivity|]. split; [|cbn [s_text s_rem]; auto].
  constructor; cbn [s_text s_hpos s_hflag s_prevs s_rem s_in s_crc]; rewrite ?alen_upd; auto.
  - intros t T. rewrite at_upd by lia. destruct (Z.eqb_spec t tok) as [->|_].
    + right. lia.
    + destruct (si_head0 t T) as [->|X]; [now left|right; lia].
  - intros p Hp1 Hp2 Hp3. pose proof (Z.mod_pos_bound p (2 ^ k) ltac:(lia)) as MP. rewrite at_upd by lia.
    destruct (Z.eqb_spec (p mod 2 ^ k) (pos mod 2 ^ k)) as [E|E].
    + assert (p = pos).
      { destruct (Z.eq_dec p pos) as [|N]; auto. exfalso.
        assert (Y : 0 < pos - p < 2 ^ k) by lia.
        rewrite (Z.mod_eq p), (Z.mod_eq pos) in E by lia.
        assert (X : pos - p = 2 ^ k * (pos / 2 ^ k - p / 2 ^ k)) by lia.
        revert X. generalize (pos / 2 ^ k - p / 2 ^ k). intros z X. clear - X Y.
        assert (z <= 0 \/ 1 <= z) as [Z0|Z0] by lia; nia. }
      subst p. destruct (si_head0 tok ltac:(lia)) as [->|X]; [now left|right; lia].
    + apply si_chain0; try lia. destruct (Z.eq_dec p pos); [subst; congruence|lia].
Qed.

(** *** updateDict *)
Lemma shift_hash d : forall hp hf, alen hp = hshsiz -> alen hf = hshsiz ->
  exists hp' hf', forZ 0 hshsiz (fun i '(hp, hf) =>
     j <- aget hp i ;; hp <- aset hp i (shift_pos d j) ;; hf <- aset hf i 0 ;; Ok (hp, hf)) (hp, hf) = Ok (hp', hf') /\
    alen hp' = hshsiz /\ alen hf' = hshsiz /\
    (forall i, 0 <= i < hshsiz -> at_ hp' i = shift_pos d (at_ hp i)) /\ (forall i, 0 <= i < hshsiz -> at_ hf' i = 0).
Proof.
  intros hp hf H1 H2.
  destruct (forZ_inv (fun n '(hp', hf') => alen hp' = hshsiz /\ alen hf' = hshsiz /\
     (forall i, 0 <= i < hshsiz -> at_ hp' i = if i <? n then shift_pos d (at_ hp i) else at_ hp i) /\
     (forall i, 0 <= i < n -> at_ hf' i = 0))
    (fun i '(hp, hf) => j <- aget hp i ;; hp <- aset hp i (shift_pos d j) ;; hf <- aset hf i 0 ;; Ok (hp, hf))
    0 hshsiz (hp, hf)) as [[hp' hf'] [E [A [B [C D]]]]].
  - unfold hshsiz; lia.
  - intros n [a b] Hn [L1 [L2 [V1 V2]]]. rewrite aget_ok by lia. cbn [bind]. rewrite aset_ok by lia. cbn [bind]. rewrite aset_ok by lia. cbn [bind].
    eexists. split; [reflexivity|]. cbn beta iota. rewrite !alen_upd. split; [auto|]. split; [auto|]. split.
    + intros i Hi. rewrite at_upd by lia. destruct (Z.eqb_spec i n) as [->|N].
      * rewrite V1 by lia. destruct (Z.ltb_spec n n); [lia|]. destruct (Z.ltb_spec n (n + 1)); [reflexivity|lia].
      * rewrite V1 by lia. destruct (Z.ltb_spec i n); destruct (Z.ltb_spec i (n + 1)); try lia; reflexivity.
    + intros i Hi. rewrite at_upd by lia. destruct (Z.eqb_spec i n); [reflexivity|apply V2; lia].
  - split; [auto|]. split; [auto|]. split; [|lia]. intros i Hi. destruct (Z.ltb_spec i 0); [lia|reflexivity].
  - exists hp', hf'. split; [exact E|]. split; [auto|]. split; [auto|]. split; [|exact D].
    intros i Hi. rewrite C by lia. destruct (Z.ltb_spec i hshsiz); [reflexivity|lia].
Qed.

Lemma shift_prevs d : 0 <= d -> forall pv, d <= alen pv ->
  exists pv', forZ 0 d (fun i pv => j <- aget pv i ;; aset pv i (shift_pos d j)) pv = Ok pv' /\
    alen pv' = alen pv /\ (forall i, 0 <= i < d -> at_ pv' i = shift_pos d (at_ pv i)).
Proof.
  intros Hd pv Hl.
  destruct (forZ_inv (fun n pv' => alen pv' = alen pv /\
     (forall i, 0 <= i < d -> at_ pv' i = if i <? n then shift_pos d (at_ pv i) else at_ pv i))
    (fun i pv => j <- aget pv i ;; aset pv i (shift_pos d j)) 0 d pv) as [pv' [E [A B]]].
  - lia.
  - intros n a Hn [L1 V1]. rewrite aget_ok by lia. cbn [bind]. rewrite aset_ok by lia. eexists. split; [reflexivity|].
    rewrite alen_upd. split; [auto|]. intros i Hi. rewrite at_upd by lia. destruct (Z.eqb_spec i n) as [->|N].
    + rewrite V1 by lia. destruct (Z.ltb_spec n n); [lia|]. destruct (Z.ltb_spec n (n + 1)); [reflexivity|lia].
    + rewrite V1 by lia. destruct (Z.ltb_spec i n); destruct (Z.ltb_spec i (n + 1)); try lia; reflexivity.
  - split; [auto|]. intros i Hi. destruct (Z.ltb_spec i 0); [lia|reflexivity].
  - exists pv'. split; [exact E|]. split; [auto|]. intros i Hi. rewrite B by lia. destruct (Z.ltb_spec i d); [reflexivity|lia].
Qed.

Lemma drop_drop a b (l : list Z) : 0 <= a -> 0 <= b -> drop a (drop b l) = drop (b + a) l.
Proof.
  intros. unfold drop. replace (Z.to_nat (b + a)) with (Z.to_nat b + Z.to_nat a)%nat by lia.
  generalize (Z.to_nat a), (Z.to_nat b). intros x y. revert l. induction y; intros l; [reflexivity|].
  destruct l; cbn [skipn Nat.add]; [destruct x; reflexivity|apply IHy].
Qed.

Lemma take_take_drop a b (l : list Z) : 0 <= a -> 0 <= b -> take a l ++ take b (drop a l) = take (a + b) l.
Proof.
  intros. unfold take, drop. replace (Z.to_nat (a + b)) with (Z.to_nat a + Z.to_nat b)%nat by lia.
  generalize (Z.to_nat a), (Z.to_nat b). intros x y. revert l. induction x; intros l; [reflexivity|].
  destruct l; cbn [skipn firstn Nat.add app]; [destruct y; reflexivity|]. f_equal. apply IHx.
Qed.

Lemma zlen_drop n (l : list Z) : 0 <= n <= zlen l -> zlen (drop n l) = zlen l - n.
Proof. unfold zlen, drop; intros. rewrite skipn_length. lia. Qed.

Lemma zlen_take_min n (l : list Z) : 0 <= n -> zlen (take n l) = Z.min n (zlen l).
Proof. unfold zlen, take; intros. rewrite firstn_length. lia. Qed.

Lemma take_min n (l : list Z) : 0 <= n -> take n l = take (Z.min n (zlen l)) l.
Proof.
  intros. destruct (Z_le_gt_dec n (zlen l)); [f_equal; lia|]. unfold take, zlen in *.
  rewrite !firstn_all2 by lia. reflexivity.
Qed.

Lemma drop_min n (l : list Z) : 0 <= n -> drop n l = drop (Z.min n (zlen l)) l.
Proof.
  intros. destruct (Z_le_gt_dec n (zlen l)); [f_equal; lia|]. unfold drop, zlen in *.
  rewrite !skipn_all2 by lia. reflexivity.
Qed.

Lemma nth_take n l i : 0 <= i < n -> nth (Z.to_nat i) (take n l) 0 = nth (Z.to_nat i) l 0.
Proof.
  intros H. unfold take. assert (Z.to_nat i < Z.to_nat n)%nat by lia. revert H0. generalize (Z.to_nat i), (Z.to_nat n). clear.
  intros x y. revert x l. induction y; intros x l L; [lia|]. destruct l; cbn [firstn]; [destruct x; reflexivity|].
  destruct x; cbn [nth]; [reflexivity|]. apply IHy. lia.
Qed.

(** The window moves by [2^k]: the state before, at position [2*2^k] with
    [s_rem] bytes known. *)
Lemma updateDict_ok body k P s q :
  pok k P -> p_txtsiz P + 1 <= alen (s_text s) -> alen (s_hpos s) = hshsiz -> alen (s_hflag s) = hshsiz -> alen (s_prevs s) = maxDicsiz ->
  0 <= q -> 0 <= s_rem s -> q + s_rem s <= zlen body -> 2 * 2 ^ k + s_rem s <= p_txtsiz P -> s_in s = drop (q + s_rem s) body ->
  (q + s_rem s < zlen body -> 2 * 2 ^ k + s_rem s = p_txtsiz P) -> s_crc s = calcCrc 0 (take (q + s_rem s) body) ->
  (forall i, 0 <= i < 2 * 2 ^ k + s_rem s -> at_ (s_text s) i = vin body (q + i - 2 * 2 ^ k)) ->
  (forall t, 0 <= t < hshsiz -> at_ (s_hpos s) t = 0 \/ (0 <= at_ (s_hpos s) t /\ 2 * 2 ^ k - q <= at_ (s_hpos s) t < 2 * 2 ^ k)) ->
  (forall p, 2 * 2 ^ k - q <= p < 2 * 2 ^ k -> 2 ^ k <= p -> 0 < p ->
     at_ (s_prevs s) (p mod 2 ^ k) = 0 \/ (0 <= at_ (s_prevs s) (p mod 2 ^ k) /\ 2 * 2 ^ k - q <= at_ (s_prevs s) (p mod 2 ^ k) < p)) ->
  exists s', updateDict P (2 * 2 ^ k) s = Ok (s', 2 ^ k) /\ SI body k P s' (2 ^ k) q (2 ^ k) /\ s_rem s <= s_rem s'.
Proof.
  intros PK Lt Lh Lf Lp Hq Hr Tot Lim In Full Crc Cont Head Chain. destruct (pok_bounds _ _ PK) as [B1 [B2 [B3 B4]]]. unfold updateDict. cbv zeta.
  rewrite B2. set (d := 2 ^ k) in *. set (T := p_txtsiz P) in *.
  set (sl0 := slice_list (s_text s) d (Z.to_nat (T - d))).
  assert (ZS : zlen sl0 = T - d) by (unfold zlen, sl0; rewrite slice_list_length; lia).
  destruct (blit_ok sl0 (s_text s) 0) as [t1 [E1 [A1 V1]]]; [lia|lia|]. rewrite E1. cbn [bind].
  unfold freadCrc. set (b := take d (s_in s)).
  assert (Zin : zlen (s_in s) = zlen body - (q + s_rem s)) by (rewrite In; apply zlen_drop; lia).
  assert (ZB : zlen b = Z.min d (zlen body - (q + s_rem s))) by (unfold b; rewrite zlen_take_min by lia; lia).
  destruct (blit_ok b t1 (T - d)) as [t2 [E2 [A2 V2]]]; [lia|lia|]. rewrite E2. cbn [bind].
  destruct (shift_hash d (s_hpos s) (s_hflag s) Lh Lf) as [hp [hf [E3 [A3 [A4 [V3 V4]]]]]]. rewrite E3. cbn [bind].
  unfold maxDicsiz in *.
  destruct (shift_prevs d ltac:(lia) (s_prevs s) ltac:(lia)) as [pv [E4 [A5 V5]]]. rewrite E4. cbn [bind].
  assert (RU : u64 (s_rem s + zlen b) = s_rem s + zlen b) by (unfold u64; apply Z.mod_small; lia). rewrite RU.
  replace (u64 (2 * d - d)) with d by (unfold u64; rewrite Z.mod_small by lia; lia).
  eexists. split; [reflexivity|]. split; [|cbn [s_rem]; lia].
  assert (SP : forall lo x hi, (x = 0 \/ (0 <= x /\ lo <= x < hi)) -> 
     shift_pos d x = 0 \/ (0 <= shift_pos d x /\ lo - d <= shift_pos d x < hi - d)).
  { intros lo x hi X. unfold shift_pos. destruct (Z.ltb_spec d x); [|now left]. right. lia. }
  constructor; cbn [s_text s_hpos s_hflag s_prevs s_rem s_in s_crc]; fold d; fold T.
  - lia.
  - exact A3.
  - exact A4.
  - unfold maxDicsiz; lia.
  - lia.
  - lia.
  - lia.
  - lia.
  - lia.
  - lia.
  - pose proof (zlen_nonneg (drop (q + s_rem s) body)). rewrite In. rewrite drop_min, drop_drop by lia. f_equal. rewrite zlen_drop by lia. lia.
  - intros X. assert (q + s_rem s < zlen body) by lia. specialize (Full H). lia.
  - pose proof (zlen_nonneg (drop (q + s_rem s) body)). rewrite Crc, <- calcCrc_app. f_equal. rewrite ZB. unfold b. rewrite In, (take_min d), take_take_drop by lia. rewrite zlen_drop by lia. f_equal. lia.
  - intros i Hi. rewrite V2 by lia.
    destruct (Z.leb_spec (T - d) i); destruct (Z.ltb_spec i (T - d + zlen b)); cbn [andb].
    + (* newly read *)
      assert (FF : 2 * d + s_rem s = T) by (apply Full; lia).
      unfold b. rewrite nth_take by lia. rewrite In. unfold drop. rewrite nth_skipn.
      unfold vin. destruct (Z.ltb_spec (q + i - d) 0); [lia|]. f_equal. lia.
    + assert (s_rem s = T - 2 * d \/ s_rem s < T - 2 * d) as [X|X] by lia.
      * lia.
      * assert (zlen b = 0). { destruct (Z_lt_ge_dec (q + s_rem s) (zlen body)) as [Y|Y]; [specialize (Full Y); lia|lia]. }
        lia.
    + rewrite V1 by lia. destruct (Z.leb_spec 0 i); [|lia]. destruct (Z.ltb_spec i (0 + zlen sl0)); [|lia]. cbn [andb].
      unfold sl0. rewrite nth_slice_list by lia.
      assert (i + d < 2 * d + s_rem s).
      { destruct (Z_lt_ge_dec (q + s_rem s) (zlen body)) as [Y|Y]; [specialize (Full Y); lia|lia]. }
      replace (d + Z.of_nat (Z.to_nat (i - 0))) with (i + d) by lia. rewrite Cont by lia. f_equal. lia.
    + lia.
  - intros t Ht. rewrite V3 by lia.
    pose proof (SP _ _ _ (Head t Ht)). lia.
  - intros p Hp1 Hp2 Hp3.
    assert (EM : p mod d = (p + d) mod d) by (rewrite <- (Z.mod_add p 1 d) by lia; f_equal; lia).
    pose proof (Z.mod_pos_bound p d ltac:(lia)) as MB. rewrite V5 by lia. rewrite EM.
    pose proof (SP _ _ _ (Chain (p + d) ltac:(lia) ltac:(lia) ltac:(lia))). lia.
Qed.

(** *** nextToken *)
Lemma nextToken_ok body k P s pos q tok : pok k P -> SI body k P s pos q (pos + 1) -> 0 < s_rem s ->
  exists tok' pos' s', nextToken P tok pos s = Ok (tok', pos', s') /\ 0 <= tok' < hshsiz /\
    SI body k P s' pos' (q + 1) pos' /\ s_rem s - 1 <= s_rem s'.
Proof.
  intros PK I Hr. destruct (pok_bounds _ _ PK) as [B1 [B2 [B3 B4]]]. destruct I. unfold nextToken. cbv zeta.
  assert (RU : u64 (s_rem s - 1) = s_rem s - 1) by (unfold u64; apply Z.mod_small; lia). rewrite RU.
  set (s1 := SL (s_text s) (s_hpos s) (s_hflag s) (s_prevs s) (s_rem s - 1) (s_in s) (s_crc s)).
  assert (X : exists s2 pos2, (if p_txtsiz P - p_maxmatch P <=? pos + 1 then updateDict P (pos + 1) s1 else Ok (s1, pos + 1)) = Ok (s2, pos2) /\
    SI body k P s2 pos2 (q + 1) pos2 /\ s_rem s - 1 <= s_rem s2).
  { destruct (Z.leb_spec (p_txtsiz P - p_maxmatch P) (pos + 1)) as [Up|No].
    - assert (PE : pos = 2 * 2 ^ k - 1) by lia. replace (pos + 1) with (2 * 2 ^ k) in * by lia.
      destruct (updateDict_ok body k P s1 (q + 1)) as [s2 [E2 [I2 R2]]]; unfold s1; cbn [s_text s_hpos s_hflag s_prevs s_rem s_in s_crc]; auto; try lia.
      + rewrite si_in0. f_equal. lia.
      + rewrite si_crc0. do 2 f_equal. lia.
      + intros i Hi. rewrite si_cont0 by lia. f_equal. lia.
      + intros t Ht. destruct (si_head0 t Ht); [now left|right; lia].
      + intros p Y1 Y2 Y3. destruct (si_chain0 p) as [Z0|Z0]; lia.
      + exists s2, (2 ^ k). split; [exact E2|]. split; [exact I2|exact R2].
    - exists s1, (pos + 1). split; [reflexivity|]. split; [|unfold s1; cbn [s_rem]; lia].
      constructor; unfold s1; cbn [s_text s_hpos s_hflag s_prevs s_rem s_in s_crc]; auto; try lia.
      + rewrite si_in0. f_equal. lia.
      + rewrite si_crc0. do 2 f_equal. lia.
      + intros i Hi. rewrite si_cont0 by lia. f_equal. lia.
      + intros t Ht. destruct (si_head0 t Ht); [now left|right; lia].
      + intros p Y1 Y2 Y3. destruct (si_chain0 p) as [Z0|Z0]; lia. }
  destruct X as [s2 [pos2 [E2 [I2 R2]]]]. rewrite E2. cbn [bind].
  destruct (nextHash_ok (s_text s2) tok pos2) as [t' [E3 H3]].
  { pose proof (si_pos _ _ _ _ _ _ _ I2). pose proof (si_text _ _ _ _ _ _ _ I2). lia. }
  rewrite E3. cbn [bind]. exists t', pos2, s2. auto.
Qed.

(** *** Matches *)

(** [len] bytes at stream position [q] equal those [off] before. *)
Definition realm (body : list Z) (k q len off : Z) : Prop :=
  1 <= off < 2 ^ k /\ forall i, 0 <= i < len -> vin body (q + i) = vin body (q + i - off).

(** The same for the bytes in the buffer, which past the end of the input hold
    anything. *)
Definition tmatch (k : Z) (text : arr) (pos : Z) (m : matchdata) : Prop :=
  1 <= m_off m < 2 ^ k /\ 0 < pos - m_off m /\ forall i, 0 <= i < m_len m -> at_ text (pos + i) = at_ text (pos - m_off m + i).

Lemma collate_ok text a b max : 0 <= max -> 0 <= a -> 0 <= b -> a + max <= alen text -> b + max <= alen text ->
  exists le, collate text a b max = Ok le /\ 0 <= le <= max /\ forall i, 0 <= i < le -> at_ text (a + i) = at_ text (b + i).
Proof.
  intros Hm Ha Hb La Lb. unfold collate.
  apply (loop_wf (fun le => 0 <= le <= max /\ forall i, 0 <= i < le -> at_ text (a + i) = at_ text (b + i)) _ (fun le => max - le)).
  - intros le [L E]. destruct (Z.ltb_spec le max); [|eexists; split; [reflexivity|]; split; auto].
    rewrite aget_ok by lia. cbn [bind]. rewrite aget_ok by lia. cbn [bind].
    destruct (Z.eqb_spec (at_ text (a + le)) (at_ text (b + le))) as [X|X]; eexists; (split; [reflexivity|]); cbn beta iota.
    + split; [|lia]. split; [lia|]. intros i Hi. destruct (Z.eq_dec i le); [subst; auto|apply E; lia].
    + split; [lia|exact E].
  - split; [lia|]. intros; lia.
  - lia.
Qed.

Lemma searchDict1_ok body k P s pos q tok off max m m0 : pok k P -> SI body k P s pos q pos -> 0 <= tok < hshsiz ->
  0 <= off -> 0 <= max <= p_maxmatch P -> 2 <= m0 -> m0 <= m_len m <= max ->
  (m0 < m_len m -> tmatch k (s_text s) pos m) ->
  exists m' s', searchDict1 P tok pos off max m s = Ok (m', s') /\ SI body k P s' pos q pos /\ s_text s' = s_text s /\ s_rem s' = s_rem s /\
    m_len m <= m_len m' <= max /\ (m0 < m_len m' -> tmatch k (s_text s) pos m').
Proof.
  intros PK I Ht Ho Hmax Hm0 Hml Hm. destruct (pok_bounds _ _ PK) as [B1 [B2 [B3 B4]]]. pose proof (pk_k _ _ PK) as KK.
  pose proof I as I0. destruct I. unfold searchDict1. rewrite aget_ok by lia. cbn [bind]. cbv zeta. rewrite B2.
  set (step := fun '(scanPos, chain, m1) => _).
  destruct (loop_wf (fun '(sp, ch, m1) => (sp = 0 \/ (0 <= sp /\ pos - q <= sp < pos)) /\ 0 <= ch /\ m_len m <= m_len m1 <= max /\ (m0 < m_len m1 -> tmatch k (s_text s) pos m1))
    (fun '(m1, ch) => 0 <= ch /\ m_len m <= m_len m1 <= max /\ (m0 < m_len m1 -> tmatch k (s_text s) pos m1))
    (fun '(sp, ch, m1) => sp) (p_txtsiz P + 2) step (at_ (s_hpos s) tok, 0, m)) as [[m1 ch] [E [C1 [C2 C3]]]].
  - intros [[sp ch] m1] [S1 [S2 [S3 S4]]]. unfold step.
    destruct (Z.ltb_spec 0 (sp - off)); cbn [andb]; [|eexists; split; [reflexivity|]; cbn beta iota; auto].
    destruct (Z.ltb_spec (pos - 2 ^ k) (sp - off)); [|eexists; split; [reflexivity|]; cbn beta iota; auto].
    destruct S1 as [S1|S1]; [lia|].
    rewrite aget_ok by lia. cbn [bind]. rewrite aget_ok by lia. cbn [bind].
    assert (X : exists m2 brk, (if at_ (s_text s) (sp - off + m_len m1) =? at_ (s_text s) (pos + m_len m1)
       then le <- collate (s_text s) (sp - off) pos max;; (if m_len m1 <? le then Ok ({| m_len := le; m_off := pos - (sp - off) |}, le =? max) else Ok (m1, false))
       else Ok (m1, false)) = Ok (m2, brk) /\ m_len m <= m_len m2 <= max /\ (m0 < m_len m2 -> tmatch k (s_text s) pos m2)).
    { destruct (at_ (s_text s) (sp - off + m_len m1) =? at_ (s_text s) (pos + m_len m1)); [|eexists _, _; split; [reflexivity|]; auto].
      destruct (collate_ok (s_text s) (sp - off) pos max) as [le [Ec [L1 L2]]]; try lia. rewrite Ec. cbn [bind].
      destruct (Z.ltb_spec (m_len m1) le); [|eexists _, _; split; [reflexivity|]; auto].
      eexists _, _. split; [reflexivity|]. cbn [m_len]. split; [lia|]. intros _. unfold tmatch. cbn [m_len m_off].
      split; [lia|]. split; [lia|]. intros i Hi. rewrite <- L2 by lia. f_equal. lia. }
    destruct X as [m2 [brk [E2 [X1 X2]]]]. rewrite E2. cbn [bind]. destruct brk; [eexists; split; [reflexivity|]; split; [lia|auto]|].
    rewrite land_mask by lia. pose proof (Z.mod_pos_bound sp (2 ^ k) ltac:(lia)) as MB. unfold maxDicsiz in *.
    rewrite aget_ok by lia. cbn [bind]. eexists. split; [reflexivity|]. cbn beta iota.
    destruct (si_chain0 sp ltac:(lia) ltac:(lia) ltac:(lia)) as [->|Y].
    + split; [|lia]. split; [now left|]. split; [lia|auto].
    + split; [|lia]. split; [right; lia|]. split; [lia|auto].
  - split; [|split; [lia|split; [lia|exact Hm]]]. destruct (si_head0 tok Ht); [now left|right; lia].
  - destruct (si_head0 tok Ht); lia.
  - rewrite E. cbn [bind].
    assert (X : exists hf, (if limit <=? ch then aset (s_hflag s) tok 1 else Ok (s_hflag s)) = Ok hf /\ alen hf = hshsiz).
    { destruct (limit <=? ch); [rewrite aset_ok by lia|]; eexists; split; try reflexivity; auto. }
    destruct X as [hf [E3 L3]]. rewrite E3. cbn [bind]. eexists _, _. split; [reflexivity|]. split; [|cbn [s_text s_rem]; auto].
    constructor; cbn [s_text s_hpos s_hflag s_prevs s_rem s_in s_crc]; auto.
Qed.

(** *** searchDict *)
Lemma searchDict_ok body k P s pos q tok mn : pok k P -> SI body k P s pos q pos -> 0 <= tok < hshsiz -> mn < p_maxmatch P ->
  exists m s', searchDict P tok pos mn s = Ok (m, s') /\ SI body k P s' pos q pos /\ s_text s' = s_text s /\ s_rem s' = s_rem s /\
    0 <= m_len m <= s_rem s /\ m_len m <= p_maxmatch P /\ (Z.max mn 2 < m_len m -> realm body k q (m_len m) (m_off m)).
Proof.
  intros PK I Ht Hmn. destruct (pok_bounds _ _ PK) as [B1 [B2 [B3 B4]]]. pose proof (pk_k _ _ PK) as KK.
  unfold searchDict. unfold threshold. replace (3 - 1) with 2 by lia. cbv zeta.
  replace (if mn <? 2 then 2 else mn) with (Z.max mn 2) by (destruct (Z.ltb_spec mn 2); lia).
  set (m0 := Z.max mn 2). set (step := fun '(off, tok0) => _).
  pose proof (si_text _ _ _ _ _ _ _ I) as T0. pose proof (si_pos _ _ _ _ _ _ _ I) as T1. pose proof (si_hflag _ _ _ _ _ _ _ I) as T2.
  destruct (loop_wf (fun '(off, tk) => 0 <= off <= p_maxmatch P - 3 /\ 0 <= tk < hshsiz) (fun '(off, tk) => 0 <= off <= p_maxmatch P - 3 /\ 0 <= tk < hshsiz)
    (fun '(off, tk) => p_maxmatch P - off) (p_maxmatch P + 2) step (0, tok)) as [[off tk] [E [O1 O2]]].
  - intros [off tk] [O1 O2]. unfold step. rewrite aget_ok by lia. cbn [bind].
    destruct (negb (at_ (s_hflag s) tk =? 0)); cbn [andb]; [|eexists; split; [reflexivity|]; cbn beta iota; auto].
    destruct (Z.ltb_spec off (p_maxmatch P - 3)); [|eexists; split; [reflexivity|]; cbn beta iota; auto].
    destruct (nextHash_ok (s_text s) tk (pos + (off + 1))) as [t' [E3 H3]]; [lia|]. rewrite E3. cbn [bind].
    eexists. split; [reflexivity|]. cbn beta iota. split; [|lia]. split; [lia|auto].
  - split; [lia|auto].
  - lia.
  - rewrite E. cbn [bind].
    assert (X : exists off' tk', (if off =? p_maxmatch P - 3 then (0, tok) else (off, tk)) = (off', tk') /\ 0 <= off' < p_maxmatch P - 3 /\ 0 <= tk' < hshsiz).
    { destruct (Z.eqb_spec off (p_maxmatch P - 3)); [exists 0, tok|exists off, tk]; (split; [reflexivity|]); lia. }
    destruct X as [off' [tk' [E' [O1' O2']]]]. rewrite E'.
    destruct (searchDict1_ok body k P s pos q tk' off' (p_maxmatch P) (MD m0 0) m0 PK I O2') as [m1 [s1 [E1 [I1 [T3 [T4 [L1 M1]]]]]]]; cbn [m_len]; try (unfold m0; lia).
    rewrite E1. cbn [bind]. cbn [m_len] in L1.
    assert (X : exists m2 s2, (if (0 <? off') && (m_len m1 <? off' + 3) then searchDict1 P tok pos 0 (off' + 2) m1 s1 else Ok (m1, s1)) = Ok (m2, s2) /\
      SI body k P s2 pos q pos /\ s_text s2 = s_text s /\ s_rem s2 = s_rem s /\ m_len m2 <= p_maxmatch P /\ m0 <= m_len m2 /\ (m0 < m_len m2 -> tmatch k (s_text s) pos m2)).
    { destruct ((0 <? off') && (m_len m1 <? off' + 3)) eqn:C.
      - apply andb_prop in C. destruct C as [C1 C2]. apply Z.ltb_lt in C1, C2.
        destruct (searchDict1_ok body k P s1 pos q tok 0 (off' + 2) m1 m0 PK I1 Ht) as [m2 [s2 [E2 [I2 [T5 [T6 [L2 M2]]]]]]]; try (unfold m0 in *; lia).
        + rewrite T3. exact M1.
        + exists m2, s2. split; [exact E2|]. split; [exact I2|]. split; [congruence|]. split; [congruence|]. split; [lia|]. split; [lia|]. rewrite <- T3. exact M2.
      - exists m1, s1. split; [reflexivity|]. split; [exact I1|]. split; [auto|]. split; [auto|]. split; [lia|]. split; [lia|]. exact M1. }
    destruct X as [m2 [s2 [E2 [I2 [T5 [T6 [L2 [L3 M2]]]]]]]]. rewrite E2. cbn [bind]. rewrite T6.
    pose proof (si_rem _ _ _ _ _ _ _ I) as R0. pose proof (si_cont _ _ _ _ _ _ _ I) as CT.
    assert (RM : forall len, len <= m_len m2 -> len <= s_rem s -> m0 < m_len m2 -> realm body k q len (m_off m2)).
    { intros len Y1 Y2 Y3. destruct (M2 Y3) as [Z1 [Z2 Z3]]. split; [exact Z1|]. intros i Hi.
      specialize (Z3 i ltac:(lia)). rewrite !CT in Z3 by lia.
      replace (q + i) with (q + (pos + i) - pos) by lia. replace (q + (pos + i) - pos - m_off m2) with (q + (pos - m_off m2 + i) - pos) by lia. exact Z3. }
    destruct (Z.ltb_spec (s_rem s) (m_len m2)); eexists _, _; (split; [reflexivity|]); (split; [exact I2|]); (split; [exact T5|]); (split; [exact T6|]); cbn [m_len m_off].
    + split; [lia|]. split; [lia|]. intros Y. apply RM; lia.
    + split; [unfold m0 in *; lia|]. split; [lia|]. intros Y. apply RM; auto; lia.
Qed.
