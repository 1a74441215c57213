(** Decompression of any bytes: whether it ends. *)
From Verif Require Import Go GoLemmas M_Crc M_Bitio M_Maketree M_Maketbl M_Huf M_Dhuf M_Shuf M_Slide M_Decode M_Lzhuf P_Bitio P_HufTables S_History P_Ends Properties_Lh1.

(** ** C97: decompression ends *)

(** [step] can be repeated from [s] any number of times without stopping. *)
Definition never_stops {S T} (step : S -> res (ctl S T)) (s : S) : Prop :=
  forall n, exists s', loopN n step s = Ok (Go s').

(** Two nodes whose left links point to each other, above the limit of the walk: once
    the sixteen bits of the mask are used up nothing ends the walk. *)
Lemma cycle_never_stops left right lim r a b :
  bitbuf r = 0 -> aget left a = Ok b -> aget left b = Ok a -> lim <= a -> lim <= b -> a <> b ->
  forall mask, never_stops (walk_step left right lim r) (false, a, mask).
Proof.
  intros B A1 A2 L1 L2 N mask n.
  assert (G : forall n x mask, (x = a \/ x = b) -> exists s', loopN n (walk_step left right lim r) (false, x, mask) = Ok (Go s')).
  { clear mask n. induction n as [|n IH]; intros x mask X; [eexists; reflexivity|]. cbn [loopN].
    assert (S1 : exists y, (y = a \/ y = b) /\ aget left x = Ok y /\ x <> y /\ lim <= x).
    { destruct X as [-> | ->]; [exists b|exists a]; auto. }
    destruct S1 as (y & Y & E & XY & XL).
    assert (S2 : walk_step left right lim r (false, x, mask) = Ok (Go (false, y, Z.shiftr mask 1))).
    { unfold walk_step, walk_cond. destruct (Z.leb_spec lim x); [|lia]. rewrite E. cbn [bind].
      destruct (mask =? 0); [destruct (Z.eqb_spec x y); [contradiction|]; cbn [negb]|]; cbn [bind]; rewrite B, Z.land_0_l; change (0 =? 0) with true; reflexivity. }
    rewrite S2. cbn [bind]. now apply IH. }
  apply G. now left.
Qed.

(** Two blocks of one item each.  The code of the lengths in the first block fills the
    code space twice, which makeTable does not notice: it takes the symbol [a], which has
    one of the two words of one bit, for a node, and sets its left link to the node [b].
    In the second block the word of [a] is behind the left link of the node [b], and [a]
    is the only word for distances. *)
Definition endless (m : Z) : list Z :=
  if m =? 4 then
    [0; 1; 153; 72; 78; 93; 222; 0; 3; 251; 247; 239; 192; 2; 8; 0; 0; 3; 2; 153; 46; 239; 0; 0; 31; 124; 0; 128; 1; 192; 0; 0]
  else if m =? 5 then
    [0; 1; 153; 72; 78; 93; 222; 0; 3; 251; 247; 239; 192; 2; 8; 0; 0; 12; 10; 100; 187; 188; 0; 0; 125; 240; 2; 0; 28; 0; 0]
  else if m =? 6 then
    [0; 1; 153; 72; 78; 93; 222; 254; 254; 254; 254; 0; 254; 252; 0; 32; 128; 0; 0; 50; 41; 146; 238; 247; 223; 191; 191; 192; 1; 255;
     127; 192; 8; 0; 32; 0; 0]
  else
    [0; 1; 153; 72; 78; 93; 222; 254; 254; 254; 254; 254; 254; 7; 240; 0; 130; 0; 0; 0; 204; 166; 75; 187; 223; 126; 254; 255; 127; 223;
     248; 1; 255; 223; 252; 0; 128; 2; 32; 0; 0].

Definition endless_state (k : Z) (data : list Z) (lim a b : Z) : bool :=
  match initGetbits (zlen data) data with
  | Ok r => match decodeCSt1 (decodeStartSt1 k (g_huf glob0)) r with
    | Ok (c1, h1, r1) => match decodeCSt1 h1 r1 with
      | Ok (c2, h2, r2) => match fillbuf 8 r2 with
        | Ok r3 => (c1 =? 65) && (c2 =? 256) && (bitbuf r3 =? 0) && (np h2 =? lim) &&
            match aget (ptTable h2) (peekbits 8 r2), aget (left h2) a, aget (left h2) b with Ok j, Ok x, Ok y => (j =? a) && (x =? b) && (y =? a) | _, _, _ => false end
        | _ => false end
      | _ => false end
    | _ => false end
  | _ => false end.

(** For a new process: what the entry of method [m] with the dictionary of [2^k] bytes
    does. *)
Definition runs_for_ever (k : Z) (data : list Z) : Prop :=
  exists r h1 r1 h2 r2 r3 j,
    initGetbits (zlen data) data = Ok r /\
    decodeCSt1 (decodeStartSt1 k (g_huf glob0)) r = Ok (65, h1, r1) /\
    decodeCSt1 h1 r1 = Ok (256, h2, r2) /\
    aget (ptTable h2) (peekbits 8 r2) = Ok j /\ np h2 <= j /\ fillbuf 8 r2 = Ok r3 /\
    never_stops (walk_step (left h2) (right h2) (np h2) r3) (false, j, 32768).

Lemma endless_any k data lim a b : 1 <= k <= 16 -> lim <= a -> lim <= b -> a <> b -> endless_state k data lim a b = true ->
  (forall original, 2 <= original -> decode k false original (zlen data) data (g_huf glob0) = NoFuel) /\ runs_for_ever k data.
Proof.
  intros K L1 L2 N X. unfold endless_state in X.
  destruct (initGetbits (zlen data) data) as [r| |] eqn:E0; try discriminate X.
  destruct (decodeCSt1 (decodeStartSt1 k (g_huf glob0)) r) as [[[c1 h1] r1]| |] eqn:E1; try discriminate X.
  destruct (decodeCSt1 h1 r1) as [[[c2 h2] r2]| |] eqn:E2; try discriminate X.
  destruct (fillbuf 8 r2) as [r3| |] eqn:E3; try discriminate X.
  destruct (aget (ptTable h2) (peekbits 8 r2)) as [j| |] eqn:E4; try (rewrite andb_false_r in X; discriminate X).
  destruct (aget (left h2) a) as [x| |] eqn:E5; try (rewrite andb_false_r in X; discriminate X).
  destruct (aget (left h2) b) as [y| |] eqn:E6; try (rewrite andb_false_r in X; discriminate X).
  rewrite !andb_true_iff, !Z.eqb_eq in X. destruct X as [[[[-> ->] B0] N0] [[-> ->] ->]].
  assert (C : never_stops (walk_step (left h2) (right h2) (np h2) r3) (false, a, 32768)).
  { rewrite N0. apply (cycle_never_stops _ _ _ _ _ b); auto; lia. }
  split.
  - intros original H.
    assert (P : decodePSt1 h2 r2 = NoFuel).
    { unfold decodePSt1. rewrite E4. cbn [bind]. rewrite N0. destruct (Z.ltb_spec a lim); [lia|]. rewrite E3. cbn [bind].
      assert (Wk : walk (left h2) (right h2) lim false r3 a 32768 = NoFuel).
      { unfold walk. rewrite loop_loopN by lia. destruct (C (Z.to_nat 70000)) as [s' Cs]. rewrite N0 in Cs. rewrite Cs. reflexivity. }
      rewrite Wk. reflexivity. }
    assert (D : 1 < Z.shiftl 1 k). { rewrite Z.shiftl_mul_pow2, Z.mul_1_l by lia. apply Z.pow_gt_1; lia. }
    unfold decode. cbv zeta. rewrite E0. cbn [bind].
    set (t := afill (Z.shiftl 1 k) 32). assert (TL : alen t = Z.shiftl 1 k) by reflexivity. clearbody t.
    assert (S1 : exists t1 l1, decode_step (Z.shiftl 1 k) original (DST (decodeStartSt1 k (g_huf glob0)) r t 0 0 [] 0) = Ok (Go (DST h1 r1 t1 l1 0 [] 1))).
    { unfold decode_step. cbn [d_count d_huf d_r d_text d_loc d_crc d_out]. destruct (Z.ltb_spec 0 original); [|lia]. rewrite E1. cbn [bind]. change (65 <? 256) with true. cbv iota zeta.
      unfold dput. cbn [d_count d_huf d_r d_text d_loc d_crc d_out]. rewrite aset_ok by (rewrite TL; lia). cbn [bind]. change (u16 (0 + 1)) with 1.
      destruct (Z.eqb_spec 1 (Z.shiftl 1 k)); [lia|]. cbn [bind d_count d_huf d_r d_text d_loc d_crc d_out].
      eexists _, _. reflexivity. }
    destruct S1 as (t1 & l1 & S1). rewrite loop_unfold by lia. rewrite S1. cbn [bind]. rewrite loop_unfold by lia.
    assert (S2 : decode_step (Z.shiftl 1 k) original (DST h1 r1 t1 l1 0 [] 1) = NoFuel).
    { unfold decode_step. cbn [d_count d_huf d_r d_text d_loc d_crc d_out]. destruct (Z.ltb_spec 1 original); [|lia]. rewrite E2. cbn [bind]. change (256 <? 256) with false. cbv iota zeta. rewrite P. reflexivity. }
    rewrite S2. reflexivity.
  - exists r, h1, r1, h2, r2, r3, a. rewrite N0 in *. repeat (split; [auto; lia|]). exact C.
Qed.

(** The claim is false: for each of the methods -lh4- to -lh7- there are some 40 bytes
    for which the decompressor does not return, in a new process.  In the loop that looks
    up the first distance it goes on for ever. *)
Theorem C97_decompression_ends_refuted :
  forall m, 4 <= m <= 7 ->
    exists k data, dec_dicbit m = Some k /\ bytes data /\ zlen data <= 41 /\
      (forall original, 2 <= original -> DecodeLzhuf m false original (zlen data) data glob0 = NoFuel) /\
      runs_for_ever k data.
Proof.
  intros m Hm.
  assert (G : forall k lim a b, dec_dicbit m = Some k -> 1 <= k <= 16 -> lim <= a -> lim <= b -> a <> b -> endless_state k (endless m) lim a b = true ->
    bytes (endless m) -> zlen (endless m) <= 41 ->
    (forall original p inp g, DecodeLzhuf m false original p inp g = match decode k false original p inp (g_huf g) with Ok r => DecodeLzhuf m false original p inp g | Panic => Panic | NoFuel => NoFuel end) ->
    exists k data, dec_dicbit m = Some k /\ bytes data /\ zlen data <= 41 /\
      (forall original, 2 <= original -> DecodeLzhuf m false original (zlen data) data glob0 = NoFuel) /\ runs_for_ever k data).
  { intros k lim a b D K L1 L2 N X B Z0 F. destruct (endless_any k (endless m) lim a b K L1 L2 N X) as [Y1 Y2].
    exists k, (endless m). repeat (split; [assumption|]). split; [|exact Y2]. intros original O. rewrite F, (Y1 original O). reflexivity. }
  assert (m = 4 \/ m = 5 \/ m = 6 \/ m = 7) as [-> | [-> | [-> | ->]]] by lia.
  - apply (G 12 0 14 19); try lia; try reflexivity; [repeat constructor; unfold is_byte; lia|discriminate|].
    intros. unfold DecodeLzhuf at 1 2. change (dec_dicbit 4) with (Some 12). cbv iota. change (12 =? 0) with false. cbv iota. destruct (decode 12 false original p inp (g_huf g)); reflexivity.
  - apply (G 13 14 14 19); try lia; try reflexivity; [repeat constructor; unfold is_byte; lia|discriminate|].
    intros. unfold DecodeLzhuf at 1 2. change (dec_dicbit 5) with (Some 13). cbv iota. change (13 =? 0) with false. cbv iota. destruct (decode 13 false original p inp (g_huf g)); reflexivity.
  - apply (G 15 16 16 23); try lia; try reflexivity; [repeat constructor; unfold is_byte; lia|discriminate|].
    intros. unfold DecodeLzhuf at 1 2. change (dec_dicbit 6) with (Some 15). cbv iota. change (15 =? 0) with false. cbv iota. destruct (decode 15 false original p inp (g_huf g)); reflexivity.
  - apply (G 16 17 17 25); try lia; try reflexivity; [cbn [endless Z.eqb Pos.eqb]; repeat (apply Forall_cons; [unfold is_byte; lia|]); apply Forall_nil|].
    intros. unfold DecodeLzhuf at 1 2. change (dec_dicbit 7) with (Some 16). cbv iota. change (16 =? 0) with false. cbv iota. destruct (decode 16 false original p inp (g_huf g)); reflexivity.
Qed.

(** -lh3-.  Three blocks of one item each.  In the first two the code of the items
    fills the code space twice, and the symbol 3 serves as a node, whose left link the
    first block sets to the node 289.  When the second block follows this old link, 289 is
    the next node to be used: its left link is set to 289 itself.  In the third block the
    only item is 289. *)
Definition endless_lh3 : list Z :=
  [0; 1; 135; 189; 8; 198; 50; 157; 43; 107; 227; 58; 223; 189; 239; 123; 192; 0; 0; 0; 0; 0; 0; 0; 0; 0; 0; 0; 0; 0; 0; 0; 0; 0; 0; 0; 0; 0; 0; 0;
   0; 0; 0; 0; 0; 0; 0; 0; 0; 0; 0; 12; 60; 132; 99; 25; 78; 149; 181; 241; 157; 111; 255; 255; 255; 255; 255; 255; 255; 255; 240; 0; 0; 0; 0; 0; 0; 0; 0;
   0; 0; 0; 0; 0; 0; 0; 0; 0; 0; 0; 0; 0; 0; 0; 0; 0; 0; 0; 0; 0; 0; 0; 0; 0; 6; 16; 132; 132; 0; 0; 0; 0; 0].

Definition endless_lh3_state : bool :=
  match initGetbits (zlen endless_lh3) endless_lh3 with
  | Ok r => match decodeCSt0 286 (set_np 128 (g_huf glob0)) r with
    | Ok (c1, h1, r1) => match decodeCSt0 286 h1 r1 with
      | Ok (c2, h2, r2) => match block_head 286 h2 r2 with
        | Ok (h3, r3) => match fillbuf 12 r3 with
          | Ok r4 => (c1 =? 4) && (c2 =? 4) && (blocksize h2 =? 0) && (bitbuf r4 =? 0) &&
              match aget (cTable h3) (peekbits 12 r3), aget (left h3) 289 with Ok j, Ok x => (j =? 289) && (x =? 289) | _, _ => false end
          | _ => false end
        | _ => false end
      | _ => false end
    | _ => false end
  | _ => false end.

(** A node above the limit whose left link points to itself, with no one bits ahead. *)
Lemma self_never_stops left right lim a : aget left a = Ok a -> lim <= a ->
  forall first, never_stops (left_step left right lim) (first, 0, a).
Proof.
  intros A L first n. revert first. induction n as [|n IH]; intros first; [eexists; reflexivity|]. cbn [loopN].
  assert (S1 : left_step left right lim (first, 0, a) = Ok (Go (false, 0, a))).
  { unfold left_step. destruct (Z.leb_spec lim a); [|lia]. rewrite orb_true_r. change (Z.testbit 0 63) with false. cbv iota. rewrite A. reflexivity. }
  rewrite S1. cbn [bind]. apply IH.
Qed.

(** For a new process: two bytes are decoded, and the loop that looks up the third item
    goes on for ever. *)
Definition runs_for_ever_lh3 (data : list Z) : Prop :=
  exists r h1 r1 h2 r2 h3 r3 r4 j,
    initGetbits (zlen data) data = Ok r /\
    decodeCSt0 286 (set_np 128 (g_huf glob0)) r = Ok (4, h1, r1) /\
    decodeCSt0 286 h1 r1 = Ok (4, h2, r2) /\
    blocksize h2 = 0 /\ block_head 286 h2 r2 = Ok (h3, r3) /\
    aget (cTable h3) (peekbits 12 r3) = Ok j /\ 286 <= j /\ fillbuf 12 r3 = Ok r4 /\
    never_stops (left_step (left h3) (right h3) 286) (true, bitbuf r4, j).

Theorem C97_lh3_ends_refuted :
  exists data, bytes data /\ zlen data = 113 /\
    (forall original, 3 <= original -> DecodeLzhuf 3 false original (zlen data) data glob0 = NoFuel) /\
    runs_for_ever_lh3 data.
Proof.
  exists endless_lh3.
  assert (X : endless_lh3_state = true) by (vm_compute; reflexivity).
  split; [unfold endless_lh3; repeat (apply Forall_cons; [unfold is_byte; lia|]); apply Forall_nil|]. split; [reflexivity|].
  unfold endless_lh3_state in X. generalize dependent endless_lh3. intros data X.
  destruct (initGetbits (zlen data) data) as [r| |] eqn:E0; try discriminate X.
  destruct (decodeCSt0 286 (set_np 128 (g_huf glob0)) r) as [[[c1 h1] r1]| |] eqn:E1; try discriminate X.
  destruct (decodeCSt0 286 h1 r1) as [[[c2 h2] r2]| |] eqn:E2; try discriminate X.
  destruct (block_head 286 h2 r2) as [[h3 r3]| |] eqn:E3; try discriminate X.
  destruct (fillbuf 12 r3) as [r4| |] eqn:E4; try discriminate X.
  destruct (aget (cTable h3) (peekbits 12 r3)) as [j| |] eqn:E5; try (rewrite andb_false_r in X; discriminate X).
  destruct (aget (left h3) 289) as [x| |] eqn:E6; try (rewrite andb_false_r in X; discriminate X).
  rewrite !andb_true_iff, !Z.eqb_eq in X. destruct X as [[[[-> ->] B2] B0] [-> ->]].
  assert (C : never_stops (left_step (left h3) (right h3) 286) (true, bitbuf r4, 289)) by (rewrite B0; apply self_never_stops; [exact E6|lia]).
  split.
  - intros original H.
    assert (P : decodeCSt0 286 h2 r2 = NoFuel).
    { unfold decodeCSt0. rewrite B2. change (0 =? 0) with true. cbv iota. rewrite E3. cbn [bind]. cbv zeta.
      change (cTable (set_blocksize (u16 (blocksize h3 - 1)) h3)) with (cTable h3). rewrite E5. cbn [bind]. change (289 <? 286) with false. cbv iota. rewrite E4. cbn [bind].
      change (left (set_blocksize (u16 (blocksize h3 - 1)) h3)) with (left h3). change (right (set_blocksize (u16 (blocksize h3 - 1)) h3)) with (right h3).
      assert (Wk : walk_left (left h3) (right h3) 286 (bitbuf r4) 289 = NoFuel).
      { unfold walk_left. rewrite loop_loopN by lia. destruct (C (Z.to_nat 1100)) as [s' Cs]. rewrite Cs. reflexivity. }
      rewrite Wk. reflexivity. }
    unfold DecodeLzhuf. change (dec_dicbit 3) with (@None Z). cbv iota. change (old_dicbit 3) with 13. unfold decode_old. change (Z.shiftl 1 13) with 8192. cbv zeta.
    unfold decodeMethodStart. change (3 =? 1) with false. change (3 =? 2) with false. change (3 =? 3) with true. cbv iota. rewrite E0. cbn [bind].
    change (decodeStartSt0 (g_huf glob0) (x_dh (EXT (g_dh glob0) (g_pm glob0) 0 0 0))) with (set_np 128 (g_huf glob0), set_nMax 286 (g_dh glob0)). cbv iota beta. cbn [bind].
    set (x := EXT (set_nMax 286 (g_dh glob0)) _ _ _ _). assert (XN : k_n1 (x_dh x) = 286) by reflexivity. clearbody x.
    set (t := afill 8192 32). assert (TL : alen t = 8192) by reflexivity. clearbody t.
    assert (DM : forall s, decodeMethodC 3 s x = ('(c, h, r) <- decodeCSt0 286 (d_huf s) (d_r s) ;; Ok (c, with_hr h r s, x))).
    { intros s. unfold decodeMethodC. change ((3 =? 1) || (3 =? 2)) with false. change (3 =? 3) with true. cbv iota. rewrite XN. reflexivity. }
    assert (S1 : forall h r t l n h' r', alen t = 8192 -> 0 <= l < 2 -> n < original -> decodeCSt0 286 h r = Ok (4, h', r') ->
      exists t', alen t' = 8192 /\ old_step 3 8192 original (DST h r t l 0 [] n, x) = Ok (Go (DST h' r' t' (l + 1) 0 [] (n + 1), x))).
    { intros h r' t0 l n h' r'' T0 L0 N0 D0. unfold old_step. cbn [d_count d_huf d_r d_text d_loc d_crc d_out]. destruct (Z.ltb_spec n original); [|lia].
      rewrite DM. cbn [d_huf d_r]. rewrite D0. cbn [bind]. change (4 <? 256) with true. cbv iota.
      unfold dput. cbn [with_hr d_count d_huf d_r d_text d_loc d_crc d_out]. rewrite aset_ok by lia. cbn [bind]. rewrite (u16_id (l + 1)) by lia.
      destruct (Z.eqb_spec (l + 1) 8192); [lia|]. cbn [bind d_count d_huf d_r d_text d_loc d_crc d_out]. eexists. split; [|reflexivity]. exact T0. }
    destruct (S1 _ _ t 0 0 _ _ TL ltac:(lia) ltac:(lia) E1) as (t1 & T1 & F1). change (0 + 1) with 1 in F1. rewrite loop_unfold by lia. rewrite F1. cbn [bind].
    destruct (S1 _ _ t1 1 1 _ _ T1 ltac:(lia) ltac:(lia) E2) as (t2 & T2 & F2). rewrite loop_unfold by lia. rewrite F2. cbn [bind].
    rewrite loop_unfold by lia.
    assert (F3 : old_step 3 8192 original (DST h2 r2 t2 (1 + 1) 0 [] (1 + 1), x) = NoFuel).
    { unfold old_step. cbn [d_count d_huf d_r d_text d_loc d_crc d_out]. destruct (Z.ltb_spec (1 + 1) original); [|lia]. rewrite DM. cbn [d_huf d_r]. rewrite P. reflexivity. }
    rewrite F3. reflexivity.
  - exists r, h1, r1, h2, r2, h3, r3, r4, 289. repeat (split; [auto; lia|]). exact C.
Qed.

(** What is proved instead: with any bytes, and whatever the entry announces, the
    decompressors of stored, -lh1-, -lzs- and -lz5- entries return. *)
Theorem C97_decompression_ends_partial :
  forall cs g m size packed inp,
    after cs g -> In m [0; 1; 8; 9; 10; 12] -> 0 <= size -> 0 <= packed -> bytes inp ->
    exists g2 crc out n rest, DecodeLzhuf m false size packed inp g = Ok (g2, crc, out, n, rest) /\ (m <> 0 -> m <> 10 -> m <> 12 -> size <= zlen out < size + 315).
Proof.
  intros cs g m size packed inp A M S P B.
  assert (ST : dec_dicbit m = Some 0 -> exists g2 crc out n rest, DecodeLzhuf m false size packed inp g = Ok (g2, crc, out, n, rest)).
  { intros D. unfold DecodeLzhuf. rewrite D. change (0 =? 0) with true. cbv iota.
    assert (CF : exists out r rest, copyfile size inp = Ok (out, r, rest)).
    { unfold copyfile. destruct (0 <? size); [|eexists _, _, _; reflexivity].
      assert (CL : forall k buf i n, (length i < k)%nat -> exists out r, copy_loop k buf i n = Ok (out, r)).
      { induction k as [|k IH]; intros buf i n H; [lia|]. cbn [copy_loop]. destruct (Z.eqb_spec (zlen (take buffersize i)) 0) as [Z0|NZ]; [eexists _, _; reflexivity|].
        destruct i as [|y i]; [exfalso; apply NZ; reflexivity|].
        destruct (IH (take buffersize (y :: i) ++ drop (zlen (take buffersize (y :: i))) buf) (drop buffersize (y :: i)) (n + zlen (take buffersize (y :: i)))) as (o & q & ->); [|cbn [bind]; eexists _, _; reflexivity].
        unfold drop. rewrite skipn_length. cbn [length] in *. unfold buffersize. lia. }
      destruct (CL (Datatypes.S (length inp)) (repeat 0 (Z.to_nat buffersize)) inp 0) as (o & q & ->); [lia|]. cbn [bind]. eexists _, _, _. reflexivity. }
    destruct CF as (o & q & rest & ->). cbn [bind]. eexists _, _, _, _, _. reflexivity. }
  destruct M as [<-|[<-|[<-|[<-|[<-|[<-|[]]]]]]].
  - destruct (ST eq_refl) as (g2 & crc & out & n & rest & E). exists g2, crc, out, n, rest. split; [exact E|]. intros X. now elim X.
  - destruct (C65_lh1_malformed cs g size packed inp A S P B) as (g2 & crc & out & n & rest & E & L & _). exists g2, crc, out, n, rest. auto.
  - destruct (lzs_any g size packed inp S P B) as (g2 & crc & out & n & rest & E & L & _). exists g2, crc, out, n, rest. split; [exact E|]. lia.
  - destruct (lz5_any g size packed inp S B) as (g2 & crc & out & j & E & L & _). exists g2, crc, out, 0, (drop j inp). split; [exact E|]. lia.
  - destruct (ST eq_refl) as (g2 & crc & out & n & rest & E). exists g2, crc, out, n, rest. split; [exact E|]. intros _ X. now elim X.
  - destruct (ST eq_refl) as (g2 & crc & out & n & rest & E). exists g2, crc, out, n, rest. split; [exact E|]. intros _ _ X. now elim X.
Qed.

(** Three arbitrary bytes as the data of every one of these methods. *)
Example C97_example :
  after [] glob0 /\
  forallb (fun m => match DecodeLzhuf m false 20 3 [200; 7; 99] glob0 with Ok (_, _, out, _, _) => 20 <=? zlen out | _ => false end) [0; 1; 8; 9; 10; 12] = true.
Proof. split; [split; [constructor|reflexivity]|vm_compute; reflexivity]. Qed.

(** ** C98: malformed LArc data *)

(** Any bytes decompress as -lzs- data, to at least as many bytes as announced and fewer
    than 17 more, and nothing behind the packed data is read; and as -lz5- data, to fewer
    than 18 more. *)
Theorem C98_larc_malformed_partial :
  forall g size packed inp, 0 <= size -> 0 <= packed -> bytes inp ->
    (exists g2 crc out n rest, DecodeLzhuf 8 false size packed inp g = Ok (g2, crc, out, n, rest) /\
       size <= zlen out < size + 17 /\ 0 <= n <= packed /\ rest = drop n inp /\ crc = calcCrc 0 out) /\
    (exists g2 crc out n rest, DecodeLzhuf 9 false size packed inp g = Ok (g2, crc, out, n, rest) /\
       size <= zlen out < size + 18 /\ (exists j, 0 <= j /\ rest = drop j inp) /\ crc = calcCrc 0 out).
Proof.
  intros g size packed inp S P B. split; [exact (lzs_any g size packed inp S P B)|].
  destruct (lz5_any g size packed inp S B) as (g2 & crc & out & j & E & L & J & C). exists g2, crc, out, 0, (drop j inp). split; [exact E|]. split; [exact L|]. split; [exists j; split; [exact J|reflexivity]|exact C].
Qed.

(** The claim that nothing behind the packed data is read is false for -lz5-: an entry
    with one byte of data reads nine bytes. *)
Theorem C98_larc_malformed_refuted :
  exists size packed inp g2 crc out n rest,
    bytes inp /\ 0 <= size /\ 0 <= packed /\ DecodeLzhuf 9 false size packed inp glob0 = Ok (g2, crc, out, n, rest) /\
    zlen inp - zlen rest > packed.
Proof.
  exists 8, 1, [255; 1; 2; 3; 4; 5; 6; 7; 8; 9].
  destruct (DecodeLzhuf 9 false 8 1 [255; 1; 2; 3; 4; 5; 6; 7; 8; 9] glob0) as [[[[[g2 crc] out] n] rest]| |] eqn:E.
  - exists g2, crc, out, n, rest. split; [repeat constructor; unfold is_byte; lia|]. split; [lia|]. split; [lia|]. split; [reflexivity|].
    assert (X : match DecodeLzhuf 9 false 8 1 [255; 1; 2; 3; 4; 5; 6; 7; 8; 9] glob0 with Ok (_, _, _, _, rest) => zlen rest =? 1 | _ => false end = true) by (vm_compute; reflexivity).
    rewrite E in X. apply Z.eqb_eq in X. rewrite X. change (zlen [255; 1; 2; 3; 4; 5; 6; 7; 8; 9]) with 10. lia.
  - exfalso. assert (X : match DecodeLzhuf 9 false 8 1 [255; 1; 2; 3; 4; 5; 6; 7; 8; 9] glob0 with Ok _ => true | _ => false end = true) by (vm_compute; reflexivity). rewrite E in X. discriminate X.
  - exfalso. assert (X : match DecodeLzhuf 9 false 8 1 [255; 1; 2; 3; 4; 5; 6; 7; 8; 9] glob0 with Ok _ => true | _ => false end = true) by (vm_compute; reflexivity). rewrite E in X. discriminate X.
Qed.

Example C98_example :
  match DecodeLzhuf 8 false 5 2 [64; 1; 9; 9] glob0 with Ok (_, _, out, n, rest) => (5 <=? zlen out) && (n =? 2) && (zlen rest =? 2) | _ => false end = true.
Proof. vm_compute. reflexivity. Qed.

Print Assumptions C97_decompression_ends_refuted.
Print Assumptions C97_lh3_ends_refuted.
Print Assumptions C97_decompression_ends_partial.
Print Assumptions C98_larc_malformed_partial.
Print Assumptions C98_larc_malformed_refuted.
