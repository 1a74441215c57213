(** What is known when GetHeader accepts a header, for every input; and that it
    always comes to an end. *)
From Verif Require Import Go GoLemmas M_Crc M_Bitio S_Header S_Listing M_Header P_Bitio P_Header.

(** ** Coming to an end *)

Definition ends {A} (r : res A) : Prop := r <> NoFuel.

Lemma ends_ok {A} (a : A) : ends (Ok a).
Proof. discriminate. Qed.
Lemma ends_panic {A} : ends (@Panic A).
Proof. discriminate. Qed.
Lemma ends_bind {A B} (m : res A) (k : A -> res B) : ends m -> (forall a, m = Ok a -> ends (k a)) -> ends (bind m k).
Proof. intros H K. destruct m; cbn [bind]; [now apply K|apply ends_panic|contradiction]. Qed.

Lemma ends_byte data p : ends (getByte data p).
Proof. unfold getByte. destruct (p <? 0); [apply ends_panic|]. destruct (nth_error data (Z.to_nat p)); discriminate. Qed.

Ltac en := repeat first [apply ends_ok | apply ends_panic | apply ends_byte
  | apply ends_bind; [|let a := fresh "a" in intros a ?; repeat destruct a as [a ?]]].

Lemma ends_word data p : ends (getWord data p).
Proof. unfold getWord. en. Qed.
Lemma ends_long data p : ends (getLongword data p).
Proof. unfold getLongword. en. Qed.
Lemma ends_get_n data n : forall p, ends (get_n data p n).
Proof. induction n; intros p; cbn [get_n]; en. apply IHn. Qed.
Lemma ends_getBytes data p len size : ends (getBytes data p len size).
Proof. unfold getBytes. destruct (len <? 0); en. apply ends_get_n. Qed.
Lemma ends_set0 l i : ends (set0 l i).
Proof. unfold set0. destruct (_ && _); discriminate. Qed.

Ltac en' := repeat first [apply ends_ok | apply ends_panic | apply ends_byte | apply ends_word | apply ends_long | apply ends_get_n | apply ends_getBytes | apply ends_set0
  | apply ends_bind; [|let a := fresh "a" in intros a ?; repeat destruct a as [a ?]]].

Lemma ends_wintime data p : ends (wintimeToUnixStamp data p).
Proof. unfold wintimeToUnixStamp. en'. Qed.

Lemma ends_switch x : ends (ext_switch x).
Proof.
  unfold ext_switch. cbv zeta. apply ends_bind; [apply ends_byte|]. intros [ty p] _.
  repeat (match goal with |- ends (if ?b then _ else _) => destruct b end; [en'; try apply ends_wintime|]). en'.
Qed.

Lemma switch_in x x' p : ext_switch x = Ok (x', p) -> x_in x' = x_in x.
Proof.
  unfold ext_switch. cbv zeta. destruct (getByte (x_data x) 0) as [[ty q]| |]; cbn [bind]; [|discriminate..].
  repeat (match goal with |- context [if ?b then _ else _] => destruct b end;
    [repeat (match goal with |- bind ?m _ = _ -> _ => let a := fresh "a" in destruct m as [a| |]; cbn [bind]; [repeat destruct a as [a ?]|discriminate..] end);
     intros H; injection H as <- _; reflexivity|]).
  intros H; injection H as <- _; reflexivity.
Qed.

(** Every round of the loop over extended headers reads at least one byte. *)
Lemma ends_ext h size inp : ends (getExtendedHeader h size inp).
Proof.
  unfold getExtendedHeader, ends. rewrite loop_loopN by (pose proof (zlen_nonneg inp); lia).
  assert (G : forall n x, (length (x_in x) + 1 < n)%nat -> match loopN n ext_step x with Ok (Go _) => False | NoFuel => False | _ => True end).
  { induction n; intros x Hn; [lia|]. cbn [loopN].
    assert (Z1 : match ext_step x with Ok (Go x') => (length (x_in x') < length (x_in x))%nat | NoFuel => False | _ => True end).
    { unfold ext_step. destruct (HeaderSize (x_hdr x) =? 0); [exact I|]. destruct (lzheaderStorage <? _); [exact I|]. unfold readInto.
      set (k := HeaderSize (x_hdr x)). set (y := XST _ _ _ _ _ _).
      destruct (Z.eqb_spec (zlen (take k (x_in x))) 0) as [Q|Q]; [exact I|]. pose proof (ends_switch y) as E.
      destruct (ext_switch y) as [[x' p]| |] eqn:ES; cbn [bind]; [|exact I|contradiction]. apply switch_in in ES. cbn [y x_in] in ES.
      pose proof (ends_word (x_data x') p) as EW. destruct (getWord (x_data x') p) as [[s q]| |]; cbn [bind]; [|exact I|contradiction].
      cbn [x_in]. rewrite ES. unfold drop. rewrite skipn_length.
      assert (P : (0 < Z.to_nat k)%nat /\ (0 < length (x_in x))%nat).
      { unfold zlen, take in Q. rewrite firstn_length in Q. lia. }
      lia. }
    destruct (ext_step x) as [[x'|t]| |]; cbn [bind]; try exact I; [|contradiction].
    apply IHn. lia. }
  specialize (G (Z.to_nat (zlen inp + 2)) (XST h (zeros lzheaderStorage) (zeros FilenameLength) size size inp)).
  cbn [x_in] in G. unfold zlen in G at 1. specialize (G ltac:(lia)). destruct (loopN _ _ _) as [[]| |]; cbn [bind]; try discriminate; contradiction.
Qed.

Lemma ends_level0_ext h data p ext : ends (level0_ext h data p ext).
Proof. unfold level0_ext. apply ends_bind; [apply ends_byte|]. intros [et q] _. cbv zeta. destruct (et =? ExtendUnix); [|en']. destruct (11 <=? ext - 1); en'. Qed.

Lemma ends_level0 h data inp : ends (getHeaderLevel0 h data inp).
Proof.
  unfold getHeaderLevel0. en'. destruct (_ <=? 0); [en'|]. destruct (readInto _ _ _ _) as [[c d] r]. destruct (zlen c =? 0); [en'|].
  destruct (negb _); [en'|]. en'. cbv zeta. destruct (_ <? 0); [destruct (_ =? -2); en'|]. en'. destruct (_ =? 0); [en'|]. apply ends_bind; [apply ends_level0_ext|intros; en'].
Qed.

Lemma ends_level1 h data inp : ends (getHeaderLevel1 h data inp).
Proof.
  unfold getHeaderLevel1. en'. destruct (_ <=? 0); [en'|]. destruct (readInto _ _ _ _) as [[c d] r]. destruct (zlen c =? 0); [en'|].
  destruct (negb _); [en'|]. en'. cbv zeta. en'. match goal with |- ends (if ?b then _ else _) => destruct b end; [|en'].
  apply ends_bind; [apply ends_ext|]. intros [[o h'] r'] _. destruct o; en'.
Qed.

Lemma u64_wraps n : 0 < n <= 4000 -> lzheaderStorage <? u64 (n - lzheaderStorage) = true.
Proof.
  intros H. unfold u64, lzheaderStorage. replace (n - 4096) with (n - 4096 + 2 ^ 64 + (-1) * 2 ^ 64) by lia. rewrite Z_mod_plus_full, Z.mod_small by lia. lia.
Qed.

Lemma ends_level2 h data inp : ends (getHeaderLevel2 h data inp).
Proof.
  unfold getHeaderLevel2. apply ends_bind; [apply ends_word|]. intros [hs p] _. destruct (_ <? 0); [en'|]. unfold readInto.
  destruct (Z.eqb_spec (zlen (take 5 inp)) 0); [en'|]. rewrite u64_wraps; [en'|]. pose proof (zlen_nonneg (take 5 inp)). rewrite zlen_take_min in * by lia. lia.
Qed.

Lemma ends_level3 h data inp : ends (getHeaderLevel3 h data inp).
Proof.
  unfold getHeaderLevel3. apply ends_bind; [apply ends_word|]. intros [hs p] _. unfold readInto.
  destruct (Z.eqb_spec (zlen (take 11 inp)) 0); [en'|]. apply ends_bind; [apply ends_long|]. intros [q r] _. destruct (_ <? 0); [en'|].
  rewrite u64_wraps; [en'|]. pose proof (zlen_nonneg (take 11 inp)). rewrite zlen_take_min in * by lia. lia.
Qed.

Theorem GetHeader_ends o h inp : ends (GetHeader o h inp).
Proof.
  unfold GetHeader. destruct inp as [|b inp']; [en'|]. destruct (b =? 0); [en'|]. cbv zeta. unfold readInto.
  destruct (zlen (take 20 inp') =? 0); [en'|]. apply ends_bind; [apply ends_byte|]. intros [lv p] _.
  apply ends_bind.
  { destruct (lv =? 0); [apply ends_level0|]. destruct (lv =? 1); [apply ends_level1|]. destruct (lv =? 2); [apply ends_level2|]. destruct (lv =? 3); [apply ends_level3|]. en'. }
  intros [[[e ok] h'] r] _. destruct e; en'. destruct ok; en'. destruct (finish_total o h' r) as (e & ok & h2 & -> & _). en'.
Qed.

(** ** Acceptance *)

Lemma gb_inv data p v p' : getByte data p = Ok (v, p') -> 0 <= p /\ p' = p + 1 /\ v = byte_at data p.
Proof.
  unfold getByte. destruct (Z.ltb_spec p 0); [discriminate|]. destruct (nth_error data (Z.to_nat p)) as [b|] eqn:E; [|discriminate].
  intros X; injection X as <- <-. unfold byte_at. repeat split; auto. symmetry. now apply nth_error_nth.
Qed.

Lemma gl_inv data p v p' : getLongword data p = Ok (v, p') -> p' = p + 4 /\ v = long_at data p.
Proof.
  unfold getLongword.
  destruct (getByte data p) as [[b0 p0]| |] eqn:E0; cbn [bind]; try discriminate. apply gb_inv in E0. destruct E0 as [_ [-> ->]].
  destruct (getByte data (p + 1)) as [[b1 p1]| |] eqn:E1; cbn [bind]; try discriminate. apply gb_inv in E1. destruct E1 as [_ [-> ->]].
  destruct (getByte data (p + 1 + 1)) as [[b2 p2]| |] eqn:E2; cbn [bind]; try discriminate. apply gb_inv in E2. destruct E2 as [_ [-> ->]].
  destruct (getByte data (p + 1 + 1 + 1)) as [[b3 p3]| |] eqn:E3; cbn [bind]; try discriminate. apply gb_inv in E3. destruct E3 as [_ [-> ->]].
  intros X; injection X as <- <-. split; [lia|]. unfold long_at. rewrite !Z.shiftl_mul_pow2 by lia.
  replace (p + 2) with (p + 1 + 1) by lia. replace (p + 3) with (p + 1 + 1 + 1) by lia. change (2 ^ 24) with 16777216. change (2 ^ 16) with 65536. change (2 ^ 8) with 256. lia.
Qed.

Lemma get_n_inv data n : forall p l p', get_n data p n = Ok (l, p') -> p' = p + Z.of_nat n /\ length l = n.
Proof.
  induction n; intros p l p'; cbn [get_n].
  - intros X; injection X as <- <-. split; [lia|reflexivity].
  - destruct (getByte data p) as [[b q]| |] eqn:E; cbn [bind]; try discriminate. apply gb_inv in E. destruct E as [_ [-> _]].
    destruct (get_n data (p + 1) n) as [[l0 q]| |] eqn:E; cbn [bind]; try discriminate. intros X; injection X as <- <-.
    destruct (IHn _ _ _ E) as [-> L]. split; [lia|cbn; lia].
Qed.

Lemma gbs_inv data p len size l i p' : getBytes data p len size = Ok (l, i, p') -> 0 <= size ->
  i = Z.min len size /\ p' = p + i /\ zlen l = len.
Proof.
  unfold getBytes. destruct (Z.ltb_spec len 0); [discriminate|]. destruct (get_n data p (Z.to_nat (Z.min len size))) as [[l0 q]| |] eqn:E; cbn [bind]; try discriminate.
  intros X S; injection X as <- <- <-. destruct (get_n_inv _ _ _ _ _ E) as [-> L]. split; [reflexivity|]. split; [lia|].
  rewrite zlen_app. unfold zlen, zeros. rewrite repeat_length, L. lia.
Qed.

(** The buffer after reading [n] bytes at 21 agrees with the input. *)
Lemma buffer_at inp b inp' n k : inp = b :: inp' -> 0 <= k < 21 ->
  byte_at (take 21 (b :: take 20 inp' ++ zeros (4095 - zlen (take 20 inp'))) ++ n) k = byte_at inp k.
Proof.
  intros -> Hk. unfold byte_at.
  rewrite app_nth1.
  2: { unfold take at 1. rewrite firstn_length. cbn [length]. rewrite app_length. unfold zeros, take. rewrite repeat_length, firstn_length. unfold zlen. rewrite firstn_length. lia. }
  assert (T : forall (l : list Z) m j, (j < m)%nat -> nth j (firstn m l) 0 = nth j l 0).
  { induction l as [|x l IH]; intros m j Hj; [rewrite firstn_nil; reflexivity|]. destruct m; [lia|]. destruct j; [reflexivity|]. cbn. apply IH. lia. }
  unfold take at 1. rewrite T by lia. destruct (Z.to_nat k) as [|j] eqn:J; [reflexivity|]. cbn [nth].
  destruct (Nat.lt_ge_cases j (length inp')) as [L|L].
  - rewrite app_nth1; [unfold take; apply T; lia|]. unfold take. rewrite firstn_length. lia.
  - rewrite (nth_overflow inp') by lia. unfold take. rewrite firstn_all2 by lia. rewrite app_nth2 by lia. apply nth_zeros.
Qed.

Definition sizes_read (inp : list Z) (h : hdr) : Prop :=
  PackedSize h = long_at inp 7 /\ OriginalSize h = long_at inp 11 /\ zlen (Method h) = 5.

Lemma finish_sizes o h rest e ok h' rest' : finishHeader o h rest = Ok (e, ok, h', rest') ->
  rest' = rest /\ PackedSize h' = PackedSize h /\ OriginalSize h' = OriginalSize h /\ zlen (Method h') = zlen (Method h) /\ HeaderSize h' = HeaderSize h.
Proof.
  unfold finishHeader.
  set (fcase := if (ExtendType h =? ExtendHuman) || _ || _ || _ || _ || _ || _ then none else _). clearbody fcase.
  assert (C : forall a b : list Z, zlen (copy a b) = zlen a).
  { intros a b. unfold copy. rewrite zlen_app, zlen_take_min, zlen_drop_max by (pose proof (zlen_nonneg a); pose proof (zlen_nonneg b); lia). pose proof (zlen_nonneg a); pose proof (zlen_nonneg b); lia. }
  destruct (ExtendType h =? ExtendMacos); cbv iota.
  all: set (b0 := (ExtendType h =? ExtendAmiga) && _ && _ && _); clearbody b0.
  all: set (h1 := if b0 then _ else h); assert (N1 : PackedSize h1 = PackedSize h /\ OriginalSize h1 = OriginalSize h /\ zlen (Method h1) = zlen (Method h) /\ HeaderSize h1 = HeaderSize h)
    by (unfold h1; destruct b0; cbn [PackedSize OriginalSize Method HeaderSize set_Method]; rewrite ?C; auto); clearbody h1.
  all: destruct (isSymlinkMode _); [destruct (find_byte _ _ _)|]; intros X; injection X as <- <- <- <-; split; [reflexivity| |reflexivity| |reflexivity|]; exact N1.
Qed.

Ltac bnd H := match type of H with bind ?m _ = _ => let E := fresh "E" in destruct m eqn:E; cbn [bind] in H; [|discriminate H..] end.

Lemma level0_ext_sizes h data p ext h' : level0_ext h data p ext = Ok h' ->
  PackedSize h' = PackedSize h /\ OriginalSize h' = OriginalSize h /\ Method h' = Method h.
Proof.
  unfold level0_ext. intros H. bnd H. destruct a as [et q]. cbv zeta in H. destruct (et =? ExtendUnix); [|injection H as <-; auto].
  destruct (11 <=? ext - 1); [|injection H as <-; auto].
  bnd H. destruct a. bnd H. destruct a. bnd H. destruct a. bnd H. destruct a. bnd H. destruct a. injection H as <-. auto.
Qed.

(** The part common to levels 0 and 1. *)
Lemma level0_accept h b inp' h' rest : zlen (Method h) = 5 ->
  getHeaderLevel0 h (b :: take 20 inp' ++ zeros (4095 - zlen (take 20 inp'))) (drop 20 inp') = Ok (ENil, true, h', rest) ->
  sizes_read (b :: inp') h' /\ rest = drop (b + 2) (b :: inp') /\ 20 <= b /\ 21 <= zlen inp'.
Proof.
  set (data := b :: _). set (inp := b :: inp'). intros HM H. unfold getHeaderLevel0 in H.
  bnd H. destruct a as [hs p0]. apply gb_inv in E. destruct E as [_ [-> ->]]. change (byte_at data 0) with b in H.
  bnd H. destruct a as [cs p1]. apply gb_inv in E. destruct E as [_ [-> ->]].
  destruct (Z.leb_spec (b + 2 - 21) 0); [discriminate|]. unfold readInto in H. set (c := take (b + 2 - 21) (drop 20 inp')) in *.
  destruct (Z.eqb_spec (zlen c) 0) as [Q|Q]; [discriminate|]. destruct (negb _) in H; [discriminate|].
  set (data' := take 21 data ++ c ++ drop (21 + zlen c) data) in *.
  assert (V : forall k, 0 <= k < 21 -> byte_at data' k = byte_at inp k) by (intros; apply buffer_at; auto).
  assert (L : 21 <= zlen inp').
  { pose proof (zlen_nonneg c). unfold c in Q. destruct (Z_lt_le_dec (zlen inp') 21) as [L|L]; [|exact L]. exfalso. apply Q. unfold drop. rewrite skipn_all2 by (unfold zlen in L; lia). unfold take. now rewrite firstn_nil. }
  assert (R : drop (b + 2 - 21) (drop 20 inp') = drop (b + 2) inp).
  { rewrite P_Bitio.drop_drop by lia. unfold drop, inp. replace (Z.to_nat (b + 2)) with (S (Z.to_nat (20 + (b + 2 - 21)))) by lia. reflexivity. }
  bnd H. destruct a as [[m i0] p2]. apply gbs_inv in E; [|cbn; pose proof (zlen_nonneg (Method h)); lia]. cbn [Method set_HeaderSize set_SizeFieldLength] in E. rewrite HM in E. destruct E as [-> [-> LM]].
  bnd H. destruct a as [ps p3]. apply gl_inv in E. destruct E as [-> EP].
  bnd H. destruct a as [os p4]. apply gl_inv in E. destruct E as [-> EO].
  bnd H. destruct a as [st p5]. apply gl_inv in E. destruct E as [-> _].
  bnd H. destruct a as [at' p6]. apply gb_inv in E. destruct E as [_ [-> _]].
  bnd H. destruct a as [lv p7]. apply gb_inv in E. destruct E as [_ [-> _]].
  bnd H. destruct a as [nl p8]. apply gb_inv in E. destruct E as [_ [-> _]].
  bnd H. destruct a as [[nm i] p9]. bnd H. rename a into nm'. cbv zeta in H.
  assert (SR : forall hh, PackedSize hh = ps -> OriginalSize hh = os -> Method hh = m -> sizes_read inp hh).
  { intros hh H1 H2 H3. unfold sizes_read. rewrite H1, H2, H3. split; [|split; [|exact LM]].
    - rewrite EP. unfold long_at. rewrite !V by (change (Z.min 5 5) with 5; lia). reflexivity.
    - rewrite EO. unfold long_at. rewrite !V by (change (Z.min 5 5) with 5; lia). reflexivity. }
  destruct (_ <? 0) in H.
  { destruct (_ =? -2) in H; [|discriminate]. injection H as <- <-. split; [now apply SR|]. split; [exact R|]. lia. }
  bnd H. destruct a as [crc q]. destruct (_ =? 0) in H.
  { injection H as <- <-. split; [now apply SR|]. split; [exact R|]. lia. }
  bnd H. apply level0_ext_sizes in E2. injection H as <- <-. split; [|split; [exact R|lia]]. destruct E2 as [X1 [X2 X3]]. apply SR; [exact X1|exact X2|exact X3].
Qed.

Lemma level1_accept h b inp' h' rest : zlen (Method h) = 5 ->
  getHeaderLevel1 h (b :: take 20 inp' ++ zeros (4095 - zlen (take 20 inp'))) (drop 20 inp') = Ok (ENil, true, h', rest) ->
  sizes_read (b :: inp') h' /\ rest = drop (b + 2) (b :: inp') /\ 20 <= b /\ 21 <= zlen inp'.
Proof.
  set (data := b :: _). set (inp := b :: inp'). intros HM H. unfold getHeaderLevel1 in H.
  bnd H. destruct a as [hs p0]. apply gb_inv in E. destruct E as [_ [-> ->]]. change (byte_at data 0) with b in H.
  bnd H. destruct a as [cs p1]. apply gb_inv in E. destruct E as [_ [-> ->]].
  destruct (Z.leb_spec (b + 2 - 21) 0); [discriminate|]. unfold readInto in H. set (c := take (b + 2 - 21) (drop 20 inp')) in *.
  destruct (Z.eqb_spec (zlen c) 0) as [Q|Q]; [discriminate|]. destruct (negb _) in H; [discriminate|].
  set (data' := take 21 data ++ c ++ drop (21 + zlen c) data) in *.
  assert (V : forall k, 0 <= k < 21 -> byte_at data' k = byte_at inp k) by (intros; apply buffer_at; auto).
  assert (L : 21 <= zlen inp').
  { pose proof (zlen_nonneg c). unfold c in Q. destruct (Z_lt_le_dec (zlen inp') 21) as [L|L]; [|exact L]. exfalso. apply Q. unfold drop. rewrite skipn_all2 by (unfold zlen in L; lia). unfold take. now rewrite firstn_nil. }
  assert (R : drop (b + 2 - 21) (drop 20 inp') = drop (b + 2) inp).
  { rewrite P_Bitio.drop_drop by lia. unfold drop, inp. replace (Z.to_nat (b + 2)) with (S (Z.to_nat (20 + (b + 2 - 21)))) by lia. reflexivity. }
  bnd H. destruct a as [[m i0] p2]. apply gbs_inv in E; [|cbn; pose proof (zlen_nonneg (Method h)); lia]. cbn [Method set_HeaderSize set_SizeFieldLength] in E. rewrite HM in E. destruct E as [-> [-> LM]].
  bnd H. destruct a as [ps p3]. apply gl_inv in E. destruct E as [-> EP].
  bnd H. destruct a as [os p4]. apply gl_inv in E. destruct E as [-> EO].
  bnd H. destruct a as [st p5]. apply gl_inv in E. destruct E as [-> _].
  bnd H. destruct a as [at' p6]. apply gb_inv in E. destruct E as [_ [-> _]].
  bnd H. destruct a as [lv p7]. apply gb_inv in E. destruct E as [_ [-> _]].
  bnd H. destruct a as [nl p8]. apply gb_inv in E. destruct E as [_ [-> _]].
  bnd H. destruct a as [[nm i] p9]. bnd H. rename a into nm'. bnd H. destruct a as [crc q]. bnd H. destruct a as [et q']. cbv zeta in H. bnd H. destruct a as [ext q''].
  assert (SR : forall hh, PackedSize hh = ps -> OriginalSize hh = os -> Method hh = m -> sizes_read inp hh).
  { intros hh H1 H2 H3. unfold sizes_read. rewrite H1, H2, H3. split; [|split; [|exact LM]].
    - rewrite EP. unfold long_at. rewrite !V by (change (Z.min 5 5) with 5; lia). reflexivity.
    - rewrite EO. unfold long_at. rewrite !V by (change (Z.min 5 5) with 5; lia). reflexivity. }
  destruct (0 <? ext).
  - bnd H. destruct a as [[x hx] rx]. destruct x as [t|]; [|discriminate]. exfalso. eapply ext_never; [|eassumption]. cbn. lia.
  - injection H as <- <-. split; [now apply SR|]. split; [exact R|]. lia.
Qed.

(** An accepted header: its level is 0 or 1, the reader is left after it, and the
    sizes are the ones in the header. *)
Theorem accept_facts o h inp h' rest : zlen (Method h) = 5 -> GetHeader o h inp = Ok (ENil, true, h', rest) ->
  (byte_at inp 20 = 0 \/ byte_at inp 20 = 1) /\ sizes_read inp h' /\ rest = drop (byte_at inp 0 + 2) inp /\ 20 <= byte_at inp 0 /\ 22 <= zlen inp.
Proof.
  intros HM. unfold GetHeader. destruct inp as [|b inp']; [discriminate|]. destruct (b =? 0); [discriminate|]. cbv zeta.
  rewrite read_first_any. destruct (Z.eqb_spec (zlen (take 20 inp')) 0); [discriminate|]. rewrite getByte_level. cbn [bind].
  change (level_byte (b :: inp')) with (byte_at (b :: inp') 20). change (byte_at (b :: inp') 0) with b.
  set (lv := byte_at (b :: inp') 20). clearbody lv. intros H.
  assert (ZL : zlen (b :: inp') = zlen inp' + 1) by (unfold zlen; cbn [length]; lia).
  assert (F : forall h1 r1, finishHeader o h1 r1 = Ok (ENil, true, h', rest) ->
    sizes_read (b :: inp') h1 /\ r1 = drop (b + 2) (b :: inp') /\ 20 <= b /\ 21 <= zlen inp' ->
    sizes_read (b :: inp') h' /\ rest = drop (b + 2) (b :: inp') /\ 20 <= b /\ 22 <= zlen (b :: inp')).
  { intros h1 r1 X [[Y1 [Y2 Y3]] [Y4 [Y5 Y6]]]. apply finish_sizes in X. destruct X as (-> & X1 & X2 & X3 & X4). split; [|split; [exact Y4|lia]].
    split; [congruence|]. split; congruence. }
  destruct (Z.eqb_spec lv 0).
  { split; [now left|]. destruct (getHeaderLevel0 h _ _) as [[[[er ok] h1] r1]| |] eqn:G; cbn [bind] in H; [|discriminate..].
    destruct er; try discriminate. destruct ok; [|discriminate]. apply (F _ _ H). now apply (level0_accept h). }
  destruct (Z.eqb_spec lv 1).
  { split; [now right|]. destruct (getHeaderLevel1 h _ _) as [[[[er ok] h1] r1]| |] eqn:G; cbn [bind] in H; [|discriminate..].
    destruct er; try discriminate. destruct ok; [|discriminate]. apply (F _ _ H). now apply (level1_accept h). }
  exfalso. destruct (lv =? 2).
  { unfold getHeaderLevel2, readInto in H.
    destruct (getWord _ _) as [[hs p]| |]; cbn [bind] in H; [|discriminate..]. destruct (_ <? 0) in H; cbn [bind] in H; [discriminate|].
    destruct (_ =? 0) in H; cbn [bind] in H; [discriminate|]. destruct (_ <? _) in H; discriminate. }
  destruct (lv =? 3).
  { unfold getHeaderLevel3, readInto in H.
    destruct (getWord _ _) as [[hs p]| |]; cbn [bind] in H; [|discriminate..]. destruct (_ =? 0) in H; cbn [bind] in H; [discriminate|].
    destruct (getLongword _ _) as [[s p2]| |]; cbn [bind] in H; [|discriminate..]. destruct (_ <? 0) in H; cbn [bind] in H; [discriminate|].
    destruct (_ <? _) in H; discriminate. }
  discriminate.
Qed.

Lemma accept_nil o h inp e h' rest : GetHeader o h inp = Ok (e, true, h', rest) -> e = ENil.
Proof.
  unfold GetHeader. destruct inp as [|b inp']; [discriminate|]. destruct (b =? 0); [discriminate|]. cbv zeta.
  destruct (readInto _ _ _ _) as [[c d] r]. destruct (_ =? 0); [discriminate|]. intros H. bnd H. destruct a as [lv p]. bnd H. destruct a as [[[er ok] h1] r1].
  destruct er; try discriminate. destruct ok; [|discriminate]. unfold finishHeader in H. destruct (if ExtendType h1 =? ExtendMacos then _ else _) in H.
  destruct (isSymlinkMode _) in H; [destruct (find_byte _ _ _) in H|]; injection H; auto; discriminate.
Qed.

(** The name of an accepted level 0 header ends at the length of the previous one. *)
Lemma set0_at l i l' : set0 l i = Ok l' -> byte_at l' i = 0 /\ zlen l' = zlen l.
Proof.
  unfold set0. destruct (Z.leb_spec 0 i); [|discriminate]. destruct (Z.ltb_spec i (zlen l)); [|discriminate]. cbn [andb]. intros X; injection X as <-.
  split.
  - unfold byte_at. rewrite app_nth2 by (unfold take; rewrite firstn_length; unfold zlen in *; lia).
    unfold take. rewrite firstn_length. replace (Z.to_nat i - Nat.min (Z.to_nat i) (length l))%nat with 0%nat by (unfold zlen in *; lia). reflexivity.
  - rewrite zlen_app, zlen_cons, zlen_take_min, zlen_drop_max by lia. lia.
Qed.

Lemma conv_zero from to fcase : ~ In 0 from -> conv_byte from to fcase 0 = 0.
Proof.
  intros N. unfold conv_byte, delim_index. change (0 <? 128) with true. cbv iota.
  assert (X : index_of 0 from = None).
  { induction from as [|x from IH]; [reflexivity|]. cbn [index_of]. destruct (Z.eqb_spec x 0); [subst; exfalso; apply N; now left|]. rewrite IH; [reflexivity|]. intros I; apply N; now right. }
  rewrite X. change (isLower 0) with false. change (isUpper 0) with false. rewrite !andb_false_r. reflexivity.
Qed.

Lemma finish_name_at o h rest e ok h' rest' i : finishHeader o h rest = Ok (e, ok, h', rest') -> byte_at (Name h) i = 0 -> byte_at (Name h') i = 0.
Proof.
  unfold finishHeader.
  set (fcase := if (ExtendType h =? ExtendHuman) || _ || _ || _ || _ || _ || _ then none else _). clearbody fcase.
  assert (C : forall from to hh, ~ In 0 from -> byte_at (Name hh) i = 0 -> byte_at (convertFilename (Name hh) codeSJIS from to fcase) i = 0).
  { intros from to hh N Z. unfold convertFilename, byte_at in *. set (fc := if _ && _ && _ then none else fcase). clearbody fc.
    rewrite <- (conv_zero from to fc N). rewrite map_nth. rewrite conv_zero by exact N. rewrite <- Z at 2. f_equal.
    rewrite Z. apply conv_zero. exact N. }
  destruct (ExtendType h =? ExtendMacos); cbv iota.
  all: set (b0 := (ExtendType h =? ExtendAmiga) && _ && _ && _); clearbody b0.
  all: set (h1 := if b0 then _ else h); assert (N1 : Name h1 = Name h) by (unfold h1; destruct b0; reflexivity); clearbody h1.
  all: destruct (isSymlinkMode _); [destruct (find_byte _ _ _)|]; intros X Z; injection X as <- <- <- <-; cbn [Name set_Realname set_Name]; apply C; try (now rewrite N1); cbn; lia.
Qed.

Lemma level0_ext_name h data p ext h' : level0_ext h data p ext = Ok h' -> Name h' = Name h.
Proof.
  unfold level0_ext. intros H. bnd H. destruct a as [et q]. cbv zeta in H. destruct (et =? ExtendUnix); [|injection H as <-; auto].
  destruct (11 <=? ext - 1); [|injection H as <-; auto].
  bnd H. destruct a. bnd H. destruct a. bnd H. destruct a. bnd H. destruct a. bnd H. destruct a. injection H as <-. auto.
Qed.

Lemma level0_name h b inp' h' rest : zlen (Method h) = 5 ->
  getHeaderLevel0 h (b :: take 20 inp' ++ zeros (4095 - zlen (take 20 inp'))) (drop 20 inp') = Ok (ENil, true, h', rest) ->
  byte_at (Name h') (Z.min (byte_at (b :: inp') 21 + 1) (zlen (Name h)) - 1) = 0.
Proof.
  set (data := b :: _). set (inp := b :: inp'). intros HM H. unfold getHeaderLevel0 in H.
  bnd H. destruct a as [hs p0]. apply gb_inv in E. destruct E as [_ [-> ->]]. change (byte_at data 0) with b in H.
  bnd H. destruct a as [cs p1]. apply gb_inv in E. destruct E as [_ [-> ->]].
  destruct (Z.leb_spec (b + 2 - 21) 0); [discriminate|]. unfold readInto in H. set (c := take (b + 2 - 21) (drop 20 inp')) in *.
  destruct (Z.eqb_spec (zlen c) 0) as [Q|Q]; [discriminate|]. destruct (negb _) in H; [discriminate|].
  set (data' := take 21 data ++ c ++ drop (21 + zlen c) data) in *.
  assert (V : byte_at data' 21 = byte_at inp 21).
  { assert (LT : length (take 21 data) = 21%nat).
    { unfold data. pose proof (zlen_nonneg (take 20 inp')) as Y. rewrite zlen_take_min in Y by lia. apply Nat2Z.inj. change (zlen (take 21 data) = 21).
      rewrite zlen_take_min by lia. unfold data. rewrite zlen_cons, zlen_app, zlen_zeros, zlen_take_min by (rewrite ?zlen_take_min; lia). pose proof (zlen_nonneg inp'). lia. }
    unfold byte_at, data'. rewrite app_nth2 by (rewrite LT; lia). rewrite LT. change (Z.to_nat 21 - 21)%nat with 0%nat.
    unfold c, inp in *. change (nth (Z.to_nat 21) (b :: inp') 0) with (nth 20 inp' 0). rewrite <- (Nat.add_0_r 20). change 20%nat with (Z.to_nat 20). rewrite <- nth_drop.
    destruct (drop 20 inp') as [|x l] eqn:D; [exfalso; apply Q; unfold take; now rewrite firstn_nil|]. unfold take.
    destruct (Z.to_nat (b + 2 - 21)) eqn:NN; [lia|]. reflexivity. }
  bnd H. destruct a as [[m i0] p2]. apply gbs_inv in E; [|cbn; pose proof (zlen_nonneg (Method h)); lia]. cbn [Method set_HeaderSize set_SizeFieldLength] in E. rewrite HM in E. destruct E as [-> [-> LM]].
  bnd H. destruct a as [ps p3]. apply gl_inv in E. destruct E as [-> EP].
  bnd H. destruct a as [os p4]. apply gl_inv in E. destruct E as [-> EO].
  bnd H. destruct a as [st p5]. apply gl_inv in E. destruct E as [-> _].
  bnd H. destruct a as [at' p6]. apply gb_inv in E. destruct E as [_ [-> _]].
  bnd H. destruct a as [lv p7]. apply gb_inv in E. destruct E as [_ [-> _]].
  bnd H. destruct a as [nl p8]. apply gb_inv in E. destruct E as [_ [-> EN]]. change (0 + 1 + 1 + Z.min 5 5 + 4 + 4 + 4 + 1 + 1) with 21 in EN. rewrite V in EN. rewrite <- EN.
  bnd H. destruct a as [[nm i] p9]. apply gbs_inv in E; [|cbn; apply zlen_nonneg]. destruct E as [-> [-> LN]]. cbn [Name set_HeaderSize set_SizeFieldLength] in *.
  bnd H. rename a into nm'. cbv zeta in H. apply set0_at in E. destruct E as [Z0 _].
  destruct (_ <? 0) in H.
  { destruct (_ =? -2) in H; [|discriminate]. injection H as <- <-. exact Z0. }
  bnd H. destruct a as [crc q]. destruct (_ =? 0) in H.
  { injection H as <- <-. exact Z0. }
  bnd H. apply level0_ext_name in E0. injection H as <- <-. cbn [Name set_HeaderSize]. rewrite E0. exact Z0.
Qed.

Theorem accept_name_cut o h inp h' rest : zlen (Method h) = 5 -> GetHeader o h inp = Ok (ENil, true, h', rest) -> byte_at inp 20 = 0 ->
  byte_at (Name h') (Z.min (byte_at inp 21 + 1) (zlen (Name h)) - 1) = 0.
Proof.
  intros HM H HL. unfold GetHeader in H. destruct inp as [|b inp']; [discriminate|]. destruct (b =? 0); [discriminate|]. cbv zeta in H.
  rewrite read_first_any in H. destruct (Z.eqb_spec (zlen (take 20 inp')) 0); [discriminate|]. rewrite getByte_level in H. cbn [bind] in H.
  change (level_byte (b :: inp')) with (byte_at (b :: inp') 20) in H. rewrite HL in H. change (0 =? 0) with true in H. cbv iota in H.
  destruct (getHeaderLevel0 h _ _) as [[[[er ok] h1] r1]| |] eqn:G; cbn [bind] in H; [|discriminate..].
  destruct er; try discriminate. destruct ok; [|discriminate]. eapply finish_name_at; [exact H|]. eapply level0_name; eassumption.
Qed.
