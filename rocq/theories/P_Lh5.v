(** The blocks the decoder reads and the encoder writes are those of the format. *)
From Verif Require Import Go GoLemmas S_Bits P_Bits S_Huff S_Lz S_Lh5 M_Bitio P_Bitio P_Huff
  M_Maketree M_Maketbl P_Maketree P_Maketbl M_Huf P_HufCode P_HufTables P_HufLens P_HufBlock P_HufStream P_Decode
  M_Crc M_Slide P_Lz P_Slide P_Encode.

Lemma len_bits_lenb k : 0 <= k <= 16 -> len_bits k = lenb k.
Proof.
  intros H. unfold len_bits, lenb. destruct (Z.leb_spec k 6); [reflexivity|].
  assert (C : k = 7 \/ k = 8 \/ k = 9 \/ k = 10 \/ k = 11 \/ k = 12 \/ k = 13 \/ k = 14 \/ k = 15 \/ k = 16) by lia.
  repeat (destruct C as [->|C]; [reflexivity|]). now subst.
Qed.

Lemma significant_nb p : significant p = nb p.
Proof. reflexivity. Qed.

Definition lens (k : code) : Z -> Z := match k with Single _ => fun _ => 0 | Lengths len => len end.

Lemma word_lens n k c : word n k c = codeword n (lens k) c.
Proof. destruct k; reflexivity. Qed.

Lemma small_lens_PTG len m (gap : bool) sp i b : sp = (if gap then 3 else -1) -> 0 <= i -> (forall k, 0 <= k < m -> 0 <= len k <= 16) ->
  small_lens len m gap i b -> PTG len m sp i b.
Proof.
  intros Es Hi HL S. revert Hi. induction S as [i H|i b H Hn S IH|k b H Hg Hk Hz S IH]; intros Hi.
  - now constructor.
  - rewrite len_bits_lenb by (apply HL; lia). constructor; [exact H| |apply IH; lia]. rewrite Es. destruct gap; [|lia]. intros E. apply Hn. split; [reflexivity|lia].
  - rewrite len_bits_lenb by (apply HL; lia). subst gap. rewrite Es in *. replace k with (3 + k - 3) by lia. apply PTG_sp; [lia|lia|lia|exact Hz|apply IH; lia].
Qed.

Lemma PTG_small_lens len m (gap : bool) sp i b : sp = (if gap then 3 else -1) -> 0 <= i -> (forall k, 0 <= k < m -> 0 <= len k <= 16) ->
  PTG len m sp i b -> small_lens len m gap i b.
Proof.
  intros Es Hi HL S. revert Hi. induction S as [i H|i b H Hn S IH|i q b H He Hq Hz S IH]; intros Hi.
  - now constructor.
  - rewrite <- len_bits_lenb by (apply HL; lia). constructor; [exact H| |apply IH; lia]. intros [-> ->]. now apply Hn.
  - destruct gap; [|lia]. subst sp. assert (i = 2) by lia. subst i. rewrite <- len_bits_lenb by (apply HL; lia).
    apply small_gap; [lia|reflexivity|lia|intros j Hj; apply Hz; lia|]. replace (3 + (q - 3)) with q by lia. apply IH. lia.
Qed.

(** ** A small code *)

Lemma small_PTB n nbit (gap : bool) sp k b : sp = (if gap then 3 else -1) -> 0 <= nbit -> code_ok n k -> small_code n (Z.to_nat nbit) gap k b -> PTB n nbit sp (lens k) (has n k) b.
Proof.
  intros Es Hn OK S. inversion S as [c|len m b' Hm Hz SL]; subst; cbn [code_ok] in OK; cbn [lens].
  - split; [intros c0 _; lia|]. split; [intros c0 [H _]; exact H|]. right. exists c. split; [exact OK|]. split; [intros c0 [_ H]; exact H|]. split; reflexivity.
  - destruct OK as [LO K]. split; [exact LO|]. split; [intros c0 [H _]; exact H|]. left. exists m, b'. split; [exact Hm|]. split; [exact Hz|].
    split; [eapply small_lens_PTG; eauto; [lia|]; intros j Hj; apply LO; lia|]. split; [exact K|]. split; [intros c [_ H]; exact H|reflexivity].
Qed.

(** Two descriptions of the same words. *)
Definition same_code (n : Z) (len : Z -> Z) (U : Z -> Prop) (k : code) : Prop :=
  code_ok n k /\ (forall c, U c -> has n k c) /\ (forall c, 0 <= c < n -> word n k c = codeword n len c).

Lemma PTB_small n nbit (gap : bool) sp len U b : sp = (if gap then 3 else -1) -> 0 <= nbit -> PTB n nbit sp len U b ->
  exists k, same_code n len U k /\ small_code n (Z.to_nat nbit) gap k b.
Proof.
  intros Es Hn (LO & HU & [(m & b' & Hm & Hz & P & K & HN & ->)|(c0 & Hc & HN & Hz & ->)]).
  - exists (Lengths len). split; [split; [now split|split; [intros c Uc; split; auto|reflexivity]]|]. constructor; [exact Hm|exact Hz|]. eapply PTG_small_lens; eauto; [lia|]. intros j Hj. apply LO. lia.
  - exists (Single c0). split; [split; [exact Hc|split; [intros c Uc; split; auto|]]|constructor]. intros c H. unfold codeword. now rewrite Hz.
Qed.

(** ** The large one *)

Lemma big_lens_CLG tc len m i b : big_lens tc len m i b -> CLG len m (codeword Nt (lens tc)) (has 19 tc) i b.
Proof.
  intros S. induction S as [i H|i b H Hn Hh S IH|i b H Hn Hh S IH|i k b Hk H Hz Hh S IH|i k b Hk H Hz Hh S IH]; rewrite ?word_lens.
  - now constructor.
  - now constructor.
  - now constructor.
  - now apply CLG_1.
  - now apply CLG_2.
Qed.

Lemma CLG_big_lens tc tl Ut len m i b : same_code 19 tl Ut tc -> 0 <= i -> CLG len m (codeword Nt tl) Ut i b -> big_lens tc len m i b.
Proof.
  intros (OK & HU & HW) Hi S. revert Hi. change Nt with 19 in S.
  assert (W : forall c, Ut c -> codeword 19 tl c = word 19 tc c) by (intros c Uc; symmetry; apply HW; apply HU; exact Uc).
  induction S as [i H|i b H Hn Hh S IH|i b H Hn Hh S IH|i k b Hk H Hz Hh S IH|i k b Hk H Hz Hh S IH]; intros Hi; rewrite ?(W _ Hh).
  - now constructor.
  - constructor; auto. apply IH. lia.
  - apply big_zero; auto. apply IH. lia.
  - apply big_few; auto. apply IH. lia.
  - apply big_many; auto. apply IH. lia.
Qed.

Lemma big_CLB tc k b : code_ok 510 k -> big_code tc k b -> CLB (lens tc) (has 19 tc) (lens k) (has 510 k) b.
Proof.
  intros OK S. inversion S as [c|len m b' Hm Hz SL]; subst; cbn [code_ok] in OK; cbn [lens].
  - split; [intros c0 _; lia|]. split; [intros c0 [H _]; exact H|]. right. exists c. split; [exact OK|]. split; [intros c0 [_ H]; exact H|]. split; reflexivity.
  - destruct OK as [LO K]. split; [exact LO|]. split; [intros c0 [H _]; exact H|]. left. exists m, b'. split; [exact Hm|]. split; [exact Hz|].
    split; [now apply big_lens_CLG|]. split; [exact K|]. split; [intros c [_ H]; exact H|reflexivity].
Qed.

Lemma CLB_big tc tl Ut len U b : same_code 19 tl Ut tc -> CLB tl Ut len U b -> exists k, same_code 510 len U k /\ big_code tc k b.
Proof.
  intros SC (LO & HU & [(m & b' & Hm & Hz & P & K & HN & ->)|(c0 & Hc & HN & Hz & ->)]).
  - exists (Lengths len). split; [split; [now split|split; [intros c Uc; split; auto|reflexivity]]|]. constructor; [exact Hm|exact Hz|]. eapply CLG_big_lens; eauto. lia.
  - exists (Single c0). split; [split; [exact Hc|split; [intros c Uc; split; auto|]]|constructor]. intros c H. unfold codeword. now rewrite Hz.
Qed.

(** ** Items *)

Definition ztok (t : lztok) : tok := match t with LzByte b => Lit b | LzCopy len d => Mat (253 + len) (d - 1) end.

Lemma tokz_ztok t : tokz (ztok t) = t.
Proof. destruct t; cbn [ztok tokz]; [reflexivity|f_equal; lia]. Qed.

Lemma ztok_tokz t : ztok (tokz t) = t.
Proof. destruct t; cbn [ztok tokz]; [reflexivity|f_equal; lia]. Qed.

Lemma tokz_map ts : map tokz (map ztok ts) = ts.
Proof. induction ts as [|t ts IH]; [reflexivity|]. cbn [map]. now rewrite tokz_ztok, IH. Qed.

Lemma ztok_ok k dsize t : 2 ^ k = dsize -> lz_ok dsize 256 t -> tok_ok k (ztok t).
Proof. intros <-. destruct t; cbn; unfold Nc; lia. Qed.

Lemma tokz_ok k dsize t : 2 ^ k = dsize -> tok_ok k t -> lz_ok dsize 256 (tokz t).
Proof. intros <-. destruct t; cbn; unfold Nc; lia. Qed.

(** ** Blocks *)

Lemma block_BLK n pb k dsize ts b : 2 ^ k = dsize -> 0 <= pb -> block n (Z.to_nat pb) dsize ts b -> BLK k n pb (map ztok ts) b.
Proof.
  intros Ek Hp S. destruct S as [tc cc pc bt bc bp L1 L2 OK CO T1 T2 C1 C2 P1 P2].
  assert (ZL : zlen (map ztok ts) = Z.of_nat (length ts)) by (unfold zlen; now rewrite map_length).
  split; [lia|]. split. { apply Forall_map. eapply Forall_impl; [|exact OK]. intros t. now apply ztok_ok. }
  exists (lens cc), (lens pc), (has 510 cc), (has n pc), (to_bits 16 (Z.of_nat (length ts)) ++ bt ++ bc ++ bp). split; [|split].
  - split; [lia|]. exists (lens tc), (has 19 tc), bt, bc, bp. split; [now apply (small_PTB 19 5 true)|]. split; [now apply big_CLB|]. split; [now apply (small_PTB n pb false)|]. now rewrite ZL.
  - apply Forall_map. eapply Forall_impl; [|exact CO]. intros [x|l d]; auto.
  - rewrite <- !app_assoc. do 4 f_equal. unfold toksbits. rewrite map_map, flat_map_concat_map. f_equal. apply map_ext. intros [x|l d]; cbn [item_bits ztok tokbits]; unfold posbits; rewrite ?word_lens; reflexivity.
Qed.

Lemma BLK_block n pb k dsize l b : 2 ^ k = dsize -> 0 <= pb -> BLK k n pb l b -> block n (Z.to_nat pb) dsize (map tokz l) b.
Proof.
  intros Ek Hp (L & OK & cl & pl & Uc & Up & hb & (_ & tl & Ut & bt & bc & bp & T & C & P & ->) & US & ->).
  destruct (PTB_small 19 5 true 3 tl Ut bt eq_refl ltac:(lia) T) as (tc & ST & TB).
  destruct (CLB_big tc tl Ut cl Uc bc ST C) as (cc & SC & CB).
  destruct (PTB_small n pb false (-1) pl Up bp eq_refl Hp P) as (pc & SP & PB).
  assert (E : toksbits n cl pl l = flat_map (item_bits n cc pc) (map tokz l)).
  { unfold toksbits. rewrite flat_map_concat_map, map_map. f_equal. apply map_ext_in. intros t It. rewrite Forall_forall in US. specialize (US t It).
    destruct SC as (_ & SC1 & SC2), SP as (_ & SP1 & SP2). destruct t as [x|c p]; cbn [tokz item_bits tokbits tok_used] in *.
    - symmetry. apply SC2. now apply SC1.
    - destruct US as [U1 U2]. replace (253 + (c - 253)) with c by lia. replace (p + 1 - 1) with p by lia. change (significant p) with (nb p). unfold posbits.
      rewrite SC2 by (apply SC1; exact U1). rewrite SP2 by (apply SP1; exact U2). reflexivity. }
  rewrite E. replace (zlen l) with (Z.of_nat (length (map tokz l))) by (unfold zlen; now rewrite map_length). rewrite <- !app_assoc.
  apply block_bits with (tc := tc); auto; try apply ST; try apply SC; try apply SP; rewrite ?map_length; unfold zlen in L; try lia.
  - apply Forall_map. eapply Forall_impl; [|exact OK]. intros t. now apply tokz_ok.
  - apply Forall_map. eapply Forall_impl; [|exact US]. destruct SC as (_ & SC1 & _), SP as (_ & SP1 & _). intros [x|c p]; cbn [tok_used tokz item_ok].
    + apply SC1.
    + intros [U1 U2]. replace (253 + (c - 253)) with c by lia. replace (p + 1 - 1) with p by lia. split; [now apply SC1|now apply SP1].
Qed.

Lemma BLKS_app dicbit n pb a x b y : BLKS dicbit n pb a x -> BLKS dicbit n pb b y -> BLKS dicbit n pb (a ++ b) (x ++ y).
Proof.
  intros A B. induction B as [|b y c z B IH C]; [now rewrite !app_nil_r|]. rewrite !app_assoc. now constructor.
Qed.

Lemma blocks_BLKS n pb k dsize ts b : 2 ^ k = dsize -> 0 <= pb -> blocks n (Z.to_nat pb) dsize ts b -> BLKS k n pb (map ztok ts) b.
Proof.
  intros Ek Hp S. induction S as [|ts us b c B S IH]; [constructor|]. rewrite map_app. apply BLKS_app; [|exact IH].
  change (map ztok ts) with ([] ++ map ztok ts). change b with ([] ++ b). constructor; [constructor|]. now apply block_BLK with (dsize := dsize).
Qed.

Lemma blocks_snoc n nbit dsize a x b y : blocks n nbit dsize a x -> block n nbit dsize b y -> blocks n nbit dsize (a ++ b) (x ++ y).
Proof.
  intros A B. induction A as [|a a' x x' A1 A IH]; [cbn [app]; rewrite <- (app_nil_r b), <- (app_nil_r y); constructor; [exact B|constructor]|].
  rewrite <- !app_assoc. now constructor.
Qed.

Lemma BLKS_blocks n pb k dsize l b : 2 ^ k = dsize -> 0 <= pb -> BLKS k n pb l b -> blocks n (Z.to_nat pb) dsize (map tokz l) b.
Proof.
  intros Ek Hp S. induction S as [|a x b y S IH B]; [constructor|]. rewrite map_app. apply blocks_snoc; [exact IH|]. now apply BLK_block with (k := k).
Qed.

(** ** Decoding *)

Lemma blocks_ok n nbit dsize ts b : blocks n nbit dsize ts b -> Forall (lz_ok dsize 256) ts.
Proof. intros S. induction S as [|ts us b c B S IH]; [constructor|]. apply Forall_app. split; [|exact IH]. now destruct B. Qed.

Theorem blocks_decode h k n pb dsize ts bits pad data rest : dsz h -> np (set_np_pbit k h) = n -> pbit (set_np_pbit k h) = pb ->
  npok n pb -> 0 <= pb -> 0 <= k <= 16 -> 2 ^ k = dsize -> blocks n (Z.to_nat pb) dsize ts bits ->
  byte_string_bits data = bits ++ pad -> (length pad < 16)%nat -> bytes (data ++ rest) -> dsize < 65536 \/ zlen (lz_expand ts) < 65536 ->
  exists h', decode k false (zlen (lz_expand ts)) (zlen data) (data ++ rest) h = Ok (DR h' (calcCrc 0 (lz_expand ts)) (lz_expand ts) (zlen data) rest).
Proof.
  intros D EN EP NP Hpb Hk Ek S EB HL HB Hsz. destruct (initGetbits_bits data rest HB) as [r [E R]]. rewrite EB in R.
  pose proof (blocks_ok _ _ _ _ _ S) as OK.
  assert (D0 : dsz (decodeStartSt1 k h)).
  { unfold decodeStartSt1, set_np_pbit. destruct D. destruct (k =? 12), (k =? 13), (k =? 15), (k =? 16); constructor; auto. }
  destruct (decode_blocks k n pb (map ztok ts) bits NP Hk (blocks_BLKS _ _ _ _ _ _ Ek Hpb S) _ _ (decodeStartSt1 k h) r 0 pad D0 EN EP eq_refl R) as (h' & r' & R1 & _ & _ & _ & _ & Q).
  assert (EX : expand (map ztok ts) = lz_expand ts) by (unfold expand; now rewrite tokz_map).
  destruct (Rd_end _ _ _ _ _ Q) as [Z1 Z2].
  { assert (L : length (byte_string_bits data) = (length bits + length pad)%nat) by (rewrite EB, app_length; reflexivity).
    rewrite byte_string_bits_length in L. unfold zlen. lia. }
  exists h'. rewrite <- EX. rewrite (decode_run k _ (zlen data) (data ++ rest) h r (map ztok ts) h' r' Hk E R1); auto; try (rewrite Ek, EX; exact Hsz).
  - rewrite Z1, Z2, Z.sub_0_r. reflexivity.
  - intros t It. apply in_map_iff in It. destruct It as (u & <- & It). rewrite Forall_forall in OK. apply (ztok_ok k dsize _ Ek). now apply OK.
Qed.

(** ** What was written *)

Lemma Wr_pad w l : Wr w (l ++ repeat false 7) -> exists j, byte_string_bits (wbytes w) = l ++ repeat false j /\ (j < 8)%nat.
Proof.
  intros [A B [P [HP [_ E]]]].
  assert (L : (length l + 7 = 8 * length (wbytes w) + length P)%nat).
  { apply (f_equal (@length bool)) in E. rewrite !app_length, repeat_length, byte_string_bits_length in E. lia. }
  exists (7 - length P)%nat. split; [|lia]. apply (f_equal (firstn (8 * length (wbytes w)))) in E.
  rewrite <- byte_string_bits_length in E at 2. rewrite (firstn_app (length (byte_string_bits _))), firstn_all, Nat.sub_diag, firstn_O, app_nil_r in E.
  rewrite <- E, firstn_app, firstn_all2 by lia. f_equal. clear -L HP A. assert (LP : (length P <= 7)%nat) by lia.
  assert (R7 : repeat false 7 = repeat false (7 - length P) ++ repeat false (length P)) by (rewrite <- repeat_app; f_equal; lia).
  rewrite R7, firstn_app, repeat_length.
  rewrite firstn_all2 by (rewrite repeat_length; lia). replace (8 * length (wbytes w) - length l - (7 - length P))%nat with O by lia. now rewrite firstn_O, app_nil_r.
Qed.

Theorem enc_blocks k n pb dsize size body er toks w : 0 <= size -> 0 <= pb -> 2 ^ k = dsize -> enc_post k n pb 256 size body er toks w -> er_unpackable er = false ->
  exists ts bits j, blocks n (Z.to_nat pb) dsize ts bits /\ lz_expand ts = body /\ byte_string_bits (er_out er) = bits ++ repeat false j /\ (j < 8)%nat.
Proof.
  intros Hs Hpb Ek P U. destruct (ep_good _ _ _ _ _ _ _ _ _ P U) as (X1 & _ & _ & bits & BK & EM).
  destruct (initPutbits_Wr size Hs) as [_ L0]. rewrite (ep_u _ _ _ _ _ _ _ _ _ P) in U.
  pose proof (em_bits _ _ _ EM [] L0 U) as W. cbn [app] in W. destruct (Wr_pad _ _ W) as (j & Y1 & Y2).
  exists (map tokz toks), bits, j. split; [now apply BLKS_blocks with (k := k)|]. split; [exact X1|]. split; [|exact Y2]. now rewrite (ep_out _ _ _ _ _ _ _ _ _ P).
Qed.
