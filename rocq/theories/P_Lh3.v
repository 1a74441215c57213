(** -lh3- entries: what the decoder makes of streams in the format of S_Lh3. *)
From Verif Require Import Go GoLemmas M_Crc M_Bitio P_Bitio M_Maketree M_Maketbl M_Huf M_Dhuf M_Shuf M_Slide M_Larc M_Decode M_Lzhuf S_Bits P_Bits S_Huff S_Lz S_Lh5 S_Lh3
  P_Huff P_Maketree P_Maketbl P_HufCode P_HufTables P_HufLens P_Decode P_Lz P_Lh1.

(** ** Lookups *)

(** The symbols [U] of a code with the words [w] are found in the table of [tb] bits. *)
Definition finds (n tb : Z) (w : Z -> list bool) (U : Z -> Prop) (table lens : arr) : Prop :=
  forall c tl, U c -> 0 <= c < n /\ at_ table (peek tb (w c ++ tl)) = c /\ at_ lens c = Z.of_nat (length (w c)) /\ Z.of_nat (length (w c)) <= 16.

Lemma finds_step n tb w U table lens packed rest r B c tl : 0 <= tb <= 16 -> finds n tb w U table lens -> U c -> alen table = 2 ^ tb -> n <= alen lens ->
  Rd packed rest r B (w c ++ tl) ->
  aget table (peekbits tb r) = Ok c /\ c < n /\ exists r', aget lens c = Ok (Z.of_nat (length (w c))) /\ fillbuf (Z.of_nat (length (w c))) r = Ok r' /\ Rd packed rest r' (B + Z.of_nat (length (w c))) tl.
Proof.
  intros Htb F Uc A L R. destruct (F c tl Uc) as (F1 & F2 & F3 & F4). rewrite (peekbits_bits _ _ _ _ _ tb R) by lia.
  pose proof (peek_range tb (w c ++ tl) ltac:(lia)). rewrite aget_ok by lia. rewrite F2. split; [reflexivity|]. split; [lia|].
  rewrite aget_ok by lia. rewrite F3. destruct (fillbuf_bits (Z.of_nat (length (w c))) _ _ _ _ _ R ltac:(lia)) as [r' [E R']]. exists r'. split; [reflexivity|]. split; [exact E|].
  rewrite Nat2Z.id, skipn_app, skipn_all, Nat.sub_diag in R'. exact R'.
Qed.

(** From a complete table. *)
Lemma finds_lengths n tb len la table lft rgt s : 1 <= n <= 510 -> 1 <= tb <= 12 -> (forall c, 0 <= c < n -> at_ la c = len c) ->
  lengths_ok n len -> kraft n len = 65536 -> 2 * n - 1 <= alen lft -> 2 * n - 1 <= alen rgt ->
  tbl_spec n (at_ la) tb lft rgt s -> t_table s = table ->
  forall U : Z -> Prop, (forall c, U c -> 0 <= c < n /\ 1 <= len c <= tb) -> finds n tb (codeword n len) U table la.
Proof.
  intros Hn Htb Hla Hok Hk Hl Hr Hs <- U HU c tl Uc. destruct (HU c Uc) as [H1 H2].
  assert (Hok' : lengths_ok n (at_ la)) by (intros k Hk'; rewrite Hla by exact Hk'; auto).
  assert (Hk2 : kraft n (at_ la) = 65536) by (rewrite <- Hk; apply kraft_ext; exact Hla).
  split; [exact H1|]. rewrite Hla by exact H1. unfold codeword at 2 3. rewrite to_bits_length. split; [|lia].
  rewrite (codeword_ext n len (at_ la) c) by (auto; intros; symmetry; now apply Hla).
  apply (index_short n (at_ la) tb lft rgt s); auto. rewrite Hla; lia.
Qed.

Lemma finds_single n tb c0 la table (U : Z -> Prop) : 0 <= c0 < n -> 0 <= tb -> (forall c, U c -> c = c0) -> (forall i, 0 <= i < 2 ^ tb -> at_ table i = c0) -> at_ la c0 = 0 ->
  finds n tb (fun _ => []) U table la.
Proof.
  intros H1 Ht HU T L c tl Uc. rewrite (HU c Uc). split; [exact H1|]. split; [apply T; apply peek_range; lia|]. cbn [length]. split; [exact L|lia].
Qed.

(** ** The code of bytes and lengths *)

Definition rtc_step (n1 : Z) := fun '(i, len, r) =>
      if i <? n1 then
        '(b, r) <- getbits 1 r ;;
        '(v, r) <- (if b =? 0 then Ok (0, r) else '(x, r) <- getbits 4 r ;; Ok (u8 (x + 1), r)) ;;
        len <- aset len i v ;;
        let i := i + 1 in
        a0 <- aget len 0 ;; a1 <- aget len 1 ;; a2 <- aget len 2 ;;
        if (i =? 3) && (a0 =? 1) && (a1 =? 1) && (a2 =? 1) then
          '(c, r) <- getbits cbit r ;;
          len <- forZ 0 n1 (fun i t => aset t i 0) len ;;
          Ok (Stop (Some c, len, r))
        else Ok (Go (i, len, r))
      else Ok (Stop (None, len, r)).

Lemma bit_field b packed rest r B s : Rd packed rest r B (b :: s) -> exists r', getbits 1 r = Ok (if b : bool then 1 else 0, r') /\ Rd packed rest r' (B + 1) s.
Proof.
  intros R. destruct (getbits_field 1 (if b then 1 else 0) packed rest r B s) as [r' X]; [|lia|destruct b; cbn; lia|eauto].
  destruct b; exact R.
Qed.

Lemma char_len_read k packed rest r B s : 0 <= k <= 16 -> Rd packed rest r B (char_len k ++ s) ->
  exists r', ('(b, r) <- getbits 1 r ;; (if b =? 0 then Ok (0, r) else '(x, r) <- getbits 4 r ;; Ok (u8 (x + 1), r))) = Ok (k, r') /\ Rd packed rest r' (B + Z.of_nat (length (char_len k))) s.
Proof.
  intros Hk R. unfold char_len in *. destruct (Z.eqb_spec k 0) as [->|N].
  - destruct (bit_field false _ _ _ _ _ R) as [r' [E R']]. rewrite E. cbn [bind]. exists r'. split; [reflexivity|exact R'].
  - cbn [app] in R. destruct (bit_field true _ _ _ _ _ R) as [r1 [E R1]]. rewrite E. cbn [bind]. change (1 =? 0) with false. cbv iota.
    destruct (getbits_field 4 (k - 1) _ _ _ _ _ R1 ltac:(lia) ltac:(change (2 ^ 4) with 16; lia)) as [r2 [E2 R2]]. rewrite E2. cbn [bind].
    rewrite u8_id by lia. exists r2. split; [f_equal; f_equal; lia|]. cbn [length]. rewrite to_bits_length. replace (B + Z.of_nat (S 4)) with (B + 1 + 4) by lia. exact R2.
Qed.

(** One length. *)
Lemma rtc_one n1 i la k packed rest r B s : 0 <= i < n1 -> n1 <= alen la -> 3 <= alen la -> 0 <= k <= 16 -> Rd packed rest r B (char_len k ++ s) ->
  exists r', Rd packed rest r' (B + Z.of_nat (length (char_len k))) s /\
    rtc_step n1 (i, la, r) =
      (let len := upd la i k in
       if (i + 1 =? 3) && (at_ len 0 =? 1) && (at_ len 1 =? 1) && (at_ len 2 =? 1) then
          '(c, r) <- getbits cbit r' ;;
          len <- forZ 0 n1 (fun i t => aset t i 0) len ;;
          Ok (Stop (Some c, len, r))
        else Ok (Go (i + 1, len, r'))).
Proof.
  intros Hi Ha H3 Hk R. destruct (char_len_read k _ _ _ _ _ Hk R) as [r' [E R']]. exists r'. split; [exact R'|].
  unfold rtc_step. destruct (Z.ltb_spec i n1); [|lia].
  destruct (getbits 1 r) as [[b r1]| |] eqn:G; cbn [bind] in E |- *; try discriminate. rewrite E. cbn [bind].
  rewrite aset_ok by lia. cbn [bind]. cbv zeta. rewrite !aget_ok by (rewrite alen_upd; lia). reflexivity.
Qed.

Lemma kraft_three n len : 3 <= n -> lengths_ok n len -> kraft n len = 65536 -> len 0 = 1 -> len 1 = 1 -> len 2 = 1 -> False.
Proof.
  intros Hn Hok K H0 H1 H2. unfold kraft in K. replace (Z.to_nat n) with (3 + Z.to_nat (n - 3))%nat in K by lia. rewrite sumn_split in K.
  assert (P : 0 <= sumn (Z.to_nat (n - 3)) (fun k => weight (len (k + Z.of_nat 3)))).
  { apply sumn_nonneg. intros k Hk. pose proof (Hok (k + Z.of_nat 3) ltac:(lia)) as X. unfold weight. destruct (_ =? 0); [lia|]. apply Z.pow_nonneg. lia. }
  assert (T : sumn 3 (fun k => weight (len k)) = 98304).
  { rewrite 3 sumn_S. change (Z.of_nat 0) with 0. change (Z.of_nat 1) with 1. change (Z.of_nat 2) with 2. rewrite H0, H1, H2. reflexivity. }
  lia.
Qed.

Lemma rtc_loop len packed rest t : lengths_ok 286 len -> kraft 286 len = 65536 -> forall m i la r B k,
  i + Z.of_nat m = 286 -> 0 <= i -> 286 <= alen la -> (forall c, 0 <= c < i -> at_ la c = len c) ->
  Rd packed rest r B (flat_map (fun i => char_len (len (Z.of_nat i))) (List.seq (Z.to_nat i) m) ++ t) -> (m < k)%nat ->
  exists la' r', loopN k (rtc_step 286) (i, la, r) = Ok (Stop (None, la', r')) /\ alen la' = alen la /\ (forall c, 0 <= c < 286 -> at_ la' c = len c) /\
    Rd packed rest r' (B + Z.of_nat (length (flat_map (fun i => char_len (len (Z.of_nat i))) (List.seq (Z.to_nat i) m)))) t.
Proof.
  intros Hok K. induction m as [|m IH]; intros i la r B k Hi H0 Ha Hla R Hk; (destruct k as [|k]; [lia|]); cbn [loopN].
  - unfold rtc_step at 1. destruct (Z.ltb_spec i 286); [lia|]. cbn [bind]. exists la, r. split; [reflexivity|]. split; [reflexivity|]. split; [intros; apply Hla; lia|].
    cbn [List.seq flat_map length app] in *. rewrite Z.add_0_r. exact R.
  - cbn [List.seq flat_map] in *. rewrite <- app_assoc, Z2Nat.id in R by lia. rewrite Z2Nat.id by lia.
    destruct (rtc_one 286 i la (len i) packed rest r B _ ltac:(lia) Ha ltac:(lia) (Hok i ltac:(lia)) R) as [r1 [R1 E1]]. rewrite E1. cbv zeta.
    assert (NB : (i + 1 =? 3) && (at_ (upd la i (len i)) 0 =? 1) && (at_ (upd la i (len i)) 1 =? 1) && (at_ (upd la i (len i)) 2 =? 1) = false).
    { destruct (Z.eqb_spec (i + 1) 3) as [E3|]; [|reflexivity]. cbn [andb].
      assert (i = 2) by lia. subst i. rewrite at_upd_eq, !at_upd_ne by lia. rewrite !Hla by lia.
      destruct (Z.eqb_spec (len 0) 1), (Z.eqb_spec (len 1) 1), (Z.eqb_spec (len 2) 1); cbn; auto. exfalso. apply (kraft_three 286 len); auto; lia. }
    rewrite NB. cbn [bind]. replace (S (Z.to_nat i)) with (Z.to_nat (i + 1)) in R1 |- * by lia.
    destruct (IH (i + 1) (upd la i (len i)) r1 (B + Z.of_nat (length (char_len (len i)))) k ltac:(lia) ltac:(lia) ltac:(rewrite alen_upd; lia)) as (la' & r' & L1 & L2 & L3 & L4); [|exact R1|lia|].
    { intros c Hc. destruct (Z.eq_dec c i) as [->|]; [apply at_upd_eq|]. rewrite at_upd_ne by lia. apply Hla. lia. }
    exists la', r'. split; [exact L1|]. split; [rewrite L2; apply alen_upd|]. split; [exact L3|].
    rewrite app_length. match goal with |- Rd _ _ _ ?b _ => match type of L4 with Rd _ _ _ ?b2 _ => replace b with b2 by lia end end. exact L4.
Qed.

Lemma readC_lengths len packed rest t la r B : lengths_ok 286 len -> kraft 286 len = 65536 -> 286 <= alen la -> Rd packed rest r B (chars_bits (Lengths len) ++ t) ->
  exists la' r', loop 288 (rtc_step 286) (0, la, r) = Ok (None, la', r') /\ alen la' = alen la /\ (forall c, 0 <= c < 286 -> at_ la' c = len c) /\
    Rd packed rest r' (B + Z.of_nat (length (chars_bits (Lengths len)))) t.
Proof.
  intros Hok K Ha R. unfold chars_bits in *.
  assert (E0 : forall f, flat_map f (List.seq 0 286) = flat_map f (List.seq (Z.to_nat 0) 286) :> list bool) by reflexivity. rewrite E0 in *.
  assert (K8 : (286 < Z.to_nat 288)%nat) by lia. rewrite loop_loopN by lia. revert K8. generalize (Z.to_nat 288). intros q K8.
  destruct (rtc_loop len packed rest t Hok K 286 0 la r B q) as (la' & r' & L1 & L2 & L3 & L4); auto; try lia.
  exists la', r'. rewrite L1. cbn [bind]. auto.
Qed.

Lemma readC_single c0 packed rest t la r B : 0 <= c0 < 286 -> 286 <= alen la -> Rd packed rest r B (chars_bits (Single c0) ++ t) ->
  exists la' r', loop 288 (rtc_step 286) (0, la, r) = Ok (Some c0, la', r') /\ alen la' = alen la /\ (forall c, 0 <= c < 286 -> at_ la' c = 0) /\
    Rd packed rest r' (B + Z.of_nat (length (chars_bits (Single c0)))) t.
Proof.
  intros CK Ha R. unfold chars_bits in *. rewrite <- !app_assoc in R.
  assert (K8 : exists q, Z.to_nat 288 = S (S (S q))) by (exists 285%nat; lia). rewrite loop_loopN by lia. destruct K8 as [q ->]. cbn [loopN].
  destruct (rtc_one 286 0 la 1 packed rest r B _ ltac:(lia) ltac:(lia) ltac:(lia) ltac:(lia) R) as [r1 [R1 E1]]. rewrite E1. cbv zeta. change (0 + 1 =? 3) with false. cbn [andb bind]. clear E1.
  set (la1 := upd la 0 1) in *. assert (A1 : alen la1 = alen la) by (unfold la1; rewrite alen_upd; lia).
  destruct (rtc_one 286 (0 + 1) la1 1 packed rest r1 _ _ ltac:(lia) ltac:(lia) ltac:(lia) ltac:(lia) R1) as [r2 [R2 E2]]. rewrite E2. cbv zeta. change (0 + 1 + 1 =? 3) with false. cbn [andb bind]. clear E2.
  set (la2 := upd la1 (0 + 1) 1) in *. assert (A2 : alen la2 = alen la) by (unfold la2; rewrite alen_upd; lia).
  destruct (rtc_one 286 (0 + 1 + 1) la2 1 packed rest r2 _ _ ltac:(lia) ltac:(lia) ltac:(lia) ltac:(lia) R2) as [r3 [R3 E3]]. rewrite E3. cbv zeta. change (0 + 1 + 1 + 1 =? 3) with true. clear E3.
  set (la3 := upd la2 (0 + 1 + 1) 1) in *. assert (A3 : alen la3 = alen la) by (unfold la3; rewrite alen_upd; lia).
  assert (V0 : at_ la3 0 = 1) by (unfold la3, la2; rewrite !at_upd_ne by lia; apply at_upd_eq).
  assert (V1 : at_ la3 1 = 1) by (unfold la3; rewrite !at_upd_ne by lia; apply at_upd_eq).
  assert (V2 : at_ la3 2 = 1) by (apply at_upd_eq).
  rewrite V0, V1, V2. change (1 =? 1) with true. cbn [andb]. clearbody la3.
  destruct (getbits_field 9 c0 _ _ _ _ _ R3 ltac:(lia) ltac:(change (2 ^ 9) with 512; lia)) as [r4 [E4 R4]]. change cbit with 9. rewrite E4. cbn [bind].
  destruct (fill_ok 0 286 0 la3 ltac:(lia) ltac:(lia)) as [la' [F1 [F2 F3]]]. rewrite F1. cbn [bind].
  exists la', r4. split; [reflexivity|]. split; [lia|]. split.
  - intros c Hc. rewrite F3 by lia. destruct (Z.leb_spec 0 c), (Z.ltb_spec c 286); cbn; auto; lia.
  - rewrite !app_length, to_bits_length. match goal with |- Rd _ _ _ ?b _ => match type of R4 with Rd _ _ _ ?b2 _ => replace b with b2 by lia end end. exact R4.
Qed.

Definition set_c la tab lf rg (h : huf) := set_cTable tab (set_left lf (set_right rg (set_cLen la h))).

Lemma readTreeC_ok k h packed rest r B t : dsz h -> code_ok 286 k -> (forall U : Z -> Prop, (forall c, U c -> has 286 k c /\ (length (word 286 k c) <= 12)%nat) ->
  Rd packed rest r B (chars_bits k ++ t) ->
  exists la tab lf rg r', readTreeC 286 h r = Ok (set_c la tab lf rg h, r') /\
    Rd packed rest r' (B + Z.of_nat (length (chars_bits k))) t /\ finds 286 12 (word 286 k) U tab la /\
    alen la = Nc /\ alen tab = 4096 /\ alen lf = 1019 /\ alen rg = 1019).
Proof.
  intros [D1 D2 D3 D4 D5 D6] CK U HU R. unfold readTreeC. unfold Nc in *.
  match goal with |- context [loop _ ?f _] => change f with (rtc_step 286) end. change (Z.abs 286 + 2) with 288.
  destruct k as [c0|len]; cbn [code_ok word] in *.
  - destruct (readC_single c0 packed rest t (cLen h) r B CK ltac:(lia) R) as (la & r' & L1 & L2 & L3 & L4).
    rewrite L1. cbn [bind]. destruct (fill_ok 0 4096 c0 (cTable h) ltac:(lia) ltac:(lia)) as [tab [G1 [G2 G3]]]. cbn [set_cLen cTable]. rewrite G1. cbn [bind].
    exists la, tab, (left h), (right h), r'. split; [destruct h; reflexivity|]. split; [exact L4|].
    split; [|repeat split; lia].
    intros c tl Uc. apply (finds_single 286 12 c0 la tab U); auto; try lia.
    + intros c' Uc'. apply (HU c' Uc').
    + intros i Hi. change (2 ^ 12) with 4096 in Hi. rewrite G3 by lia. destruct (Z.leb_spec 0 i), (Z.ltb_spec i 4096); cbn; auto; lia.
  - destruct CK as [Hok K].
    destruct (readC_lengths len packed rest t (cLen h) r B Hok K ltac:(lia) R) as (la & r' & L1 & L2 & L3 & L4).
    rewrite L1. cbn [bind]. unfold use_c. cbn [set_cLen cLen cTable left right].
    destruct (makeTable_ok 286 la 12 (cTable h) (left h) (right h)) as (s & T1 & T2 & T3); try lia; auto.
    { intros c Hc. rewrite L3 by lia. auto. } { rewrite <- K. apply kraft_ext. exact L3. }
    rewrite T1. cbn [bind]. exists la, (t_table s), (t_left s), (t_right s), r'. split; [destruct h; reflexivity|]. split; [exact L4|].
    split; [|rewrite (tbs_ll _ _ _ _ _ _ T3), (tbs_rl _ _ _ _ _ _ T3); repeat split; lia].
    eapply (finds_lengths 286 12 len la _ (left h) (right h) s); auto; try lia.
    intros c Uc. destruct (HU c Uc) as [[H1 H2] H3]. split; [exact H1|]. unfold codeword in H3. rewrite to_bits_length in H3. pose proof (Hok c H1). lia.
Qed.

(** ** The code of distances *)

Definition rtp_step := fun '(i, len, r) =>
      if i <? 128 then
        '(v, r) <- getbits 4 r ;;
        len <- aset len i (u8 v) ;;
        let i := i + 1 in
        a0 <- aget len 0 ;; a1 <- aget len 1 ;; a2 <- aget len 2 ;;
        if (i =? 3) && (a0 =? 1) && (a1 =? 1) && (a2 =? 1) then
          '(c, r) <- getbits 7 r ;;
          len <- forZ 0 128 (fun i t => aset t i 0) len ;;
          Ok (Stop (Some c, len, r))
        else Ok (Go (i, len, r))
      else Ok (Stop (None, len, r)).

Lemma rtp_one i la k packed rest r B s : 0 <= i < 128 -> 128 <= alen la -> 0 <= k <= 15 -> Rd packed rest r B (to_bits 4 k ++ s) ->
  exists r', Rd packed rest r' (B + 4) s /\
    rtp_step (i, la, r) =
      (let len := upd la i k in
       if (i + 1 =? 3) && (at_ len 0 =? 1) && (at_ len 1 =? 1) && (at_ len 2 =? 1) then
          '(c, r) <- getbits 7 r' ;;
          len <- forZ 0 128 (fun i t => aset t i 0) len ;;
          Ok (Stop (Some c, len, r))
        else Ok (Go (i + 1, len, r'))).
Proof.
  intros Hi Ha Hk R. destruct (getbits_field 4 k _ _ _ _ _ R ltac:(lia) ltac:(change (2 ^ 4) with 16; lia)) as [r' [E R']]. exists r'. split; [exact R'|].
  unfold rtp_step. destruct (Z.ltb_spec i 128); [|lia]. rewrite E. cbn [bind]. rewrite u8_id by lia.
  rewrite aset_ok by lia. cbn [bind]. cbv zeta. rewrite !aget_ok by (rewrite alen_upd; lia). reflexivity.
Qed.

Lemma rtp_loop len packed rest t : (forall k, 0 <= k < 128 -> 0 <= len k <= 15) -> kraft 128 len = 65536 -> forall m i la r B k,
  i + Z.of_nat m = 128 -> 0 <= i -> 128 <= alen la -> (forall c, 0 <= c < i -> at_ la c = len c) ->
  Rd packed rest r B (flat_map (fun i => to_bits 4 (len (Z.of_nat i))) (List.seq (Z.to_nat i) m) ++ t) -> (m < k)%nat ->
  exists la' r', loopN k rtp_step (i, la, r) = Ok (Stop (None, la', r')) /\ alen la' = alen la /\ (forall c, 0 <= c < 128 -> at_ la' c = len c) /\
    Rd packed rest r' (B + Z.of_nat (length (flat_map (fun i => to_bits 4 (len (Z.of_nat i))) (List.seq (Z.to_nat i) m)))) t.
Proof.
  intros Hok K. induction m as [|m IH]; intros i la r B k Hi H0 Ha Hla R Hk; (destruct k as [|k]; [lia|]); cbn [loopN].
  - unfold rtp_step at 1. destruct (Z.ltb_spec i 128); [lia|]. cbn [bind]. exists la, r. split; [reflexivity|]. split; [reflexivity|]. split; [intros; apply Hla; lia|].
    cbn [List.seq flat_map length app] in *. rewrite Z.add_0_r. exact R.
  - cbn [List.seq flat_map] in *. rewrite <- app_assoc, Z2Nat.id in R by lia. rewrite Z2Nat.id by lia.
    destruct (rtp_one i la (len i) packed rest r B _ ltac:(lia) Ha (Hok i ltac:(lia)) R) as [r1 [R1 E1]]. rewrite E1. cbv zeta.
    assert (NB : (i + 1 =? 3) && (at_ (upd la i (len i)) 0 =? 1) && (at_ (upd la i (len i)) 1 =? 1) && (at_ (upd la i (len i)) 2 =? 1) = false).
    { destruct (Z.eqb_spec (i + 1) 3) as [E3|]; [|reflexivity]. cbn [andb].
      assert (i = 2) by lia. subst i. rewrite at_upd_eq, !at_upd_ne by lia. rewrite !Hla by lia.
      destruct (Z.eqb_spec (len 0) 1), (Z.eqb_spec (len 1) 1), (Z.eqb_spec (len 2) 1); cbn; auto. exfalso. apply (kraft_three 128 len); auto; try lia. intros c Hc. specialize (Hok c Hc). lia. }
    rewrite NB. cbn [bind]. replace (S (Z.to_nat i)) with (Z.to_nat (i + 1)) in R1 |- * by lia.
    destruct (IH (i + 1) (upd la i (len i)) r1 (B + 4) k ltac:(lia) ltac:(lia) ltac:(rewrite alen_upd; lia)) as (la' & r' & L1 & L2 & L3 & L4); [|exact R1|lia|].
    { intros c Hc. destruct (Z.eq_dec c i) as [->|]; [apply at_upd_eq|]. rewrite at_upd_ne by lia. apply Hla. lia. }
    exists la', r'. split; [exact L1|]. split; [rewrite L2; apply alen_upd|]. split; [exact L3|].
    rewrite app_length, to_bits_length. match goal with |- Rd _ _ _ ?b _ => match type of L4 with Rd _ _ _ ?b2 _ => replace b with b2 by lia end end. exact L4.
Qed.

(** makeTable changes nothing when all lengths are 0. *)
Lemma makeTable_zero n bitlen tb table lft rgt : 1 <= n <= 32767 -> n <= alen bitlen -> 1 <= tb <= 12 -> (forall c, 0 <= c < n -> at_ bitlen c = 0) ->
  exists b, makeTable n bitlen tb table lft rgt = Ok (b, TB table lft rgt n).
Proof.
  intros Hn Ha Ht Z0. assert (Hok : lengths_ok n (at_ bitlen)) by (intros c Hc; rewrite Z0; lia).
  unfold makeTable. destruct (tbl_count_ok n bitlen ltac:(lia) Ha) as [[_ [count [E [Ec Hc]]]]|[X _]]; [intros c Hc; rewrite Z0; lia| |contradiction].
  rewrite E. cbn [bind]. destruct (tbl_start_ok n (at_ bitlen) count ltac:(lia) Hok Ec Hc) as (start & wt & E2 & S1 & S2 & S3). rewrite E2. cbn [bind].
  assert (BZ : forall j, base n (at_ bitlen) j = 0).
  { intros j. unfold base. apply sumn_0. intros k Hk. rewrite Z0 by lia. destruct (_ <? j); reflexivity. }
  destruct (negb _ || _); [eexists; reflexivity|].
  edestruct (forZ_inv (fun i '(st, w) => alen st = 17 /\ alen w = 17 /\ forall j, 1 <= j <= 16 -> at_ st j = 0)) as [[st w] [E1 H1]].
  4:{ rewrite E1. cbn [bind]. destruct H1 as [A1 [A2 A3]]. rewrite aget_ok by lia. cbn [bind]. rewrite A3 by lia. rewrite Z.shiftr_0_l. change (0 =? 0) with true. cbv iota. cbn [bind].
      edestruct (for_ctl_inv (T := tbl) (fun J (p : arr * tbl) => snd p = TB table lft rgt n) (fun _ => False)) as [q [E3 H3]].
      3:{ rewrite E3. cbn [bind]. destruct q as [[st' s]|]; [|contradiction]. cbn [snd] in H3. subst s. eexists. reflexivity. }
      - intros J [st' s] HJ X. cbn [snd] in X. subst s. unfold tbl_step. rewrite aget_ok by lia. cbn [bind]. rewrite Z0 by lia. change (0 =? 0) with true. cbv iota. eexists. split; [reflexivity|]. reflexivity.
      - reflexivity. }
  - lia.
  - intros i [st w] Hi [A1 [A2 A3]]. rewrite !aget_ok by lia. cbn [bind]. rewrite aset_ok by lia. cbn [bind]. rewrite ?aget_ok by lia. cbn [bind]. rewrite aset_ok by lia. cbn [bind].
    eexists. split; [reflexivity|]. cbv beta iota. rewrite !alen_upd. split; [exact A1|]. split; [exact A2|]. intros j Hj. rewrite at_upd by lia. destruct (Z.eqb_spec j i) as [->|]; [rewrite A3 by lia; apply Z.shiftr_0_l|auto].
  - split; [exact S1|]. split; [exact S2|]. intros j Hj. destruct (S3 j Hj) as [X _]. rewrite X, BZ. reflexivity.
Qed.

Lemma readP_lengths len packed rest t la r B : (forall k, 0 <= k < 128 -> 0 <= len k <= 15) -> kraft 128 len = 65536 -> 128 <= alen la ->
  Rd packed rest r B (flat_map (fun i => to_bits 4 (len (Z.of_nat i))) (List.seq 0 128) ++ t) ->
  exists la' r', loop 130 rtp_step (0, la, r) = Ok (None, la', r') /\ alen la' = alen la /\ (forall c, 0 <= c < 128 -> at_ la' c = len c) /\
    Rd packed rest r' (B + Z.of_nat (length (flat_map (fun i => to_bits 4 (len (Z.of_nat i))) (List.seq 0 128)))) t.
Proof.
  intros Hok K Ha R.
  assert (E0 : forall f, flat_map f (List.seq 0 128) = flat_map f (List.seq (Z.to_nat 0) 128) :> list bool) by reflexivity. rewrite E0 in *.
  assert (K8 : (128 < Z.to_nat 130)%nat) by lia. rewrite loop_loopN by lia. revert K8. generalize (Z.to_nat 130). intros q K8.
  destruct (rtp_loop len packed rest t Hok K 128 0 la r B q) as (la' & r' & L1 & L2 & L3 & L4); auto; try lia.
  exists la', r'. rewrite L1. cbn [bind]. auto.
Qed.

Lemma readP_single c0 packed rest t la r B : 0 <= c0 < 128 -> 128 <= alen la -> Rd packed rest r B (to_bits 4 1 ++ to_bits 4 1 ++ to_bits 4 1 ++ to_bits 7 c0 ++ t) ->
  exists la' r', loop 130 rtp_step (0, la, r) = Ok (Some c0, la', r') /\ alen la' = alen la /\ (forall c, 0 <= c < 128 -> at_ la' c = 0) /\
    Rd packed rest r' (B + 19) t.
Proof.
  intros CK Ha R.
  assert (K8 : exists q, Z.to_nat 130 = S (S (S q))) by (exists 127%nat; lia). rewrite loop_loopN by lia. destruct K8 as [q ->]. cbn [loopN].
  destruct (rtp_one 0 la 1 packed rest r B _ ltac:(lia) ltac:(lia) ltac:(lia) R) as [r1 [R1 E1]]. rewrite E1. cbv zeta. change (0 + 1 =? 3) with false. cbn [andb bind]. clear E1.
  set (la1 := upd la 0 1) in *. assert (A1 : alen la1 = alen la) by (unfold la1; rewrite alen_upd; lia).
  destruct (rtp_one (0 + 1) la1 1 packed rest r1 _ _ ltac:(lia) ltac:(lia) ltac:(lia) R1) as [r2 [R2 E2]]. rewrite E2. cbv zeta. change (0 + 1 + 1 =? 3) with false. cbn [andb bind]. clear E2.
  set (la2 := upd la1 (0 + 1) 1) in *. assert (A2 : alen la2 = alen la) by (unfold la2; rewrite alen_upd; lia).
  destruct (rtp_one (0 + 1 + 1) la2 1 packed rest r2 _ _ ltac:(lia) ltac:(lia) ltac:(lia) R2) as [r3 [R3 E3]]. rewrite E3. cbv zeta. change (0 + 1 + 1 + 1 =? 3) with true. clear E3.
  set (la3 := upd la2 (0 + 1 + 1) 1) in *. assert (A3 : alen la3 = alen la) by (unfold la3; rewrite alen_upd; lia).
  assert (V0 : at_ la3 0 = 1) by (unfold la3, la2; rewrite !at_upd_ne by lia; apply at_upd_eq).
  assert (V1 : at_ la3 1 = 1) by (unfold la3; rewrite !at_upd_ne by lia; apply at_upd_eq).
  assert (V2 : at_ la3 2 = 1) by (apply at_upd_eq).
  rewrite V0, V1, V2. change (1 =? 1) with true. cbn [andb]. clearbody la3.
  destruct (getbits_field 7 c0 _ _ _ _ _ R3 ltac:(lia) ltac:(change (2 ^ 7) with 128; lia)) as [r4 [E4 R4]]. rewrite E4. cbn [bind].
  destruct (fill_ok 0 128 0 la3 ltac:(lia) ltac:(lia)) as [la' [F1 [F2 F3]]]. rewrite F1. cbn [bind].
  exists la', r4. split; [reflexivity|]. split; [lia|]. split.
  - intros c Hc. rewrite F3 by lia. destruct (Z.leb_spec 0 c), (Z.ltb_spec c 128); cbn; auto; lia.
  - match goal with |- Rd _ _ _ ?b _ => match type of R4 with Rd _ _ _ ?b2 _ => replace b with b2 by lia end end. exact R4.
Qed.

(** The ready-made code. *)
Lemma ready_len_range k : 2 <= ready_len k <= 9.
Proof. unfold ready_len. destruct (k <? 1), (k <? 3), (k <? 6), (k <? 13), (k <? 31), (k <? 78); lia. Qed.

(** The place in the list of lengths of shuf.go: one entry is passed twice at 1. *)
Definition ready_at (k : Z) : Z := if k <? 1 then 1 else ready_len k - 1.

Lemma ready3_grow_ok i w : 0 <= i < 128 ->
  exists w', loop 20 (ready_grow 1 i) (ready_len (i - 1), ready_at (i - 1), w) = Ok (ready_len i, ready_at i, w').
Proof.
  intros H. replace i with (Z.of_nat (Z.to_nat i)) by lia. assert (K : (Z.to_nat i < 128)%nat) by lia. revert K. generalize (Z.to_nat i). clear H. intros k K.
  do 128 (destruct k as [|k]; [eexists; vm_compute; reflexivity|]). lia.
Qed.

Lemma readyMade3_ok h : np h = 128 -> 128 <= alen (ptLen h) -> 128 <= alen (ptCode h) ->
  exists pl pc, readyMade 1 h = Ok (set_ptLen pl (set_ptCode pc h)) /\ alen pl = alen (ptLen h) /\ alen pc = alen (ptCode h) /\
    forall c, 0 <= c < 128 -> at_ pl c = ready_len c.
Proof.
  intros N L C. unfold readyMade. cbv zeta. rewrite N.
  destruct (forZ_inv (fun i '(j, tbl, w, code, h') => j = ready_len (i - 1) /\ tbl = ready_at (i - 1) /\
    exists pl pc, h' = set_ptLen pl (set_ptCode pc h) /\ alen pl = alen (ptLen h) /\ alen pc = alen (ptCode h) /\ forall c, 0 <= c < i -> at_ pl c = ready_len c)
    (ready_step 1) 0 128 (nth 0 (fixed 1) 0, 1, Z.shiftl 1 (16 - nth 0 (fixed 1) 0), 0, h)) as [[[[[j tbl] w] code] h'] [E I]].
  - lia.
  - intros i [[[[j tbl] w] code] h'] Hi (-> & -> & pl & pc & -> & P1 & P2 & P3). unfold ready_step. destruct (ready3_grow_ok i w Hi) as [w' G]. rewrite G. cbn [bind].
    cbn [ptLen ptCode set_ptLen set_ptCode]. rewrite !aset_ok by lia. cbn [bind]. eexists. split; [reflexivity|]. replace (i + 1 - 1) with i by lia.
    split; [reflexivity|]. split; [reflexivity|]. pose proof (ready_len_range i). rewrite (u8_id (ready_len i)) by lia.
    exists (upd pl i (ready_len i)), (upd pc i (u16 code)). split; [destruct h; reflexivity|]. split; [rewrite alen_upd; exact P1|]. split; [rewrite alen_upd; exact P2|].
    intros c Hc. destruct (Z.eq_dec c i) as [->|]; [apply at_upd_eq; lia|]. rewrite at_upd_ne by lia. apply P3. lia.
  - split; [reflexivity|]. split; [reflexivity|]. exists (ptLen h), (ptCode h). split; [destruct h; reflexivity|]. split; [reflexivity|]. split; [reflexivity|]. intros; lia.
  - rewrite E. cbn [bind]. destruct I as (_ & _ & pl & pc & -> & P1 & P2 & P3). exists pl, pc. auto.
Qed.

(** ** Which blocks are decoded *)

Definition uses_sym (b : block3) (c : Z) : Prop := exists t, In t (b_items b) /\ c = lh3_sym t.
Definition uses_dist (b : block3) (c : Z) : Prop := exists len d, In (LzCopy len d) (b_items b) /\ c = upper d.

Record Ready (b : block3) (h : huf) : Prop := {
  rd_size : dsz h;
  rd_code : alen (ptCode h) = Npt;
  rd_np : np h = 128;
  rd_c : finds 286 12 (word 286 (b_chars b)) (uses_sym b) (cTable h) (cLen h);
  rd_p : finds 128 8 (word 128 (b_dists b)) (uses_dist b) (ptTable h) (ptLen h)
}.

Definition blank (h : huf) : Prop := forall i, 0 <= i < 256 -> at_ (ptTable h) i = 0.

Lemma canon_tail n m len c : 0 <= n <= m -> 0 <= c < n -> (forall k, n <= k < m -> len k = 0) -> canon m len c = canon n len c.
Proof.
  intros H Hc Z0. unfold canon. replace (Z.to_nat m) with (Z.to_nat n + Z.to_nat (m - n))%nat by lia. rewrite sumn_split.
  rewrite (sumn_0 (Z.to_nat (m - n))); [lia|]. intros k Hk. rewrite Z0 by lia. destruct (before _ _ _); reflexivity.
Qed.
Lemma kraft_tail n m len : 0 <= n <= m -> (forall k, n <= k < m -> len k = 0) -> kraft m len = kraft n len.
Proof.
  intros H Z0. unfold kraft. replace (Z.to_nat m) with (Z.to_nat n + Z.to_nat (m - n))%nat by lia. rewrite sumn_split.
  rewrite (sumn_0 (Z.to_nat (m - n))); [lia|]. intros k Hk. rewrite Z0 by lia. reflexivity.
Qed.

Definition set_p pl pc tab lf rg (h : huf) := set_ptTable tab (set_left lf (set_right rg (set_ptLen pl (set_ptCode pc h)))).

Lemma upper_range d : 1 <= d <= 8192 -> 0 <= upper d < 128.
Proof. intros H. unfold upper. split; [apply Z.div_pos; lia|apply Z.div_lt_upper_bound; lia]. Qed.

(** shuf.go:142-148: the part of the head about distances. *)
Lemma dists_ok b h packed rest r B t : block3_ok b -> (near b /\ blank h) \/ sent b -> dsz h -> alen (ptCode h) = Npt -> np h = 128 ->
  Rd packed rest r B (given_bits (b_given b) ++ t) ->
  exists pl pc tab lf rg r',
    ('(x, r) <- getbits 1 r ;;
     '(h, r) <- (if x =? 0 then h <- readyMade 1 h ;; Ok (h, r) else readTreeP h r) ;;
     h <- use_pt Np h ;; Ok (h, r)) = Ok (set_p pl pc tab lf rg h, r') /\
    Rd packed rest r' (B + Z.of_nat (length (given_bits (b_given b)))) t /\ finds 128 8 (word 128 (b_dists b)) (uses_dist b) tab pl /\
    alen pl = Npt /\ alen pc = Npt /\ alen tab = 256 /\ alen lf = 1019 /\ alen rg = 1019 /\ (b_given b = None -> tab = ptTable h).
Proof.
  intros OK Hns [D1 D2 D3 D4 D5 D6] PC NP R. unfold Npt in *.
  assert (UD : forall c, uses_dist b c -> exists len d, In (LzCopy len d) (b_items b) /\ c = upper d /\ 1 <= d <= 8192 /\ has 128 (b_dists b) c).
  { intros c (len & d & H1 & H2). exists len, d. pose proof (bo_items _ OK) as F. rewrite Forall_forall in F. destruct (F _ H1) as (G1 & _ & G2). cbn in G1. subst c. auto with zarith. }
  destruct Hns as [[[GN ND] BL]|[k [GS Hk]]].
  - rewrite GN in R. cbn [given_bits app] in R. destruct (bit_field false _ _ _ _ _ R) as [r1 [E1 R1]]. rewrite E1. cbn [bind]. change (0 =? 0) with true. cbv iota.
    destruct (readyMade3_ok h NP ltac:(lia) ltac:(lia)) as (pl & pc & M1 & M2 & M3 & M4). rewrite M1. cbn [bind]. unfold use_pt. cbn [ptLen ptTable left right set_ptLen set_ptCode].
    rewrite makeTable_reject; [|unfold Np; lia|unfold Np; lia| |lia|].
    2:{ intros c Hc. unfold Np in Hc. rewrite M4 by lia. pose proof (ready_len_range c). lia. }
    2:{ right. rewrite (kraft_ext Np (at_ pl) ready_len) by (intros c Hc; unfold Np in Hc; apply M4; lia). vm_compute. discriminate. }
    cbn [bind t_table t_left t_right]. exists pl, pc, (ptTable h), (left h), (right h), r1. split; [destruct h; reflexivity|]. split; [rewrite GN; exact R1|].
    split; [|repeat split; auto; lia].
    intros c tl Uc. destruct (UD c Uc) as (len & d & H1 & H2 & H3 & H4). specialize (ND len d H1).
    assert (c = 0) by (subst c; unfold upper; apply Z.div_small; lia). clear H2. subst c. split; [lia|]. rewrite M4 by lia.
    pose proof (peek_range 8 (word 128 (b_dists b) 0 ++ tl) ltac:(lia)). rewrite BL by (change (2 ^ 8) with 256 in *; lia). split; [reflexivity|].
    unfold b_dists. rewrite GN. cbn [word]. unfold codeword. rewrite to_bits_length. change (ready_len 0) with 2. lia.
  - assert (DS : b_dists b = k) by (unfold b_dists; rewrite GS; reflexivity). rewrite GS in R |- *. pose proof (bo_dists _ OK) as CK. rewrite DS in *.
    destruct k as [c0|len].
    + cbn [given_bits app] in R. rewrite <- !app_assoc in R. destruct (bit_field true _ _ _ _ _ R) as [r1 [E1 R1]]. rewrite E1. cbn [bind]. change (1 =? 0) with false. cbv iota.
      unfold readTreeP. match goal with |- context [loop _ ?f _] => change f with rtp_step end. cbn [code_ok] in CK.
      destruct (readP_single c0 packed rest t (ptLen h) r1 (B + 1) CK ltac:(lia) R1) as (la & r2 & L1 & L2 & L3 & L4). rewrite L1. cbn [bind].
      destruct (fill_ok 0 256 c0 (ptTable h) ltac:(lia) ltac:(lia)) as [tab [G1 [G2 G3]]]. cbn [set_ptLen ptTable]. rewrite G1. cbn [bind]. unfold use_pt. cbn [ptLen ptTable left right set_ptLen set_ptTable].
      destruct (makeTable_zero Np la 8 tab (left h) (right h)) as [f MZ]; try (unfold Np; lia). { intros c Hc. unfold Np in Hc. apply L3. lia. }
      rewrite MZ. cbn [bind t_table t_left t_right]. exists la, (ptCode h), tab, (left h), (right h), r2. split; [destruct h; reflexivity|]. split.
      { cbn [given_bits length]. rewrite !app_length, !to_bits_length. match goal with |- Rd _ _ _ ?b _ => match type of L4 with Rd _ _ _ ?b2 _ => replace b with b2 by lia end end. exact L4. }
      split; [|repeat split; try lia; discriminate]. cbn [word]. apply (finds_single 128 8 c0); auto; try lia.
      * intros c Uc. destruct (UD c Uc) as (len & d & H1 & H2 & H3 & H4). apply H4.
      * intros i Hi. change (2 ^ 8) with 256 in Hi. rewrite G3 by lia. destruct (Z.leb_spec 0 i), (Z.ltb_spec i 256); cbn; auto; lia.
    + destruct Hk as [Z17 L8]. destruct CK as [Hok K]. cbn [given_bits app] in R. destruct (bit_field true _ _ _ _ _ R) as [r1 [E1 R1]]. rewrite E1. cbn [bind]. change (1 =? 0) with false. cbv iota.
      unfold readTreeP. match goal with |- context [loop _ ?f _] => change f with rtp_step end.
      assert (H15 : forall k, 0 <= k < 128 -> 0 <= len k <= 15) by (intros k Hk; specialize (Hok k Hk); pose proof (bo_four _ OK len GS k Hk); lia).
      destruct (readP_lengths len packed rest t (ptLen h) r1 (B + 1) H15 K ltac:(lia) R1) as (la & r2 & L1 & L2 & L3 & L4). rewrite L1. cbn [bind]. cbv zeta. unfold use_pt. cbn [ptLen ptTable left right set_ptLen].
      assert (K17 : kraft 17 len = 65536) by (rewrite <- K; symmetry; apply kraft_tail; auto; lia).
      change Np with 17. destruct (makeTable_ok 17 la 8 (ptTable h) (left h) (right h)) as (s & T1 & T2 & T3); try lia; auto.
      { intros c Hc. rewrite L3 by lia. apply Hok. lia. } { rewrite <- K17. apply kraft_ext. intros c Hc. apply L3. lia. }
      rewrite T1. cbn [bind]. exists la, (ptCode h), (t_table s), (t_left s), (t_right s), r2. split; [destruct h; reflexivity|]. split.
      { cbn [given_bits length]. match goal with |- Rd _ _ _ ?b _ => match type of L4 with Rd _ _ _ ?b2 _ => replace b with b2 by lia end end. exact L4. }
      split; [|rewrite (tbs_ll _ _ _ _ _ _ T3), (tbs_rl _ _ _ _ _ _ T3); repeat split; try lia; discriminate].
      intros c tl Uc. destruct (UD c Uc) as (ln & d & H1 & H2 & H3 & [H4 H5]).
      assert (C17 : c < 17) by (destruct (Z_lt_ge_dec c 17) as [X|X]; [exact X|exfalso; apply H5; apply Z17; lia]).
      assert (CW : codeword 128 len c = codeword 17 len c) by (unfold codeword; rewrite (canon_tail 17 128 len c); auto; lia).
      cbn [word]. rewrite CW. destruct (finds_lengths 17 8 len la (t_table s) (left h) (right h) s ltac:(lia) ltac:(lia)) with (U := fun x => x = c) (c := c) (tl := tl) as (Y1 & Y2 & Y3 & Y4); auto; try lia.
      * intros x Hx. apply L3. lia.
      * intros x Hx. apply Hok. lia.
      * intros x ->. split; [lia|]. pose proof (Hok c H4). specialize (L8 c ltac:(lia)). lia.
Qed.

(** The head of a block. *)
Lemma block_head_ok b h packed rest r B t : block3_ok b -> short_words b -> (near b /\ blank h) \/ sent b -> dsz h -> alen (ptCode h) = Npt -> np h = 128 ->
  let head := to_bits 16 (Z.of_nat (length (b_items b))) ++ chars_bits (b_chars b) ++ given_bits (b_given b) in
  Rd packed rest r B (head ++ t) ->
  exists h' r', block_head 286 h r = Ok (h', r') /\ Rd packed rest r' (B + Z.of_nat (length head)) t /\
    Ready b h' /\ blocksize h' = Z.of_nat (length (b_items b)) /\ (near b -> ptTable h' = ptTable h).
Proof.
  intros OK SW NS DS PC NP head R. unfold head in *. rewrite <- !app_assoc in R. destruct (bo_count _ OK) as [C1 C2]. unfold block_head.
  destruct (getbits_field 16 (Z.of_nat (length (b_items b))) _ _ _ _ _ R ltac:(lia) ltac:(change (2 ^ 16) with 65536; lia)) as [r1 [E1 R1]]. rewrite E1. cbn [bind].
  set (h0 := set_blocksize (Z.of_nat (length (b_items b))) h).
  assert (DS0 : dsz h0) by (destruct DS; constructor; assumption).
  destruct (readTreeC_ok (b_chars b) h0 packed rest r1 (B + 16) (given_bits (b_given b) ++ t) DS0 (bo_chars _ OK) (uses_sym b)) as (la & tab & lf & rg & r2 & E2 & R2 & F2 & A1 & A2 & A3 & A4); [|exact R1|].
  { intros c (x & X1 & ->). pose proof (bo_items _ OK) as F. rewrite Forall_forall in F. destruct (F _ X1) as (_ & G & _). split; [exact G|]. apply SW. exact G. }
  rewrite E2. cbn [bind]. set (h1 := set_c la tab lf rg h0) in *.
  assert (DS1 : dsz h1) by (destruct DS; constructor; cbn; assumption).
  destruct (dists_ok b h1 packed rest r2 _ t OK NS DS1 PC NP R2) as (pl & pc & tb & lf2 & rg2 & r3 & E3 & R3 & F3 & B1 & B2 & B3 & B4 & B5 & B6).
  rewrite E3. eexists _, r3. split; [reflexivity|]. split.
  { rewrite !app_length, to_bits_length. match goal with |- Rd _ _ _ ?b _ => match type of R3 with Rd _ _ _ ?b2 _ => replace b with b2 by lia end end. exact R3. }
  split; [|split; [reflexivity|]].
  - constructor; cbn; auto. constructor; cbn; auto.
  - intros [GN _]. exact (B6 GN).
Qed.

(** ** Items *)

(** decodeCSt0 behind the head of a block. *)
Definition csym (n1 : Z) (h : huf) (r : rst) : res (Z * huf * rst) :=
  let h := set_blocksize (u16 (blocksize h - 1)) h in
  j <- aget (cTable h) (peekbits 12 r) ;;
  '(j, r) <-
    (if j <? n1 then
       l <- aget (cLen h) j ;; r <- fillbuf l r ;; Ok (j, r)
     else
       r <- fillbuf 12 r ;;
       j <- walk_left (left h) (right h) n1 (bitbuf r) j ;;
       l <- aget (cLen h) j ;;
       r <- fillbuf (u8 (l - 12)) r ;;
       Ok (j, r)) ;;
  if j =? n1 - 1 then
    '(x, r) <- getbits 8 r ;; Ok (u16 (j + x), h, r)
  else Ok (u16 j, h, r).

Lemma decodeCSt0_split n1 h r : decodeCSt0 n1 h r = ('(h, r) <- (if blocksize h =? 0 then block_head n1 h r else Ok (h, r)) ;; csym n1 h r).
Proof. reflexivity. Qed.

Lemma csym_ok b h packed rest r B t k tl : Ready b h -> 1 <= blocksize h < 65536 -> In t (b_items b) -> lz_ok 8192 256 t -> blocksize h = k + 1 ->
  Rd packed rest r B (word 286 (b_chars b) (lh3_sym t) ++ lh3_excess t ++ tl) ->
  exists r', csym 286 h r = Ok (match t with LzByte c => c | LzCopy len _ => 253 + len end, set_blocksize k h, r') /\
    Rd packed rest r' (B + Z.of_nat (length (word 286 (b_chars b) (lh3_sym t) ++ lh3_excess t))) tl.
Proof.
  intros RD BS HI LZ HK R. pose proof (rd_size _ _ RD) as [D1 D2 D3 D4 D5 D6]. unfold Nc in *. unfold csym. cbv zeta. rewrite (u16_id (blocksize h - 1)) by lia. replace (blocksize h - 1) with k by lia.
  cbn [set_blocksize cTable cLen left]. assert (US : uses_sym b (lh3_sym t)) by (exists t; auto).
  destruct (finds_step 286 12 _ _ _ _ packed rest r B (lh3_sym t) _ ltac:(lia) (rd_c _ _ RD) US D3 ltac:(lia) R) as (E1 & E2 & r1 & E3 & E4 & R1). rewrite E1. cbn [bind].
  destruct (Z.ltb_spec (lh3_sym t) 286); [|lia]. rewrite E3. cbn [bind]. rewrite E4. cbn [bind]. rewrite app_length.
  destruct t as [c|len d]; cbn [lh3_sym lh3_excess lz_ok] in *.
  - destruct (Z.eqb_spec c (286 - 1)); [lia|]. rewrite u16_id by lia. exists r1. split; [reflexivity|]. cbn [length]. rewrite Nat.add_0_r. exact R1.
  - destruct (Z.leb_spec 32 len).
    + rewrite Z.min_r in * by lia. change (285 =? 286 - 1) with true. cbv iota.
      destruct (getbits_field 8 (len - 32) _ _ _ _ _ R1 ltac:(lia) ltac:(change (2 ^ 8) with 256; lia)) as [r2 [G R2]]. rewrite G. cbn [bind].
      rewrite u16_id by lia. exists r2. split; [do 3 f_equal; lia|]. rewrite to_bits_length.
      match goal with |- Rd _ _ _ ?b _ => match type of R2 with Rd _ _ _ ?b2 _ => replace b with b2 by lia end end. exact R2.
    + rewrite Z.min_l in * by lia. destruct (Z.eqb_spec (253 + len) (286 - 1)); [lia|]. rewrite u16_id by lia. exists r1. split; [reflexivity|]. cbn [length]. rewrite Nat.add_0_r. exact R1.
Qed.

Lemma decodeP3_ok b h packed rest r B len d tl : Ready b h -> In (LzCopy len d) (b_items b) -> 1 <= d <= 8192 ->
  Rd packed rest r B (word 128 (b_dists b) (upper d) ++ lower d ++ tl) ->
  exists r', decodePSt0 h r = Ok (d - 1, r') /\ Rd packed rest r' (B + Z.of_nat (length (word 128 (b_dists b) (upper d) ++ lower d))) tl.
Proof.
  intros RD HI Hd R. pose proof (rd_size _ _ RD) as [D1 D2 D3 D4 D5 D6]. unfold Npt in *. unfold decodePSt0.
  assert (US : uses_dist b (upper d)) by (exists len, d; auto).
  destruct (finds_step 128 8 _ _ _ _ packed rest r B (upper d) _ ltac:(lia) (rd_p _ _ RD) US D4 ltac:(lia) R) as (E1 & E2 & r1 & E3 & E4 & R1). rewrite E1. cbn [bind].
  rewrite (rd_np _ _ RD). destruct (Z.ltb_spec (upper d) 128); [|lia]. rewrite E3. cbn [bind]. rewrite E4. cbn [bind]. unfold lower in *.
  assert (X : 0 <= (d - 1) mod 64 < 64) by (apply Z.mod_pos_bound; lia). pose proof (upper_range d Hd) as UR.
  destruct (getbits_field 6 ((d - 1) mod 64) _ _ _ _ _ R1 ltac:(lia) ltac:(change (2 ^ 6) with 64; lia)) as [r2 [G R2]]. rewrite G. cbn [bind].
  rewrite shiftl_mul by lia. change (2 ^ 6) with 64. rewrite u16_id by lia. exists r2.
  assert (JX : d - 1 = 64 * upper d + (d - 1) mod 64) by (unfold upper; apply Z.div_mod; lia).
  split; [do 2 f_equal; lia|]. rewrite app_length, to_bits_length.
  match goal with |- Rd _ _ _ ?b _ => match type of R2 with Rd _ _ _ ?b2 _ => replace b with b2 by lia end end. exact R2.
Qed.

Lemma match_place13 loc p : 0 <= loc < 8192 -> 0 <= p < 8192 ->
  Z.land (u64 (loc - (p + 1))) (8192 - 1) mod 8192 = (loc - (p + 1)) mod 8192.
Proof. intros H1 H2. change 8192 with (2 ^ 13). rewrite land_mask by lia. rewrite Z.mod_mod by lia. apply u64_mod. lia. Qed.

Lemma DI_blank13 h r c : DI 8192 (DST h r (afill 8192 32) 0 0 [] c) [].
Proof.
  constructor; cbn [d_text d_loc d_out d_crc]; try reflexivity; try lia.
  intros k Hk. rewrite at_afill. unfold back. cbn [length]. destruct (Z.leb_spec k (Z.of_nat 0)); [lia|reflexivity].
Qed.

(** One item: the tables are those of its block, read now or before. *)
Lemma item_step size packed rest b s x out B tk tl h1 r1 k : k_n1 (x_dh x) = 286 -> DI 8192 s out -> bytes out -> d_count s = zlen out ->
  (if blocksize (d_huf s) =? 0 then block_head 286 (d_huf s) (d_r s) else Ok (d_huf s, d_r s)) = Ok (h1, r1) ->
  Ready b h1 -> blocksize h1 = k + 1 -> 0 <= k < 65535 -> In tk (b_items b) -> lz_ok 8192 256 tk ->
  Rd packed rest r1 B (item3_bits b tk ++ tl) -> zlen out < size ->
  exists s', old_step 3 8192 size (s, x) = Ok (Go (s', x)) /\ DI 8192 s' (lz_step out tk) /\ bytes (lz_step out tk) /\ d_count s' = zlen (lz_step out tk) /\
    d_huf s' = set_blocksize k h1 /\ Rd packed rest (d_r s') (B + Z.of_nat (length (item3_bits b tk))) tl.
Proof.
  intros N1 I Bo Ec HH RD BS HK HI LZ R Hs. unfold old_step. destruct (Z.ltb_spec (d_count s) size); [|lia].
  unfold decodeMethodC. change ((3 =? 1) || (3 =? 2)) with false. change (3 =? 3) with true. cbv iota. rewrite N1, decodeCSt0_split, HH. cbn [bind].
  unfold item3_bits in R |- *. rewrite <- !app_assoc in R.
  destruct (csym_ok b h1 packed rest r1 B tk k _ RD ltac:(lia) HI LZ BS R) as [r2 [E2 R2]]. rewrite E2. cbn [bind]. pose proof (di_loc _ _ _ I) as DL.
  destruct tk as [c|len d]; cbn [lz_step lz_ok] in *.
  - destruct (Z.ltb_spec c 256); [|lia]. destruct (dput_ok 8192 c (with_hr (set_blocksize k h1) r2 s) out) as [s1 [P1 [P2 [P3 [P4 P5]]]]]; [lia|now apply DI_hr|unfold is_byte; lia|lia|].
    rewrite P1. cbn [bind]. cbn [with_hr d_huf d_r d_count] in P3, P4, P5. eexists. split; [reflexivity|]. split; [now apply DI_hr|].
    split. { apply Forall_app. split; [exact Bo|]. constructor; [unfold is_byte; lia|constructor]. }
    cbn [d_count d_huf d_r]. split; [rewrite zlen_app, P5, Ec; reflexivity|]. split; [exact P3|]. rewrite P4. cbn [lh3_excess app] in R2 |- *. exact R2.
  - destruct (Z.ltb_spec (253 + len) 256); [lia|]. cbv zeta. unfold decodeMethodP. change ((3 =? 1) || (3 =? 3)) with true. cbv iota. cbn [with_r with_hr d_huf d_r].
    assert (RD2 : Ready b (set_blocksize k h1)) by (destruct RD as [[]]; constructor; first [assumption | constructor; assumption]).
    rewrite <- app_assoc in R2. destruct (decodeP3_ok b _ packed rest r2 _ len d tl RD2 HI ltac:(lia) R2) as [r3 [E3 R3]]. rewrite E3. cbn [bind]. change (adjust 3) with 253. replace (253 + len - 253) with len by lia.
    cbn [with_r with_hr d_huf d_r d_text d_loc d_crc d_out d_count].
    destruct (dcopy_ok 13 len d (Z.land (u64 (d_loc s - (d - 1 + 1))) (8192 - 1)) (DST (set_blocksize k h1) r3 (d_text s) (d_loc s) (d_crc s) (d_out s) (d_count s + len)) out)
        as [s1 [P1 [P2 [P3 [P4 P5]]]]]; auto; try (change (2 ^ 13) with 8192); try lia.
    { now apply DI_hr. } { cbn [d_loc]. rewrite match_place13 by lia. f_equal. lia. }
    change (2 ^ 13) with 8192 in P1, P2. rewrite P1. cbn [bind]. cbn [d_huf d_r d_count] in P3, P4, P5.
    eexists. split; [reflexivity|]. split; [exact P2|]. split; [now apply lz_copy_bytes|]. split; [rewrite P5, Ec, lz_copy_zlen; lia|]. split; [exact P3|]. rewrite P4.
    match goal with |- Rd _ _ _ ?b _ => match type of R3 with Rd _ _ _ ?b2 _ => replace b with b2 by (rewrite !app_length; lia) end end. exact R3.
Qed.

Lemma lz_ok_pos t : lz_ok 8192 256 t -> 1 <= toklen t.
Proof. destruct t; cbn; lia. Qed.

(** The items of a block whose head has been read. *)
Lemma items_loop size packed rest b j x : k_n1 (x_dh x) = 286 -> block3_ok b -> forall ts s out B tl,
  (forall t, In t ts -> In t (b_items b)) -> Z.of_nat (length ts) < 65536 -> DI 8192 s out -> bytes out -> d_count s = zlen out -> Ready b (d_huf s) ->
  blocksize (d_huf s) = Z.of_nat (length ts) -> Rd packed rest (d_r s) B (flat_map (item3_bits b) ts ++ tl) -> zlen (fold_left lz_step ts out) <= size ->
  exists s', loopN (length ts + j) (old_step 3 8192 size) (s, x) = loopN j (old_step 3 8192 size) (s', x) /\ DI 8192 s' (fold_left lz_step ts out) /\
    bytes (fold_left lz_step ts out) /\ d_count s' = zlen (fold_left lz_step ts out) /\ d_huf s' = set_blocksize 0 (d_huf s) /\
    Rd packed rest (d_r s') (B + Z.of_nat (length (flat_map (item3_bits b) ts))) tl.
Proof.
  intros N1 OK. induction ts as [|t ts IH]; intros s out B tl HI HC I Bo Ec RD BS R Hs.
  - exists s. split; [reflexivity|]. split; [exact I|]. split; [exact Bo|]. split; [exact Ec|]. split.
    { cbn [length] in BS. change (Z.of_nat 0) with 0 in BS. rewrite <- BS. destruct (d_huf s). reflexivity. }
    cbn [flat_map length app] in *. rewrite Z.add_0_r. exact R.
  - pose proof (bo_items _ OK) as F. rewrite Forall_forall in F. cbn [flat_map] in R. rewrite <- app_assoc in R.
    assert (FT : Forall (fun t => 1 <= toklen t) (t :: ts)) by (apply Forall_forall; intros y Y; apply lz_ok_pos; apply (F y); auto).
    pose proof (lz_steps_len (t :: ts) out FT) as SL. rewrite zlen_cons in SL. pose proof (zlen_nonneg ts).
    change (length (t :: ts) + j)%nat with (S (length ts + j)). cbn [length] in BS, HC. cbn [loopN fold_left] in *.
    assert (NZ : (if blocksize (d_huf s) =? 0 then block_head 286 (d_huf s) (d_r s) else Ok (d_huf s, d_r s)) = Ok (d_huf s, d_r s)) by (destruct (Z.eqb_spec (blocksize (d_huf s)) 0); [lia|reflexivity]).
    destruct (item_step size packed rest b s x out B t _ _ _ (Z.of_nat (length ts)) N1 I Bo Ec NZ RD ltac:(lia) ltac:(lia) (HI t (or_introl eq_refl)) (proj1 (F t (HI t (or_introl eq_refl)))) R ltac:(lia)) as (s1 & E1 & I1 & B1 & C1 & H1 & R1).
    rewrite E1. cbn [bind].
    destruct (IH s1 (lz_step out t) (B + Z.of_nat (length (item3_bits b t))) tl (fun y Y => HI y (or_intror Y)) ltac:(lia) I1 B1 C1) with (2 := ltac:(rewrite H1; reflexivity) : blocksize (d_huf s1) = Z.of_nat (length ts)) (3 := R1) as (s2 & L1 & L2 & L3 & L4 & L5 & L6); auto.
    { rewrite H1. destruct RD as [[]]; constructor; first [assumption | constructor; assumption]. }
    exists s2. split; [exact L1|]. split; [exact L2|]. split; [exact L3|]. split; [exact L4|]. split; [rewrite L5, H1; destruct (d_huf s); reflexivity|].
    cbn [flat_map]. rewrite app_length. match goal with |- Rd _ _ _ ?b _ => match type of L6 with Rd _ _ _ ?b2 _ => replace b with b2 by lia end end. exact L6.
Qed.

(** ** Blocks *)

Record Idle (h : huf) : Prop := { id_size : dsz h; id_code : alen (ptCode h) = Npt; id_np : np h = 128; id_block : blocksize h = 0 }.

Lemma Idle_ready b h : Ready b h -> Idle (set_blocksize 0 h).
Proof. intros [[]]; constructor; first [assumption | reflexivity | constructor; assumption]. Qed.

Lemma block_run size packed rest b j x s out B tl : k_n1 (x_dh x) = 286 -> block3_ok b -> short_words b -> (near b /\ blank (d_huf s)) \/ sent b ->
  Idle (d_huf s) -> DI 8192 s out -> bytes out -> d_count s = zlen out ->
  Rd packed rest (d_r s) B (block3_bits b ++ tl) -> zlen (fold_left lz_step (b_items b) out) <= size ->
  exists s', loopN (length (b_items b) + j) (old_step 3 8192 size) (s, x) = loopN j (old_step 3 8192 size) (s', x) /\ DI 8192 s' (fold_left lz_step (b_items b) out) /\
    bytes (fold_left lz_step (b_items b) out) /\ d_count s' = zlen (fold_left lz_step (b_items b) out) /\ Idle (d_huf s') /\ (near b -> ptTable (d_huf s') = ptTable (d_huf s)) /\
    Rd packed rest (d_r s') (B + Z.of_nat (length (block3_bits b))) tl.
Proof.
  intros N1 OK SW NS [D1 D2 D3 D4] I Bo Ec R Hs. unfold block3_bits in R |- *. rewrite !app_assoc in R. rewrite <- (app_assoc _ _ tl) in R.
  rewrite <- (app_assoc (to_bits 16 _)) in R.
  destruct (block_head_ok b (d_huf s) packed rest (d_r s) B _ OK SW NS D1 D2 D3 R) as (h1 & r1 & E1 & R1 & RD & BS & KP). clear R.
  assert (HH : (if blocksize (d_huf s) =? 0 then block_head 286 (d_huf s) (d_r s) else Ok (d_huf s, d_r s)) = Ok (h1, r1)) by (rewrite D4; exact E1).
  pose proof (bo_items _ OK) as F. rewrite Forall_forall in F. destruct (bo_count _ OK) as [C1 C2].
  assert (FT : Forall (fun t => 1 <= toklen t) (b_items b)) by (apply Forall_forall; intros y Y; apply lz_ok_pos; apply (F y); auto).
  pose proof (lz_steps_len (b_items b) out FT) as SL.
  assert (EI : exists t ts, b_items b = t :: ts) by (destruct (b_items b) as [|t ts]; [cbn [length] in C1; lia|eauto]). destruct EI as (t & ts & EI).
  assert (IN : In t (b_items b)) by (rewrite EI; left; reflexivity). rewrite EI in R1, Hs, SL, BS, C2 |- *. rewrite zlen_cons in SL. pose proof (zlen_nonneg ts).
  change (length (t :: ts) + j)%nat with (S (length ts + j)). cbn [loopN fold_left] in *. cbn [length] in BS, C2. cbn [flat_map] in R1. rewrite <- app_assoc in R1.
  destruct (item_step size packed rest b s x out _ t _ _ _ (Z.of_nat (length ts)) N1 I Bo Ec HH RD ltac:(lia) ltac:(lia) IN (proj1 (F t IN)) R1 ltac:(lia)) as (s1 & L1 & I1 & B1 & Ec1 & H1 & R2).
  rewrite L1. cbn [bind].
  assert (RD1 : Ready b (d_huf s1)) by (rewrite H1; destruct RD as [[]]; constructor; first [assumption | constructor; assumption]).
  assert (BS1 : blocksize (d_huf s1) = Z.of_nat (length ts)) by (rewrite H1; reflexivity).
  match type of R2 with Rd _ _ _ ?B2 _ => destruct (items_loop size packed rest b j x N1 OK ts s1 (lz_step out t) B2 tl) as (s2 & M1 & M2 & M3 & M4 & M5 & M6); auto; try lia end.
  { intros y Y. rewrite EI. right. exact Y. }
  exists s2. split; [exact M1|]. split; [exact M2|]. split; [exact M3|]. split; [exact M4|]. split; [rewrite M5; exact (Idle_ready _ _ RD1)|]. split.
  { intros N. rewrite M5, H1. cbn [set_blocksize ptTable]. exact (KP N). }
  cbn [flat_map]. match goal with |- Rd _ _ _ ?b _ => match type of M6 with Rd _ _ _ ?b2 _ => replace b with b2; [exact M6|] end end.
  cbn [length]. rewrite !app_length. lia.
Qed.

Lemma blocks_run size packed rest x : k_n1 (x_dh x) = 286 -> forall bs j s out B tl, Forall block3_ok bs -> Forall short_words bs -> (Forall near bs /\ blank (d_huf s)) \/ Forall sent bs ->
  Idle (d_huf s) -> DI 8192 s out -> bytes out -> d_count s = zlen out ->
  Rd packed rest (d_r s) B (lh3_stream bs ++ tl) -> zlen (fold_left lz_step (lh3_items bs) out) <= size ->
  exists s', loopN (length (lh3_items bs) + j) (old_step 3 8192 size) (s, x) = loopN j (old_step 3 8192 size) (s', x) /\ DI 8192 s' (fold_left lz_step (lh3_items bs) out) /\
    bytes (fold_left lz_step (lh3_items bs) out) /\ d_count s' = zlen (fold_left lz_step (lh3_items bs) out) /\ Idle (d_huf s') /\
    Rd packed rest (d_r s') (B + Z.of_nat (length (lh3_stream bs))) tl.
Proof.
  intros N1. induction bs as [|b bs IH]; intros j s out B tl OK SW NS ID I Bo Ec R Hs.
  - exists s. cbn [lh3_items lh3_stream flat_map length fold_left app] in *. rewrite Z.add_0_r. auto 10.
  - inversion_clear OK as [|? ? OK1 OK2]. inversion_clear SW as [|? ? SW1 SW2]. unfold lh3_items, lh3_stream in *. cbn [flat_map] in *. rewrite fold_left_app in *. rewrite <- app_assoc in R.
    assert (FT : Forall (fun t => 1 <= toklen t) (flat_map b_items bs)).
    { apply Forall_forall. intros y Y. apply in_flat_map in Y. destruct Y as (b2 & Y1 & Y2). rewrite Forall_forall in OK2. pose proof (bo_items _ (OK2 _ Y1)) as F. rewrite Forall_forall in F. apply lz_ok_pos. apply (F y Y2). }
    pose proof (lz_steps_len _ (fold_left lz_step (b_items b) out) FT) as SL. pose proof (zlen_nonneg (flat_map b_items bs)).
    match type of R with Rd _ _ _ _ (_ ++ ?t2) => destruct (block_run size packed rest b (length (flat_map b_items bs) + j) x s out B t2 N1 OK1 SW1) as (s1 & L1 & L2 & L3 & L4 & L5 & L6 & L7); auto; try lia end.
    { destruct NS as [[NS BL]|NS]; inversion_clear NS; auto. }
    match type of L7 with Rd _ _ _ ?B2 _ => destruct (IH j s1 (fold_left lz_step (b_items b) out) B2 tl OK2 SW2) as (s2 & M1 & M2 & M3 & M4 & M5 & M6); auto end.
    { destruct NS as [[NS BL]|NS]; inversion_clear NS; [left; split; auto|auto]. unfold blank. rewrite L6 by assumption. exact BL. }
    exists s2. rewrite app_length, <- Nat.add_assoc, L1, M1. split; [reflexivity|]. split; [exact M2|]. split; [exact M3|]. split; [exact M4|]. split; [exact M5|].
    match goal with |- Rd _ _ _ ?b _ => match type of M6 with Rd _ _ _ ?b2 _ => replace b with b2 by (rewrite app_length; lia) end end. exact M6.
Qed.

(** A whole entry. *)
Theorem lh3_decodes g ns ss data rest pad : dsz (g_huf g) -> alen (ptCode (g_huf g)) = Npt -> blocksize (g_huf g) = 0 -> k_n1 (g_dh g) = 286 -> (ns = [] \/ blank (g_huf g)) ->
  let bs := ns ++ ss in Forall block3_ok bs -> Forall short_words bs -> Forall near ns -> Forall sent ss ->
  bytes (data ++ rest) -> byte_string_bits data = lh3_stream bs ++ pad -> (length pad < 16)%nat ->
  exists g2, DecodeLzhuf 3 false (zlen (lz_expand (lh3_items bs))) (zlen data) (data ++ rest) g = Ok (g2, calcCrc 0 (lz_expand (lh3_items bs)), lz_expand (lh3_items bs), zlen data, rest).
Proof.
  intros D PC B0 N1 BL bs OK SW FN FS HB EB HL. destruct (initGetbits_bits data rest HB) as [r [E R]]. rewrite EB in R.
  unfold DecodeLzhuf. change (dec_dicbit 3) with (@None Z). cbv iota. change (old_dicbit 3) with 13. unfold decode_old. change (Z.shiftl 1 13) with 8192. cbv zeta.
  unfold decodeMethodStart. change (3 =? 1) with false. change (3 =? 2) with false. change (3 =? 3) with true. cbv iota. rewrite E. cbn [bind x_dh]. unfold decodeStartSt0. cbn [x_pm x_cnt x_flag x_pos bind].
  set (x := EXT (set_nMax 286 (g_dh g)) (g_pm g) 0 0 0). set (s0 := DST (set_np 128 (g_huf g)) r (afill 8192 32) 0 0 [] 0). assert (X1 : k_n1 (x_dh x) = 286) by exact N1.
  unfold bs in *. clear bs. pose proof (proj1 (Forall_app _ _ _) OK) as [OKn OKs]. pose proof (proj1 (Forall_app _ _ _) SW) as [SWn SWs].
  assert (EI : lh3_items (ns ++ ss) = lh3_items ns ++ lh3_items ss) by apply flat_map_app. assert (ES : lh3_stream (ns ++ ss) = lh3_stream ns ++ lh3_stream ss) by apply flat_map_app.
  assert (FT : Forall (fun t => 1 <= toklen t) (lh3_items (ns ++ ss))).
  { apply Forall_forall. intros y Y. apply in_flat_map in Y. destruct Y as (b2 & Y1 & Y2). rewrite Forall_forall in OK. pose proof (bo_items _ (OK _ Y1)) as F. rewrite Forall_forall in F. apply lz_ok_pos. apply (F y Y2). }
  pose proof (lz_steps_len _ [] FT) as RL. rewrite zlen_nil in RL. fold (lz_expand (lh3_items (ns ++ ss))) in RL.
  assert (RL2 : zlen (fold_left lz_step (lh3_items ns) []) <= zlen (lz_expand (lh3_items (ns ++ ss)))).
  { unfold lz_expand. rewrite EI, fold_left_app. rewrite EI in FT. apply Forall_app in FT. pose proof (lz_steps_len _ (fold_left lz_step (lh3_items ns) []) (proj2 FT)). pose proof (zlen_nonneg (lh3_items ss)). lia. }
  set (size := zlen (lz_expand (lh3_items (ns ++ ss)))) in *.
  rewrite ES, <- app_assoc in R. pose proof (zlen_nonneg (lh3_items (ns ++ ss))) as ZN.
  assert (LN : Z.to_nat (size + 2) = (length (lh3_items ns) + (length (lh3_items ss) + S (Z.to_nat (size + 1) - length (lh3_items (ns ++ ss)))))%nat).
  { assert (Q : length (lh3_items (ns ++ ss)) = (length (lh3_items ns) + length (lh3_items ss))%nat) by (rewrite EI; apply app_length). unfold zlen in RL. lia. }
  destruct (blocks_run size (zlen data) rest x X1 ns (length (lh3_items ss) + S (Z.to_nat (size + 1) - length (lh3_items (ns ++ ss)))) s0 [] 0 (lh3_stream ss ++ pad) OKn SWn) as (s1 & L1 & L2 & L3 & L4 & L5 & L6); auto.
  { destruct BL as [->|BL]; [right; constructor|left; split; [exact FN|exact BL]]. }
  { constructor; [destruct D; constructor; assumption|exact PC|reflexivity|exact B0]. }
  { apply DI_blank13. } { apply Forall_nil. }
  match type of L6 with Rd _ _ _ ?B2 _ => destruct (blocks_run size (zlen data) rest x X1 ss (S (Z.to_nat (size + 1) - length (lh3_items (ns ++ ss)))) s1 (fold_left lz_step (lh3_items ns) []) B2 pad OKs SWs) as (s2 & M1 & M2 & M3 & M4 & M5 & M6); auto end.
  { unfold size, lz_expand. rewrite EI, fold_left_app. lia. }
  rewrite loop_loopN by lia. rewrite LN, L1, M1. cbn [loopN]. unfold old_step at 1. rewrite M4.
  assert (EX : fold_left lz_step (lh3_items ss) (fold_left lz_step (lh3_items ns) []) = lz_expand (lh3_items (ns ++ ss))) by (unfold lz_expand; rewrite EI, fold_left_app; reflexivity).
  rewrite EX in *. fold size. rewrite Z.ltb_irrefl. cbn [bind].
  destruct (dst_final _ _ _ M2) as [F1 [F2 [F3 F4]]]. cbv zeta in F1, F2, F3, F4. cbn [dr_crc dr_out dr_readSize dr_in]. rewrite F1, F2, F4.
  destruct (Rd_end _ _ _ _ _ M6) as [Z1 Z2].
  { assert (L : length (byte_string_bits data) = (length (lh3_stream ns) + length (lh3_stream ss) + length pad)%nat) by (rewrite EB, ES, !app_length; reflexivity).
    rewrite byte_string_bits_length in L. unfold zlen. lia. }
  rewrite Z1, Z2, Z.sub_0_r. eexists. reflexivity.
Qed.
