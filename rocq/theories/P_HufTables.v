(** The code length tables at the start of a block: what the encoder writes is
    what the decoder reads. *)
From Verif Require Import Go GoLemmas S_Bits P_Bits S_Huff M_Bitio P_Bitio P_Huff
  M_Maketree M_Maketbl P_Maketree P_Maketbl M_Huf P_HufCode.

Lemma loop_unfold {S T} (step : S -> res (ctl S T)) fuel s : 0 < fuel ->
  loop fuel step s = (c <- step s ;; match c with Stop t => Ok t | Go s' => loop (fuel - 1) step s' end).
Proof.
  intros H. rewrite loop_loopN by lia.
  replace (Z.to_nat fuel) with (Datatypes.S (Z.to_nat (fuel - 1))) by lia. cbn [loopN].
  destruct (step s) as [c| |]; cbn [bind]; auto. destruct c as [s'|t]; auto.
  destruct (Z.eq_dec fuel 1) as [->|].
  - change (Z.to_nat (1 - 1)) with 0%nat. reflexivity.
  - rewrite loop_loopN by lia. reflexivity.
Qed.

(** ** Decoding tables in use *)

Record dcode (n tb : Z) (len : Z -> Z) (U : Z -> Prop) (table lft rgt lena : arr) : Prop := {
  dc_n : 1 <= n <= 510;
  dc_tb : 1 <= tb <= 12;
  dc_la : n <= alen lena;
  dc_len : forall c, 0 <= c < n -> at_ lena c = len c;
  dc_ta : alen table = 2 ^ tb;
  dc_ok : lengths_ok n len;
  dc_used : forall c, U c -> 0 <= c < n;
  dc_ll : 2 * n - 1 <= alen lft;
  dc_rl : 2 * n - 1 <= alen rgt;
  dc_cases :
    (kraft n len = 65536 /\ (forall c, U c -> len c <> 0) /\
     exists s l0 r0, tbl_spec n (at_ lena) tb l0 r0 s /\ t_table s = table /\
       2 * n - 1 <= alen l0 /\ 2 * n - 1 <= alen r0 /\
       forall i, n <= i < 2 * n - 1 -> at_ lft i = at_ (t_left s) i /\ at_ rgt i = at_ (t_right s) i) \/
    ((forall c, 0 <= c < n -> len c = 0) /\
     exists c0, (forall c, U c -> c = c0) /\ forall i, 0 <= i < 2 ^ tb -> at_ table i = c0) }.

(** Other tables may reuse the same node arrays at other indices. *)
Lemma dcode_frame n tb len U table lft rgt lena lft' rgt' :
  dcode n tb len U table lft rgt lena ->
  alen lft' = alen lft -> alen rgt' = alen rgt ->
  (forall i, n <= i < 2 * n - 1 -> at_ lft' i = at_ lft i /\ at_ rgt' i = at_ rgt i) ->
  dcode n tb len U table lft' rgt' lena.
Proof.
  intros [A1 A2 A3 A4 A5 A6 A7 A8 A9 A10] H1 H2 H3. constructor; auto; try lia.
  destruct A10 as [[K [V (s & l0 & r0 & S1 & S2 & S3 & S4 & S5)]]|R]; [|right; exact R].
  left. split; auto. split; auto. exists s, l0, r0. split; auto. split; auto. split; auto. split; auto.
  intros i Hi. destruct (S5 i Hi), (H3 i Hi). split; congruence.
Qed.

Lemma peek_range n s : 0 <= n -> 0 <= peek n s < 2 ^ n.
Proof.
  intros H. unfold peek. pose proof (of_bits_range (firstn (Z.to_nat n) (s ++ repeat false (Z.to_nat n)))) as R.
  rewrite peek_length, Z2Nat.id in R by lia. exact R.
Qed.

Lemma kraft_ext n f g : (forall c, 0 <= c < n -> f c = g c) -> kraft n f = kraft n g.
Proof. intros H. unfold kraft. apply sumn_ext. intros i Hi. rewrite H; auto. lia. Qed.

Lemma codeword_ext n f g c : 0 <= c < n -> (forall c, 0 <= c < n -> f c = g c) -> codeword n f c = codeword n g c.
Proof.
  intros Hc H. unfold codeword. rewrite (H c Hc). f_equal. f_equal. unfold canon.
  apply sumn_ext. intros i Hi. unfold before. rewrite (H i), (H c) by lia. reflexivity.
Qed.

(** Looking a codeword up: either directly, or through the tree. *)
Lemma dcode_lookup n tb len U table lft rgt lena c t :
  dcode n tb len U table lft rgt lena -> U c ->
  exists v, aget table (peek tb (codeword n len c ++ t)) = Ok v /\
   ((v = c /\ len c <= tb) \/
    (n <= v /\ tb < len c <= 16 /\
     forall r (q : nat) first, Z.of_nat q + len c <= 16 + tb ->
       (forall e : nat, Z.of_nat e < len c - tb ->
          Z.testbit (bitbuf r) (15 - Z.of_nat (q + e)) = nth (Z.to_nat tb + e) (codeword n len c) false) ->
       walk lft rgt n first r v (2 ^ (15 - Z.of_nat q)) = Ok c)).
Proof.
  intros [A1 A2 A3 A4 A5 A6 A7 A8 A9 A10] Uc. pose proof (A7 c Uc) as Hc. pose proof (A6 c Hc) as HL.
  pose proof (peek_range tb (codeword n len c ++ t) ltac:(lia)) as PR.
  rewrite aget_ok by lia. eexists. split; [reflexivity|].
  destruct A10 as [[K [V (s & l0 & r0 & S1 & S2 & S3 & S4 & S5)]]|[Z0 [c0 [V W]]]].
  - specialize (V c Uc).
    assert (A6' : lengths_ok n (at_ lena)) by (intros d Hd; rewrite A4 by exact Hd; auto).
    assert (K' : kraft n (at_ lena) = 65536) by (rewrite <- K; apply kraft_ext; exact A4).
    rewrite (codeword_ext n len (at_ lena) c) in * by (try exact Hc; intros; symmetry; now apply A4).
    clear A6 K. rename A6' into A6, K' into K. rewrite <- (A4 c Hc) in *. clear A4. clear len. set (len := at_ lena) in *.
    destruct (Z_le_gt_dec (len c) tb) as [L|L].
    + left. split; auto. rewrite <- S2.
      apply (index_short n len tb l0 r0 s ltac:(lia) ltac:(lia) A6 K S1 S3); lia.
    + right. rewrite (peek_long n len tb ltac:(lia) A6 K c t Hc ltac:(lia)).
      assert (HLN : lng n len tb c) by (split; lia).
      assert (G : forall r (q : nat) first, Z.of_nat q + len c <= 16 + tb ->
         (forall e : nat, Z.of_nat e < len c - tb ->
            Z.testbit (bitbuf r) (15 - Z.of_nat (q + e)) = nth (Z.to_nat tb + e) (codeword n len c) false) ->
         exists v, slotv n len tb s 0 (pre n len tb c 0) = Some v /\ n <= v /\
           walk lft rgt n first r v (2 ^ (15 - Z.of_nat q)) = Ok c).
      { intros r q first Hq Hb. apply (walk_ok n len tb l0 r0 s); auto; try lia.
        - unfold lv. lia.
        - intros e He. unfold lv in He. rewrite Hb by lia.
          apply (codeword_bit n len tb ltac:(lia) A6); auto; lia. }
      assert (E0 : slotv n len tb s 0 (pre n len tb c 0) = Some (at_ table (pre n len tb c 0))).
      { cbn [slotv]. pose proof (long_entry n len tb ltac:(lia) ltac:(lia) A6 K l0 S3 c HLN) as LE.
        destruct (Z.leb_spec (J0 n len tb) (pre n len tb c 0)), (Z.ltb_spec (pre n len tb c 0) (2 ^ tb)); try lia.
        cbn [andb]. now rewrite S2. }
      split; [|split; [lia|]].
      * destruct (path_nodes n len tb l0 r0 s ltac:(lia) A6 S1 c HLN 0%nat ltac:(lia)) as [v [Ev [_ [Nv _]]]].
        rewrite E0 in Ev. injection Ev as <-. apply Nv. unfold lv. lia.
      * intros r q first Hq Hb. destruct (G r q first Hq Hb) as [v [Ev [_ Wv]]].
        rewrite E0 in Ev. injection Ev as <-. exact Wv.
  - left. rewrite W by exact PR. rewrite (V c Uc). split; auto. rewrite <- (V c Uc), Z0 by exact Hc. lia.
Qed.

Lemma nth_app_codeword n len c (t : list bool) k : 0 <= len c -> Z.of_nat k < len c ->
  nth k (codeword n len c ++ t) false = nth k (codeword n len c) false.
Proof. intros H1 H2. apply app_nth1. unfold codeword. rewrite to_bits_length. lia. Qed.

(** The character symbol part of [decodeCSt1] (huf.go:470-489). *)
Lemma lookup_shift n tb len U table lft rgt lena c packed rest r B t :
  dcode n tb len U table lft rgt lena -> U c -> Rd packed rest r B (codeword n len c ++ t) ->
  exists v, aget table (peekbits tb r) = Ok v /\
   ((v = c /\ v < n /\ exists r', fillbuf (at_ lena c) r = Ok r' /\ Rd packed rest r' (B + len c) t) \/
    (n <= v /\ exists r1 r', fillbuf tb r = Ok r1 /\ (forall first, walk lft rgt n first r1 v 32768 = Ok c) /\
       fillbuf (u8 (at_ lena c - tb)) r1 = Ok r' /\ Rd packed rest r' (B + len c) t)).
Proof.
  intros D Uc R. pose proof (dc_used _ _ _ _ _ _ _ _ D c Uc) as Hc. pose proof (dc_ok _ _ _ _ _ _ _ _ D c Hc) as HL.
  pose proof (dc_tb _ _ _ _ _ _ _ _ D) as HT.
  rewrite (peekbits_bits _ _ _ _ _ tb R) by lia.
  destruct (dcode_lookup _ _ _ _ _ _ _ _ c t D Uc) as [v [Ev Cv]]. exists v. split; auto.
  rewrite (dc_len _ _ _ _ _ _ _ _ D c Hc).
  destruct Cv as [[-> L]|[N [L W]]].
  - left. split; auto. split; [lia|]. apply (fillbuf_codeword n len c packed rest r B t HL R).
  - right. split; auto.
    destruct (fillbuf_bits tb packed rest r B _ R ltac:(lia)) as [r1 [E1 R1]].
    destruct (fillbuf_bits (len c - tb) packed rest r1 _ _ R1 ltac:(lia)) as [r2 [E2 R2]].
    exists r1, r2. split; auto. split.
    + intros first. change 32768 with (2 ^ (15 - Z.of_nat 0)). apply W; [lia|].
      intros e He. cbn [Nat.add]. rewrite (bitbuf_bit _ _ _ _ _ e R1) by lia.
      rewrite nth_skipn. apply nth_app_codeword; lia.
    + rewrite u8_id by lia. split; auto.
      replace (B + len c) with (B + tb + (len c - tb)) by lia.
      rewrite skipn_skipn in R2. replace (Z.to_nat tb + Z.to_nat (len c - tb))%nat with (Z.to_nat (len c)) in R2 by lia.
      unfold codeword in R2. rewrite skipn_to_bits_app in R2. exact R2.
Qed.

(** ** The position/length code lengths *)

Definition lenb (k : Z) : list bool :=
  if k <=? 6 then to_bits 3 k else to_bits (Z.to_nat (k - 3)) 65534.

Fixpoint skz (fuel : nat) (len : Z -> Z) (i : Z) : Z :=
  match fuel with
  | O => i
  | S f => if (i <? 6) && (len i =? 0) then skz f len (i + 1) else i
  end.

Inductive PT (len : Z -> Z) (n sp : Z) : Z -> list bool -> Prop :=
| PT_end i : n <= i -> PT len n sp i []
| PT_step i b : i < n -> i + 1 <> sp -> PT len n sp (i + 1) b -> PT len n sp i (lenb (len i) ++ b)
| PT_sp i b : i < n -> i + 1 = sp -> PT len n sp (skz 3 len sp) b ->
    PT len n sp i (lenb (len i) ++ to_bits 2 (skz 3 len sp - 3) ++ b).

Lemma skz_range len : 3 <= skz 3 len 3 <= 6.
Proof.
  cbn [skz]. change (3 <? 6) with true. change (3 + 1) with 4. change (4 <? 6) with true. change (4 + 1) with 5.
  change (5 <? 6) with true. cbn [andb].
  destruct (len 3 =? 0); [destruct (len 4 =? 0); [destruct (len 5 =? 0)|]|]; lia.
Qed.

Lemma skz_zero len j : 3 <= j < skz 3 len 3 -> len j = 0.
Proof.
  cbn [skz]. change (3 <? 6) with true. change (3 + 1) with 4. change (4 <? 6) with true. change (4 + 1) with 5.
  change (5 <? 6) with true. cbn [andb]. intros H.
  destruct (Z.eqb_spec (len 3) 0); [destruct (Z.eqb_spec (len 4) 0); [destruct (Z.eqb_spec (len 5) 0)|]|];
  try lia; assert (C : j = 3 \/ j = 4 \/ j = 5) by lia; destruct C as [->|[->| ->]]; auto; lia.
Qed.

(** The same with any number of zero lengths counted, not only the greatest. *)
Inductive PTG (len : Z -> Z) (n sp : Z) : Z -> list bool -> Prop :=
| PTG_end i : n <= i -> PTG len n sp i []
| PTG_step i b : i < n -> i + 1 <> sp -> PTG len n sp (i + 1) b -> PTG len n sp i (lenb (len i) ++ b)
| PTG_sp i q b : i < n -> i + 1 = sp -> sp <= q <= sp + 3 -> (forall j, sp <= j < q -> len j = 0) -> PTG len n sp q b ->
    PTG len n sp i (lenb (len i) ++ to_bits 2 (q - 3) ++ b).

Lemma PT_PTG len n sp i b : sp = 3 \/ sp = -1 -> 0 <= i -> PT len n sp i b -> PTG len n sp i b.
Proof.
  intros Hsp Hi P. induction P as [i H|i b H Hne P IH|i b H He P IH].
  - now constructor.
  - constructor; auto. apply IH. lia.
  - assert (E3 : sp = 3) by (destruct Hsp; lia). rewrite E3 in *. pose proof (skz_range len). apply (PTG_sp _ _ _ i (skz 3 len 3)); [lia|lia|lia|intros j Hj; apply skz_zero; lia|apply IH; lia].
Qed.

Lemma PT_exists len n sp : sp = 3 \/ sp = -1 -> forall i, 0 <= i -> exists b, PT len n sp i b.
Proof.
  intros Hsp.
  assert (G : forall k : nat, forall i, 0 <= i -> n - i <= Z.of_nat k -> exists b, PT len n sp i b).
  { induction k as [|k IH]; intros i Hi Hk.
    - exists []. constructor. lia.
    - destruct (Z_le_gt_dec n i) as [L|L]; [exists []; now constructor|].
      destruct (Z.eq_dec (i + 1) sp) as [E|E].
      + destruct Hsp as [->|]; [|lia]. pose proof (skz_range len).
        destruct (IH (skz 3 len 3) ltac:(lia) ltac:(lia)) as [b Hb]. eexists. apply PT_sp; eauto. lia.
      + destruct (IH (i + 1) ltac:(lia) ltac:(lia)) as [b Hb]. eexists. apply PT_step; eauto. lia. }
  intros i Hi. apply (G (Z.to_nat (n - i))); lia.
Qed.

Lemma trim_ok len n : 0 <= n <= alen len ->
  exists n', trim len n = Ok n' /\ 0 <= n' <= n /\ (forall i, n' <= i < n -> at_ len i = 0) /\
    (0 < n' -> at_ len (n' - 1) <> 0).
Proof.
  intros Hn. unfold trim.
  edestruct (loop_wf (fun n' => 0 <= n' <= n /\ (forall i, n' <= i < n -> at_ len i = 0))
     (fun n' => 0 <= n' <= n /\ (forall i, n' <= i < n -> at_ len i = 0) /\ (0 < n' -> at_ len (n' - 1) <> 0))
     (fun n' => n') (n + 1)) as [n' [E H]].
  4:{ exists n'. split; [exact E|exact H]. }
  - intros n' [A B]. destruct (Z.ltb_spec 0 n') as [L|L].
    + rewrite aget_ok by lia. cbn [bind]. destruct (Z.eqb_spec (at_ len (n' - 1)) 0) as [Z0|NZ].
      * eexists. split; [reflexivity|]. cbv beta iota. split; [|lia]. split; [lia|].
        intros i Hi. destruct (Z.eq_dec i (n' - 1)) as [->|]; [exact Z0|]. apply B. lia.
      * eexists. split; [reflexivity|]. cbv beta iota. auto.
    + eexists. split; [reflexivity|]. cbv beta iota. split; auto. split; auto. lia.
  - split; [lia|]. intros; lia.
  - lia.
Qed.

Lemma lenb_emits k w : wwf w -> 0 <= k <= 16 ->
  exists w', (if k <=? 6 then putbits 3 k w else putbits (u8 (k - 3)) 65534 w) = Ok w' /\ emits w w' (lenb k).
Proof.
  intros W Hk. unfold lenb. destruct (Z.leb_spec k 6).
  - apply (putbits_emits 3 k w W). lia.
  - rewrite u8_id by lia. apply putbits_emits; auto. lia.
Qed.

Lemma skip_loop ptl : 6 <= alen ptl ->
  loop 8 (fun i =>
    if i <? 6 then
      b <- aget ptl i ;;
      if b =? 0 then Ok (Go (i + 1)) else Ok (Stop i)
    else Ok (Stop i)) 3 = Ok (skz 3 (at_ ptl) 3).
Proof.
  intros H. assert (G : forall f k i, (6 - i <= Z.of_nat k) -> 0 <= i -> Z.of_nat k < f ->
    loop f (fun i =>
    if i <? 6 then
      b <- aget ptl i ;;
      if b =? 0 then Ok (Go (i + 1)) else Ok (Stop i)
    else Ok (Stop i)) i = Ok (skz k (at_ ptl) i)).
  { intros f k. revert f. induction k as [|k IH]; intros f i Hi H0 Hf; rewrite loop_unfold by lia; cbn [skz].
    - destruct (Z.ltb_spec i 6); [lia|]. reflexivity.
    - destruct (Z.ltb_spec i 6); [|reflexivity]. rewrite aget_ok by lia. cbn [bind andb].
      destruct (at_ ptl i =? 0); [|reflexivity]. apply IH; lia. }
  apply (G 8 3%nat 3); lia.
Qed.

Definition wpt_step (ptl : arr) (n sp : Z) := fun '(i, w) =>
    if i <? n then
      k <- aget ptl i ;;
      let i := i + 1 in
      w <- (if k <=? 6 then putbits 3 k w else putbits (u8 (k - 3)) 65534 w) ;;
      if i =? sp then
        i <- loop 8 (fun i =>
          if i <? 6 then
            b <- aget ptl i ;;
            if b =? 0 then Ok (Go (i + 1)) else Ok (Stop i)
          else Ok (Stop i)) i ;;
        w <- putbits 2 (u16 (i - 3)) w ;;
        Ok (Go (i, w))
      else Ok (Go (i, w))
    else @Ok (ctl (Z * wst) wst) (Stop w).

Lemma writePtLen_loop ptl n sp i b : PT (at_ ptl) n sp i b -> n <= alen ptl -> 6 <= alen ptl ->
  sp = 3 \/ sp = -1 -> 0 <= i ->
  (forall k, 0 <= k < n -> 0 <= at_ ptl k <= 16) ->
  forall fuel w, wwf w -> Z.max 0 (n - i) < fuel ->
  exists w', loop fuel (wpt_step ptl n sp) (i, w) = Ok w' /\ emits w w' b.
Proof.
  intros P Hn H6 Hsp. revert Hn. induction P as [i Hi|i b Hi Hne P IH|i b Hi He P IH]; intros Hn H0 Hr fuel w W Hf.
  - rewrite loop_unfold by lia. unfold wpt_step at 1. destruct (Z.ltb_spec i n); [lia|].
    cbn [bind]. exists w. split; auto. now apply emits_nil.
  - rewrite loop_unfold by lia. unfold wpt_step at 1. destruct (Z.ltb_spec i n); [|lia].
    rewrite aget_ok by lia. cbn [bind]. cbv zeta.
    destruct (lenb_emits (at_ ptl i) w W (Hr i ltac:(lia))) as [w1 [E1 M1]]. rewrite E1. cbn [bind].
    destruct (Z.eqb_spec (i + 1) sp); [contradiction|]. cbn [bind].
    destruct (IH Hn ltac:(lia) Hr (fuel - 1) w1 (em_wf _ _ _ M1) ltac:(lia)) as [w' [E' M']].
    exists w'. split; auto. eapply emits_app; eauto.
  - assert (E3 : sp = 3) by (destruct Hsp; lia). assert (i = 2) by lia. subst i. clear He Hsp. subst sp. pose proof (skz_range (at_ ptl)) as SR.
    rewrite loop_unfold by lia. unfold wpt_step at 1. destruct (Z.ltb_spec 2 n); [|lia].
    rewrite aget_ok by lia. cbn [bind]. cbv zeta.
    destruct (lenb_emits (at_ ptl 2) w W (Hr 2 ltac:(lia))) as [w1 [E1 M1]]. rewrite E1. cbn [bind].
    change (2 + 1) with 3. change (3 =? 3) with true. cbv iota.
    rewrite skip_loop by exact H6. cbn [bind]. rewrite u16_id by lia.
    destruct (putbits_emits 2 (skz 3 (at_ ptl) 3 - 3) w1 (em_wf _ _ _ M1) ltac:(lia)) as [w2 [E2 M2]]. rewrite E2. cbn [bind].
    destruct (IH Hn ltac:(lia) Hr (fuel - 1) w2 (em_wf _ _ _ M2) ltac:(lia)) as [w' [E' M']].
    exists w'. split; auto. eapply emits_app; eauto. change (Z.to_nat 2) with 2%nat in M2. eapply emits_app; eauto.
Qed.

(** What [writePtLen] writes for at least one non-zero length. *)
Lemma writePtLen_ok ptl n nbit sp w : 1 <= n <= alen ptl -> 6 <= alen ptl -> n <= 32767 -> sp = 3 \/ sp = -1 ->
  0 <= nbit <= 16 -> (forall k, 0 <= k < n -> 0 <= at_ ptl k <= 16) -> wwf w ->
  exists n' b w', writePtLen ptl n nbit sp w = Ok w' /\ 0 <= n' <= n /\
    (forall i, n' <= i < n -> at_ ptl i = 0) /\ (0 < n' -> at_ ptl (n' - 1) <> 0) /\
    PT (at_ ptl) n' sp 0 b /\ emits w w' (to_bits (Z.to_nat nbit) n' ++ b).
Proof.
  intros Hn H6 Hn2 Hsp Hb Hr W. unfold writePtLen.
  destruct (trim_ok ptl n ltac:(lia)) as [n' [E [R [Z0 NZ]]]]. rewrite E. cbn [bind].
  destruct (putbits_emits nbit n' w W Hb) as [w1 [E1 M1]]. rewrite E1. cbn [bind].
  destruct (PT_exists (at_ ptl) n' sp Hsp 0 ltac:(lia)) as [b P].
  destruct (writePtLen_loop ptl n' sp 0 b P ltac:(lia) H6 Hsp ltac:(lia) ltac:(intros; apply Hr; lia) (n' + 1) w1 (em_wf _ _ _ M1) ltac:(lia)) as [w' [E' M']].
  exists n', b, w'. split; [exact E'|]. split; auto. split; auto. split; auto. split; auto. eapply emits_app; eauto.
Qed.

(** Reading one length back. *)
Lemma lenb_bits k j : 7 <= k <= 16 -> (j < Z.to_nat (k - 3))%nat ->
  nth j (lenb k) false = (Z.of_nat j <? k - 4).
Proof.
  intros Hk Hj. unfold lenb. destruct (Z.leb_spec k 6); [lia|]. rewrite nth_to_bits by lia.
  rewrite Z2Nat.id by lia. set (i := k - 3 - 1 - Z.of_nat j).
  assert (Hi : 0 <= i <= 12) by lia.
  destruct (Z.ltb_spec (Z.of_nat j) (k - 4)) as [L|L].
  - assert (C : i = 1 \/ i = 2 \/ i = 3 \/ i = 4 \/ i = 5 \/ i = 6 \/ i = 7 \/ i = 8 \/ i = 9 \/ i = 10 \/ i = 11 \/ i = 12) by lia.
    repeat (destruct C as [->|C]; [reflexivity|]). rewrite C. reflexivity.
  - replace i with 0 by lia. reflexivity.
Qed.

Lemma lenb_length k : 0 <= k <= 16 -> length (lenb k) = Z.to_nat (if k <=? 6 then 3 else k - 3).
Proof. intros Hk. unfold lenb. destruct (Z.leb_spec k 6); now rewrite to_bits_length. Qed.

Lemma read_ptlen1_ok k packed rest r B t : 0 <= k <= 16 -> Rd packed rest r B (lenb k ++ t) ->
  exists r', read_ptlen1 r = Ok (k, r') /\ Rd packed rest r' (B + Z.of_nat (length (lenb k))) t.
Proof.
  intros Hk R. unfold read_ptlen1. rewrite (peekbits_bits _ _ _ _ _ 3 R) by lia.
  rewrite lenb_length by lia. destruct (Z.leb_spec k 6) as [L|L].
  - assert (E3 : lenb k = to_bits (Z.to_nat 3) k) by (unfold lenb; destruct (Z.leb_spec k 6); [reflexivity|lia]).
    rewrite E3 in *. rewrite peek_to_bits by lia. destruct (Z.eqb_spec k 7); [lia|].
    destruct (fillbuf_field 3 k packed rest r B t R ltac:(lia)) as [r' [E' R']]. rewrite E'. cbn [bind].
    exists r'. split; auto.
  - assert (P7 : peek 3 (lenb k ++ t) = 7).
    { unfold peek. change (Z.to_nat 3) with 3%nat.
      assert (E : firstn 3 ((lenb k ++ t) ++ repeat false 3) = [true; true; true]).
      { apply list_eq_nth.
        - rewrite firstn_length, !app_length, lenb_length, repeat_length by lia. cbn [length]. lia.
        - intros j Hj. rewrite firstn_length in Hj. rewrite nth_firstn, nth_app_zeros by lia.
          assert (LL : length (lenb k) = Z.to_nat (k - 3)) by (rewrite lenb_length by lia; destruct (Z.leb_spec k 6); lia).
          rewrite app_nth1 by lia. rewrite lenb_bits by lia.
          assert (C : (j = 0 \/ j = 1 \/ j = 2)%nat) by lia.
          destruct C as [->|[->| ->]]; cbn [nth]; apply Z.ltb_lt; lia. }
      rewrite E. reflexivity. }
    rewrite P7. change (7 =? 7) with true. cbv iota.
    assert (LL : length (lenb k) = Z.to_nat (k - 3)) by (rewrite lenb_length by lia; destruct (Z.leb_spec k 6); lia).
    edestruct (loop_wf (fun '(mask, c) => 7 <= c <= k /\ mask = 2 ^ (19 - c))
        (fun c => c = k) (fun '(mask, c) => k - c) 20) as [v [Ev Hv]].
    4:{ rewrite Ev. cbn [bind]. subst v. rewrite u8_id by lia.
      destruct (fillbuf_bits (k - 3) packed rest r B _ R ltac:(lia)) as [r' [E' R']]. rewrite E'. cbn [bind].
      exists r'. split; auto. replace (Z.of_nat (Z.to_nat (k - 3))) with (k - 3) by lia.
      rewrite skipn_app in R'. rewrite LL in R'. replace (Z.to_nat (k - 3) - Z.to_nat (k - 3))%nat with 0%nat in R' by lia.
      rewrite skipn_all2 in R' by lia. exact R'. }
    + intros [mask c] [Hc ->]. rewrite Z.land_comm, land_pow2 by lia.
      replace (19 - c) with (15 - Z.of_nat (Z.to_nat (c - 4))) by lia.
      rewrite (bitbuf_bit _ _ _ _ _ (Z.to_nat (c - 4)) R) by lia.
      rewrite app_nth1 by lia. rewrite lenb_bits by lia. rewrite Z2Nat.id by lia.
      destruct (Z.ltb_spec (c - 4) (k - 4)); cbn [negb].
      * eexists. split; [reflexivity|]. cbv beta iota. split; [|lia]. split; [lia|].
        rewrite shiftr_div by lia. change 2 with (2 ^ 1) at 2.
        replace (15 - (c - 4)) with (19 - (c + 1) + 1) by lia. rewrite Z.pow_add_r by lia. apply Z.div_mul. lia.
      * eexists. split; [reflexivity|]. cbv beta iota. lia.
    + split; [lia|]. reflexivity.
    + lia.
Qed.

Definition rpt_step (n sp : Z) := fun '(i, len, r) =>
        if i <? Z.min n Npt then
          '(c, r) <- read_ptlen1 r ;;
          len <- aset len i (u8 c) ;;
          let i := i + 1 in
          if i =? sp then
            '(c, r) <- getbits 2 r ;;
            '(i, len) <-
              loop 6 (fun '(c, i, len) =>
                if (0 <=? c) && (i <? Npt) then
                  len <- aset len i 0 ;; Ok (Go (c - 1, i + 1, len))
                else Ok (Stop (i, len))) (c - 1, i, len) ;;
            Ok (Go (i, len, r))
          else Ok (Go (i, len, r))
        else @Ok (ctl (Z * arr * rst) (Z * arr * rst)) (Stop (i, len, r)).

Lemma zero_fill_loop : forall f c i len, 0 <= c + 1 -> c + 1 < f -> 0 <= i -> i + c + 1 <= Npt -> Npt <= alen len ->
  exists len', loop f (fun '(c, i, len) =>
    if (0 <=? c) && (i <? Npt) then
      len <- aset len i 0 ;; Ok (Go (c - 1, i + 1, len))
    else Ok (Stop (i, len))) (c, i, len) = Ok (i + c + 1, len') /\ alen len' = alen len /\
    forall k, 0 <= k -> at_ len' k = if (i <=? k) && (k <? i + c + 1) then 0 else at_ len k.
Proof.
  intros f c i len Hc. remember (Z.to_nat (c + 1)) as m. revert f c i len Hc Heqm.
  induction m as [|m IH]; intros f c i len Hc Em Hf Hi Hb Ha; rewrite loop_unfold by lia.
  - destruct (Z.leb_spec 0 c); [lia|]. cbn [andb bind]. replace (i + c + 1) with i by lia.
    exists len. split; auto. split; auto. intros k Hk. destruct (Z.leb_spec i k), (Z.ltb_spec k i); cbn [andb]; auto; lia.
  - destruct (Z.leb_spec 0 c); [|lia]. destruct (Z.ltb_spec i Npt); [|lia]. cbn [andb].
    rewrite aset_ok by lia. cbn [bind].
    destruct (IH (f - 1) (c - 1) (i + 1) (upd len i 0) ltac:(lia) ltac:(lia) ltac:(lia) ltac:(lia) ltac:(lia) ltac:(rewrite alen_upd; lia))
      as [len' [E' [A' V']]].
    replace (i + 1 + (c - 1) + 1) with (i + c + 1) in * by lia.
    exists len'. split; auto. split; auto. intros k Hk. rewrite V' by lia. rewrite at_upd by lia.
    destruct (Z.eqb_spec k i), (Z.leb_spec (i + 1) k), (Z.leb_spec i k), (Z.ltb_spec k (i + c + 1)); cbn [andb]; auto; lia.
Qed.

Lemma readPtLen_loop len n sp i b : PTG len n sp i b -> n <= Npt -> sp = 3 \/ sp = -1 -> 0 <= i ->
  (forall k, 0 <= k < n -> 0 <= len k <= 16) ->
  forall fuel la packed rest r B t, Rd packed rest r B (b ++ t) -> Npt <= alen la -> Z.max 0 (n - i) < fuel ->
  exists i' la' r', loop fuel (rpt_step n sp) (i, la, r) = Ok (i', la', r') /\ alen la' = alen la /\
    Z.max i n <= i' <= Z.max i (Z.max n 6) /\
    (forall k, 0 <= k -> at_ la' k = if (i <=? k) && (k <? i') then len k else at_ la k) /\
    Rd packed rest r' (B + Z.of_nat (length b)) t.
Proof.
  intros P Hn Hsp. induction P as [i Hi|i b Hi Hne P IH|i q b Hi He SR0 SZ0 P IH]; intros H0 Hr fuel la packed rest r B t R Ha Hf.
  - rewrite loop_unfold by lia. unfold rpt_step at 1. rewrite Z.min_l by lia. destruct (Z.ltb_spec i n); [lia|].
    cbn [bind]. exists i, la, r. split; auto. split; auto. split; [lia|]. split.
    + intros k Hk. destruct (Z.leb_spec i k), (Z.ltb_spec k i); cbn [andb]; auto; lia.
    + cbn [length]. rewrite Z.add_0_r. exact R.
  - rewrite loop_unfold by lia. unfold rpt_step at 1. rewrite Z.min_l by lia. destruct (Z.ltb_spec i n); [|lia].
    rewrite <- app_assoc in R. pose proof (Hr i ltac:(lia)) as HL.
    destruct (read_ptlen1_ok (len i) packed rest r B (b ++ t) HL R) as [r1 [E1 R1]]. rewrite E1. cbn [bind].
    rewrite aset_ok by lia. cbn [bind]. cbv zeta. destruct (Z.eqb_spec (i + 1) sp); [contradiction|]. cbn [bind].
    destruct (IH ltac:(lia) Hr (fuel - 1) (upd la i (u8 (len i))) packed rest r1 _ t R1 ltac:(rewrite alen_upd; lia) ltac:(lia))
      as (i' & la' & r' & E' & A' & B' & V' & R').
    exists i', la', r'. split; auto. split; [exact A'|]. split; [lia|]. split.
    + intros k Hk. rewrite V' by lia. rewrite at_upd by lia. rewrite u8_id by lia.
      destruct (Z.eqb_spec k i) as [Ek|].
      * rewrite Ek. destruct (Z.leb_spec (i + 1) i), (Z.leb_spec i i), (Z.ltb_spec i i'); cbn [andb]; auto; lia.
      * destruct (Z.leb_spec (i + 1) k), (Z.leb_spec i k), (Z.ltb_spec k i'); cbn [andb]; auto; lia.
    + rewrite app_length, Nat2Z.inj_add, Z.add_assoc. exact R'.
  - assert (E3 : sp = 3) by (destruct Hsp; lia). assert (i = 2) by lia. subst i. clear He Hsp. subst sp. assert (SR : 3 <= q <= 6) by lia.
    rewrite loop_unfold by lia. unfold rpt_step at 1. rewrite Z.min_l by lia. destruct (Z.ltb_spec 2 n); [|lia].
    rewrite <- app_assoc in R. pose proof (Hr 2 ltac:(lia)) as HL.
    destruct (read_ptlen1_ok (len 2) packed rest r B _ HL R) as [r1 [E1 R1]]. rewrite E1. cbn [bind].
    rewrite aset_ok by lia. cbn [bind]. cbv zeta. change (2 + 1) with 3. change (3 =? 3) with true. cbv iota.
    rewrite <- app_assoc in R1.
    destruct (getbits_field 2 (q - 3) packed rest r1 _ (b ++ t) R1 ltac:(lia) ltac:(lia)) as [r2 [E2 R2]].
    rewrite E2. cbn [bind].
    destruct (zero_fill_loop 6 (q - 3 - 1) 3 (upd la 2 (u8 (len 2))) ltac:(lia) ltac:(lia) ltac:(lia) ltac:(unfold Npt; lia) ltac:(rewrite alen_upd; lia))
      as [la2 [E3 [A3 V3]]].
    rewrite E3. cbn [bind]. replace (3 + (q - 3 - 1) + 1) with (q) in * by lia.
    destruct (IH ltac:(lia) Hr (fuel - 1) la2 packed rest r2 _ t R2 ltac:(rewrite A3, alen_upd; lia) ltac:(lia))
      as (i' & la' & r' & E' & A' & B' & V' & R').
    exists i', la', r'. split; auto. split; [rewrite A', A3; reflexivity|]. split; [lia|]. split.
    + intros k Hk. rewrite V' by lia. rewrite V3 by lia. rewrite at_upd by lia. rewrite u8_id by lia.
      
      destruct (Z.eqb_spec k 2) as [->|].
      * destruct (Z.leb_spec (q) 2); [lia|]. cbn [andb]. destruct (Z.leb_spec 3 2); [lia|]. cbn [andb].
        destruct (Z.leb_spec 2 2), (Z.ltb_spec 2 i'); cbn [andb]; auto; lia.
      * destruct (Z.leb_spec (q) k), (Z.ltb_spec k i'), (Z.leb_spec 3 k), (Z.ltb_spec k (q)), (Z.leb_spec 2 k); cbn [andb]; auto; try lia.
        symmetry. apply SZ0. lia.
    + rewrite !app_length, to_bits_length, !Nat2Z.inj_add.
      replace (B + (Z.of_nat (length (lenb (len 2))) + (Z.of_nat 2 + Z.of_nat (length b)))) with (B + Z.of_nat (length (lenb (len 2))) + 2 + Z.of_nat (length b)) by lia.
      exact R'.
Qed.
