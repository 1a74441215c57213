(** The encoder writes blocks that describe the tokens it was given. *)
From Verif Require Import Go GoLemmas S_Bits P_Bits S_Huff M_Bitio P_Bitio P_Huff
  M_Maketree M_Maketbl P_Maketree P_Maketbl M_Huf P_HufCode P_HufTables P_HufLens P_HufBlock.

(** ** The token buffer *)

Definition tsz (t : tok) : Z := match t with Lit _ => 1 | Mat _ _ => 3 end.
Definition sumsz (l : list tok) : Z := fold_right (fun t a => tsz t + a) 0 l.
(** Bytes used in the buffer: one flag byte per eight tokens, and the tokens. *)
Definition plen (l : list tok) : Z := (zlen l + 7) / 8 + sumsz l.

Lemma sumsz_app a b : sumsz (a ++ b) = sumsz a + sumsz b.
Proof. induction a as [|x a IH]; cbn [app sumsz fold_right]; [reflexivity|]. fold (sumsz (a ++ b)). fold (sumsz a). lia. Qed.

Lemma sumsz_bound l : zlen l <= sumsz l <= 3 * zlen l.
Proof.
  induction l as [|t l IH]; [unfold zlen; cbn [length sumsz fold_right]; lia|]. rewrite zlen_cons. cbn [sumsz fold_right]. fold (sumsz l).
  destruct t; cbn [tsz]; lia.
Qed.

Lemma sumsz_firstn n l : sumsz (firstn n l) <= sumsz l.
Proof.
  rewrite <- (firstn_skipn n l) at 2. rewrite sumsz_app. pose proof (sumsz_bound (skipn n l)). pose proof (zlen_nonneg (skipn n l)). lia.
Qed.

Lemma plen_snoc l t : plen (l ++ [t]) = plen l + (if zlen l mod 8 =? 0 then 1 else 0) + tsz t.
Proof.
  unfold plen. rewrite sumsz_app, zlen_app. change (zlen [t]) with 1. cbn [sumsz fold_right].
  pose proof (zlen_nonneg l). destruct (Z.eqb_spec (zlen l mod 8) 0); Z.div_mod_to_equations; lia.
Qed.

Lemma plen_nonneg l : 0 <= plen l.
Proof. unfold plen. pose proof (zlen_nonneg l). pose proof (sumsz_bound l). assert (0 <= (zlen l + 7) / 8) by (apply Z.div_pos; lia). lia. Qed.

Lemma plen_firstn n l : plen (firstn n l) <= plen l.
Proof.
  unfold plen. pose proof (sumsz_firstn n l). assert (zlen (firstn n l) <= zlen l) by (unfold zlen; rewrite firstn_length; lia).
  assert ((zlen (firstn n l) + 7) / 8 <= (zlen l + 7) / 8) by (apply Z.div_le_mono; lia). lia.
Qed.

Definition is_mat (t : tok) : bool := match t with Lit _ => false | Mat _ _ => true end.

(** Where the flag byte of the group of token [i], and token [i] itself, are. *)
Definition fpos (l : list tok) (i : Z) : Z := plen (firstn (Z.to_nat (8 * (i / 8))) l).
Definition tpos (l : list tok) (i : Z) : Z := plen (firstn (Z.to_nat i) l) + (if i mod 8 =? 0 then 1 else 0).

Definition tok_at (b : arr) (q : Z) (t : tok) : Prop :=
  match t with
  | Lit c => at_ b q = c
  | Mat c p => at_ b q = c - 256 /\ at_ b (q + 1) = p / 256 /\ at_ b (q + 2) = p mod 256
  end.

Definition lay (b : arr) (l : list tok) : Prop :=
  (forall i, 0 <= i < alen b -> 0 <= at_ b i < 256) /\
  forall i t, nth_error l (Z.to_nat i) = Some t -> 0 <= i ->
    Z.testbit (at_ b (fpos l i)) (7 - i mod 8) = is_mat t /\ tok_at b (tpos l i) t.

(** ** Frequencies *)

Definition csym (t : tok) : Z := match t with Lit b => b | Mat c _ => c end.
Definition psyms (l : list tok) : list Z := flat_map (fun t => match t with Lit _ => [] | Mat _ p => [nb p] end) l.
Definition countZ (l : list Z) (c : Z) : Z := zlen (filter (Z.eqb c) l).

Lemma countZ_app a b c : countZ (a ++ b) c = countZ a c + countZ b c.
Proof. unfold countZ. now rewrite filter_app, zlen_app. Qed.

Lemma countZ_one x c : countZ [x] c = if c =? x then 1 else 0.
Proof. unfold countZ. cbn [filter]. destruct (c =? x); reflexivity. Qed.

Lemma countZ_nonneg l c : 0 <= countZ l c.
Proof. apply zlen_nonneg. Qed.

Lemma countZ_le l c : countZ l c <= zlen l.
Proof. unfold countZ, zlen. pose proof (filter_length_le (Z.eqb c) l). lia. Qed.

Lemma countZ_pos l c : In c l -> 1 <= countZ l c.
Proof.
  intros H. unfold countZ, zlen. assert (X : In c (filter (Z.eqb c) l)) by (apply filter_In; split; auto; apply Z.eqb_refl).
  destruct (filter (Z.eqb c) l); [destruct X|cbn [length]; lia].
Qed.

Lemma sumf_ext f g l : (forall c, In c l -> f c = g c) -> sumf f l = sumf g l.
Proof.
  induction l as [|x l IH]; intros H; [reflexivity|]. cbn [sumf fold_right]. fold (sumf f l). fold (sumf g l).
  rewrite IH, H by (try (left; reflexivity); intros; apply H; now right). reflexivity.
Qed.

Lemma sumf_plus f g l : sumf (fun c => f c + g c) l = sumf f l + sumf g l.
Proof.
  induction l as [|x l IH]; [reflexivity|]. cbn [sumf fold_right]. fold (sumf f l). fold (sumf g l).
  fold (sumf (fun c => f c + g c) l). lia.
Qed.

Lemma sumf_indicator x l : NoDup l -> In x l -> sumf (fun c => if c =? x then 1 else 0) l = 1.
Proof.
  assert (Z0 : forall l, ~ In x l -> sumf (fun c => if c =? x then 1 else 0) l = 0).
  { induction l0 as [|y l0 IH]; intros H; [reflexivity|]. cbn [sumf fold_right]. fold (sumf (fun c => if c =? x then 1 else 0) l0).
    destruct (Z.eqb_spec y x) as [->|]; [exfalso; apply H; now left|]. rewrite IH; auto. intros X. apply H. now right. }
  induction l as [|y l IH]; intros N I; [destruct I|]. cbn [sumf fold_right]. fold (sumf (fun c => if c =? x then 1 else 0) l).
  inversion N as [|? ? N1 N2]; subst. destruct (Z.eqb_spec y x) as [->|Ne].
  - rewrite Z0 by assumption. lia.
  - destruct I as [E|I]; [congruence|]. rewrite IH; auto.
Qed.

Lemma sumf_countZ syms u : NoDup u -> (forall c, In c syms -> In c u) -> sumf (countZ syms) u = zlen syms.
Proof.
  intros N. induction syms as [|x s IH]; intros H.
  - rewrite (sumf_ext _ (fun _ => 0)) by reflexivity. clear. induction u as [|y u IH]; [reflexivity|]. cbn [sumf fold_right].
    fold (sumf (fun _ => 0) u). rewrite IH. reflexivity.
  - rewrite zlen_cons. rewrite (sumf_ext _ (fun c => (if c =? x then 1 else 0) + countZ s c)).
    + rewrite sumf_plus, sumf_indicator, IH; auto; intros; apply H; [now right|now left].
    + intros c _. change (x :: s) with ([x] ++ s). rewrite countZ_app, countZ_one. reflexivity.
Qed.

Lemma NoDup_used nchar freq : NoDup (used nchar freq).
Proof. unfold used. apply NoDup_filter. unfold zrange. apply FinFun.Injective_map_NoDup; [intros a b E; lia|apply seq_NoDup]. Qed.

(** ** From a tree to a code *)

Section Tree.
Variables (n : Z) (freq bitlen code left right : arr) (r : mtres).
Hypothesis (Hn : 1 <= n <= 510) (Hb : n <= alen bitlen) (Hc : n <= alen code).
Hypothesis (HT : tree_spec n freq bitlen code left right r).

Definition Ufreq (c : Z) : Prop := 0 <= c < n /\ at_ freq c <> 0.

Lemma small_used : zlen (used n freq) < 2 -> forall c, Ufreq c -> used n freq = [c].
Proof.
  intros L c U. apply used_In in U. destruct (used n freq) as [|a [|b l]].
  - destruct U.
  - destruct U as [->|[]]. reflexivity.
  - rewrite !zlen_cons in L. pose proof (zlen_nonneg l). lia.
Qed.

Lemma tree_len_ok : lengths_ok n (at_ (r_bitlen r)).
Proof.
  intros c Hcn. destruct (Z_lt_ge_dec (zlen (used n freq)) 2) as [L|L].
  - destruct (ts_small _ _ _ _ _ _ _ HT L) as [_ [Z0 _]]. rewrite Z0 by lia. lia.
  - destruct (ts_big _ _ _ _ _ _ _ HT ltac:(lia)) as [_ [_ [A _]]]. destruct (A c Hcn) as [A1 A2].
    destruct (Z.eq_dec (at_ freq c) 0) as [E|E]; [rewrite A2 by exact E; lia|]. specialize (A1 E). lia.
Qed.

Lemma tree_hcode : hcode n (r_bitlen r) (r_code r) Ufreq.
Proof.
  constructor; auto.
  - rewrite (ts_bitl _ _ _ _ _ _ _ HT). exact Hb.
  - rewrite (ts_codel _ _ _ _ _ _ _ HT). exact Hc.
  - exact tree_len_ok.
  - intros c [U _]. exact U.
  - destruct (Z_lt_ge_dec (zlen (used n freq)) 2) as [L|L].
    + right. destruct (ts_small _ _ _ _ _ _ _ HT L) as [R0 [Z0 [R1 C0]]]. split; auto.
      intros c d Uc Ud. pose proof (small_used L c Uc) as E1. pose proof (small_used L d Ud) as E2.
      split; [congruence|]. rewrite <- (R1 c E1). exact C0.
    + left. destruct (ts_big _ _ _ _ _ _ _ HT ltac:(lia)) as [_ [_ [A [K C]]]]. split; auto.
      intros c [U1 U2]. destruct (A c U1) as [A1 _]. split; [specialize (A1 U2); lia|auto].
Qed.

Lemma tree_big : (n <= r_root r) -> 2 <= zlen (used n freq).
Proof.
  intros H. destruct (Z_lt_ge_dec (zlen (used n freq)) 2) as [L|L]; [|lia].
  destruct (ts_small _ _ _ _ _ _ _ HT L) as [R0 _]. lia.
Qed.

Lemma tree_small : (r_root r < n) -> zlen (used n freq) < 2.
Proof.
  intros H. destruct (Z_lt_ge_dec (zlen (used n freq)) 2) as [L|L]; [lia|].
  destruct (ts_big _ _ _ _ _ _ _ HT ltac:(lia)) as [R0 _]. lia.
Qed.

Lemma kraft_nonzero_n' n' : 0 <= n' <= n -> kraft n (at_ (r_bitlen r)) = 65536 ->
  (forall i, n' <= i < n -> at_ (r_bitlen r) i = 0) -> 1 <= n'.
Proof.
  intros H K Z0. destruct (Z.eq_dec n' 0) as [->|]; [|lia]. exfalso.
  rewrite (kraft_ext n _ (fun _ => 0)) in K by (intros; apply Z0; lia).
  unfold kraft in K. change (weight 0) with 0 in K. rewrite sumn_const in K. lia.
Qed.

(** Writing the lengths of a position or code length code. *)
Lemma write_ptb nbit sp w : 6 <= alen bitlen -> sp = 3 \/ sp = -1 -> 0 <= nbit <= 16 -> wwf w ->
  exists bits w', (if n <=? r_root r then writePtLen (r_bitlen r) n nbit sp w
        else w <- putbits nbit 0 w ;; putbits nbit (r_root r) w) = Ok w' /\ emits w w' bits /\
        PTB n nbit sp (at_ (r_bitlen r)) Ufreq bits.
Proof.
  intros H6 Hsp Hnb W. pose proof tree_len_ok as LO. destruct (Z.leb_spec n (r_root r)) as [L|L].
  - pose proof (tree_big L) as BG. destruct (ts_big _ _ _ _ _ _ _ HT BG) as [_ [_ [A [K C]]]].
    destruct (writePtLen_ok (r_bitlen r) n nbit sp w) as (n' & b & w' & E & R & Z0 & NZ & P & M); auto.
    + rewrite (ts_bitl _ _ _ _ _ _ _ HT). lia.
    + rewrite (ts_bitl _ _ _ _ _ _ _ HT). lia.
    + lia.
    + eexists _, w'. split; [exact E|]. split; [exact M|].
      split; auto. split; [intros c [U _]; exact U|]. left.
      exists n', b. split; [split; [exact (kraft_nonzero_n' n' ltac:(lia) K Z0)|lia]|]. split; auto. split; [apply PT_PTG; auto; lia|]. split; auto. split; auto.
      intros c [U1 U2]. destruct (A c U1) as [A1 _]. specialize (A1 U2). lia.
  - pose proof (tree_small L) as SM. destruct (ts_small _ _ _ _ _ _ _ HT SM) as [R0 [Z0 [R1 C0]]].
    destruct (putbits_emits nbit 0 w W Hnb) as [w1 [E1 M1]]. rewrite E1. cbn [bind].
    destruct (putbits_emits nbit (r_root r) w1 (em_wf _ _ _ M1) Hnb) as [w2 [E2 M2]].
    eexists _, w2. split; [exact E2|]. split; [eapply emits_app; eauto|].
    split; auto. split; [intros c [U _]; exact U|]. right. exists (r_root r). split; auto. split.
    + intros c U. symmetry. apply R1. apply small_used; auto.
    + split; auto.
Qed.
End Tree.

(** ** Encoder state *)

Record hsz (h : huf) : Prop := {
  hz_left : alen (left h) = 1019;
  hz_right : alen (right h) = 1019;
  hz_cc : alen (cCode h) = Nc;
  hz_pc : alen (ptCode h) = Npt;
  hz_cf : alen (cFreq h) = 1019;
  hz_pf : alen (pFreq h) = 33;
  hz_tf : alen (tFreq h) = 37;
  hz_cl : alen (cLen h) = Nc;
  hz_pl : alen (ptLen h) = Npt;
  hz_buf : alen (buf h) = 65535 }.

Record henc (dicbit n pb : Z) (h : huf) (l : list tok) : Prop := {
  he_sz : hsz h;
  he_np : np h = n;
  he_pb : pbit h = pb;
  he_ok : Forall (tok_ok dicbit) l;
  he_cf : forall c, 0 <= c < Nc -> at_ (cFreq h) c = countZ (map csym l) c;
  he_pf : forall k, 0 <= k < n -> at_ (pFreq h) k = countZ (psyms l) k;
  he_plen : plen l <= 65528;
  he_lay : lay (buf h) l }.

Lemma plen_zlen l : zlen l <= plen l.
Proof. unfold plen. pose proof (zlen_nonneg l). pose proof (sumsz_bound l). assert (0 <= (zlen l + 7) / 8) by (apply Z.div_pos; lia). lia. Qed.

Lemma psyms_len l : zlen (psyms l) <= zlen l.
Proof.
  induction l as [|t l IH]; [unfold zlen; cbn [length psyms flat_map]; lia|]. rewrite zlen_cons.
  destruct t; cbn [psyms flat_map]; fold (psyms l); cbn [app]; rewrite ?zlen_cons; lia.
Qed.

Lemma henc_cused dicbit n pb h l : henc dicbit n pb h l -> Forall (fun t => Ufreq Nc (cFreq h) (csym t)) l.
Proof.
  intros H. apply Forall_forall. intros t Ht.
  assert (R : 0 <= csym t < Nc).
  { pose proof (proj1 (Forall_forall _ _) (he_ok _ _ _ _ _ H) t Ht) as O. destruct t; cbn [tok_ok csym] in *; unfold Nc in *; lia. }
  split; auto. rewrite (he_cf _ _ _ _ _ H) by exact R.
  pose proof (countZ_pos (map csym l) (csym t) (in_map csym l t Ht)). lia.
Qed.

Lemma psyms_In l c p : In (Mat c p) l -> In (nb p) (psyms l).
Proof. intros H. unfold psyms. apply in_flat_map. exists (Mat c p). split; auto. now left. Qed.

Lemma henc_used dicbit n pb h l : dicbit < n -> 0 <= dicbit -> henc dicbit n pb h l ->
  Forall (tok_used (Ufreq Nc (cFreq h)) (Ufreq n (pFreq h))) l.
Proof.
  intros Hd H0 H. pose proof (henc_cused _ _ _ _ _ H) as C. rewrite Forall_forall in *. intros t Ht.
  specialize (C t Ht). destruct t as [b|c p]; cbn in *; auto. split; auto.
  pose proof (proj1 (Forall_forall _ _) (he_ok _ _ _ _ _ H) _ Ht) as O. cbn in O.
  pose proof (nb_range p dicbit (proj2 O) H0) as NR. split; [lia|]. rewrite (he_pf _ _ _ _ _ H) by lia.
  pose proof (countZ_pos (psyms l) (nb p) (psyms_In l c p Ht)). lia.
Qed.

(** ** Sending the tokens *)

Lemma encodeP_emits n pl pc U p w : hcode n pl pc U -> U (nb p) -> 0 <= p < 65536 -> wwf w ->
  exists w', encodeP pl pc p w = Ok w' /\ emits w w' (posbits n (at_ pl) p).
Proof.
  intros H Up Hp W. unfold encodeP, posbits. rewrite nbits_ok by lia. cbn [bind].
  pose proof (nb_range p 16 Hp ltac:(lia)) as NR.
  destruct (putsym_emits n pl pc U (nb p) w H Up W) as [w1 [E1 M1]]. rewrite E1. cbn [bind].
  destruct (Z.ltb_spec 1 (nb p)).
  - rewrite u8_id by lia. destruct (putbits_emits (nb p - 1) p w1 (em_wf _ _ _ M1) ltac:(lia)) as [w2 [E2 M2]].
    exists w2. split; auto. eapply emits_app; eauto.
  - exists w1. split; auto. replace (Z.to_nat (nb p - 1)) with 0%nat by lia. cbn [to_bits]. rewrite app_nil_r. exact M1.
Qed.

Lemma u8_testbit F s : 0 <= s <= 7 -> Z.testbit (u8 (F * 2 ^ s)) 7 = Z.testbit F (7 - s).
Proof.
  intros H. unfold u8. change 256 with (2 ^ 8). rewrite Z.mod_pow2_bits_low by lia. now rewrite Z.mul_pow2_bits by lia.
Qed.

Lemma firstn_snoc {A} (l : list A) i t : nth_error l i = Some t -> firstn (S i) l = firstn i l ++ [t].
Proof.
  revert i. induction l as [|x l IH]; intros [|i] H; try discriminate.
  - injection H as <-. reflexivity.
  - cbn [firstn app]. f_equal. apply IH. exact H.
Qed.

Lemma nth_error_ex {A} (l : list A) i : 0 <= i < zlen l -> exists t, nth_error l (Z.to_nat i) = Some t.
Proof.
  intros H. destruct (nth_error l (Z.to_nat i)) eqn:E; eauto. apply nth_error_None in E. unfold zlen in H. lia.
Qed.

Lemma zlen_firstn {A} (l : list A) i : 0 <= i <= zlen l -> zlen (firstn (Z.to_nat i) l) = i.
Proof. intros H. unfold zlen in *. rewrite firstn_length. lia. Qed.

Lemma tpos_bound l i t : 0 <= i -> nth_error l (Z.to_nat i) = Some t -> 0 <= tpos l i /\ tpos l i + tsz t <= plen l.
Proof.
  intros Hi E. assert (Hl : i < zlen l). { apply (fun H => proj1 (nth_error_Some l (Z.to_nat i)) H) in E || idtac.
    assert (X : nth_error l (Z.to_nat i) <> None) by congruence. apply nth_error_Some in X. unfold zlen. lia. }
  unfold tpos. pose proof (plen_nonneg (firstn (Z.to_nat i) l)).
  split; [destruct (i mod 8 =? 0); lia|].
  pose proof (plen_firstn (S (Z.to_nat i)) l) as P. rewrite (firstn_snoc l _ t E), plen_snoc in P.
  rewrite zlen_firstn in P by lia. lia.
Qed.

Section Send.
Variables (dicbit n pb : Z) (h : huf) (l : list tok) (Uc Up : Z -> Prop).
Hypothesis (Hd : 0 <= dicbit <= 16).
Hypothesis (Hok : Forall (tok_ok dicbit) l) (Hus : Forall (tok_used Uc Up) l).
Hypothesis (Hpl : plen l <= 65528) (Hlay : lay (buf h) l) (Hbuf : alen (buf h) = 65535).
Hypothesis (HC : hcode Nc (cLen h) (cCode h) Uc) (HP : hcode n (ptLen h) (ptCode h) Up).

Definition SI (w0 : wst) (i : Z) (st : Z * Z * wst) : Prop :=
  let '(flags, pos, w) := st in
  pos = plen (firstn (Z.to_nat i) l) /\
  (i mod 8 <> 0 -> flags = u8 (at_ (buf h) (fpos l i) * 2 ^ (i mod 8 - 1))) /\
  wwf w /\ emits w0 w (toksbits n (at_ (cLen h)) (at_ (ptLen h)) (firstn (Z.to_nat i) l)).

Lemma toksbits_snoc cl pl a t : toksbits n cl pl (a ++ [t]) = toksbits n cl pl a ++ tokbits n cl pl t.
Proof. unfold toksbits. rewrite map_app, concat_app. cbn [map concat]. now rewrite app_nil_r. Qed.

Lemma send_sym_ok w0 i st : 0 <= i < zlen l -> SI w0 i st ->
  exists c, send_sym h i st = Ok c /\
    match c with Go st' => SI w0 (i + 1) st' /\ unpackable (snd st') = false | Stop w => wwf w /\ wrel w0 w /\ unpackable w = true end.
Proof.
  destruct st as [[flags pos] w]. intros Hi (EP & EF & W & M). unfold send_sym.
  destruct (nth_error_ex l i Hi) as [t Et].
  pose proof (tpos_bound l i t ltac:(lia) Et) as TB.
  pose proof (zlen_firstn l i ltac:(lia)) as ZF.
  destruct Hlay as [LB LL]. destruct (LL i t Et ltac:(lia)) as [LF LT].
  assert (Ot : tok_ok dicbit t) by (apply (proj1 (Forall_forall _ _) Hok); eapply nth_error_In; eauto).
  assert (Ut : tok_used Uc Up t) by (apply (proj1 (Forall_forall _ _) Hus); eapply nth_error_In; eauto).
  assert (PL : plen (firstn (Z.to_nat (i + 1)) l) = tpos l i + tsz t).
  { replace (Z.to_nat (i + 1)) with (S (Z.to_nat i)) by lia. rewrite (firstn_snoc l _ t Et), plen_snoc, ZF. unfold tpos. lia. }
  assert (M8 : 0 <= i mod 8 < 8) by (apply Z.mod_pos_bound; lia).
  set (F := at_ (buf h) (fpos l i)) in *.
  pose proof (plen_nonneg (firstn (Z.to_nat i) l)) as PN.
  assert (FB : 0 <= fpos l i /\ 0 <= F < 256).
  { assert (0 <= fpos l i) by apply plen_nonneg. split; auto. apply LB. split; auto.
    unfold fpos. pose proof (plen_firstn (Z.to_nat (8 * (i / 8))) l). lia. }
  assert (G1 : exists fl, (if i mod 8 =? 0 then f <- aget (buf h) pos ;; Ok (f, u16 (pos + 1))
     else Ok (u8 (Z.shiftl flags 1), pos)) = Ok (fl, tpos l i) /\ fl = u8 (F * 2 ^ (i mod 8))).
  { unfold tpos. destruct (Z.eqb_spec (i mod 8) 0) as [Z0|NZ].
    - assert (pos = fpos l i).
      { rewrite EP. unfold fpos. do 2 f_equal. pose proof (Z.div_mod i 8 ltac:(lia)). lia. }
      rewrite H. rewrite aget_ok by (unfold tpos in TB; destruct (i mod 8 =? 0), t; cbn [tsz] in *; lia). cbn [bind].
      fold F. exists F. rewrite <- H, <- EP. rewrite u16_id.
      + split; auto. rewrite Z0. change (2 ^ 0) with 1. rewrite Z.mul_1_r, u8_id by lia. reflexivity.
      + unfold tpos in TB. rewrite Z0 in TB. change (0 =? 0) with true in TB. cbv iota in TB. rewrite <- EP in TB. destruct t; cbn [tsz] in TB; lia.
    - eexists. split; [rewrite EP, Z.add_0_r; reflexivity|]. rewrite EF by exact NZ.
      rewrite Z.shiftl_mul_pow2 by lia. unfold u8. rewrite Z.mul_mod_idemp_l by lia. f_equal.
      rewrite <- Z.mul_assoc. f_equal. rewrite <- Z.pow_add_r by lia. f_equal. lia. }
  destruct G1 as [fl [E1 Efl]]. rewrite E1. cbn [bind].
  rewrite Efl, u8_testbit, LF by lia.
  set (q := tpos l i) in *.
  assert (FIN : forall w', emits w w' (tokbits n (at_ (cLen h)) (at_ (ptLen h)) t) ->
     exists c, (if unpackable w' then Ok (Stop w') else Ok (Go (u8 (F * 2 ^ (i mod 8)), q + tsz t, w'))) = Ok c /\
       match c with Go st' => SI w0 (i + 1) st' /\ unpackable (snd st') = false | Stop w => wwf w /\ wrel w0 w /\ unpackable w = true end).
  { intros w' M'. destruct (unpackable w') eqn:EU.
    - eexists. split; [reflexivity|]. cbv iota. split; [exact (em_wf _ _ _ M')|]. split; auto. eapply wrel_trans; [exact (em_rel _ _ _ M)|exact (em_rel _ _ _ M')].
    - eexists. split; [reflexivity|]. cbv iota. split; auto. unfold SI. split; [symmetry; exact PL|]. split; [|split].
      + intros NZ. assert (X : (i + 1) mod 8 = i mod 8 + 1 /\ (i + 1) / 8 = i / 8).
        { Z.div_mod_to_equations. lia. }
        destruct X as [X1 X2]. unfold fpos. rewrite X1, X2. fold (fpos l i). fold F. f_equal. f_equal. f_equal. lia.
      + exact (em_wf _ _ _ M').
      + replace (Z.to_nat (i + 1)) with (S (Z.to_nat i)) by lia. rewrite (firstn_snoc l _ t Et), toksbits_snoc.
        eapply emits_app; eauto. }
  destruct t as [b|c p]; cbn [is_mat tok_at tok_ok tok_used tsz tokbits] in *.
  - rewrite aget_ok by lia. cbn [bind]. rewrite LT.
    destruct (putsym_emits Nc _ _ Uc b w HC Ut W) as [w1 [E2 M2]]. rewrite E2. cbn [bind].
    rewrite u16_id by lia. apply FIN. exact M2.
  - destruct LT as [L1 [L2 L3]]. destruct Ot as [Oc Op]. destruct Ut as [U1 U2].
    assert (2 ^ dicbit <= 2 ^ 16) by (apply Z.pow_le_mono_r; lia). change (2 ^ 16) with 65536 in H.
    rewrite aget_ok by lia. cbn [bind]. rewrite L1. replace (c - 256 + 256) with c by lia.
    destruct (putsym_emits Nc _ _ Uc c w HC U1 W) as [w1 [E2 M2]]. rewrite E2. cbn [bind]. cbv zeta.
    rewrite !(u16_id (q + 1)) by lia. rewrite aget_ok by lia. cbn [bind]. replace (q + 1 + 1) with (q + 2) by lia.
    rewrite !(u16_id (q + 2)) by lia. rewrite aget_ok by lia. cbn [bind]. rewrite L2, L3.
    assert (EPP : u16 (u16 (Z.shiftl (p / 256) 8) + p mod 256) = p).
    { rewrite Z.shiftl_mul_pow2 by lia. change (2 ^ 8) with 256. pose proof (Z.div_mod p 256 ltac:(lia)). pose proof (Z.mod_pos_bound p 256 ltac:(lia)).
      rewrite (u16_id (p / 256 * 256)) by lia. rewrite u16_id by lia. lia. }
    rewrite EPP.
    destruct (encodeP_emits n _ _ Up p w1 HP U2 ltac:(lia) (em_wf _ _ _ M2)) as [w2 [E3 M3]]. rewrite E3. cbn [bind].
    replace (q + 2 + 1) with (q + 3) by lia. rewrite u16_id by lia. apply FIN. eapply emits_app; eauto.
Qed.

Lemma send_loop_ok w : wwf w -> exists c, for_ctl (Z.to_nat (zlen l)) 0 (send_sym h) (0, 0, w) = Ok c /\
  match c with
  | Go (_, _, w') => emits w w' (toksbits n (at_ (cLen h)) (at_ (ptLen h)) l)
  | Stop w' => wwf w' /\ wrel w w' /\ unpackable w' = true
  end.
Proof.
  intros W. pose proof (zlen_nonneg l) as ZN.
  destruct (for_ctl_inv (SI w) (fun w' => wwf w' /\ wrel w w' /\ unpackable w' = true) (send_sym h) (Z.to_nat (zlen l)) 0 (0, 0, w)) as [c [E H]].
  - intros i st Hi HI. destruct (send_sym_ok w i st ltac:(lia) HI) as [c [E H]]. exists c. split; auto.
    destruct c; [exact (proj1 H)|exact H].
  - unfold SI. split; [reflexivity|]. split; [intros X; exfalso; apply X; reflexivity|]. split; auto. now apply emits_nil.
  - exists c. split; auto. destruct c as [[[f p] w']|w']; auto. destruct H as (_ & _ & _ & H).
    replace (Z.to_nat (0 + Z.of_nat (Z.to_nat (zlen l)))) with (length l) in H by (unfold zlen; lia). rewrite firstn_all in H. exact H.
Qed.
End Send.
