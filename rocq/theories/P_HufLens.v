(** Reading the code length tables of a block. *)
From Verif Require Import Go GoLemmas S_Bits P_Bits S_Huff M_Bitio P_Bitio P_Huff
  M_Maketree M_Maketbl P_Maketree P_Maketbl M_Huf P_HufCode P_HufTables.

(** Sizes of the decoder's arrays (huf.go:8-28). *)
Record dsz (h : huf) : Prop := {
  dz_left : alen (left h) = 1019;
  dz_right : alen (right h) = 1019;
  dz_ct : alen (cTable h) = 4096;
  dz_pt : alen (ptTable h) = 256;
  dz_cl : alen (cLen h) = Nc;
  dz_pl : alen (ptLen h) = Npt }.

Lemma fill_ok lo hi v (a : arr) : 0 <= lo -> hi <= alen a ->
  exists a', forZ lo hi (fun i t => aset t i v) a = Ok a' /\ alen a' = alen a /\
    forall k, 0 <= k -> at_ a' k = if (lo <=? k) && (k <? hi) then v else at_ a k.
Proof.
  intros H0 H1. destruct (Z_le_gt_dec lo hi) as [L|L].
  - destruct (forZ_inv (fun i t => alen t = alen a /\ forall k, 0 <= k -> at_ t k = if (lo <=? k) && (k <? i) then v else at_ a k)
      (fun i t => aset t i v) lo hi a) as [a' [E [A V]]].
    + exact L.
    + intros i t Hi [A V]. rewrite aset_ok by lia. eexists. split; [reflexivity|].
      rewrite alen_upd. split; auto. intros k Hk. rewrite at_upd by lia. rewrite V by lia.
      destruct (Z.eqb_spec k i), (Z.leb_spec lo k), (Z.ltb_spec k i), (Z.ltb_spec k (i + 1)); cbn [andb]; auto; lia.
    + split; auto. intros k Hk. destruct (Z.leb_spec lo k), (Z.ltb_spec k lo); cbn [andb]; auto; lia.
    + exists a'. auto.
  - exists a. split.
    + unfold forZ. replace (Z.to_nat (hi - lo)) with 0%nat by lia. reflexivity.
    + split; auto. intros k Hk. destruct (Z.leb_spec lo k), (Z.ltb_spec k hi); cbn [andb]; auto; lia.
Qed.

(** The bits describing a position or code length code with lengths [len],
    of which the symbols [U] are going to be used. *)
Definition PTB (nn nbit sp : Z) (len : Z -> Z) (U : Z -> Prop) (bits : list bool) : Prop :=
  lengths_ok nn len /\ (forall c, U c -> 0 <= c < nn) /\
  ((exists n' b, 1 <= n' <= nn /\ (forall k, n' <= k < nn -> len k = 0) /\ PTG len n' sp 0 b /\
      kraft nn len = 65536 /\ (forall c, U c -> len c <> 0) /\ bits = to_bits (Z.to_nat nbit) n' ++ b) \/
   (exists c0, 0 <= c0 < nn /\ (forall c, U c -> c = c0) /\ (forall c, 0 <= c < nn -> len c = 0) /\
      bits = to_bits (Z.to_nat nbit) 0 ++ to_bits (Z.to_nat nbit) c0)).

Lemma readPtLen_ok nn nbit sp len U bits h packed rest r B t :
  6 <= nn <= 32 -> 1 <= nbit <= 16 -> nn < 2 ^ nbit -> sp = 3 \/ sp = -1 ->
  PTB nn nbit sp len U bits -> dsz h -> Rd packed rest r B (bits ++ t) ->
  exists la tab lf rg r', readPtLen nn nbit sp h r = Ok (set_ptLen la (set_ptTable tab (set_left lf (set_right rg h))), r') /\
    Rd packed rest r' (B + Z.of_nat (length bits)) t /\
    dcode nn 8 len U tab lf rg la /\
    alen la = Npt /\ alen tab = 256 /\ alen lf = 1019 /\ alen rg = 1019 /\
    (forall i, 2 * nn - 1 <= i -> at_ lf i = at_ (left h) i /\ at_ rg i = at_ (right h) i).
Proof.
  intros Hnn Hnb Hfit Hsp [Hlen [HU HC]] [D1 D2 D3 D4 D5 D6] R. unfold readPtLen.
  destruct HC as [(n' & b & Hn' & Z0 & P & K & V & ->)|(c0 & Hc0 & V & Z0 & ->)].
  - rewrite <- app_assoc in R.
    destruct (getbits_field nbit n' packed rest r B (b ++ t) R ltac:(lia) ltac:(lia)) as [r1 [E1 R1]].
    rewrite E1. cbn [bind]. destruct (Z.eqb_spec n' 0); [lia|].
    destruct (readPtLen_loop len n' sp 0 b P ltac:(unfold Npt; lia) Hsp ltac:(lia) ltac:(intros k Hk; apply Hlen; lia)
       (Npt + 2) (ptLen h) packed rest r1 _ t R1 ltac:(lia) ltac:(unfold Npt; lia)) as (i' & la' & r' & E' & A' & B' & V' & R').
    match goal with |- context [loop (Npt + 2) ?f _] => change f with (rpt_step n' sp) end.
    rewrite E'. cbn [bind].
    destruct (fill_ok i' nn 0 la' ltac:(lia) ltac:(rewrite A', D6; unfold Npt; lia)) as [la [E2 [A2 V2]]].
    rewrite E2. cbn [bind].
    assert (LA : forall c, 0 <= c < nn -> at_ la c = len c).
    { intros c Hc. rewrite V2, V' by lia.
      destruct (Z.leb_spec i' c), (Z.ltb_spec c nn), (Z.leb_spec 0 c), (Z.ltb_spec c i'); cbn [andb]; try lia.
      symmetry. apply Z0. lia. }
    destruct (makeTable_ok nn la 8 (ptTable h) (left h) (right h)) as [s [Es [As S]]].
    + lia.
    + rewrite A2, A', D6. unfold Npt. lia.
    + lia.
    + intros c Hc. rewrite LA by lia. apply Hlen. lia.
    + rewrite <- K. apply kraft_ext. exact LA.
    + change (2 ^ (15 - 8)) with 128. lia.
    + exact D4.
    + lia.
    + lia.
    + rewrite Es. cbn [bind].
      exists la, (t_table s), (t_left s), (t_right s), r'.
      split; [reflexivity|].
      split. { rewrite app_length, to_bits_length. replace (B + Z.of_nat (Z.to_nat nbit + length b)) with (B + nbit + Z.of_nat (length b)) by lia. exact R'. }
      assert (LL : alen (t_left s) = 1019) by (rewrite (tbs_ll _ _ _ _ _ _ S); exact D1).
      assert (RR : alen (t_right s) = 1019) by (rewrite (tbs_rl _ _ _ _ _ _ S); exact D2).
      split; [|split; [rewrite A2, A'; exact D6|split; [congruence|split; [exact LL|split; [exact RR|]]]]].
      * constructor; auto; try lia.
        -- rewrite A2, A', D6. unfold Npt. lia.
        -- left. split; auto. split; auto. exists s, (left h), (right h). split; auto. split; auto. split; [lia|]. split; [lia|]. auto.
      * intros i Hi. apply (tbs_frame _ _ _ _ _ _ S); lia.
  - rewrite <- app_assoc in R.
    destruct (getbits_field nbit 0 packed rest r B _ R ltac:(lia) ltac:(lia)) as [r1 [E1 R1]].
    rewrite E1. cbn [bind]. change (0 =? 0) with true. cbv iota.
    destruct (getbits_field nbit c0 packed rest r1 _ t R1 ltac:(lia) ltac:(lia)) as [r2 [E2 R2]].
    rewrite E2. cbn [bind].
    destruct (fill_ok 0 nn 0 (ptLen h) ltac:(lia) ltac:(rewrite D6; unfold Npt; lia)) as [la [E3 [A3 V3]]]. rewrite E3. cbn [bind].
    destruct (fill_ok 0 256 c0 (ptTable h) ltac:(lia) ltac:(lia)) as [tb [E4 [A4 V4]]]. rewrite E4. cbn [bind].
    exists la, tb, (left h), (right h), r2. split; [destruct h; reflexivity|].
    split. { rewrite app_length, !to_bits_length. replace (B + Z.of_nat (Z.to_nat nbit + Z.to_nat nbit)) with (B + nbit + nbit) by lia. exact R2. }
    split; [|split; [lia|split; [lia|split; [exact D1|split; [exact D2|auto]]]]].
    constructor; auto; try lia.
    + rewrite A3, D6. unfold Npt. lia.
    + intros c Hc. rewrite V3 by lia. rewrite Z0 by lia. destruct (Z.leb_spec 0 c), (Z.ltb_spec c nn); cbn [andb]; auto; lia.
    + right. split; auto. exists c0. split; auto. intros i Hi. change (2 ^ 8) with 256 in Hi. rewrite V4 by lia.
      destruct (Z.leb_spec 0 i), (Z.ltb_spec i 256); cbn [andb]; auto; lia.
Qed.

(** ** The character code lengths *)

Inductive CL (len : Z -> Z) (n : Z) (tw : Z -> list bool) : Z -> list Z -> list bool -> Prop :=
| CL_end i : i = n -> CL len n tw i [] []
| CL_nz i ss b : i < n -> len i <> 0 -> CL len n tw (i + 1) ss b ->
    CL len n tw i ((len i + 2) :: ss) (tw (len i + 2) ++ b)
| CL_run i k ss b : 1 <= k -> i + k <= n -> (forall j, i <= j < i + k -> len j = 0) ->
    (i + k < n -> len (i + k) <> 0) -> CL len n tw (i + k) ss b ->
    CL len n tw i
      ((if k =? 1 then [0] else if k =? 2 then [0; 0] else if k <=? 18 then [1] else if k =? 19 then [0; 1] else [2]) ++ ss)
      ((if k =? 1 then tw 0
        else if k =? 2 then tw 0 ++ tw 0
        else if k <=? 18 then tw 1 ++ to_bits 4 (k - 3)
        else if k =? 19 then tw 0 ++ tw 1 ++ to_bits 4 15
        else tw 2 ++ to_bits 9 (k - 20)) ++ b).

(** The same with runs of zeros split in any way, and only symbols of [U] used. *)
Inductive CLG (len : Z -> Z) (n : Z) (tw : Z -> list bool) (U : Z -> Prop) : Z -> list bool -> Prop :=
| CLG_end i : i = n -> CLG len n tw U i []
| CLG_nz i b : i < n -> len i <> 0 -> U (len i + 2) -> CLG len n tw U (i + 1) b -> CLG len n tw U i (tw (len i + 2) ++ b)
| CLG_0 i b : i < n -> len i = 0 -> U 0 -> CLG len n tw U (i + 1) b -> CLG len n tw U i (tw 0 ++ b)
| CLG_1 i k b : 0 <= k < 16 -> i + (k + 3) <= n -> (forall j, i <= j < i + (k + 3) -> len j = 0) -> U 1 -> CLG len n tw U (i + (k + 3)) b ->
    CLG len n tw U i (tw 1 ++ to_bits 4 k ++ b)
| CLG_2 i k b : 0 <= k < 512 -> i + (k + 20) <= n -> (forall j, i <= j < i + (k + 20) -> len j = 0) -> U 2 -> CLG len n tw U (i + (k + 20)) b ->
    CLG len n tw U i (tw 2 ++ to_bits 9 k ++ b).

Lemma CL_CLG len n tw (U : Z -> Prop) i ss b : n <= 510 -> 0 <= i -> CL len n tw i ss b -> (forall c, In c ss -> U c) -> CLG len n tw U i b.
Proof.
  intros Hn Hi C. induction C as [i H|i ss b H Hne C IH|i k ss b Hk Hik Hz Hnz C IH]; intros HU.
  - now constructor.
  - constructor; auto. { apply HU. now left. } apply IH; [lia|]. intros c Hc. apply HU. now right.
  - assert (T : CLG len n tw U (i + k) b) by (apply IH; [lia|]; intros c Hc; apply HU; apply in_or_app; now right).
    assert (V : forall c, In c (if k =? 1 then [0] else if k =? 2 then [0; 0] else if k <=? 18 then [1] else if k =? 19 then [0; 1] else [2]) -> U c) by (intros c Hc; apply HU; apply in_or_app; now left).
    clear IH HU. destruct (Z.eqb_spec k 1) as [->|].
    { apply CLG_0; auto; [lia|apply Hz; lia|apply V; now left]. }
    destruct (Z.eqb_spec k 2) as [->|].
    { rewrite <- app_assoc. apply CLG_0; [lia|apply Hz; lia|apply V; now left|]. apply CLG_0; [lia|apply Hz; lia|apply V; now left|]. now replace (i + 1 + 1) with (i + 2) by lia. }
    destruct (Z.leb_spec k 18).
    { rewrite <- app_assoc. apply CLG_1; [lia|lia|intros j Hj; apply Hz; lia|apply V; now left|]. now replace (i + (k - 3 + 3)) with (i + k) by lia. }
    destruct (Z.eqb_spec k 19) as [->|].
    { rewrite <- !app_assoc. apply CLG_0; [lia|apply Hz; lia|apply V; now left|]. apply CLG_1; [lia|lia|intros j Hj; apply Hz; lia|apply V; right; now left|]. now replace (i + 1 + (15 + 3)) with (i + 19) by lia. }
    rewrite <- app_assoc. apply CLG_2; [lia|lia|intros j Hj; apply Hz; lia|apply V; now left|]. now replace (i + (k - 20 + 20)) with (i + k) by lia.
Qed.

Lemma zrun_exists len i : forall m : nat, exists k, 0 <= k <= Z.of_nat m /\
  (forall j, i <= j < i + k -> len j = 0) /\ (k < Z.of_nat m -> len (i + k) <> 0).
Proof.
  induction m as [|m [k [A [B C]]]].
  - exists 0. split; [lia|]. split; intros; lia.
  - destruct (Z.eq_dec k (Z.of_nat m)) as [E|E].
    + destruct (Z.eq_dec (len (i + k)) 0) as [Z0|NZ].
      * exists (k + 1). split; [lia|]. split; [|lia]. intros j Hj.
        destruct (Z.eq_dec j (i + k)) as [->|]; auto. apply B. lia.
      * exists k. split; [lia|]. split; auto.
    + exists k. split; [lia|]. split; auto. intros _. apply C. lia.
Qed.

Lemma CL_exists len n tw : forall i, i <= n -> exists ss b, CL len n tw i ss b.
Proof.
  assert (G : forall m : nat, forall i, i <= n -> n - i <= Z.of_nat m -> exists ss b, CL len n tw i ss b).
  { induction m as [|m IH]; intros i Hi Hm.
    - exists [], []. constructor. lia.
    - destruct (Z.eq_dec i n) as [->|Ne]; [exists [], []; now constructor|].
      destruct (Z.eq_dec (len i) 0) as [Z0|NZ].
      + destruct (zrun_exists len i (Z.to_nat (n - i))) as [k [A [B C]]]. rewrite Z2Nat.id in * by lia.
        assert (1 <= k). { destruct (Z.eq_dec k 0); [|lia]. subst k. exfalso. apply C; [lia|]. now rewrite Z.add_0_r. }
        destruct (IH (i + k) ltac:(lia) ltac:(lia)) as [ss [b H2]].
        eexists _, _. eapply CL_run with (k := k); eauto; try lia.
      + destruct (IH (i + 1) ltac:(lia) ltac:(lia)) as [ss [b H2]].
        eexists _, _. eapply CL_nz; eauto. lia. }
  intros i Hi. apply (G (Z.to_nat (n - i))); lia.
Qed.

Lemma zero_run_ok cl n i k : 0 <= i -> 1 <= k -> k < 65536 -> i + k <= n -> n <= alen cl ->
  (forall j, i <= j < i + k -> at_ cl j = 0) -> (i + k < n -> at_ cl (i + k) <> 0) ->
  zero_run cl n (i + 1) 1 = Ok (i + k, k).
Proof.
  intros Hi Hk Hk2 Hn Ha Hz Hnz. unfold zero_run.
  edestruct (loop_wf (fun '(j, c) => c = j - i /\ i + 1 <= j <= i + k) (fun p => p = (i + k, k))
    (fun '(j, c) => n - j) (n - (i + 1) + 1)) as [v [E ->]].
  4: exact E.
  - intros [j c] [-> Hj]. destruct (Z.ltb_spec j n) as [L|L].
    + rewrite aget_ok by lia. cbn [bind]. destruct (Z.eq_dec j (i + k)) as [->|Ne].
      * destruct (Z.eqb_spec (at_ cl (i + k)) 0) as [Z0|_]; [exfalso; now apply Hnz|].
        eexists. split; [reflexivity|]. cbv beta iota. f_equal; lia.
      * rewrite (Hz j) by lia. change (0 =? 0) with true. cbv iota.
        eexists. split; [reflexivity|]. cbv beta iota. rewrite u16_id by lia. split; [|lia]. split; lia.
    + eexists. split; [reflexivity|]. cbv beta iota. replace j with (i + k) by lia. f_equal; lia.
  - split; lia.
  - lia.
Qed.

(** Counting how often each code length symbol is needed. *)
Definition ctf_step (cLen : arr) (n : Z) := fun '(i, t) =>
    if i <? n then
      k <- aget cLen i ;;
      let i := i + 1 in
      if k =? 0 then
        '(i, count) <- zero_run cLen n i 1 ;;
        t <- (if count <=? 2 then incr t 0 count
              else if count <=? 18 then incr t 1 1
              else if count =? 19 then t <- incr t 0 1 ;; incr t 1 1
              else incr t 2 1) ;;
        Ok (Go (i, t))
      else
        t <- incr t (k + 2) 1 ;;
        Ok (Go (i, t))
    else @Ok (ctl (Z * arr) arr) (Stop t).

Lemma incr_ok t i d : 0 <= i < alen t -> 0 <= at_ t i + d < 65536 -> incr t i d = Ok (upd t i (at_ t i + d)).
Proof. intros H1 H2. unfold incr. rewrite aget_ok by lia. cbn [bind]. rewrite u16_id by lia. now rewrite aset_ok. Qed.

Lemma countTFreq_loop cl n tw i ss b : CL (at_ cl) n tw i ss b -> n <= alen cl -> n <= 510 -> 0 <= i ->
  (forall k, 0 <= k < n -> 0 <= at_ cl k <= 16) ->
  forall fuel t, n - i < fuel -> 19 <= alen t -> (forall c, 0 <= c < 19 -> 0 <= at_ t c <= i) ->
  exists t', loop fuel (ctf_step cl n) (i, t) = Ok t' /\ alen t' = alen t /\
    (forall c, 0 <= c < 19 -> at_ t c <= at_ t' c <= n) /\
    (forall c, In c ss -> 0 <= c < 19 /\ 1 <= at_ t' c).
Proof.
  intros C Hn H510. induction C as [i Hi|i ss b Hi Hne C IH|i k ss b Hk Hik Hz Hnz C IH]; intros H0 Hr fuel t Hf Ha Ht;
  rewrite loop_unfold by lia; unfold ctf_step at 1.
  - destruct (Z.ltb_spec i n); [lia|]. cbn [bind]. exists t. split; auto. split; auto. split.
    + intros c Hc. specialize (Ht c Hc). lia.
    + intros c [].
  - destruct (Z.ltb_spec i n); [|lia]. rewrite aget_ok by lia. cbn [bind]. cbv zeta.
    destruct (Z.eqb_spec (at_ cl i) 0); [contradiction|]. pose proof (Hr i ltac:(lia)) as HL.
    pose proof (Ht (at_ cl i + 2) ltac:(lia)) as HT.
    rewrite incr_ok by lia. cbn [bind].
    destruct (IH ltac:(lia) Hr (fuel - 1) (upd t (at_ cl i + 2) (at_ t (at_ cl i + 2) + 1)) ltac:(lia)) as [t' [E [A [M S]]]].
    + rewrite alen_upd. lia.
    + intros c Hc. rewrite at_upd by lia. specialize (Ht c Hc). destruct (c =? at_ cl i + 2); lia.
    + exists t'. split; auto. rewrite alen_upd in A. split; auto. split.
      * intros c Hc. specialize (M c Hc). rewrite at_upd in M by lia. destruct (Z.eqb_spec c (at_ cl i + 2)); [subst c|]; lia.
      * intros c [<-|Hc]; [|apply S; exact Hc]. split; [lia|]. specialize (M (at_ cl i + 2) ltac:(lia)).
        rewrite at_upd_eq in M by lia. lia.
  - destruct (Z.ltb_spec i n); [|lia]. rewrite aget_ok by lia. cbn [bind]. cbv zeta.
    rewrite (Hz i) by lia. change (0 =? 0) with true. cbv iota.
    rewrite (zero_run_ok cl n i k) by (auto; lia). cbn [bind].
    pose proof (Ht 0 ltac:(lia)) as T0. pose proof (Ht 1 ltac:(lia)) as T1. pose proof (Ht 2 ltac:(lia)) as T2.
    assert (G : exists t1, (if k <=? 2 then incr t 0 k
              else if k <=? 18 then incr t 1 1
              else if k =? 19 then t <- incr t 0 1 ;; incr t 1 1
              else incr t 2 1) = Ok t1 /\ alen t1 = alen t /\
              (forall c, 0 <= c < 19 -> at_ t c <= at_ t1 c <= i + k) /\
              forall c, In c (if k =? 1 then [0] else if k =? 2 then [0; 0] else if k <=? 18 then [1] else if k =? 19 then [0; 1] else [2]) -> 0 <= c < 19 /\ 1 <= at_ t1 c).
    { destruct (Z.leb_spec k 2).
      - rewrite incr_ok by lia. eexists. split; [reflexivity|]. rewrite alen_upd. split; auto. split.
        + intros c Hc. rewrite at_upd by lia. specialize (Ht c Hc). destruct (Z.eqb_spec c 0); [subst c|]; lia.
        + assert (at_ (upd t 0 (at_ t 0 + k)) 0 = at_ t 0 + k) as X by (apply at_upd_eq; lia).
          intros c Hc. assert (c = 0). { destruct (Z.eqb_spec k 1); [|destruct (Z.eqb_spec k 2); [|lia]]; cbn [In] in Hc; lia. }
          subst c. lia.
      - destruct (Z.eqb_spec k 1); [lia|]. destruct (Z.eqb_spec k 2); [lia|]. destruct (Z.leb_spec k 18).
        + rewrite incr_ok by lia. eexists. split; [reflexivity|]. rewrite alen_upd. split; auto. split.
          * intros c Hc. rewrite at_upd by lia. specialize (Ht c Hc). destruct (Z.eqb_spec c 1); [subst c|]; lia.
          * intros c [<-|[]]. rewrite at_upd_eq by lia. lia.
        + destruct (Z.eqb_spec k 19).
          * rewrite incr_ok by lia. cbn [bind]. rewrite incr_ok; [|rewrite alen_upd; lia|rewrite at_upd_ne by lia; lia].
            eexists. split; [reflexivity|]. rewrite !alen_upd. split; auto. split.
            -- intros c Hc. rewrite at_upd by (rewrite ?alen_upd; lia). rewrite (at_upd_ne t 0 1) by lia. rewrite at_upd by lia. specialize (Ht c Hc).
               destruct (Z.eqb_spec c 1); [subst c; lia|]. destruct (Z.eqb_spec c 0); [subst c|]; lia.
            -- intros c [<-|[<-|[]]].
               ++ rewrite at_upd_ne by (rewrite ?alen_upd; lia). rewrite at_upd_eq by lia. lia.
               ++ rewrite at_upd_eq by (rewrite ?alen_upd; lia). rewrite at_upd_ne by lia. lia.
          * rewrite incr_ok by lia. eexists. split; [reflexivity|]. rewrite alen_upd. split; auto. split.
            -- intros c Hc. rewrite at_upd by lia. specialize (Ht c Hc). destruct (Z.eqb_spec c 2); [subst c|]; lia.
            -- intros c [<-|[]]. rewrite at_upd_eq by lia. lia. }
    destruct G as [t1 [E1 [A1 [M1 S1]]]]. rewrite E1. cbn [bind].
    destruct (IH ltac:(lia) Hr (fuel - 1) t1 ltac:(lia) ltac:(lia)) as [t' [E [A [M S]]]].
    + intros c Hc. specialize (M1 c Hc). specialize (Ht c Hc). lia.
    + exists t'. split; auto. split; [congruence|]. split.
      * intros c Hc. specialize (M c Hc). specialize (M1 c Hc). lia.
      * intros c Hc. apply in_app_or in Hc. destruct Hc as [Hc|Hc]; [|apply S; exact Hc].
        destruct (S1 c Hc) as [R1 R2]. split; auto. specialize (M c R1). lia.
Qed.

Lemma countTFreq_ok cl t : Nc <= alen cl -> 19 <= alen t -> (forall k, 0 <= k < Nc -> 0 <= at_ cl k <= 16) ->
  exists n t', trim cl Nc = Ok n /\ 0 <= n <= Nc /\ (forall k, n <= k < Nc -> at_ cl k = 0) /\ (0 < n -> at_ cl (n - 1) <> 0) /\
    countTFreq cl t = Ok t' /\ alen t' = alen t /\
    (forall c, 0 <= c < 19 -> 0 <= at_ t' c < 65536) /\
    forall tw ss b, CL (at_ cl) n tw 0 ss b -> forall c, In c ss -> 0 <= c < 19 /\ at_ t' c <> 0.
Proof.
  intros Hc Ht Hr. unfold countTFreq.
  destruct (fill_ok 0 Nt 0 t ltac:(lia) ltac:(unfold Nt; lia)) as [t0 [E0 [A0 V0]]]. rewrite E0. cbn [bind].
  destruct (trim_ok cl Nc ltac:(unfold Nc in *; lia)) as [n [E1 [R1 [Z1 N1]]]]. rewrite E1. cbn [bind].
  assert (G : forall tw ss b, CL (at_ cl) n tw 0 ss b -> exists t', loop (n + 1) (ctf_step cl n) (0, t0) = Ok t' /\ alen t' = alen t0 /\
    (forall c, 0 <= c < 19 -> at_ t0 c <= at_ t' c <= n) /\
    (forall c, In c ss -> 0 <= c < 19 /\ 1 <= at_ t' c)).
  { intros tw ss b C. apply (countTFreq_loop cl n tw 0 ss b C); unfold Nc in *; try lia.
    - intros k Hk. apply Hr. lia.
    - intros c Hc2. rewrite V0 by lia. unfold Nt. destruct (Z.leb_spec 0 c), (Z.ltb_spec c 19); cbn [andb]; lia. }
  destruct (CL_exists (at_ cl) n (fun _ => []) 0 ltac:(lia)) as [ss0 [b0 C0]].
  destruct (G _ _ _ C0) as [t' [E' [A' [M' _]]]].
  exists n, t'. split; auto. split; auto. split; auto. split; auto. split; [exact E'|]. split; [congruence|].
  unfold Nc in *. split.
  - intros c Hc2. specialize (M' c Hc2). rewrite V0 in M' by lia. unfold Nt in M'. destruct (Z.leb_spec 0 c), (Z.ltb_spec c 19); cbn [andb] in M'; lia.
  - intros tw ss b C c Hin. destruct (G _ _ _ C) as [t2 [E2 [_ [_ S2]]]]. rewrite E' in E2. injection E2 as <-.
    destruct (S2 c Hin). split; [lia|lia].
Qed.

(** Writing the character code lengths. *)
Definition wcl_step (cLen ptLen ptCode : arr) (n : Z) := fun '(i, w) =>
    if i <? n then
      k <- aget cLen i ;;
      let i := i + 1 in
      if k =? 0 then
        '(i, count) <- zero_run cLen n i 1 ;;
        w <- (if count <=? 2 then
                forZ 0 count (fun _ w => putsym ptLen ptCode 0 w) w
              else if count <=? 18 then
                w <- putsym ptLen ptCode 1 w ;; putbits 4 (u16 (count - 3)) w
              else if count =? 19 then
                w <- putsym ptLen ptCode 0 w ;;
                w <- putsym ptLen ptCode 1 w ;;
                putbits 4 15 w
              else
                w <- putsym ptLen ptCode 2 w ;; putbits cbit (u16 (count - 20)) w) ;;
        Ok (Go (i, w))
      else
        w <- putsym ptLen ptCode (k + 2) w ;;
        Ok (Go (i, w))
    else @Ok (ctl (Z * wst) wst) (Stop w).

Lemma writeCLen_loop cl pl pc U n i ss b : CL (at_ cl) n (codeword Nt (at_ pl)) i ss b ->
  hcode Nt pl pc U -> n <= alen cl -> n <= 510 -> 0 <= i ->
  (forall c, In c ss -> U c) ->
  forall fuel w, wwf w -> n - i < fuel ->
  exists w', loop fuel (wcl_step cl pl pc n) (i, w) = Ok w' /\ emits w w' b.
Proof.
  intros C HH Hn H510. induction C as [i Hi|i ss b Hi Hne C IH|i k ss b Hk Hik Hz Hnz C IH]; intros H0 Hu fuel w W Hf;
  rewrite loop_unfold by lia; unfold wcl_step at 1.
  - destruct (Z.ltb_spec i n); [lia|]. cbn [bind]. exists w. split; auto. now apply emits_nil.
  - destruct (Z.ltb_spec i n); [|lia]. rewrite aget_ok by lia. cbn [bind]. cbv zeta.
    destruct (Z.eqb_spec (at_ cl i) 0); [contradiction|].
    destruct (putsym_emits Nt pl pc U (at_ cl i + 2) w HH (Hu _ (or_introl eq_refl)) W) as [w1 [E1 M1]]. rewrite E1. cbn [bind].
    destruct (IH ltac:(lia) (fun c H => Hu c (or_intror H)) (fuel - 1) w1 (em_wf _ _ _ M1) ltac:(lia)) as [w' [E' M']].
    exists w'. split; auto. eapply emits_app; eauto.
  - destruct (Z.ltb_spec i n); [|lia]. rewrite aget_ok by lia. cbn [bind]. cbv zeta.
    rewrite (Hz i) by lia. change (0 =? 0) with true. cbv iota.
    rewrite (zero_run_ok cl n i k) by (auto; lia). cbn [bind].
    assert (Hu1 : forall c, In c (if k =? 1 then [0] else if k =? 2 then [0; 0] else if k <=? 18 then [1] else if k =? 19 then [0; 1] else [2]) -> U c)
      by (intros c Hc; apply Hu; apply in_or_app; left; exact Hc).
    assert (Hu2 : forall c, In c ss -> U c) by (intros c Hc; apply Hu; apply in_or_app; right; exact Hc).
    assert (G : exists w1, (if k <=? 2 then
                forZ 0 k (fun _ w => putsym pl pc 0 w) w
              else if k <=? 18 then
                w <- putsym pl pc 1 w ;; putbits 4 (u16 (k - 3)) w
              else if k =? 19 then
                w <- putsym pl pc 0 w ;;
                w <- putsym pl pc 1 w ;;
                putbits 4 15 w
              else
                w <- putsym pl pc 2 w ;; putbits cbit (u16 (k - 20)) w) = Ok w1 /\
        emits w w1 (if k =? 1 then codeword Nt (at_ pl) 0
        else if k =? 2 then codeword Nt (at_ pl) 0 ++ codeword Nt (at_ pl) 0
        else if k <=? 18 then codeword Nt (at_ pl) 1 ++ to_bits 4 (k - 3)
        else if k =? 19 then codeword Nt (at_ pl) 0 ++ codeword Nt (at_ pl) 1 ++ to_bits 4 15
        else codeword Nt (at_ pl) 2 ++ to_bits 9 (k - 20))).
    { destruct (Z.eqb_spec k 1).
      - subst k. change (1 <=? 2) with true. cbv iota.
        destruct (putsym_emits Nt pl pc U 0 w HH (Hu1 0 (or_introl eq_refl)) W) as [w1 [E1 M1]].
        exists w1. split; auto. unfold forZ. change (Z.to_nat (1 - 0)) with 1%nat. cbn [for_up]. rewrite E1. reflexivity.
      - destruct (Z.eqb_spec k 2).
        + subst k. change (2 <=? 2) with true. cbv iota.
          destruct (putsym_emits Nt pl pc U 0 w HH (Hu1 0 (or_introl eq_refl)) W) as [w1 [E1 M1]].
          destruct (putsym_emits Nt pl pc U 0 w1 HH (Hu1 0 (or_introl eq_refl)) (em_wf _ _ _ M1)) as [w2 [E2 M2]].
          exists w2. split; [|eapply emits_app; eauto]. unfold forZ. change (Z.to_nat (2 - 0)) with 2%nat. cbn [for_up]. rewrite E1. cbn [bind]. rewrite E2. reflexivity.
        + destruct (Z.leb_spec k 2); [lia|]. destruct (Z.leb_spec k 18).
          * destruct (putsym_emits Nt pl pc U 1 w HH (Hu1 1 (or_introl eq_refl)) W) as [w1 [E1 M1]]. rewrite E1. cbn [bind].
            rewrite u16_id by lia. destruct (putbits_emits 4 (k - 3) w1 (em_wf _ _ _ M1) ltac:(lia)) as [w2 [E2 M2]].
            exists w2. split; auto. eapply emits_app; eauto.
          * destruct (Z.eqb_spec k 19).
            -- destruct (putsym_emits Nt pl pc U 0 w HH (Hu1 0 (or_introl eq_refl)) W) as [w1 [E1 M1]]. rewrite E1. cbn [bind].
               destruct (putsym_emits Nt pl pc U 1 w1 HH (Hu1 1 (or_intror (or_introl eq_refl))) (em_wf _ _ _ M1)) as [w2 [E2 M2]]. rewrite E2. cbn [bind].
               destruct (putbits_emits 4 15 w2 (em_wf _ _ _ M2) ltac:(lia)) as [w3 [E3 M3]].
               exists w3. split; auto. eapply emits_app; eauto. eapply emits_app; eauto.
            -- destruct (putsym_emits Nt pl pc U 2 w HH (Hu1 2 (or_introl eq_refl)) W) as [w1 [E1 M1]]. rewrite E1. cbn [bind].
               rewrite u16_id by lia. destruct (putbits_emits cbit (k - 20) w1 (em_wf _ _ _ M1) ltac:(unfold cbit; lia)) as [w2 [E2 M2]].
               exists w2. split; auto. eapply emits_app; eauto. }
    destruct G as [w1 [E1 M1]]. rewrite E1. cbn [bind].
    destruct (IH ltac:(lia) Hu2 (fuel - 1) w1 (em_wf _ _ _ M1) ltac:(lia)) as [w' [E' M']].
    exists w'. split; auto. eapply emits_app; eauto.
Qed.

(** Reading them back. *)
Definition rcl_step (h : huf) (n : Z) := fun '(i, len, r) =>
        if i <? Z.min n Nc then
          c <- aget (ptTable h) (peekbits 8 r) ;;
          c <- (if Nt <=? c then walk (left h) (right h) Nt true r c 128 else Ok c) ;;
          l <- aget (ptLen h) c ;;
          r <- fillbuf l r ;;
          if c <=? 2 then
            '(c, r) <- (if c =? 0 then Ok (1, r)
                        else if c =? 1 then '(x, r) <- getbits 4 r ;; Ok (x + 3, r)
                        else '(x, r) <- getbits cbit r ;; Ok (x + 20, r)) ;;
            len <- forZ i (i + c) (fun i t => aset t i 0) len ;;
            Ok (Go (i + c, len, r))
          else
            len <- aset len i (u8 (u8 c - 2)) ;;
            Ok (Go (i + 1, len, r))
        else @Ok (ctl (Z * arr * rst) (Z * arr * rst)) (Stop (i, len, r)).

(** One code length symbol. *)
Lemma read_tsym h tl U c packed rest r B t : dcode Nt 8 tl U (ptTable h) (left h) (right h) (ptLen h) -> U c ->
  Rd packed rest r B (codeword Nt tl c ++ t) ->
  exists v r', aget (ptTable h) (peekbits 8 r) = Ok v /\
    (if Nt <=? v then walk (left h) (right h) Nt true r v 128 else Ok v) = Ok c /\
    aget (ptLen h) c = Ok (tl c) /\ fillbuf (tl c) r = Ok r' /\ Rd packed rest r' (B + tl c) t.
Proof.
  intros D Uc R. pose proof (dc_used _ _ _ _ _ _ _ _ D c Uc) as Hc. pose proof (dc_ok _ _ _ _ _ _ _ _ D c Hc) as HL.
  rewrite (peekbits_bits _ _ _ _ _ 8 R) by lia.
  destruct (dcode_lookup _ _ _ _ _ _ _ _ c t D Uc) as [v [Ev Cv]].
  destruct (fillbuf_codeword Nt tl c packed rest r B t HL R) as [r' [E' R']].
  exists v, r'. split; auto.
  split.
  { destruct Cv as [[-> L]|[N [L W]]].
    - destruct (Z.leb_spec Nt c); [lia|]. reflexivity.
    - destruct (Z.leb_spec Nt v); [|lia]. change 128 with (2 ^ (15 - Z.of_nat 8)). apply W; [lia|].
      intros e He. rewrite (bitbuf_bit _ _ _ _ _ (8 + e) R) by lia.
      apply (nth_app_codeword Nt tl c t (8 + e)); lia. }
  split; auto. rewrite aget_ok by (pose proof (dc_la _ _ _ _ _ _ _ _ D); lia).
  now rewrite (dc_len _ _ _ _ _ _ _ _ D c Hc).
Qed.

Lemma cw_length n len c : 0 <= len c -> Z.of_nat (length (codeword n len c)) = len c.
Proof. intros H. unfold codeword. rewrite to_bits_length. lia. Qed.

(** One step of the reading loop for a run symbol followed by [d] zeros. *)
Lemma rcl_run h tl U n c x xb d packed rest r B t i la :
  dcode Nt 8 tl U (ptTable h) (left h) (right h) (ptLen h) -> U c -> 0 <= c <= 2 ->
  (c = 0 -> xb = [] /\ d = 1) ->
  (c = 1 -> 0 <= x < 16 /\ xb = to_bits 4 x /\ d = x + 3) ->
  (c = 2 -> 0 <= x < 512 /\ xb = to_bits 9 x /\ d = x + 20) ->
  0 <= i < n -> n <= 510 -> i + d <= alen la ->
  Rd packed rest r B (codeword Nt tl c ++ xb ++ t) ->
  exists la' r', rcl_step h n (i, la, r) = Ok (Go (i + d, la', r')) /\ alen la' = alen la /\
    (forall k, 0 <= k -> at_ la' k = if (i <=? k) && (k <? i + d) then 0 else at_ la k) /\
    Rd packed rest r' (B + Z.of_nat (length (codeword Nt tl c ++ xb))) t.
Proof.
  intros D Uc Hc3 H0 H1 H2 Hi H510 Hd R. unfold rcl_step. rewrite Z.min_l by (unfold Nc; lia).
  pose proof (dc_used _ _ _ _ _ _ _ _ D c Uc) as Hc. pose proof (dc_ok _ _ _ _ _ _ _ _ D c Hc) as HL.
  destruct (Z.ltb_spec i n); [|lia].
  destruct (read_tsym h tl U c packed rest r B _ D Uc R) as (v & r1 & E1 & E2 & E3 & E4 & R1).
  rewrite E1. cbn [bind]. rewrite E2. cbn [bind]. rewrite E3. cbn [bind]. rewrite E4. cbn [bind].
  destruct (Z.leb_spec c 2); [|lia]. rewrite app_length, Nat2Z.inj_add, cw_length by lia.
  assert (G : exists r', (if c =? 0 then Ok (1, r1)
                        else if c =? 1 then '(x, r) <- getbits 4 r1 ;; Ok (x + 3, r)
                        else '(x, r) <- getbits cbit r1 ;; Ok (x + 20, r)) = Ok (d, r') /\
                        Rd packed rest r' (B + (tl c + Z.of_nat (length xb))) t).
  { destruct (Z.eqb_spec c 0).
    - destruct (H0 e) as [-> ->]. exists r1. split; auto. cbn [length app] in *. rewrite Z.add_0_r. exact R1.
    - destruct (Z.eqb_spec c 1).
      + destruct (H1 e) as [Hx [-> ->]]. destruct (getbits_field 4 x packed rest r1 _ t R1 ltac:(lia) ltac:(lia)) as [r2 [E5 R2]].
        rewrite E5. cbn [bind]. exists r2. split; auto. rewrite to_bits_length.
        replace (B + (tl c + Z.of_nat 4)) with (B + tl c + 4) by lia. exact R2.
      + destruct (H2 ltac:(lia)) as [Hx [-> ->]]. destruct (getbits_field 9 x packed rest r1 _ t R1 ltac:(lia) ltac:(lia)) as [r2 [E5 R2]].
        unfold cbit. rewrite E5. cbn [bind]. exists r2. split; auto. rewrite to_bits_length.
        replace (B + (tl c + Z.of_nat 9)) with (B + tl c + 9) by lia. exact R2. }
  destruct G as [r2 [E5 R2]]. rewrite E5. cbn [bind].
  destruct (fill_ok i (i + d) 0 la ltac:(lia) Hd) as [la' [E6 [A6 V6]]]. rewrite E6. cbn [bind].
  exists la', r2. auto.
Qed.

Lemma readCLen_loop h len tl U n i b : CLG len n (codeword Nt tl) U i b ->
  dcode Nt 8 tl U (ptTable h) (left h) (right h) (ptLen h) -> n <= 510 -> 0 <= i ->
  (forall k, 0 <= k < n -> 0 <= len k <= 16) ->
  forall fuel la packed rest r B t, Rd packed rest r B (b ++ t) -> Nc <= alen la -> n - i < fuel ->
  exists la' r', loop fuel (rcl_step h n) (i, la, r) = Ok (n, la', r') /\ alen la' = alen la /\
    (forall k, 0 <= k -> at_ la' k = if (i <=? k) && (k <? n) then len k else at_ la k) /\
    Rd packed rest r' (B + Z.of_nat (length b)) t.
Proof.
  intros C D H510. induction C as [i Hi|i b Hi Hne Uc C IH|i b Hi Hz HU C IH|i k b Hk Hik Hz HU C IH|i k b Hk Hik Hz HU C IH]; intros H0 Hr fuel la packed rest r B t R Ha Hf.
  - rewrite loop_unfold by lia. unfold rcl_step at 1. rewrite Z.min_l by (unfold Nc; lia). destruct (Z.ltb_spec i n); [lia|]. cbn [bind].
    subst i. exists la, r. split; auto. split; auto. split.
    + intros k Hk. destruct (Z.leb_spec n k), (Z.ltb_spec k n); cbn [andb]; auto; lia.
    + cbn [length]. rewrite Z.add_0_r. exact R.
  - rewrite loop_unfold by lia. unfold rcl_step at 1. rewrite Z.min_l by (unfold Nc; lia). destruct (Z.ltb_spec i n); [|lia].
    rewrite <- app_assoc in R. pose proof (Hr i ltac:(lia)) as HL.
    pose proof (dc_used _ _ _ _ _ _ _ _ D _ Uc) as Hc. pose proof (dc_ok _ _ _ _ _ _ _ _ D _ Hc) as HL2.
    destruct (read_tsym h tl U (len i + 2) packed rest r B _ D Uc R) as (v & r1 & E1 & E2 & E3 & E4 & R1).
    rewrite E1. cbn [bind]. rewrite E2. cbn [bind]. rewrite E3. cbn [bind]. rewrite E4. cbn [bind].
    destruct (Z.leb_spec (len i + 2) 2); [lia|]. rewrite aset_ok by (unfold Nc in *; lia). cbn [bind].
    replace (u8 (u8 (len i + 2) - 2)) with (len i) by (rewrite (u8_id (len i + 2)) by lia; rewrite u8_id; lia).
    destruct (IH ltac:(lia) Hr (fuel - 1) (upd la i (len i)) packed rest r1 _ t R1 ltac:(rewrite alen_upd; exact Ha) ltac:(lia))
      as (la' & r' & E' & A' & V' & R').
    exists la', r'. split; auto. rewrite alen_upd in A'. split; auto. split.
    + intros k Hk. rewrite V' by lia. rewrite at_upd by (unfold Nc in *; lia).
      destruct (Z.eqb_spec k i) as [Ek|].
      * rewrite Ek. destruct (Z.leb_spec (i + 1) i), (Z.leb_spec i i), (Z.ltb_spec i n); cbn [andb]; auto; lia.
      * destruct (Z.leb_spec (i + 1) k), (Z.leb_spec i k), (Z.ltb_spec k n); cbn [andb]; auto; lia.
    + rewrite app_length, Nat2Z.inj_add, cw_length, Z.add_assoc by lia. exact R'.
  - rewrite loop_unfold by lia. rewrite <- (app_nil_r (codeword Nt tl 0)), <- !app_assoc in R.
    destruct (rcl_run h tl U n 0 0 [] 1 packed rest r B (b ++ t) i la D HU ltac:(lia) ltac:(auto) ltac:(lia) ltac:(lia) ltac:(lia) H510 ltac:(unfold Nc in *; lia) R)
      as (la1 & r1 & F1 & A1 & V1 & R1).
    rewrite F1. cbn [bind]. rewrite app_nil_r in R1.
    destruct (IH ltac:(lia) Hr (fuel - 1) la1 packed rest r1 _ t R1 ltac:(lia) ltac:(lia)) as (la' & r' & E' & A' & V' & R').
    exists la', r'. split; auto. split; [lia|]. split.
    + intros j Hj. rewrite V', V1 by lia. destruct (Z.leb_spec (i + 1) j), (Z.ltb_spec j n), (Z.leb_spec i j), (Z.ltb_spec j (i + 1)); cbn [andb]; auto; try lia. replace j with i by lia. auto.
    + rewrite app_length, Nat2Z.inj_add, Z.add_assoc. exact R'.
  - rewrite loop_unfold by lia. rewrite <- !app_assoc in R.
    destruct (rcl_run h tl U n 1 k (to_bits 4 k) (k + 3) packed rest r B (b ++ t) i la D HU ltac:(lia) ltac:(lia) ltac:(auto) ltac:(lia) ltac:(lia) H510 ltac:(unfold Nc in *; lia) R)
      as (la1 & r1 & F1 & A1 & V1 & R1).
    rewrite F1. cbn [bind].
    destruct (IH ltac:(lia) Hr (fuel - 1) la1 packed rest r1 _ t R1 ltac:(lia) ltac:(lia)) as (la' & r' & E' & A' & V' & R').
    exists la', r'. split; auto. split; [lia|]. split.
    + intros j Hj. rewrite V', V1 by lia. destruct (Z.leb_spec (i + (k + 3)) j), (Z.ltb_spec j n), (Z.leb_spec i j), (Z.ltb_spec j (i + (k + 3))); cbn [andb]; auto; try lia. symmetry. apply Hz. lia.
    + rewrite app_assoc, app_length, Nat2Z.inj_add, Z.add_assoc. exact R'.
  - rewrite loop_unfold by lia. rewrite <- !app_assoc in R.
    destruct (rcl_run h tl U n 2 k (to_bits 9 k) (k + 20) packed rest r B (b ++ t) i la D HU ltac:(lia) ltac:(lia) ltac:(lia) ltac:(auto) ltac:(lia) H510 ltac:(unfold Nc in *; lia) R)
      as (la1 & r1 & F1 & A1 & V1 & R1).
    rewrite F1. cbn [bind].
    destruct (IH ltac:(lia) Hr (fuel - 1) la1 packed rest r1 _ t R1 ltac:(lia) ltac:(lia)) as (la' & r' & E' & A' & V' & R').
    exists la', r'. split; auto. split; [lia|]. split.
    + intros j Hj. rewrite V', V1 by lia. destruct (Z.leb_spec (i + (k + 20)) j), (Z.ltb_spec j n), (Z.leb_spec i j), (Z.ltb_spec j (i + (k + 20))); cbn [andb]; auto; try lia. symmetry. apply Hz. lia.
    + rewrite app_assoc, app_length, Nat2Z.inj_add, Z.add_assoc. exact R'.
Qed.
