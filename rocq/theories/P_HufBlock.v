(** A block written by the encoder is read back by the decoder. *)
From Verif Require Import Go GoLemmas S_Bits P_Bits S_Huff M_Bitio P_Bitio P_Huff
  M_Maketree M_Maketbl P_Maketree P_Maketbl M_Huf P_HufCode P_HufTables P_HufLens.

(** ** Tokens *)

(** What the LZ coder hands to the block coder: a byte, or a match given by its
    character code (length) and position code. *)
Inductive tok := Lit (b : Z) | Mat (c p : Z).

Definition tok_ok (dicbit : Z) (t : tok) : Prop :=
  match t with
  | Lit b => 0 <= b < 256
  | Mat c p => 256 <= c < Nc /\ 0 <= p < 2 ^ dicbit
  end.

(** Number of significant bits. *)
Definition nb (p : Z) : Z := if p =? 0 then 0 else Z.log2 p + 1.

Lemma nb_pos p : 0 < p -> nb p = Z.log2 p + 1.
Proof. intros H. unfold nb. destruct (Z.eqb_spec p 0); lia. Qed.

Lemma nb_range p k : 0 <= p < 2 ^ k -> 0 <= k -> 0 <= nb p <= k.
Proof.
  intros [H1 H2] Hk. unfold nb. destruct (Z.eqb_spec p 0); [lia|].
  pose proof (Z.log2_nonneg p). assert (Z.log2 p < k) by (apply Z.log2_lt_pow2; lia). lia.
Qed.

Lemma nb_half q : 0 < q -> nb (Z.shiftr q 1) = nb q - 1.
Proof.
  intros H. rewrite (nb_pos q) by lia. rewrite shiftr_div by lia. change (2 ^ 1) with 2.
  destruct (Z.eq_dec q 1) as [->|]; [reflexivity|].
  assert (0 < q / 2) by (apply Z.div_str_pos; lia).
  rewrite nb_pos by lia. rewrite <- Z.div2_div.
  assert (E : Z.log2 q = Z.succ (Z.log2 (Z.div2 q))).
  { rewrite (Zdiv2_odd_eqn q) at 1. rewrite Z.div2_div in *. destruct (Z.odd q).
    - rewrite Z.log2_succ_double by lia. reflexivity.
    - rewrite Z.add_0_r, Z.log2_double by lia. reflexivity. }
  lia.
Qed.

Lemma nbits_ok p : 0 <= p < 65536 -> nbits p = Ok (nb p).
Proof.
  intros H. unfold nbits. pose proof (nb_range p 16 H ltac:(lia)).
  edestruct (loop_wf (fun '(q, c) => 0 <= q /\ c + nb q = nb p /\ 0 <= nb q <= 16) (fun c => c = nb p) (fun '(q, c) => nb q) 18) as [v [E ->]].
  4: exact E.
  - intros [q c] [A [B C]]. destruct (Z.eqb_spec q 0) as [->|].
    + eexists. split; [reflexivity|]. cbv beta iota. change (nb 0) with 0 in B. lia.
    + eexists. split; [reflexivity|]. cbv beta iota. pose proof (nb_half q ltac:(lia)) as NH.
      assert (1 <= nb q) by (rewrite nb_pos by lia; pose proof (Z.log2_nonneg q); lia).
      assert (0 <= Z.shiftr q 1) by (apply Z.shiftr_nonneg; lia). split; [|lia]. split; [lia|]. lia.
  - split; [lia|]. split; [lia|]. lia.
  - lia.
Qed.

Definition posbits (np : Z) (pl : Z -> Z) (p : Z) : list bool :=
  codeword np pl (nb p) ++ to_bits (Z.to_nat (nb p - 1)) p.

Definition tokbits (np : Z) (cl pl : Z -> Z) (t : tok) : list bool :=
  match t with
  | Lit b => codeword Nc cl b
  | Mat c p => codeword Nc cl c ++ posbits np pl p
  end.

Definition toksbits np cl pl (l : list tok) : list bool := concat (map (tokbits np cl pl) l).

Definition tok_used (Uc Up : Z -> Prop) (t : tok) : Prop :=
  match t with Lit b => Uc b | Mat c p => Uc c /\ Up (nb p) end.

(** ** Character code lengths, as a whole *)

Definition CLB (tl : Z -> Z) (Ut : Z -> Prop) (len : Z -> Z) (U : Z -> Prop) (bits : list bool) : Prop :=
  lengths_ok Nc len /\ (forall c, U c -> 0 <= c < Nc) /\
  ((exists n b, 1 <= n <= Nc /\ (forall k, n <= k < Nc -> len k = 0) /\ CLG len n (codeword Nt tl) Ut 0 b /\
      kraft Nc len = 65536 /\ (forall c, U c -> len c <> 0) /\ bits = to_bits 9 n ++ b) \/
   (exists c0, 0 <= c0 < Nc /\ (forall c, U c -> c = c0) /\ (forall c, 0 <= c < Nc -> len c = 0) /\
      bits = to_bits 9 0 ++ to_bits 9 c0)).

Lemma readCLen_ok tl Ut len U bits h packed rest r B t :
  CLB tl Ut len U bits -> dsz h -> dcode Nt 8 tl Ut (ptTable h) (left h) (right h) (ptLen h) ->
  Rd packed rest r B (bits ++ t) ->
  exists la tab lf rg r', readCLen h r = Ok (set_cLen la (set_cTable tab (set_left lf (set_right rg h))), r') /\
    Rd packed rest r' (B + Z.of_nat (length bits)) t /\
    dcode Nc 12 len U tab lf rg la /\
    alen la = Nc /\ alen tab = 4096 /\ alen lf = 1019 /\ alen rg = 1019.
Proof.
  intros [Hlen [HU HC]] [D1 D2 D3 D4 D5 D6] D R. unfold readCLen.
  destruct HC as [(n' & b & Hn' & Z0 & P & K & V & ->)|(c0 & Hc0 & V & Z0 & ->)].
  - rewrite <- app_assoc in R. unfold Nc in Hn'.
    destruct (getbits_field cbit n' packed rest r B (b ++ t) R ltac:(unfold cbit; lia) ltac:(unfold cbit; lia)) as [r1 [E1 R1]].
    rewrite E1. cbn [bind]. destruct (Z.eqb_spec n' 0); [lia|].
    destruct (readCLen_loop h len tl Ut n' 0 b P D ltac:(lia) ltac:(lia) ltac:(intros k Hk; apply Hlen; unfold Nc; lia)
       (Nc + 2) (cLen h) packed rest r1 _ t R1 ltac:(lia) ltac:(unfold Nc; lia)) as (la' & r' & E' & A' & V' & R').
    match goal with |- context [loop (Nc + 2) ?f _] => change f with (rcl_step h n') end.
    rewrite E'. cbn [bind].
    destruct (fill_ok n' Nc 0 la' ltac:(lia) ltac:(rewrite A', D5; unfold Nc; lia)) as [la [E2 [A2 V2]]].
    rewrite E2. cbn [bind].
    assert (LA : forall c, 0 <= c < Nc -> at_ la c = len c).
    { intros c Hc. rewrite V2, V' by lia.
      destruct (Z.leb_spec n' c), (Z.ltb_spec c Nc), (Z.leb_spec 0 c), (Z.ltb_spec c n'); cbn [andb]; try lia.
      symmetry. apply Z0. lia. }
    destruct (makeTable_ok Nc la 12 (cTable h) (left h) (right h)) as [s [Es [As S]]].
    + unfold Nc; lia.
    + rewrite A2, A', D5. lia.
    + lia.
    + intros c Hc. rewrite LA by lia. apply Hlen. lia.
    + rewrite <- K. apply kraft_ext. exact LA.
    + unfold Nc. change (2 ^ (15 - 12)) with 8. lia.
    + exact D3.
    + unfold Nc. lia.
    + unfold Nc. lia.
    + rewrite Es. cbn [bind].
      exists la, (t_table s), (t_left s), (t_right s), r'.
      split; [reflexivity|].
      split. { rewrite app_length, to_bits_length. unfold cbit in R'. replace (B + Z.of_nat (9 + length b)) with (B + 9 + Z.of_nat (length b)) by lia. exact R'. }
      assert (LL : alen (t_left s) = 1019) by (rewrite (tbs_ll _ _ _ _ _ _ S); exact D1).
      assert (RR : alen (t_right s) = 1019) by (rewrite (tbs_rl _ _ _ _ _ _ S); exact D2).
      split; [|split; [rewrite A2, A'; exact D5|split; [congruence|split; [exact LL|exact RR]]]].
      constructor; auto; try (unfold Nc in *; lia).
      left. split; auto. split; auto. exists s, (left h), (right h). split; auto. split; auto. unfold Nc. split; [lia|]. split; [lia|]. auto.
  - rewrite <- app_assoc in R. unfold Nc in Hc0.
    destruct (getbits_field cbit 0 packed rest r B _ R ltac:(unfold cbit; lia) ltac:(unfold cbit; lia)) as [r1 [E1 R1]].
    rewrite E1. cbn [bind]. change (0 =? 0) with true. cbv iota.
    destruct (getbits_field cbit c0 packed rest r1 _ t R1 ltac:(unfold cbit; lia) ltac:(unfold cbit; lia)) as [r2 [E2 R2]].
    rewrite E2. cbn [bind].
    destruct (fill_ok 0 Nc 0 (cLen h) ltac:(lia) ltac:(lia)) as [la [E3 [A3 V3]]]. rewrite E3. cbn [bind].
    destruct (fill_ok 0 4096 c0 (cTable h) ltac:(lia) ltac:(lia)) as [tb [E4 [A4 V4]]]. rewrite E4. cbn [bind].
    exists la, tb, (left h), (right h), r2. split; [destruct h; reflexivity|].
    split. { rewrite app_length, !to_bits_length. unfold cbit in R2. replace (B + Z.of_nat (9 + 9)) with (B + 9 + 9) by lia. exact R2. }
    split; [|split; [lia|split; [lia|split; [exact D1|exact D2]]]].
    constructor; auto; try (unfold Nc in *; lia).
    + intros c Hc. rewrite V3 by lia. rewrite Z0 by lia. destruct (Z.leb_spec 0 c), (Z.ltb_spec c Nc); cbn [andb]; auto; lia.
    + right. split; auto. exists c0. split; auto. intros i Hi. change (2 ^ 12) with 4096 in Hi. rewrite V4 by lia.
      destruct (Z.leb_spec 0 i), (Z.ltb_spec i 4096); cbn [andb]; auto; lia.
Qed.

(** ** Block header *)

Definition HB (np pbit : Z) (cl pl : Z -> Z) (Uc Up : Z -> Prop) (size : Z) (bits : list bool) : Prop :=
  0 <= size < 65536 /\
  exists tl Ut bt bc bp, PTB Nt tbit 3 tl Ut bt /\ CLB tl Ut cl Uc bc /\ PTB np pbit (-1) pl Up bp /\
    bits = to_bits 16 size ++ bt ++ bc ++ bp.

(** Decoder state inside a block. *)
Record BS (n pb : Z) (cl pl : Z -> Z) (Uc Up : Z -> Prop) (h : huf) : Prop := {
  bs_sz : dsz h;
  bs_np : np h = n;
  bs_pb : pbit h = pb;
  bs_c : dcode Nc 12 cl Uc (cTable h) (left h) (right h) (cLen h);
  bs_p : dcode n 8 pl Up (ptTable h) (left h) (right h) (ptLen h) }.

Definition npok (n pb : Z) : Prop := 6 <= n <= 17 /\ 1 <= pb <= 16 /\ n < 2 ^ pb.

Lemma readBlockHead_ok n pb cl pl Uc Up size bits h packed rest r B t :
  npok n pb -> HB n pb cl pl Uc Up size bits -> dsz h -> np h = n -> pbit h = pb ->
  Rd packed rest r B (bits ++ t) ->
  exists h' r', readBlockHead h r = Ok (h', r') /\ BS n pb cl pl Uc Up h' /\ blocksize h' = size /\
    Rd packed rest r' (B + Z.of_nat (length bits)) t.
Proof.
  intros [Hn [Hpb Hfit]] [Hsz (tl & Ut & bt & bc & bp & PT1 & CL1 & PT2 & ->)] D En Ep R. unfold readBlockHead.
  rewrite <- !app_assoc in R.
  destruct (getbits_field 16 size packed rest r B _ R ltac:(lia) ltac:(lia)) as [r1 [E1 R1]]. rewrite E1. cbn [bind]. cbv zeta.
  set (h1 := set_blocksize size h).
  assert (D1 : dsz h1) by (destruct D; constructor; assumption).
  destruct (readPtLen_ok Nt tbit 3 tl Ut bt h1 packed rest r1 _ _ ltac:(unfold Nt; lia) ltac:(unfold tbit; lia) ltac:(unfold Nt, tbit; lia)
    (or_introl eq_refl) PT1 D1 R1) as (la & tab & lf & rg & r2 & E2 & R2 & C2 & A1 & A2 & A3 & A4 & _).
  rewrite E2. cbn [bind]. set (h2 := set_ptLen la _).
  assert (D2 : dsz h2) by (destruct D1; constructor; assumption).
  destruct (readCLen_ok tl Ut cl Uc bc h2 packed rest r2 _ _ CL1 D2 C2 R2)
    as (la3 & tab3 & lf3 & rg3 & r3 & E3 & R3 & C3 & F1 & F2 & F3 & F4).
  rewrite E3. cbn [bind]. set (h3 := set_cLen la3 _).
  assert (D3 : dsz h3) by (destruct D2; constructor; assumption).
  change (np h3) with (np h). change (pbit h3) with (pbit h). rewrite En, Ep.
  destruct (readPtLen_ok n pb (-1) pl Up bp h3 packed rest r3 _ _ ltac:(lia) ltac:(lia) Hfit
    (or_intror eq_refl) PT2 D3 R3) as (la4 & tab4 & lf4 & rg4 & r4 & E4 & R4 & C4 & G1 & G2 & G3 & G4 & G5).
  rewrite E4. eexists _, r4. split; [reflexivity|]. split; [|split; [reflexivity|]].
  - constructor; auto.
    + destruct D3; constructor; assumption.
    + apply (dcode_frame Nc 12 cl Uc tab3 lf3 rg3 la3 lf4 rg4 C3).
      * rewrite F3. exact G3.
      * rewrite F4. exact G4.
      * intros i Hi. unfold Nc in Hi. apply (G5 i). lia.
  - rewrite !app_length, to_bits_length, !Nat2Z.inj_add.
    replace (B + (Z.of_nat 16 + (Z.of_nat (length bt) + (Z.of_nat (length bc) + Z.of_nat (length bp)))))
      with (B + 16 + Z.of_nat (length bt) + Z.of_nat (length bc) + Z.of_nat (length bp)) by lia. exact R4.
Qed.

(** ** Reading tokens *)

Lemma decodeC_dcode cl Uc h c packed rest r B t :
  dcode Nc 12 cl Uc (cTable h) (left h) (right h) (cLen h) -> 1 <= blocksize h < 65536 -> Uc c -> Rd packed rest r B (codeword Nc cl c ++ t) ->
  exists r', decodeCSt1 h r = Ok (c, set_blocksize (blocksize h - 1) h, r') /\ Rd packed rest r' (B + cl c) t.
Proof.
  intros C Hb Uc1 R. unfold decodeCSt1. destruct (Z.eqb_spec (blocksize h) 0); [lia|]. cbn [bind]. cbv zeta.
  rewrite u16_id by lia.
  destruct (lookup_shift _ _ _ _ _ _ _ _ c packed rest r B t C Uc1 R) as [v [Ev Cv]].
  pose proof (dc_used _ _ _ _ _ _ _ _ C c Uc1) as Hc.
  assert (AG : aget (cLen h) c = Ok (at_ (cLen h) c)) by (apply aget_ok; pose proof (dc_la _ _ _ _ _ _ _ _ C); lia).
  cbn [cTable cLen left right set_blocksize]. rewrite Ev. cbn [bind].
  destruct Cv as [[-> [L (r' & E & R')]]|[N1 (r1 & r' & E1 & W & E2 & R')]].
  - destruct (Z.ltb_spec c Nc); [|lia]. rewrite AG. cbn [bind]. rewrite E. cbn [bind]. exists r'. auto.
  - destruct (Z.ltb_spec v Nc); [lia|]. rewrite E1. cbn [bind]. rewrite W. cbn [bind]. rewrite AG. cbn [bind].
    rewrite E2. cbn [bind]. exists r'. auto.
Qed.

Lemma decodeC_in_block n pb cl pl Uc Up h c packed rest r B t :
  BS n pb cl pl Uc Up h -> 1 <= blocksize h < 65536 -> Uc c -> Rd packed rest r B (codeword Nc cl c ++ t) ->
  exists r', decodeCSt1 h r = Ok (c, set_blocksize (blocksize h - 1) h, r') /\ Rd packed rest r' (B + cl c) t.
Proof. intros [S N P C Q]. now apply decodeC_dcode. Qed.

Lemma decodeP_dcode n pl Up h p packed rest r B t :
  n <= 17 -> np h = n -> dcode n 8 pl Up (ptTable h) (left h) (right h) (ptLen h) -> Up (nb p) -> 0 <= p -> nb p <= 16 ->
  Rd packed rest r B (posbits n pl p ++ t) ->
  exists r', decodePSt1 h r = Ok (p, r') /\ Rd packed rest r' (B + Z.of_nat (length (posbits n pl p))) t.
Proof.
  intros Hn17 N Q Up1 Hp Hnb R. unfold decodePSt1, posbits in *.
  rewrite <- app_assoc in R.
  destruct (lookup_shift _ _ _ _ _ _ _ _ (nb p) packed rest r B _ Q Up1 R) as [v [Ev Cv]].
  pose proof (dc_used _ _ _ _ _ _ _ _ Q (nb p) Up1) as Hc. pose proof (dc_ok _ _ _ _ _ _ _ _ Q _ Hc) as HL.
  assert (AG : aget (ptLen h) (nb p) = Ok (at_ (ptLen h) (nb p))) by (apply aget_ok; pose proof (dc_la _ _ _ _ _ _ _ _ Q); lia).
  rewrite N. rewrite Ev. cbn [bind].
  assert (G : exists r', (if v <? n then
       l <- aget (ptLen h) v ;;
       r <- fillbuf l r ;;
       Ok (v, r)
     else
       r <- fillbuf 8 r ;;
       j <- walk (left h) (right h) n false r v 32768 ;;
       l <- aget (ptLen h) j ;;
       r <- fillbuf (u8 (l - 8)) r ;;
       Ok (j, r)) = Ok (nb p, r') /\ Rd packed rest r' (B + pl (nb p)) (to_bits (Z.to_nat (nb p - 1)) p ++ t)).
  { destruct Cv as [[-> [L (r' & E & R')]]|[N1 (r1 & r' & E1 & W & E2 & R')]].
    - destruct (Z.ltb_spec (nb p) n); [|lia]. rewrite AG. cbn [bind]. rewrite E. cbn [bind]. exists r'. auto.
    - destruct (Z.ltb_spec v n); [lia|]. rewrite E1. cbn [bind]. rewrite W. cbn [bind]. rewrite AG. cbn [bind].
      rewrite E2. cbn [bind]. exists r'. auto. }
  destruct G as [r1 [E1 R1]]. rewrite E1. cbn [bind].
  rewrite app_length, to_bits_length, Nat2Z.inj_add, cw_length by lia.
  destruct (Z.eqb_spec (nb p) 0) as [Z0|NZ].
  - assert (p = 0). { unfold nb in Z0. destruct (Z.eqb_spec p 0); auto. pose proof (Z.log2_nonneg p). lia. }
    subst p. exists r1. split; auto. change (nb 0) with 0 in *. change (Z.to_nat (0 - 1)) with 0%nat in *. cbn [to_bits app] in R1.
    rewrite Z.add_0_r. exact R1.
  - assert (Pp : 0 < p). { destruct (Z.eq_dec p 0); [subst p; exfalso; apply NZ; reflexivity|lia]. }
    pose proof (nb_pos p Pp) as NP. pose proof (Z.log2_spec p Pp) as LS. pose proof (Z.log2_nonneg p) as LN.
    set (k := Z.log2 p) in *. replace (nb p - 1) with k in * by lia.
    rewrite (u8_id k), (u16_id k) by lia.
    assert (TB : to_bits (Z.to_nat k) p = to_bits (Z.to_nat k) (p mod 2 ^ k)).
    { rewrite <- (to_bits_mod (Z.to_nat k) (Z.to_nat k) p) by lia. now rewrite Z2Nat.id by lia. }
    rewrite TB in R1.
    assert (Hm : 0 <= p mod 2 ^ k < 2 ^ k) by (apply Z.mod_pos_bound; lia).
    destruct (getbits_field k (p mod 2 ^ k) packed rest r1 _ t R1 ltac:(lia) Hm) as [r2 [E2 R2]].
    rewrite E2. cbn [bind]. exists r2.
    assert (PK : 2 ^ k <= 32768) by (change 32768 with (2 ^ 15); apply Z.pow_le_mono_r; lia).
    assert (EP : p = 2 ^ k + p mod 2 ^ k).
    { rewrite Z.pow_succ_r in LS by lia. rewrite Z.mod_eq by lia.
      assert (p / 2 ^ k = 1). { symmetry. apply (Z.div_unique p (2 ^ k) 1 (p - 2 ^ k)); lia. } lia. }
    rewrite Z.shiftl_1_l, (u16_id (2 ^ k)) by lia. rewrite <- EP.
    assert (p < 65536). { rewrite Z.pow_succ_r in LS by lia. lia. }
    rewrite u16_id by lia. split; auto.
    replace (B + (pl (nb p) + Z.of_nat (Z.to_nat k))) with (B + pl (nb p) + k) by lia. exact R2.
Qed.

Lemma decodeP_in_block n pb cl pl Uc Up h p packed rest r B t :
  n <= 17 -> BS n pb cl pl Uc Up h -> Up (nb p) -> 0 <= p -> nb p <= 16 ->
  Rd packed rest r B (posbits n pl p ++ t) ->
  exists r', decodePSt1 h r = Ok (p, r') /\ Rd packed rest r' (B + Z.of_nat (length (posbits n pl p))) t.
Proof. intros H [S N P C Q]. now apply decodeP_dcode. Qed.

(** Reading a list of tokens. *)
Inductive dec_run : huf -> rst -> list tok -> huf -> rst -> Prop :=
| dr_nil h r : dec_run h r [] h r
| dr_lit h r b h1 r1 l h' r' : decodeCSt1 h r = Ok (b, h1, r1) -> 0 <= b < 256 -> dec_run h1 r1 l h' r' ->
    dec_run h r (Lit b :: l) h' r'
| dr_mat h r c p h1 r1 r2 l h' r' : decodeCSt1 h r = Ok (c, h1, r1) -> 256 <= c < Nc ->
    decodePSt1 h1 r1 = Ok (p, r2) -> 0 <= p < 65536 -> dec_run h1 r2 l h' r' ->
    dec_run h r (Mat c p :: l) h' r'.

Lemma dec_run_app h r a h1 r1 b h2 r2 : dec_run h r a h1 r1 -> dec_run h1 r1 b h2 r2 -> dec_run h r (a ++ b) h2 r2.
Proof. induction 1; intros; cbn [app]; auto; econstructor; eauto. Qed.

Lemma BS_blocksize n pb cl pl Uc Up h k : BS n pb cl pl Uc Up h -> BS n pb cl pl Uc Up (set_blocksize k h).
Proof. intros [[A1 A2 A3 A4 A5 A6] N P C Q]. constructor; auto. constructor; assumption. Qed.

Lemma tokens_decode n pb cl pl Uc Up dicbit packed rest : n <= 17 -> 0 <= dicbit <= 16 -> forall l h r B t,
  BS n pb cl pl Uc Up h -> blocksize h = zlen l -> zlen l < 65536 ->
  Forall (tok_ok dicbit) l -> Forall (tok_used Uc Up) l ->
  Rd packed rest r B (toksbits n cl pl l ++ t) ->
  exists h' r', dec_run h r l h' r' /\ BS n pb cl pl Uc Up h' /\ blocksize h' = 0 /\
    Rd packed rest r' (B + Z.of_nat (length (toksbits n cl pl l))) t.
Proof.
  intros Hn Hd. induction l as [|x l IH]; intros h r B t S Eb Hl Ok Us R.
  - exists h, r. split; [constructor|]. split; auto. split; auto. cbn. rewrite Z.add_0_r. exact R.
  - rewrite zlen_cons in *. pose proof (zlen_nonneg l) as LN.
    inversion Ok as [|? ? Ox Ol]; subst. inversion Us as [|? ? Ux Ul]; subst.
    change (toksbits n cl pl (x :: l)) with (tokbits n cl pl x ++ toksbits n cl pl l) in *. rewrite <- app_assoc in R.
    rewrite app_length, Nat2Z.inj_add.
    destruct x as [b|c p]; cbn [tokbits tok_used tok_ok] in *.
    + destruct (decodeC_in_block n pb cl pl Uc Up h b packed rest r B _ S ltac:(lia) Ux R) as [r1 [E1 R1]].
      pose proof (dc_ok _ _ _ _ _ _ _ _ (bs_c _ _ _ _ _ _ _ S) b ltac:(unfold Nc; lia)) as HL.
      rewrite cw_length by lia.
      destruct (IH (set_blocksize (blocksize h - 1) h) r1 _ t (BS_blocksize _ _ _ _ _ _ _ _ S) ltac:(cbn; lia) ltac:(lia) Ol Ul R1)
        as (h' & r' & DR & S' & B' & R').
      exists h', r'. split; [econstructor; eauto|]. split; auto. split; auto. rewrite Z.add_assoc. exact R'.
    + rewrite <- app_assoc in R. destruct Ox as [Oc Op]. destruct Ux as [Uc1 Up1].
      destruct (decodeC_in_block n pb cl pl Uc Up h c packed rest r B _ S ltac:(lia) Uc1 R) as [r1 [E1 R1]].
      pose proof (dc_ok _ _ _ _ _ _ _ _ (bs_c _ _ _ _ _ _ _ S) c ltac:(lia)) as HL.
      pose proof (nb_range p dicbit Op ltac:(lia)) as NR.
      destruct (decodeP_in_block n pb cl pl Uc Up (set_blocksize (blocksize h - 1) h) p packed rest r1 _ _ Hn
         (BS_blocksize _ _ _ _ _ _ _ _ S) Up1 ltac:(lia) ltac:(lia) R1) as [r2 [E2 R2]].
      rewrite app_length, Nat2Z.inj_add, cw_length by lia.
      destruct (IH (set_blocksize (blocksize h - 1) h) r2 _ t (BS_blocksize _ _ _ _ _ _ _ _ S) ltac:(cbn; lia) ltac:(lia) Ol Ul R2)
        as (h' & r' & DR & S' & B' & R').
      assert (2 ^ dicbit <= 2 ^ 16) by (apply Z.pow_le_mono_r; lia).
      exists h', r'. split; [econstructor; eauto; lia|]. split; auto. split; auto.
      rewrite !Z.add_assoc. exact R'.
Qed.

(** ** Blocks *)

Definition BLK (dicbit n pb : Z) (l : list tok) (bits : list bool) : Prop :=
  1 <= zlen l < 65536 /\ Forall (tok_ok dicbit) l /\
  exists cl pl Uc Up hb, HB n pb cl pl Uc Up (zlen l) hb /\ Forall (tok_used Uc Up) l /\
    bits = hb ++ toksbits n cl pl l.

Lemma block_decode dicbit n pb l bits h packed rest r B t :
  npok n pb -> 0 <= dicbit <= 16 -> BLK dicbit n pb l bits -> dsz h -> np h = n -> pbit h = pb -> blocksize h = 0 ->
  Rd packed rest r B (bits ++ t) ->
  exists h' r', dec_run h r l h' r' /\ dsz h' /\ np h' = n /\ pbit h' = pb /\ blocksize h' = 0 /\
    Rd packed rest r' (B + Z.of_nat (length bits)) t.
Proof.
  intros Hnp Hd [Hl [Ok (cl & pl & Uc & Up & hb & H & Us & ->)]] D En Ep Eb R.
  rewrite <- app_assoc in R.
  destruct (readBlockHead_ok n pb cl pl Uc Up (zlen l) hb h packed rest r B _ Hnp H D En Ep R) as (h1 & r1 & E1 & S1 & B1 & R1).
  destruct (tokens_decode n pb cl pl Uc Up dicbit packed rest ltac:(destruct Hnp; lia) Hd l h1 r1 _ t S1 B1 ltac:(lia) Ok Us R1)
    as (h' & r' & DR & S' & B' & R').
  exists h', r'. split.
  - (* the first symbol is read after the header *)
    assert (X : forall c h2 r2, decodeCSt1 h1 r1 = Go.Ok (c, h2, r2) -> decodeCSt1 h r = Go.Ok (c, h2, r2)).
    { intros c h2 r2 E. unfold decodeCSt1 in *. rewrite Eb. change (0 =? 0) with true. cbv iota. rewrite E1.
      destruct (Z.eqb_spec (blocksize h1) 0); [lia|]. exact E. }
    inversion DR; subst.
    + change (zlen (@nil tok)) with 0 in Hl. lia.
    + econstructor; eauto.
    + econstructor; eauto.
  - destruct S' as [S1' S2' S3' _ _]. split; auto. split; auto. split; auto. split; auto.
    rewrite app_length, Nat2Z.inj_add, Z.add_assoc. exact R'.
Qed.
