(** Decoding -lh2- data: the start of both codes, the stream, whole entries. *)
From Verif Require Import Go GoLemmas M_Crc M_Bitio S_Bits P_Bits P_Bitio S_Huff M_Maketree M_Maketbl M_Huf M_Dhuf M_Shuf M_Larc M_Pm2 M_Slide M_Decode M_Lzhuf S_History
  P_Maketbl P_HufCode P_HufTables S_Lz S_Lh1 S_Lh2 P_Lz P_Decode P_Tree P_Blocks P_Build P_Dhuf P_DhKeep P_Reconst P_Lh1Start P_Lh1 P_Lh3 P_Pool P_Dhuf2 P_Lh2Tree P_Lh2 P_Lh2Grow P_Lh2Run.

(** ** startCDyn leaves the blocks of the second tree alone *)
Definition far (b0 : arr) (d : dh) : Prop := forall i, 628 <= i -> at_ (k_block d) i = at_ b0 i.
Lemma put_block_far b0 j v d d' : far b0 d -> 0 <= j < 628 -> put_block j v d = Ok d' -> far b0 d'.
Proof. intros H J E. unfold put_block in E. apply bind_ok in E. destruct E as [a [E1 E2]]. apply aset_inv in E1. destruct E1 as [A ->]. injection E2 as <-. intros i I. cbn [k_block set_block]. rewrite at_upd_ne by lia. now apply H. Qed.
Ltac farput := intros H E; apply bind_ok in E; destruct E as [a [E1 E2]]; injection E2 as <-; exact H.
Lemma put_child_far b0 j v d d' : far b0 d -> put_child j v d = Ok d' -> far b0 d'. Proof. unfold put_child. farput. Qed.
Lemma put_parent_far b0 j v d d' : far b0 d -> put_parent j v d = Ok d' -> far b0 d'. Proof. unfold put_parent. farput. Qed.
Lemma put_edge_far b0 j v d d' : far b0 d -> put_edge j v d = Ok d' -> far b0 d'. Proof. unfold put_edge. farput. Qed.
Lemma put_stock_far b0 j v d d' : far b0 d -> put_stock j v d = Ok d' -> far b0 d'. Proof. unfold put_stock. farput. Qed.
Lemma put_snode_far b0 j v d d' : far b0 d -> put_snode j v d = Ok d' -> far b0 d'. Proof. unfold put_snode. farput. Qed.
Lemma put_freq_far b0 j v d d' : far b0 d -> put_freq j v d = Ok d' -> far b0 d'. Proof. unfold put_freq. farput. Qed.
Ltac fstep E := apply bind_ok in E; let a := fresh "a" in let X := fresh "X" in destruct E as [a [X E]]; cbv beta in E.

Lemma new_block_far b0 j d d' : far b0 d -> 0 <= j < 628 -> new_block j d = Ok d' -> far b0 d'.
Proof. intros H J E. unfold new_block in E. fstep E. fstep E. eapply put_edge_far; [|exact E]. exact (put_block_far _ _ _ _ _ H J X0). Qed.

Lemma startC_far mm d d' : startCDyn 286 mm d = Ok d' -> far (k_block d) d'.
Proof.
  intros E. unfold startCDyn in E. cbv zeta in E. assert (H : far (k_block d) (set_n1 (if u16 (256 + mm - 3 + 1) <=? 286 then 286 - 1 else 512) (set_nMax 286 d))) by (intros i _; reflexivity).
  revert H E. generalize (k_block d). intros b0 H E. fstep E. eapply (forZ_partial (fun _ => far b0)) in X; [|unfold treesizeC; lia| |exact H].
  2:{ intros i s s' I H1 E1. unfold treesizeC in I. unfold start_clear in E1. fstep E1. refine (put_block_far _ _ _ _ _ _ _ E1); [|lia]. eapply put_stock_far; eauto. }
  fstep E. eapply (forZ_partial (fun _ => far b0)) in X0; [|lia| |exact X].
  2:{ intros i s s' I H1 E1. unfold start_leaf in E1. cbv zeta in E1. do 3 fstep E1. refine (put_block_far _ _ _ _ _ _ _ E1); [|lia]. eapply put_snode_far; [|eassumption]. eapply put_child_far; [|eassumption]. eapply put_freq_far; eauto. }
  fstep E. eapply put_edge_far in X1; [|exact X0]. eapply (forZ_partial (fun _ => far b0)) in E; [exact E|lia| |exact X1].
  intros i s s' I H1 E1. unfold start_inner in E1. cbv zeta in E1. do 7 fstep E1.
  assert (H2 : far b0 a7) by (eapply put_parent_far; [|eassumption]; eapply put_parent_far; [|eassumption]; eapply put_child_far; [|eassumption]; eapply put_freq_far; eauto).
  destruct (_ =? _).
  - fstep E1. fstep E1. eapply put_edge_far; [|exact E1]. refine (put_block_far _ _ _ _ _ H2 _ ltac:(eassumption)). lia.
  - refine (new_block_far _ _ _ _ H2 _ E1). lia.
Qed.

(** ** The start *)
Definition blank (d : dh) : Prop := forall i, 629 <= i < 884 -> at_ (k_block d) i = 0.

Lemma start2_ok d : Sz d -> blank d -> exists d', decodeStartDyn d = Ok d' /\ St (start_tree 286) 1 [(1, Leaf 0)] d' /\ k_totalP d' = 0.
Proof.
  intros SZ HB. unfold decodeStartDyn. assert (H286 : (2 <= 286)%nat /\ Z.of_nat 286 <= 314) by lia.
  destruct (startCDyn_ok 286 H286 256 d SZ) as (d1 & S1 & S2 & S3 & S4). change (Z.of_nat 286) with 286 in S1, S2, S3, S4.
  change (if u16 (256 + 256 - 3 + 1) <=? 286 then 286 - 1 else 512) with 512 in S4. rewrite S1. cbn [bind]. apply startC_far in S1.
  assert (B1 : forall i, 629 <= i < 884 -> at_ (k_block d1) i = 0) by (intros i I; rewrite S1 by lia; now apply HB). clear S1 HB SZ d.
  destruct (start_ok 286 ltac:(lia)) as [W WR]. change (Z.of_nat 286) with 286 in W, WR. set (t := start_tree 286) in *.
  destruct S2 as [SZ RF RC RL [A RG EQ ED FR IN] RE]. pose proof (lead_range (at_ (k_freq d1)) (Z.to_nat (2 * 286 - 1))) as LR.
  destruct d1 as [ch pa bl ed st sn fr tp av mo nn nx n1 nm]. cbn [k_child k_parent k_block k_edge k_stock k_snode k_freq k_totalP k_avail k_n1 k_nMax] in *. unz.
  destruct (FR av ltac:(lia)) as [SV1 SV2].
  unfold startPDyn, rootP, nChar. dput. dput. dput. unfold new_block. dget. dput. dput. eexists. split; [reflexivity|]. split; [|reflexivity].
  assert (R : RepO 0 0 286 t (eq (at_ st av)) 1 (DH (upd ch 628 (- (314) - 1)) pa (upd bl 628 (at_ st av)) (upd ed (at_ st av) 628) st (upd sn 314 628) (upd fr 628 1) 0 (av + 1) 628 8192 64 n1 nm)).
  { constructor; cbn [k_child k_parent k_block k_edge k_stock k_snode k_freq k_totalP k_avail k_n1 k_nMax].
    - constructor; cbn [k_child k_parent k_block k_edge k_stock k_snode k_freq]; rewrite ?alen_upd; assumption.
    - intros i I. rewrite at_upd_ne by lia. apply RF. lia.
    - rewrite at_upd_ne by lia. rewrite RF by lia. lia.
    - intros i I. rewrite at_upd_ne by lia. rewrite Z.add_0_l, RC by lia. destruct (wh t i); cbn [enc encO]; lia.
    - intros i I. specialize (RL i I). destruct (wh t i) as [s|m] eqn:X; cbn [linked linkedO] in *.
      + pose proof (wf_leaf _ _ _ W i s I X). rewrite at_upd_ne by lia. rewrite !Z.add_0_l. exact RL.
      + rewrite !Z.add_0_l. exact RL.
    - assert (VFE : forall x, 0 <= x < 571 -> VF (upd fr 628 1) 0 x = at_ fr x) by (intros x X; unfold VF; rewrite at_upd_ne by lia; reflexivity).
      assert (VBE : forall x, 1 <= x < 571 -> VB (upd bl 628 (at_ st av)) 0 x = at_ bl x) by (intros x X; rewrite VB_pos by lia; rewrite at_upd_ne by lia; reflexivity).
      assert (VB0 : VB (upd bl 628 (at_ st av)) 0 0 = 0) by reflexivity.
      assert (R0 : forall x, 1 <= x < 571 -> at_ fr x <> at_ fr 0).
      { intros x X. rewrite !RF by lia. destruct (wf_fork _ _ _ W 0 1 ltac:(lia) (wf_root 286 ltac:(lia) t 0 W)) as [_ [_ D]]. unfold is in D. rewrite Z.eqb_refl in D.
        pose proof (wf_sort _ _ _ W 1 x ltac:(lia) ltac:(lia)). pose proof (wf_pos _ _ _ W 2 ltac:(lia)). change (2 * 1 - 1) with 1 in D. change (2 * 1) with 2 in D. lia. }
      constructor.
      + rewrite (lead_ext (at_ fr)) by (intros x X; apply VFE; lia). lia.
      + intros x X. destruct (Z.eq_dec x 0) as [->|]; [rewrite VB0; lia|]. rewrite VBE by lia. pose proof (RG x ltac:(lia)). lia.
      + intros x X. rewrite VBE by lia. apply RG. lia.
      + intros x y X Y. rewrite !VFE by lia. destruct (Z.eq_dec x 0) as [->|NX], (Z.eq_dec y 0) as [->|NY].
        * tauto.
        * rewrite VB0, VBE by lia. pose proof (RG y ltac:(lia)). split; intros Q; [lia|destruct (R0 y ltac:(lia) (eq_sym Q))].
        * rewrite VB0, VBE by lia. pose proof (RG x ltac:(lia)). split; intros Q; [lia|destruct (R0 x ltac:(lia) Q)].
        * rewrite !VBE by lia. apply EQ; lia.
      + intros x X. destruct (Z.eq_dec x 0) as [->|NX].
        * rewrite VB0. change (VE _ 0 0) with 0. split; [lia|]. split; [reflexivity|]. intros; lia.
        * rewrite VBE by lia. pose proof (RG x ltac:(lia)). rewrite VE_pos by lia. rewrite at_upd_ne by (first [lia|intros Q; apply (SV2 x); [lia|first [exact Q|exact (eq_sym Q)]]]). rewrite Z.sub_0_r.
          destruct (ED x ltac:(lia)) as (D1 & D2 & D3). rewrite !VFE by lia. split; [lia|]. split; [exact D2|]. intros j J. rewrite VFE by lia. now apply D3.
      + intros k K. destruct (FR k ltac:(lia)) as [F1 F2]. split; [exact F1|]. intros x X. destruct (Z.eq_dec x 0) as [->|]; [rewrite VB0; lia|]. rewrite VBE by lia. apply F2. lia.
      + intros k l K L. apply IN; lia.
      + intros x X Q. rewrite VBE in Q by lia. apply (SV2 x); [lia|exact Q].
      + intros j J Q. apply IN in Q; lia.
    - rewrite at_upd_ne by lia. exact RE. }
  clearbody t. constructor; cbn [k_child k_parent k_block k_edge k_stock k_snode k_freq k_totalP k_avail k_n1 k_nMax k_next k_nn k_mostP].
  - lia.
  - exact W.
  - rewrite at_upd_ne by lia. apply RF. lia.
  - exact wf_one.
  - split; [lia|]. change (wt [(1, Leaf 0)] 0) with 1. lia.
  - reflexivity.
  - reflexivity.
  - exact S4.
  - reflexivity.
  - intros i I. rewrite at_upd_ne by lia. apply B1. lia.
  - left. cbn [k_block]. split; [reflexivity|]. split; [reflexivity|]. rewrite at_upd_eq by lia. split; [|exact R].
    constructor; cbn [k_child k_parent k_block k_edge k_stock k_snode k_freq]; rewrite ?at_upd_eq by lia; first [reflexivity|lia].
Qed.

(** ** Only -lh1- and -lh2- data change the blocks *)
Lemma other_decode m k broken o p inp g : m <> 1 -> m <> 2 -> kp (fun s => k_block (g_dh (fst s)) = k_block (g_dh g)) (decode_old m k broken o p inp g).
Proof.
  intros N1 N2. apply Z.eqb_neq in N1, N2. unfold decode_old. cbv zeta.
  apply (kp_bind (fun s => k_block (x_dh (snd s)) = k_block (g_dh g))).
  { unfold decodeMethodStart. rewrite N1, N2. destruct (m =? 3); [|destruct (m =? 8); [|destruct (m =? 9); [|destruct (m =? 13)]]].
    - apply (kp_bind (fun _ => True)); [apply kp_true|]. intros r _. now apply kp_ret.
    - apply (kp_bind (fun _ => True)); [apply kp_true|]. intros r _. now apply kp_ret.
    - apply (kp_bind (fun _ => True)); [apply kp_true|]. intros r _. now apply kp_ret.
    - apply (kp_bind (fun _ => True)); [apply kp_true|]. intros r _. apply (kp_bind (fun _ => True)); [apply kp_true|]. intros [m1 r1] _. now apply kp_ret.
    - now apply kp_ret. }
  intros [[[h r] t] x] H1. cbn [snd] in H1.
  eapply kp_bind; [apply (kp_loop (fun s : dst * ext => k_block (x_dh (snd s)) = k_block (g_dh g)) (fun s : dst * ext => k_block (x_dh (snd s)) = k_block (g_dh g))); [|exact H1]|].
  { intros [s y] HS. cbn [snd] in HS. unfold old_step. destruct (d_count s <? o); [|now apply kp_ret].
    apply (kp_bind (fun s => k_block (x_dh (snd s)) = k_block (g_dh g))).
    { unfold decodeMethodC. rewrite N1, N2. cbn [orb]. destruct (m =? 3); [|destruct (m =? 8); [|destruct (m =? 9); [|destruct (m =? 13)]]].
      - apply (kp_bind (fun _ => True)); [apply kp_true|]. intros [[c h1] r1] _. now apply kp_ret.
      - apply (kp_bind (fun _ => True)); [apply kp_true|]. intros [[c h1] r1] _. now apply kp_ret.
      - cbv zeta. destruct (decodeCLz5 _) as [c z]. now apply kp_ret.
      - apply (kp_bind (fun _ => True)); [apply kp_true|]. intros [[[c n] m1] r1] _. now apply kp_ret.
      - now apply kp_ret. }
    intros [[c s1] x1] HS1. cbn [snd] in HS1. destruct (c <? 256).
    - apply (kp_bind (fun _ => True)); [apply kp_true|]. intros s2 _. now apply kp_ret.
    - cbv zeta. apply (kp_bind (fun s => k_block (x_dh (snd s)) = k_block (g_dh g))).
      { unfold decodeMethodP. rewrite N1, N2. cbn [orb]. destruct (m =? 3); [|destruct (m =? 8); [|destruct (m =? 9); [|destruct (m =? 13)]]]; try (now apply kp_ret);
        (apply (kp_bind (fun _ => True)); [apply kp_true|]; intros [p0 r0] _; now apply kp_ret). }
      intros [[p2 s2] x2] HS2. cbn [snd] in HS2. apply (kp_bind (fun _ => True)); [apply kp_true|]. intros s3 _. now apply kp_ret. }
  intros [s y] HS. apply kp_ret. exact HS.
Qed.

(** Calls that decode neither -lh1- nor -lh2- data. *)
Definition not_adaptive (c : call) : Prop := match c with CallEnc _ _ _ => True | CallDec m _ _ _ _ => m <> 1 /\ m <> 2 end.

Lemma other_call c g g' : not_adaptive c -> run_call c g = Some g' -> k_block (g_dh g') = k_block (g_dh g).
Proof.
  intros H E. destruct c as [m size inp|m broken o p inp]; cbn [run_call not_adaptive] in *.
  - destruct (EncodeLzhuf m size inp g) as [eo| |] eqn:X; try discriminate. injection E as <-. revert eo X.
    change (kp (fun eo => k_block (g_dh (eo_glob eo)) = k_block (g_dh g)) (EncodeLzhuf m size inp g)). unfold EncodeLzhuf.
    destruct (if 0 <? m then method_params m else None) as [[k mx]|].
    + cbv zeta. eapply kp_bind; [apply encode_dh|]. intros er HE. cbv beta in HE. destruct (er_original er =? 0); [intros ? Z; discriminate Z|]. apply kp_ret. cbn [eo_glob]. rewrite HE.
      unfold encodeAlloc. destruct (alen (g_hpos g) =? 0); reflexivity.
    + cbv zeta. apply (kp_bind (fun _ => True)); [apply kp_true|]. intros [[out r] rest] _. destruct (r =? 0); [intros ? Z; discriminate Z|]. now apply kp_ret.
  - destruct (DecodeLzhuf m broken o p inp g) as [[[[[g1 a] b] c] d]| |] eqn:X; try discriminate. injection E as <-.
    assert (Y : kp (fun s => k_block (g_dh (fst (fst (fst (fst s))))) = k_block (g_dh g)) (DecodeLzhuf m broken o p inp g)); [|exact (Y _ X)]. clear X.
    unfold DecodeLzhuf. destruct (dec_dicbit m) as [k|].
    + destruct (k =? 0); [apply (kp_bind (fun _ => True)); [apply kp_true|]; intros [[out r] rest] _; now apply kp_ret|].
      apply (kp_bind (fun _ => True)); [apply kp_true|]. intros x _. now apply kp_ret.
    + eapply kp_bind; [apply other_decode; apply H|]. intros [g2 x] H2. now apply kp_ret.
Qed.

Lemma after_blank cs g : after cs g -> Forall not_adaptive cs -> blank (g_dh g).
Proof.
  intros [_ R] F. assert (B0 : blank (g_dh glob0)) by (intros i I; cbn [g_dh glob0 dh0 k_block]; apply at_amake). revert B0 R. generalize glob0. induction F as [|c cs H F IH]; intros g0 B0 R; cbn [run_calls] in R.
  - now injection R as <-.
  - destruct (run_call c g0) as [g1|] eqn:E; [|discriminate]. apply (IH g1); [|exact R]. intros i I. rewrite (other_call c g0 g1 H E). now apply B0.
Qed.

(** ** The stream *)
Lemma lh2_len most : forall ts count, lh2_ok most count ts -> Forall (fun t => 1 <= toklen t) ts.
Proof. induction ts as [|[b|l p] ts IH]; intros count H; cbn [lh2_ok] in H; constructor; cbn [toklen]; try lia; [eapply IH; apply H|eapply IH; apply H]. Qed.

(** [lh2_widen 128], which is not to be computed in proofs. *)
Lemma wide_ex : { f : Z -> tree * Z -> tree * Z | forall c st, f c st = lh2_widen 128 c st }.
Proof. exists (lh2_widen 128). reflexivity. Qed.
Definition wide : Z -> tree * Z -> tree * Z := proj1_sig wide_ex.
Lemma wide_eq c st : wide c st = lh2_widen 128 c st.
Proof. exact (proj2_sig wide_ex c st). Qed.
Lemma bits_byte t st c b r : lh2_bits t st c (LzByte b :: r) = sym_code t b ++ lh2_bits (adapt t b) st (c + 1) r.
Proof. reflexivity. Qed.
Lemma bits_copy t st c len d r : len < 32 -> lh2_bits t st c (LzCopy len d :: r) =
  sym_code t (253 + len) ++ sym_code (fst (wide c st)) ((d - 1) / 64) ++ to_bits 6 ((d - 1) mod 64) ++ lh2_bits (adapt t (253 + len)) (lh2_adapt (wide c st) ((d - 1) / 64)) (c + len) r.
Proof. intros H. rewrite wide_eq. cbn [lh2_bits lh2_sym lh2_more]. cbv zeta. generalize (lh2_widen 128 c st). intros st1. destruct (Z.ltb_spec len 32); [cbn [app]; reflexivity|lia]. Qed.

Lemma decodeP2w packed rest tC n tP d count dist r B tail : St tC n tP d -> 0 <= count <= 1856 -> k_totalP d < 20000 -> 1 <= dist <= reach count ->
  Rd packed rest r B (sym_code (fst (wide count (tP, k_totalP d))) ((dist - 1) / 64) ++ to_bits 6 ((dist - 1) mod 64) ++ tail) ->
  exists n' tP' d' r', decodePDyn count d r = Ok (dist - 1, d', r') /\ lh2_adapt (wide count (tP, k_totalP d)) ((dist - 1) / 64) = (tP', k_totalP d') /\ St tC n' tP' d' /\ n <= n' /\ k_totalP d' = k_totalP d + (n' - n) + 1 /\
    Rd packed rest r' (B + Z.of_nat (length (sym_code (fst (wide count (tP, k_totalP d))) ((dist - 1) / 64))) + 6) tail.
Proof. rewrite wide_eq. apply decodeP2. Qed.

Lemma lh2_steps size packed rest : size <= 1856 -> forall ts k s x out B tC n tP tail,
  DI 8192 s out -> bytes out -> d_count s = zlen out -> St tC n tP (x_dh x) -> wt tC 0 <= 286 + zlen out -> k_totalP (x_dh x) <= zlen out + n ->
  Rd packed rest (d_r s) B (lh2_bits tC (tP, k_totalP (x_dh x)) (zlen out) ts ++ tail) -> lh2_ok 31 (zlen out) ts -> zlen (fold_left lz_step ts out) = size -> (length ts < k)%nat ->
  exists s' x', loopN k (old_step 2 8192 size) (s, x) = Ok (Stop (s', x')) /\ DI 8192 s' (fold_left lz_step ts out) /\
    Rd packed rest (d_r s') (B + Z.of_nat (length (lh2_bits tC (tP, k_totalP (x_dh x)) (zlen out) ts))) tail.
Proof.
  intros HS. induction ts as [|tk ts IH]; intros k s x out B tC n tP tail I Bo Ec ST HW HT R F Es Hk; (destruct k as [|k]; [cbn [length] in Hk; lia|]).
  - exists s, x. cbn [loopN fold_left lh2_bits length app] in *. unfold old_step. destruct (Z.ltb_spec (d_count s) size); [lia|]. split; [reflexivity|]. split; [exact I|]. rewrite Z.add_0_r. exact R.
  - cbn [length] in Hk. cbn [loopN fold_left] in *. pose proof (zlen_nonneg out) as ZO. pose proof (s_n _ _ _ _ ST) as NB.
    assert (F3 : Forall (fun t => 1 <= toklen t) ts) by (destruct tk; eapply lh2_len; apply F).
    assert (T1 : 1 <= toklen tk) by (destruct tk; cbn [toklen lh2_ok] in *; lia).
    pose proof (lz_steps_len ts (lz_step out tk) F3) as RL. rewrite lz_step_len in RL by exact T1. pose proof (zlen_nonneg ts) as ZN.
    unfold old_step at 1. destruct (Z.ltb_spec (d_count s) size); [|lia].
    unfold decodeMethodC. change ((2 =? 1) || (2 =? 2)) with true. cbv iota.
    pose proof (di_loc _ _ _ I) as DL.
    destruct tk as [b|l p]; cbn [lz_step toklen lh2_ok] in *.
    + rewrite bits_byte in R |- *. rewrite <- !app_assoc in R.
      destruct (decodeC2 packed rest tC n tP (x_dh x) b (d_r s) B _ ST ltac:(lia) ltac:(lia) R) as (d1 & r1 & E1 & ST1 & W1 & TT1 & R1). rewrite E1. cbn [bind]. clear E1 R.
      destruct (Z.ltb_spec b 256); [|lia].
      destruct (dput_ok 8192 b (with_r r1 s) out) as [s1 [P1 [P2 [P3 [P4 P5]]]]]; [lia|now apply DI_hr|unfold is_byte; lia|lia|].
      rewrite P1. cbn [bind]. cbn [with_r with_hr d_huf d_r d_count] in P3, P4, P5.
      assert (ZL : zlen (out ++ [b]) = zlen out + 1) by (rewrite zlen_app; reflexivity). rewrite <- TT1, <- ZL in R1. rewrite <- TT1, <- ZL. rewrite <- TT1 in HT.
      destruct (IH k (DST (d_huf s1) (d_r s1) (d_text s1) (d_loc s1) (d_crc s1) (d_out s1) (d_count s1 + 1)) (EXT d1 (x_pm x) (x_cnt x) (x_flag x) (x_pos x)) (out ++ [b])
        (B + Z.of_nat (length (sym_code tC b))) (adapt tC b) n tP tail) as (s' & x' & L1 & L2 & L3).
      * now apply DI_hr.
      * apply Forall_app. split; [exact Bo|]. constructor; [unfold is_byte; lia|constructor].
      * cbn [d_count]. lia.
      * exact ST1.
      * lia.
      * cbn [x_dh]. lia.
      * cbn [d_r]. rewrite P4. exact R1.
      * rewrite ZL. apply F.
      * exact Es.
      * lia.
      * exists s', x'. split; [exact L1|]. split; [exact L2|]. cbn [x_dh] in L3. rewrite app_length.
        match goal with |- Rd _ _ _ ?b _ => match type of L3 with Rd _ _ _ ?b2 _ => replace b with b2 by lia end end. exact L3.
    + destruct F as (F1 & F2 & F4). rewrite bits_copy in R |- * by lia. rewrite <- !app_assoc in R.
      destruct (decodeC2 packed rest tC n tP (x_dh x) (253 + l) (d_r s) B _ ST ltac:(lia) ltac:(lia) R) as (d1 & r1 & E1 & ST1 & W1 & TT1 & R1). rewrite E1. cbn [bind]. clear E1 R.
      destruct (Z.ltb_spec (253 + l) 256); [lia|]. cbv zeta.
      unfold decodeMethodP. change ((2 =? 1) || (2 =? 3)) with false. change (2 =? 2) with true. cbv iota. cbn [with_r with_hr d_huf d_r x_dh d_count].
      rewrite <- TT1 in R1 |- *. rewrite Ec. rewrite <- TT1 in HT.
      destruct (decodeP2w packed rest (adapt tC (253 + l)) n tP d1 (zlen out) p r1 (B + Z.of_nat (length (sym_code tC (253 + l)))) _ ST1 ltac:(lia) ltac:(lia) F2 R1)
        as (n2 & tP2 & d2 & r2 & E2 & A2 & ST2 & N2 & TT2 & R2). clear R1.
      rewrite E2. cbn [bind]. change (adjust 2) with 253. replace (253 + l - 253) with l by lia. cbn [with_r with_hr d_huf d_r d_text d_loc d_crc d_out d_count]. rewrite ?Ec. cbn [x_pm x_cnt x_flag x_pos].
      assert (PB : 1 <= p <= 8192) by (unfold reach in F2; lia).
      destruct (dcopy_ok 13 l p (Z.land (u64 (d_loc s - (p - 1 + 1))) (8192 - 1)) (DST (d_huf s) r2 (d_text s) (d_loc s) (d_crc s) (d_out s) (zlen out + l)) out)
        as [s1 [P1 [P2 [P3 [P4 P5]]]]]; auto; try (change (2 ^ 13) with 8192); try lia.
      { now apply DI_hr. } { cbn [d_loc]. rewrite match_place13 by lia. f_equal. lia. }
      change (2 ^ 13) with 8192 in P1, P2. rewrite P1. cbn [bind]. cbn [d_huf d_r d_count] in P3, P4, P5.
      assert (ZL : zlen (lz_copy (Z.to_nat l) p out) = zlen out + l) by (rewrite lz_copy_zlen; lia).
      rewrite A2 in R2 |- *. rewrite <- ZL in R2 |- *. rewrite <- ZL in F4.
      destruct (IH k s1 (EXT d2 (x_pm x) (x_cnt x) (x_flag x) (x_pos x)) (lz_copy (Z.to_nat l) p out)
        (B + Z.of_nat (length (sym_code tC (253 + l))) + Z.of_nat (length (sym_code (fst (wide (zlen out) (tP, k_totalP d1))) ((p - 1) / 64))) + 6) (adapt tC (253 + l)) n2 tP2 tail) as (s' & x' & L1 & L2 & L3).
      * exact P2.
      * now apply lz_copy_bytes.
      * lia.
      * exact ST2.
      * lia.
      * cbn [x_dh]. lia.
      * rewrite P4. exact R2.
      * exact F4.
      * exact Es.
      * lia.
      * exists s', x'. split; [exact L1|]. split; [exact L2|]. cbn [x_dh] in L3. rewrite !app_length, to_bits_length.
        match goal with |- Rd _ _ _ ?b _ => match type of L3 with Rd _ _ _ ?b2 _ => replace b with b2 by lia end end. exact L3.
Qed.

Theorem lh2_decodes g ts data rest pad : Sz (g_dh g) -> blank (g_dh g) -> lh2_ok 31 0 ts -> zlen (lz_expand ts) <= 1856 -> bytes (data ++ rest) ->
  byte_string_bits data = lh2_stream ts ++ pad -> (length pad < 16)%nat ->
  exists g2, DecodeLzhuf 2 false (zlen (lz_expand ts)) (zlen data) (data ++ rest) g = Ok (g2, calcCrc 0 (lz_expand ts), lz_expand ts, zlen data, rest).
Proof.
  intros HZ HB F HL B EB HP. destruct (initGetbits_bits data rest B) as [r [E R]]. rewrite EB in R.
  destruct (start2_ok (g_dh g) HZ HB) as (d & D1 & ST & T0). pose proof (lz_steps_len ts [] (lh2_len _ _ _ F)) as RL. rewrite zlen_nil in RL. fold (lz_expand ts) in RL. pose proof (zlen_nonneg ts) as ZN.
  set (size := zlen (lz_expand ts)) in *. set (x0 := EXT d (g_pm g) 0 0 0).
  destruct (start_ok 286 ltac:(lia)) as [_ WR]. change (Z.of_nat 286) with 286 in WR.
  destruct (lh2_steps size (zlen data) rest HL ts (Z.to_nat (size + 2)) (DST (g_huf g) r (afill 8192 32) 0 0 [] 0) x0 [] 0 (start_tree 286) 1 [(1, Leaf 0)] pad) as (s & x & L1 & L2 & L3);
    unfold x0; cbn [x_dh]; rewrite ?T0; change (zlen (@nil Z)) with 0; auto; try lia.
  { apply DI_blank13. } { apply Forall_nil. } { unfold zlen in *. lia. }
  fold x0 in L1. fold (lz_expand ts) in L2. unfold x0 in L3. cbn [x_dh] in L3. rewrite T0 in L3. change (zlen (@nil Z)) with 0 in L3. assert (L4 : Rd (zlen data) rest (d_r s) (0 + Z.of_nat (length (lh2_stream ts))) pad) by exact L3. clear L3.
  unfold DecodeLzhuf. change (dec_dicbit 2) with (@None Z). cbv iota. change (old_dicbit 2) with 13. unfold decode_old. change (Z.shiftl 1 13) with 8192. cbv zeta.
  unfold decodeMethodStart. change (2 =? 1) with false. change (2 =? 2) with true. cbv iota. rewrite E. cbn [bind x_dh]. rewrite D1. cbn [bind x_pm x_cnt x_flag x_pos]. fold x0.
  rewrite loop_loopN by lia. rewrite L1. cbn [bind].
  destruct (dst_final _ _ _ L2) as [C1 [C2 [C3 C4]]]. cbv zeta in C1, C2, C3, C4. cbn [dr_crc dr_out dr_readSize dr_in]. rewrite C1, C2, C4.
  destruct (Rd_end _ _ _ _ _ L4) as [Z1 Z2].
  { assert (L : length (byte_string_bits data) = (length (lh2_stream ts) + length pad)%nat) by (rewrite EB, app_length; reflexivity).
    rewrite byte_string_bits_length in L. unfold zlen. revert L HP. generalize (length (lh2_stream ts)). clear. intros. lia. }
  eexists. rewrite Z1, Z2, Z.sub_0_r. reflexivity.
Qed.
