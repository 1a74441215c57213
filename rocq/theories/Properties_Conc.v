(** Two objects used at the same time. *)
From Verif Require Import Go GoLemmas M_Crc M_Bitio M_Maketree M_Maketbl M_Huf M_Slide M_Decode M_Lzhuf M_Conc P_Bitio P_HufTables S_History P_Decode P_DecAny Properties_Slide.

(** ** The interleavings against the call of one goroutine *)

Lemma conc_run_app s1 : forall s2 s a b, conc_run (s1 ++ s2) s a b = ('(s, a, b) <- conc_run s1 s a b ;; conc_run s2 s a b).
Proof.
  induction s1 as [|[|] s1 IH]; intros s2 s a b; cbn [app conc_run]; [reflexivity| |].
  - destruct (conc_step s a) as [[s' a']| |]; cbn [bind]; auto.
  - destruct (conc_step s b) as [[s' b']| |]; cbn [bind]; auto.
Qed.

Lemma iter_same d s size : d_count s < size -> decode_step d size s = (x <- conc_iter d d s ;; Ok (Go x)).
Proof.
  intros H. unfold decode_step, conc_iter. destruct (Z.ltb_spec (d_count s) size); [|lia].
  destruct (decodeCSt1 (d_huf s) (d_r s)) as [[[c h] r]| |]; cbn [bind]; auto. cbv zeta. cbn [d_huf d_r d_text d_loc d_crc d_out d_count].
  destruct (c <? 256); [destruct (dput d c _); reflexivity|].
  destruct (decodePSt1 h r) as [[p r']| |]; cbn [bind]; auto.
Qed.

(** The state of a goroutine in the loop. *)
Definition at_loop (d size packed : Z) (x : dst) : shared * task :=
  (SH (d_huf x) (d_text x) d (d_count x), Working d size packed (d_r x) (d_loc x) (d_crc x) (d_out x)).

Lemma step_go d size packed x x' : decode_step d size x = Ok (Go x') ->
  conc_step (fst (at_loop d size packed x)) (snd (at_loop d size packed x)) = Ok (at_loop d size packed x').
Proof.
  intros E. assert (L : d_count x < size). { unfold decode_step in E. destruct (Z.ltb_spec (d_count x) size); [lia|discriminate E]. }
  rewrite (iter_same d x size L) in E. apply bind_ok in E. destruct E as (y & E1 & E2). injection E2 as ->.
  unfold at_loop, conc_step. cbn [fst snd sh_huf sh_text sh_dicsiz sh_count]. destruct (Z.ltb_spec (d_count x) size); [|lia].
  destruct x as [h r t l c o n]. cbn [d_huf d_r d_text d_loc d_crc d_out d_count] in *. rewrite E1. reflexivity.
Qed.

Lemma step_stop d size packed x x' : decode_step d size x = Ok (Stop x') -> d_loc x <= alen (d_text x) ->
  let y := if d_loc x =? 0 then x else fwriteCrc (d_loc x) x in
  x' = x /\ size <= d_count x /\ conc_step (fst (at_loop d size packed x)) (snd (at_loop d size packed x)) =
    Ok (fst (at_loop d size packed x), Finished (d_crc y) (concat (rev (d_out y))) (packed - compsize (d_r y)) (infile (d_r y))).
Proof.
  intros E LT y. destruct (Z.ltb_spec (d_count x) size) as [L|L].
  { rewrite (iter_same d x size L) in E. apply bind_ok in E. destruct E as (z & _ & E). discriminate E. }
  unfold decode_step in E. destruct (Z.ltb_spec (d_count x) size); [lia|]. injection E as <-. split; [reflexivity|]. split; [lia|].
  unfold at_loop, conc_step. cbn [fst snd sh_huf sh_text sh_dicsiz sh_count]. destruct (Z.ltb_spec (d_count x) size); [lia|].
  unfold conc_end. cbn [d_huf d_r d_text d_loc d_crc d_out d_count]. subst y.
  destruct x as [h r t l c o n]. cbn [d_huf d_r d_text d_loc d_crc d_out d_count] in *.
  destruct (Z.eqb_spec l 0); [reflexivity|]. destruct (Z.ltb_spec (alen t) l); [lia|]. reflexivity.
Qed.

Definition fits (x : dst) : Prop := d_loc x <= alen (d_text x).

Lemma dput_fits d c x x' : dput d c x = Ok x' -> fits x'.
Proof.
  unfold dput, fits. intros E. apply bind_ok in E. destruct E as (t & E1 & E2).
  assert (A : 0 <= d_loc x < alen (d_text x) /\ alen t = alen (d_text x)).
  { unfold aset, inb in E1. destruct (Z.leb_spec 0 (d_loc x)); [|discriminate E1]. destruct (Z.ltb_spec (d_loc x) (alen (d_text x))); [|discriminate E1]. cbn [andb] in E1. injection E1 as <-. split; [lia|reflexivity]. }
  cbv zeta in E2. destruct (u16 (d_loc x + 1) =? d); injection E2 as <-; cbn [fwriteCrc d_loc d_text]; [lia|].
  unfold u16. pose proof (Z.mod_le (d_loc x + 1) 65536 ltac:(lia) ltac:(lia)). lia.
Qed.

Lemma step_fits d size x x' : fits x -> decode_step d size x = Ok (Go x') -> fits x'.
Proof.
  intros F E. assert (L : d_count x < size). { unfold decode_step in E. destruct (Z.ltb_spec (d_count x) size); [lia|discriminate E]. }
  rewrite (iter_same d x size L) in E. apply bind_ok in E. destruct E as (y & E1 & E2). injection E2 as <-.
  unfold conc_iter in E1. apply bind_ok in E1. destruct E1 as ([[c h] r] & _ & E1). cbv zeta in E1. destruct (c <? 256).
  - apply bind_ok in E1. destruct E1 as (z & E2 & E3). apply dput_fits in E2. injection E3 as <-. exact E2.
  - apply bind_ok in E1. destruct E1 as ([p r'] & _ & E1). destruct (Z_le_gt_dec 0 (c - (256 - threshold))) as [P|P].
    + revert E1. apply (forZ_partial (fun _ s => fits s)); [lia| |exact F]. intros i s s' _ _ E. apply bind_ok in E. destruct E as (v & _ & E). exact (dput_fits _ _ _ _ E).
    + unfold forZ in E1. replace (Z.to_nat (c - (256 - threshold) - 0)) with O in E1 by lia. injection E1 as <-. exact F.
Qed.

(** [k] steps of one goroutine. *)
Fixpoint steps (k : nat) (s : shared) (t : task) : res (shared * task) :=
  match k with O => Ok (s, t) | S k => '(s, t) <- conc_step s t ;; steps k s t end.

Lemma run_first k : forall s a b, conc_run (repeat true k) s a b = ('(s, a) <- steps k s a ;; Ok (s, a, b)).
Proof. induction k as [|k IH]; intros s a b; cbn [repeat conc_run steps]; [reflexivity|]. destruct (conc_step s a) as [[s' a']| |]; cbn [bind]; auto. Qed.

Lemma run_second k : forall s a b, conc_run (repeat false k) s a b = ('(s, b) <- steps k s b ;; Ok (s, a, b)).
Proof. induction k as [|k IH]; intros s a b; cbn [repeat conc_run steps]; [reflexivity|]. destruct (conc_step s b) as [[s' b']| |]; cbn [bind]; auto. Qed.

Lemma steps_finished k : forall s c o n r, steps k s (Finished c o n r) = Ok (s, Finished c o n r).
Proof. induction k as [|k IH]; intros; cbn [steps conc_step]; [reflexivity|]. cbn [bind]. apply IH. Qed.

Lemma loop_steps d size packed n : forall x x', fits x -> loopN n (decode_step d size) x = Ok (Stop x') ->
  let y := if d_loc x' =? 0 then x' else fwriteCrc (d_loc x') x' in
  exists k, size <= d_count x' /\ forall j, (k <= j)%nat -> steps j (fst (at_loop d size packed x)) (snd (at_loop d size packed x)) =
    Ok (fst (at_loop d size packed x'), Finished (d_crc y) (concat (rev (d_out y))) (packed - compsize (d_r y)) (infile (d_r y))).
Proof.
  induction n as [|n IH]; intros x x' F E; [discriminate E|]. cbn [loopN] in E. destruct (decode_step d size x) as [c| |] eqn:D; try discriminate E. cbn [bind] in E.
  destruct c as [z|z].
  - destruct (IH z x' (step_fits _ _ _ _ F D) E) as (k & C & K). exists (S k). split; [exact C|]. intros [|j] J; [lia|]. cbn [steps]. rewrite (step_go d size packed x z D). cbn [bind]. apply K. lia.
  - injection E as <-. destruct (step_stop d size packed x z D F) as (-> & C & S). exists 1%nat. split; [exact C|].
    intros [|j] J; [lia|]. cbn [steps]. rewrite S. cbn [bind]. apply steps_finished.
Qed.

Lemma decode_steps m dicbit size packed inp g g2 crc out n rest s : dec_dicbit m = Some dicbit -> dicbit <> 0 ->
  DecodeLzhuf m false size packed inp g = Ok (g2, crc, out, n, rest) -> decodeStartSt1 dicbit (sh_huf s) = decodeStartSt1 dicbit (g_huf g) ->
  exists k s', sh_huf s' = g_huf g2 /\ size <= sh_count s' /\
    forall j, (k <= j)%nat -> steps j s (Waiting dicbit size packed inp) = Ok (s', Finished crc out n rest).
Proof.
  intros M NZ E HS. unfold DecodeLzhuf in E. rewrite M in E. destruct (Z.eqb_spec dicbit 0); [contradiction|].
  apply bind_ok in E. destruct E as (x & E & E'). injection E' as <- <- <- <- <-. unfold decode in E. cbv zeta in E.
  apply bind_ok in E. destruct E as (r & E0 & E). apply bind_ok in E. destruct E as (x' & E1 & E). injection E as <-. cbn [dr_crc dr_out dr_readSize dr_in dr_huf g_huf].
  destruct (Z_lt_le_dec 0 (size + 2)) as [P|P]; [|exfalso; unfold loop in E1; destruct (size + 2); try discriminate E1; lia].
  rewrite loop_loopN in E1 by lia. apply bind_ok in E1. destruct E1 as (c & E1 & E2). destruct c as [z|z]; [discriminate E2|]. injection E2 as ->.
  assert (F0 : fits (DST (decodeStartSt1 dicbit (g_huf g)) r (afill (Z.shiftl 1 dicbit) 32) 0 0 [] 0)).
  { unfold fits. cbn [d_loc d_text]. change (0 <= Z.shiftl 1 dicbit). apply Z.shiftl_nonneg. lia. }
  destruct (loop_steps (Z.shiftl 1 dicbit) size packed _ _ _ F0 E1) as (k & C & K).
  exists (S k). eexists. split; [|split; [|intros [|j] J; [lia|]; cbn [steps conc_step]; unfold conc_start; cbv zeta; rewrite E0; cbn [bind]; rewrite HS; exact (K j ltac:(lia))]].
  - cbn [at_loop fst sh_huf]. destruct (d_loc x' =? 0); reflexivity.
  - exact C.
Qed.

(** ** C99: two objects at the same time *)

(** When the second goroutine starts after the first one has finished, both get what they
    get without the other. *)
Theorem C99_one_after_the_other_partial :
  forall m1 m2 d1 d2 size1 size2 packed1 packed2 inp1 inp2 g g1 g2 crc1 crc2 out1 out2 n1 n2 rest1 rest2 text dicsiz count,
    dec_dicbit m1 = Some d1 -> dec_dicbit m2 = Some d2 -> d1 <> 0 -> d2 <> 0 ->
    DecodeLzhuf m1 false size1 packed1 inp1 g = Ok (g1, crc1, out1, n1, rest1) ->
    DecodeLzhuf m2 false size2 packed2 inp2 g1 = Ok (g2, crc2, out2, n2, rest2) ->
    exists i0 j0 s', forall i j, (i0 <= i)%nat -> (j0 <= j)%nat ->
      conc_run (repeat true i ++ repeat false j) (SH (g_huf g) text dicsiz count) (Waiting d1 size1 packed1 inp1) (Waiting d2 size2 packed2 inp2)
      = Ok (s', Finished crc1 out1 n1 rest1, Finished crc2 out2 n2 rest2).
Proof.
  intros m1 m2 d1 d2 size1 size2 packed1 packed2 inp1 inp2 g g1 g2 crc1 crc2 out1 out2 n1 n2 rest1 rest2 text dicsiz count M1 M2 N1 N2 E1 E2.
  destruct (decode_steps m1 d1 size1 packed1 inp1 g g1 crc1 out1 n1 rest1 (SH (g_huf g) text dicsiz count) M1 N1 E1 eq_refl) as (i0 & s1 & H1 & _ & K1).
  destruct (decode_steps m2 d2 size2 packed2 inp2 g1 g2 crc2 out2 n2 rest2 s1 M2 N2 E2 ltac:(now rewrite H1)) as (j0 & s2 & H2 & _ & K2).
  exists i0, j0, s2. intros i j I J. rewrite conc_run_app, run_first, (K1 i I). cbn [bind]. rewrite run_second, (K2 j J). reflexivity.
Qed.

(** The claim is false, for any two files this library compresses with -lh5- or -lh6-,
    the second at least as long as the first: there is an interleaving in which the
    first goroutine gets no byte at all and the second one all of its file. *)
Theorem C99_concurrent_refuted :
  forall cs1 g1 cs2 g2 cs g m1 m2 d1 d2 body1 body2 eo1 eo2 text dicsiz count,
    after cs1 g1 -> after cs2 g2 -> after cs g -> (m1 = 5 /\ d1 = 13 \/ m1 = 6 /\ d1 = 15) -> (m2 = 5 /\ d2 = 13 \/ m2 = 6 /\ d2 = 15) ->
    bytes body1 -> body1 <> [] -> bytes body2 -> zlen body1 <= zlen body2 ->
    EncodeLzhuf m1 (zlen body1) body1 g1 = Ok eo1 -> eo_packed eo1 < eo_original eo1 ->
    EncodeLzhuf m2 (zlen body2) body2 g2 = Ok eo2 -> eo_packed eo2 < eo_original eo2 ->
    exists sched s' n1 rest1,
      conc_run sched (SH (g_huf g) text dicsiz count) (Waiting d1 (eo_original eo1) (eo_packed eo1) (eo_out eo1)) (Waiting d2 (eo_original eo2) (eo_packed eo2) (eo_out eo2))
      = Ok (s', Finished 0 [] n1 rest1, Finished (eo_crc eo2) body2 (eo_packed eo2) []) /\ [] <> body1.
Proof.
  intros cs1 g1 cs2 g2 cs g m1 m2 d1 d2 body1 body2 eo1 eo2 text dicsiz count A1 A2 A HM1 HM2 B1 NE1 B2 LE E1 P1 E2 P2.
  assert (NE2 : body2 <> []). { intros ->. destruct body1 as [|x l]; [now apply NE1|]. unfold zlen in LE. cbn [length] in LE. lia. }
  destruct (C14_round_trip_lh5_lh6 cs1 g1 cs g m1 body1 eo1 [] A1 A ltac:(tauto) B1 NE1 ltac:(constructor) E1 P1) as (_ & O1 & _ & PL1 & _).
  destruct (C14_round_trip_lh5_lh6 cs2 g2 cs g m2 body2 eo2 [] A2 A ltac:(tauto) B2 NE2 ltac:(constructor) E2 P2) as (_ & O2 & _ & PL2 & gx & D2). rewrite app_nil_r in D2.
  destruct (C05_compressed_not_larger cs1 g1 m1 (zlen body1) body1 eo1 A1 ltac:(tauto) (zlen_nonneg _) B1 NE1 E1) as (_ & [PN _] & BO).
  (* the first goroutine enters its loop *)
  assert (W0 : rwf (RS 0 0 0 (eo_packed eo1) (eo_out eo1))) by (constructor; cbn; auto; lia).
  destruct (fillbuf_total 16 (RS 0 0 0 (eo_packed eo1) (eo_out eo1)) W0 ltac:(lia)) as (r & R0 & _ & _).
  set (s1 := SH (decodeStartSt1 d1 (g_huf g)) (afill (Z.shiftl 1 d1) 32) (Z.shiftl 1 d1) 0).
  assert (S1 : conc_step (SH (g_huf g) text dicsiz count) (Waiting d1 (eo_original eo1) (eo_packed eo1) (eo_out eo1)) = Ok (s1, Working (Z.shiftl 1 d1) (eo_original eo1) (eo_packed eo1) r 0 0 [])).
  { cbn [conc_step]. unfold conc_start. change (initGetbits (eo_packed eo1) (eo_out eo1)) with (fillbuf 16 (RS 0 0 0 (eo_packed eo1) (eo_out eo1))). rewrite R0. reflexivity. }
  (* the second one does all its work *)
  assert (M2 : dec_dicbit m2 = Some d2 /\ d2 <> 0) by (destruct HM2 as [[-> ->]|[-> ->]]; split; try reflexivity; lia).
  assert (HS : decodeStartSt1 d2 (sh_huf s1) = decodeStartSt1 d2 (g_huf g)).
  { cbn [s1 sh_huf]. destruct HM1 as [[_ ->]|[_ ->]], HM2 as [[_ ->]|[_ ->]]; destruct (g_huf g); reflexivity. }
  destruct (decode_steps m2 d2 _ _ _ g gx _ _ _ _ s1 (proj1 M2) (proj2 M2) D2 HS) as (j & s2 & _ & C2 & K).
  (* the first one finds that enough has been decoded *)
  exists (true :: repeat false j ++ [true]), s2, (eo_packed eo1 - compsize r), (infile r). split; [|congruence].
  cbn [conc_run]. rewrite S1. cbn [bind]. rewrite conc_run_app, run_second, (K j (le_n _)). cbn [bind conc_run conc_step].
  destruct (Z.ltb_spec (sh_count s2) (eo_original eo1)); [lia|]. unfold conc_end. cbn [d_loc d_crc d_out d_r]. change (0 =? 0) with true. reflexivity.
Qed.

(** Two such files: a hundred zero bytes, twice. *)
Example C99_example : exists eo, EncodeLzhuf 5 100 (repeat 0 100) glob0 = Ok eo /\ eo_packed eo < eo_original eo /\ after [] glob0.
Proof.
  destruct C14_example as (eo & E & P & O). exists eo. split; [exact E|]. split; [lia|]. split; [constructor|reflexivity].
Qed.

Print Assumptions C99_one_after_the_other_partial.
Print Assumptions C99_concurrent_refuted.
