(** Listing: the loops of CommandList and Headers. *)
From Verif Require Import Go GoLemmas M_Crc M_Bitio M_Maketree M_Maketbl M_Huf M_Slide M_Decode M_Lzhuf P_DecOld S_Header S_Listing M_Header M_Os M_Archive S_Archive
  P_Bitio P_Header P_Os P_Single P_Extract P_Read1 P_Accept P_RoundTrip Properties_Slide.

Lemma byte_at_drop c k j : 0 <= k -> 0 <= j -> byte_at (drop k c) j = byte_at c (k + j).
Proof. intros. unfold byte_at. rewrite nth_drop. f_equal. lia. Qed.

Lemma long_at_drop c k j : 0 <= k -> 0 <= j -> long_at (drop k c) j = long_at c (k + j).
Proof. intros. unfold long_at. rewrite !byte_at_drop by lia. rewrite !Z.add_assoc. reflexivity. Qed.

Lemma byte_at_range c k : bytesP c -> 0 <= byte_at c k < 256.
Proof.
  intros B. unfold byte_at. destruct (nth_in_or_default (Z.to_nat k) c 0) as [I|H]; [|rewrite H; lia]. unfold bytesP in B. rewrite Forall_forall in B. now apply B.
Qed.

Lemma long_at_nonneg c k : bytesP c -> 0 <= long_at c k.
Proof. intros B. unfold long_at. pose proof (byte_at_range c k B). pose proof (byte_at_range c (k + 1) B). pose proof (byte_at_range c (k + 2) B). pose proof (byte_at_range c (k + 3) B). lia. Qed.

Lemma bytesP_drop n c : bytesP c -> bytesP (drop n c).
Proof. unfold bytesP, drop. rewrite !Forall_forall. intros F x H. apply F. rewrite <- (firstn_skipn (Z.to_nat n) c). apply in_or_app. now right. Qed.

Lemma header_at_nonneg c k : bytesP c -> header_at c k -> 0 <= k.
Proof. intros B H. induction H; [lia|]. pose proof (byte_at_range c k B). pose proof (long_at_nonneg c (k + 7) B). lia. Qed.

(** ** CommandList *)

Section L.
  Variable E : env.
  Variable l : lha.

  Lemma list_loop_ends : forall fuel h inp acc, (length inp < fuel)%nat -> ends (list_loop E l fuel h inp acc).
  Proof.
    induction fuel as [|fuel IH]; intros h inp acc Hf; [lia|]. cbn [list_loop]. apply ends_bind; [apply GetHeader_ends|].
    intros [[[e ok] h'] rest] H. destruct ok; cbn [negb]; [|apply ends_ok]. apply IH.
    assert (X : (length rest < length inp)%nat).
    { pose proof (accept_nil _ _ _ _ _ _ H) as ->. clear -H. unfold GetHeader in H. destruct inp as [|b inp']; [discriminate|]. destruct (b =? 0); [discriminate|]. cbv zeta in H.
      unfold readInto in H. set (rr := drop 20 inp') in *. assert (LR : (length rr <= length inp')%nat) by (unfold rr, drop; rewrite skipn_length; lia). clearbody rr. cbn [length].
      assert (K : forall n, (length (drop n rr) <= length inp')%nat) by (intros n; unfold drop; rewrite skipn_length; lia).
      destruct (_ =? 0) in H; [discriminate|]. bnd H. destruct a as [lv p]. bnd H. destruct a as [[[er ok] h1] r1]. destruct er; try discriminate. destruct ok; [|discriminate].
      apply finish_sizes in H. destruct H as [-> _]. apply Nat.lt_succ_r.
      destruct (lv =? 0).
      { unfold getHeaderLevel0, readInto in E1. bnd E1. destruct a. bnd E1. destruct a. destruct (_ <=? 0) in E1; [discriminate|]. destruct (_ =? 0) in E1; [discriminate|]. destruct (negb _) in E1; [discriminate|].
        bnd E1. destruct a as [[] ]. bnd E1. destruct a. bnd E1. destruct a. bnd E1. destruct a. bnd E1. destruct a. bnd E1. destruct a. bnd E1. destruct a. bnd E1. destruct a as [[] ]. bnd E1. cbv zeta in E1.
        destruct (_ <? 0) in E1; [destruct (_ =? -2) in E1; [|discriminate]; injection E1 as <- <-; apply K|]. bnd E1. destruct a0. destruct (_ =? 0) in E1; [injection E1 as <- <-; apply K|].
        bnd E1. injection E1 as <- <-. apply K. }
      destruct (lv =? 1).
      { unfold getHeaderLevel1, readInto in E1. bnd E1. destruct a. bnd E1. destruct a. destruct (Z.leb_spec (z + 2 - 21) 0); [discriminate|]. destruct (_ =? 0) in E1; [discriminate|]. destruct (negb _) in E1; [discriminate|].
        bnd E1. destruct a as [[] ]. bnd E1. destruct a. bnd E1. destruct a. bnd E1. destruct a. bnd E1. destruct a. bnd E1. destruct a. bnd E1. destruct a. bnd E1. destruct a as [[] ]. bnd E1. bnd E1. destruct a0. bnd E1. destruct a0. cbv zeta in E1.
        bnd E1. destruct a0. match type of E1 with (if ?b then _ else _) = _ => destruct b end.
        - bnd E1. destruct a0 as [[x hx] rx]. destruct x as [t|]; [|discriminate]. exfalso. eapply ext_never; [|eassumption]. cbn. lia.
        - injection E1 as <- <-. apply K. }
      destruct (lv =? 2).
      { unfold getHeaderLevel2, readInto in E1. bnd E1. destruct a. destruct (_ <? 0) in E1; [discriminate|]. destruct (_ =? 0) in E1; [discriminate|]. destruct (_ <? _) in E1; discriminate. }
      destruct (lv =? 3).
      { unfold getHeaderLevel3, readInto in E1. bnd E1. destruct a. destruct (_ =? 0) in E1; [discriminate|]. bnd E1. destruct a. destruct (_ <? 0) in E1; [discriminate|]. destruct (_ <? _) in E1; discriminate. }
      discriminate. }
    unfold drop. rewrite skipn_length. lia.
  Qed.

  (** Level 0 throughout: no panic. *)
  Lemma list_loop_level0 c : bytesP c -> (forall k, header_at c k -> ~ In (byte_at c (k + 20)) [1; 2; 3]) ->
    forall fuel h k acc, header_at c k -> (length (drop k c) < fuel)%nat -> 1 <= zlen (Name h) -> zlen (Method h) = 5 ->
    exists r, list_loop E l fuel h (drop k c) acc = Ok r.
  Proof.
    intros B L0. induction fuel as [|fuel IH]; intros h k acc Hk Hf HN HM; [lia|]. cbn [list_loop].
    pose proof (header_at_nonneg c k B Hk) as K0.
    destruct (GetHeader_level0_total (e_opts E) h (drop k c)) as (e & ok & h' & rest & G & N' & B' & S'); auto.
    { now apply bytesP_drop. }
    { change (level_byte (drop k c)) with (byte_at (drop k c) 20). rewrite byte_at_drop by lia. now apply L0. }
    rewrite G. cbn [bind]. destruct ok; cbn [negb]; [|eauto]. specialize (S' eq_refl).
    pose proof (accept_nil _ _ _ _ _ _ G) as ->. destruct (accept_facts _ _ _ _ _ HM G) as (_ & (P1 & P2 & P3) & R & B20 & L22).
    rewrite byte_at_drop in R, B20 by lia. rewrite Z.add_0_r in R, B20. rewrite long_at_drop in P1 by lia. pose proof (long_at_nonneg c (k + 7) B) as LN.
    rewrite R, P1. rewrite !P_Bitio.drop_drop by lia. replace (k + (byte_at c k + 2 + long_at c (k + 7))) with (k + byte_at c k + 2 + long_at c (k + 7)) by lia.
    apply IH; auto; [apply ha_next; [exact Hk|lia]|]. unfold zlen, drop in L22. rewrite skipn_length in L22. unfold drop in *. rewrite skipn_length in *. lia.
  Qed.

  (** A well formed archive. *)
  Lemma list_loop_entry e h data rest fuel acc : file_entry e -> zlen (Method h) = 5 -> zlen (e_name e) < zlen (Name h) -> zlen data = e_packed e ->
    list_loop E l (S fuel) h (layout0 e ++ data ++ rest) acc =
    list_loop E l fuel (read0 h e) rest (if needFile l (Name (read0 h e)) then acc ++ [read0 h e] else acc).
  Proof.
    intros FE HM HN HD. cbn [list_loop]. rewrite GetHeader_layout0; [|apply FE|lia|lia|now apply fe_nolink]. cbn [bind negb].
    change (PackedSize (read0 h e)) with (e_packed e). rewrite (drop_app (e_packed e) data rest) by lia. reflexivity.
  Qed.
End L.

(** The headers listed one after the other, the object being reused. *)
Fixpoint reads (h : hdr) (l : list (entry0 * list Z)) : list hdr :=
  match l with
  | [] => []
  | x :: l' => read0 h (fst x) :: reads (read0 h (fst x)) l'
  end.

Lemma list_loop_all E l : l_filec l = 0 -> forall es h n acc fuel, Forall (fun x => file_entry (fst x)) es -> sized es -> names_shrink n es ->
  zlen (Method h) = 5 -> Z.of_nat n < zlen (Name h) -> (length es < fuel)%nat ->
  list_loop E l fuel h (archive_bytes es) acc = Ok (acc ++ reads h es, false).
Proof.
  intros HC. induction es as [|[e data] es IH]; intros h n acc fuel FF SZ NS HM HN Hf.
  - destruct fuel; [cbn in Hf; lia|]. cbn [reads]. rewrite app_nil_r. reflexivity.
  - destruct fuel; [cbn in Hf; lia|]. inversion FF as [|? ? F1 F2]; subst. inversion SZ as [|? ? S1 S2]; subst. cbn [names_shrink fst snd] in *. destruct NS as [N1 N2].
    unfold archive_bytes. cbn [flat_map fst snd]. rewrite <- !app_assoc. change (flat_map _ es ++ [0]) with (archive_bytes es).
    destruct (l0_method _ (fe_legal _ F1)) as [LM _].
    rewrite list_loop_entry; [|exact F1|exact HM|unfold zlen at 1; lia|exact S1].
    unfold needFile. rewrite HC. change (0 =? 0) with true. cbv iota.
    rewrite (IH (read0 h e) (length (e_name e))); [cbn [reads fst]; rewrite <- app_assoc; reflexivity|exact F2|exact S2|exact N2| | |cbn [length] in Hf; lia].
    + change (Method (read0 h e)) with (e_method e). unfold zlen. rewrite LM. reflexivity.
    + cbn [read0 Name]. rewrite zlen_app. unfold slash_back. rewrite zlen_map. unfold zlen. cbn [length]. lia.
Qed.

(** ** Headers *)

Lemma after_snoc cs g c g' : after cs g -> call_ok c -> run_call c g = Some g' -> after (cs ++ [c]) g'.
Proof.
  intros [F R] K RC. split; [apply Forall_app; split; [exact F|now constructor]|]. revert R. generalize glob0.
  induction cs as [|x cs IH]; intros g0 R; cbn [app run_calls] in *; [injection R as ->; now rewrite RC|].
  destruct (run_call x g0); [|discriminate]. inversion F; subst. now apply IH.
Qed.

Lemma after_decode cs g m broken original packed inp g' crc out n rest : after cs g -> 0 <= original -> 0 <= packed -> bytes inp ->
  DecodeLzhuf m broken original packed inp g = Ok (g', crc, out, n, rest) -> exists cs', after cs' g'.
Proof.
  intros A H1 H2 H3 D. eexists. eapply after_snoc; [exact A| |].
  - instantiate (1 := CallDec m broken original packed inp). cbn. auto.
  - cbn [run_call]. now rewrite D.
Qed.

Lemma describes_read0 e dir base h : file_entry e -> named e dir base -> describes e (read0 h e).
Proof.
  intros FE ND. constructor; try (repeat split; reflexivity).
  cbn [read0 Name]. now rewrite (fe_back e FE dir base ND), <- (nd_name _ _ _ ND).
Qed.

Lemma extract_verify E e dir base method w data g2 crc out n rest : file_entry e -> named e dir base -> method_num (e_method e) = Some method -> method <> LzhdirsMethodNum ->
  l_ignoredir (w_lha w) = false -> l_extractdir (w_lha w) = [] -> l_noexec (w_lha w) = false -> w_verify w = true -> l_stdout (w_lha w) = false -> copied method = false ->
  DecodeLzhuf method (l_broken (w_lha w)) (e_original e) (e_packed e) data (w_glob w) = Ok (g2, crc, out, n, rest) -> crc = e_crc e ->
  extractOne E (read0 NewLzHeader e) data w = Done (false, n, read0 NewLzHeader e, rest) (set_wglob g2 w).
Proof.
  intros FE ND Hmeth Hdir H1 H2 H4 H6 H7 H8 D HC. unfold extractOne. istep. istep. istep.
  destruct (name_base e FE dir base ND (w_lha w) H1) as [p0 [NS DP]]. rewrite NS. istep. rewrite DP.
  rewrite (pathcheck_plain (w_lha w) _ base H2 (fe_slash e dir base ND)). istep. change (Method (read0 NewLzHeader e)) with (e_method e). rewrite Hmeth, (r0_reg e FE).
  apply Z.eqb_neq in Hdir. rewrite Hdir. cbn [negb andb]. rewrite H6, orb_true_r. change (ExtendType (read0 NewLzHeader e) =? ExtendMacos) with false. cbn [andb]. rewrite H4. istep. rewrite H7. change (printed [] w) with w.
  unfold run_decode. istep. istep. istep. change (OriginalSize (read0 NewLzHeader e)) with (e_original e). change (PackedSize (read0 NewLzHeader e)) with (e_packed e).
  rewrite D. istep. istep. istep. istep. rewrite H6, H8. cbn [negb andb printed]. change (HasCrc (read0 NewLzHeader e)) with true. change (Crc (read0 NewLzHeader e)) with (e_crc e). rewrite HC, Z.eqb_refl. reflexivity.
Qed.

Lemma headers_all E : forall es w acc cs fuel,
  Forall (fun x => file_entry (fst x) /\ (exists dir base, named (fst x) dir base) /\ exists body, packs (fst x) (snd x) body) es ->
  l_filec (w_lha w) = 0 -> l_broken (w_lha w) = false -> l_ignoredir (w_lha w) = false -> l_extractdir (w_lha w) = [] -> l_noexec (w_lha w) = false -> w_verify w = true -> l_stdout (w_lha w) = false ->
  after cs (w_glob w) -> bytes (archive_bytes es) -> (length es < fuel)%nat ->
  exists w', headers_loop E fuel (archive_bytes es) acc w = Done (acc ++ map (fun x => read0 NewLzHeader (fst x)) es, false) w'.
Proof.
  induction es as [|[e data] es IH]; intros w acc cs fuel F H1 H2 H3 H4 H5 H6 H6s A B Hf.
  - destruct fuel; [cbn in Hf; lia|]. exists w. cbn [map]. rewrite app_nil_r. reflexivity.
  - destruct fuel; [cbn in Hf; lia|]. inversion F as [|? ? F1 F2]; subst. cbn [fst snd] in F1. destruct F1 as [FE [[dir [base ND]] [body P]]].
    destruct P as (method & cs1 & g1 & eo & Hm & HB & Hne & A1 & HE & Hlt & HD & M1 & M2 & M3 & M4).
    unfold archive_bytes in B. cbn [flat_map fst snd] in B. rewrite <- !app_assoc in B. change (flat_map _ es ++ [0]) with (archive_bytes es) in B.
    apply Forall_app in B. destruct B as [B1 B2]. pose proof B2 as B12. apply Forall_app in B2. destruct B2 as [B2 B3].
    destruct (round_trip_567 cs1 g1 cs (w_glob w) method body eo (archive_bytes es)) as [Y1 [Y2 [Y3 [Y4 [g2 D]]]]]; auto.
    unfold archive_bytes. cbn [flat_map fst snd]. rewrite <- !app_assoc. change (flat_map _ es ++ [0]) with (archive_bytes es).
    cbn [headers_loop]. rewrite (fe_get_new E e FE). istep. istep. unfold needFile. rewrite H1. change (0 =? 0) with true. cbv iota.
    assert (MN : method_num (e_method e) = Some method) by (rewrite M1; destruct Hm as [-> | [-> | [-> _]]]; reflexivity).
    assert (D' : DecodeLzhuf method (l_broken (w_lha w)) (e_original e) (e_packed e) (data ++ archive_bytes es) (w_glob w) = Ok (g2, eo_crc eo, body, e_packed e, archive_bytes es)).
    { rewrite H2, M2, M3, HD. rewrite Y4, <- Y2. exact D. }
    rewrite (bindIO_done _ _ _ _ _ (extract_verify E e dir base method w (data ++ archive_bytes es) g2 (eo_crc eo) body (e_packed e) (archive_bytes es) FE ND MN ltac:(unfold LzhdirsMethodNum; lia) H3 H4 H5 H6 H6s ltac:(destruct Hm as [-> | [-> | [-> _]]]; reflexivity) D' ltac:(congruence))).
    cbv beta iota zeta. change (PackedSize (read0 NewLzHeader e)) with (e_packed e). rewrite Z.eqb_refl.
    destruct (l0_original _ (fe_legal _ FE)) as [O1 _]. destruct (l0_packed _ (fe_legal _ FE)) as [O2 _].
    destruct (after_decode cs (w_glob w) _ _ _ _ _ _ _ _ _ _ A O1 O2 B12 D') as [cs' A'].
    destruct (IH (set_wglob g2 w) (acc ++ [read0 NewLzHeader e]) cs' fuel) as [w' W]; auto; [cbn [length] in Hf; lia|].
    exists w'. rewrite W. rewrite <- app_assoc. reflexivity.
Qed.

(** ** DecompresBytes *)

Lemma bytes_bytesP l : bytes l -> bytesP l.
Proof. intros H. exact H. Qed.

Lemma decode_rest cs g m broken original packed inp g2 crc out n rest : after cs g -> 0 <= original -> 0 <= packed -> bytes inp ->
  DecodeLzhuf m broken original packed inp g = Ok (g2, crc, out, n, rest) -> exists k, 0 <= k /\ rest = drop k inp.
Proof.
  intros A Ho Hp B D. destruct (andb (4 <=? m) (m <=? 7)) eqn:M47.
  { apply andb_true_iff in M47. destruct M47 as [M4 M7]. apply Z.leb_le in M4, M7.
    destruct (C06_decompression_stays_in_entry cs g m broken original packed inp g2 crc out n rest A (conj M4 M7) Ho Hp B D) as [N1 [N2 _]]. exists n. split; [lia|exact N2]. }
  unfold DecodeLzhuf in D. destruct (dec_dicbit m) as [k|] eqn:DD.
  - assert (K : k = 0).
    { unfold dec_dicbit in DD. destruct (Z.eqb_spec m 0); [congruence|]. destruct (Z.eqb_spec m 4) as [->|]; [discriminate M47|]. destruct (Z.eqb_spec m 5) as [->|]; [discriminate M47|].
      destruct (Z.eqb_spec m 6) as [->|]; [discriminate M47|]. destruct (Z.eqb_spec m 7) as [->|]; [discriminate M47|]. destruct (m =? 10), (m =? 12); congruence. }
    subst k. change (0 =? 0) with true in D. cbv iota in D. apply bind_ok in D. destruct D as [[[o1 r1] t1] [D1 D2]]. injection D2 as _ _ _ _ <-.
    unfold copyfile in D1. destruct (0 <? original).
    + apply bind_ok in D1. destruct D1 as [[o2 r2] [_ D3]]. injection D3 as _ _ <-. exists (zlen inp). split; [unfold zlen; lia|]. unfold drop, zlen. rewrite Nat2Z.id, skipn_all. reflexivity.
    + injection D1 as _ _ <-. exists 0. split; [lia|reflexivity].
  - apply bind_ok in D. destruct D as [[g1 x] [D1 D2]]. injection D2 as _ _ _ _ <-.
    pose proof (gi_h _ _ (after_inv _ _ A)) as H. apply decode_old_any in D1; auto; [|unfold old_dicbit; destruct (m =? 1), (m =? 8), (m =? 9); lia|apply (hi_d _ H)].
    destruct D1 as [_ [_ [_ [_ [_ [_ [[k [K0 [K _]]] _]]]]]]]. exists k. split; [exact K0|exact K].
Qed.

Lemma one_stream_checked E header c h0 k h rest acc w cs acc' err n h' rest' w' :
  GetHeader (e_opts E) h0 (drop k c) = Ok (ENil, true, h, rest) -> 0 <= k -> zlen (Method h0) = 5 -> bytes c -> Name h = Name header -> after cs (w_glob w) ->
  l_noexec (w_lha w) = false -> w_verify w = false -> one_stream h rest acc w = Done (err, n, acc', h', rest') w' ->
  (err = false -> data_of (e_opts E) header c acc') /\ h' = h /\ (w_lha w' = w_lha w /\ w_verify w' = w_verify w /\ exists cs', after cs' (w_glob w')) /\ exists k', 0 <= k' /\ rest' = drop k' c.
Proof.
  intros G K0 HM B HN A NX VF. unfold one_stream, extractOneStream.
  destruct (accept_facts _ _ _ _ _ HM G) as (_ & (P1 & P2 & P3) & R & B20 & L22).
  assert (BR : bytes (drop k c)) by now apply bytesP_drop. rewrite P_Bitio.drop_drop in R by lia.
  pose proof (long_at_nonneg _ 7 BR) as LN1. pose proof (long_at_nonneg _ 11 BR) as LN2. rewrite <- P1 in LN1. rewrite <- P2 in LN2.
  assert (RK : exists k', 0 <= k' /\ rest = drop k' c) by (exists (k + (byte_at (drop k c) 0 + 2)); split; [lia|exact R]).
  destruct (method_num (Method h)) as [method|] eqn:MN.
  2: { rewrite bind_ret. intros X; injection X as <- <- <- <- <- <-. split; [discriminate|]. split; [reflexivity|]. split; eauto. }
  destruct (isRegular h && negb (method =? LzhdirsMethodNum)) eqn:RG.
  2: { rewrite bind_ret. intros X; injection X as <- <- <- <- <- <-. split; [discriminate|]. split; [reflexivity|]. split; eauto. }
  rewrite bind_assoc, bind_getl. rewrite NX.
  unfold run_decode. rewrite !bind_assoc, bind_get, !bind_assoc, bind_getl, !bind_assoc, bind_get.
  assert (BRS : bytes rest) by (destruct RK as [k' [_ ->]]; now apply bytesP_drop).
  destruct (DecodeLzhuf method _ _ _ rest _) as [[[[[g2 crc] out] m] rest2]| |] eqn:D; [|discriminate..].
  rewrite !bind_assoc, bind_lift, !bind_assoc, bind_modify, !bind_ret. cbv beta iota zeta.
  destruct (after_decode cs (w_glob w) _ _ _ _ _ _ _ _ _ _ A LN2 LN1 BRS D) as [cs' A'].
  assert (RK2 : exists k', 0 <= k' /\ rest2 = drop k' c).
  { destruct (decode_rest cs (w_glob w) _ _ _ _ _ _ _ _ _ _ A LN2 LN1 BRS D) as [k2 [K2 R2]].
    destruct RK as [k' [Hk' Rk']]. exists (k' + k2). split; [lia|]. rewrite R2, Rk', P_Bitio.drop_drop by lia. reflexivity. }
  destruct (HasCrc h && negb (crc =? Crc h)) eqn:CK; rewrite bind_ret; intros X; injection X as <- <- <- <- <- <-.
  { split; [discriminate|]. split; [reflexivity|]. split; [split; [reflexivity|split; [reflexivity|exists cs'; exact A']]|exact RK2]. }
  split; [|split; [reflexivity|split; [split; [reflexivity|split; [reflexivity|exists cs'; exact A']]|exact RK2]]].
  intros _. rewrite VF. cbn [andb]. exists k, h0, h, rest, method. do 7 eexists. split; [exact K0|]. split; [exact G|]. split; [exact HN|]. split; [exact MN|]. split; [exact A|]. split; [exact D|].
  intros M47 HC.
  destruct (C06_decompression_stays_in_entry _ _ _ _ _ _ _ _ _ _ _ _ A M47 LN2 LN1 BRS D) as [N1 [N2 N3]].
  rewrite HC in CK. cbn [andb] in CK. apply negb_false_iff, Z.eqb_eq in CK. congruence.
Qed.

Lemma bind_done {A B} (m : IO A) (k : A -> IO B) w b w' : bindIO m k w = Done b w' -> exists a w1, m w = Done a w1 /\ k a w1 = Done b w'.
Proof. unfold bindIO. destruct (m w); [eauto|discriminate..]. Qed.

Lemma skip_drop off k (c : list Z) ok rest : 0 <= off -> 0 <= k -> skipToNextpos off (drop k c) = (ok, rest) -> exists k', 0 <= k' /\ rest = drop k' c.
Proof.
  intros H K. unfold skipToNextpos. destruct (off =? 0); [intros X; injection X as <- <-; eauto|]. destruct (drop k c) as [|x y] eqn:Y; intros X; injection X as <- <-; [eauto|].
  exists (k + off). split; [lia|]. now rewrite <- Y, P_Bitio.drop_drop by lia.
Qed.

Lemma stream_loop_checked E header c (Q : list Z -> Prop) : bytes c -> (forall d, data_of (e_opts E) header c d -> Q d) -> forall fuel h0 k acc w cs data w',
  0 <= k -> zlen (Method h0) = 5 -> after cs (w_glob w) -> l_noexec (w_lha w) = false -> w_verify w = false ->
  Q acc \/ (exists h rest, GetHeader (e_opts E) h0 (drop k c) = Ok (ENil, true, h, rest) /\ Name h = Name header) ->
  extract_loop E fuel (by_name header) one_stream h0 (drop k c) acc w = Done (data, false) w' -> Q data.
Proof.
  intros B HQ. induction fuel as [|fuel IH]; intros h0 k acc w cs data w' K0 HM A NX VF HC; [discriminate|]. cbn [extract_loop].
  destruct (GetHeader (e_opts E) h0 (drop k c)) as [[[[e ok] h] rest]| |] eqn:G; [rewrite bind_lift|discriminate..]. cbv beta iota.
  assert (HC' : (e = ENil /\ ok = true /\ Name h = Name header) \/ Q acc).
  { destruct HC as [HC|[h2 [rest2 [HC1 HC2]]]]; [now right|left]. injection HC1 as -> -> -> _. auto. }
  clear HC. destruct e; [| intros X; injection X as -> _; destruct HC' as [[? _]|HC]; [discriminate|exact HC]| discriminate].
  destruct ok; [|intros X; injection X as -> _; destruct HC' as [[_ [? _]]|HC]; [discriminate|exact HC]]. cbn [negb]. unfold by_name at 1. rewrite bind_ret.
  destruct (accept_facts _ _ _ _ _ HM G) as (_ & (P1 & P2 & P3) & R & B20 & L22).
  assert (BR : bytes (drop k c)) by now apply bytesP_drop. pose proof (long_at_nonneg _ 7 BR) as LN1. rewrite <- P1 in LN1. rewrite P_Bitio.drop_drop in R by lia.
  destruct (list_eqb (Name h) (Name header)) eqn:NM.
  - apply list_eqb_eq in NM. intros X. apply bind_done in X. destruct X as [[[[[err n] acc1] h1] rest1] [w1 [X1 X2]]].
    destruct (one_stream_checked E header c h0 k h rest acc w cs _ _ _ _ _ _ G K0 HM B NM A NX VF X1) as [Y1 [-> [[L1 [L2 [cs' A']]] [k' [K' ->]]]]].
    destruct err; [discriminate|]. specialize (Y1 eq_refl). apply HQ in Y1. rewrite <- L1 in NX. rewrite <- L2 in VF. destruct (n =? PackedSize h).
    + exact (IH _ _ _ _ _ _ _ K' P3 A' NX VF (or_introl Y1) X2).
    + destruct (skipToNextpos _ _) as [ok rest2] eqn:SK in X2. destruct (skip_drop _ _ _ _ _ LN1 K' SK) as [k2 [K2 ->]].
      destruct ok; [|discriminate]. exact (IH _ _ _ _ _ _ _ K2 P3 A' NX VF (or_introl Y1) X2).
  - intros X. destruct HC' as [[_ [_ HC]]|HC]; [apply list_eqb_eq in HC; congruence|].
    rewrite R in X. assert (K9 : 0 <= k + (byte_at (drop k c) 0 + 2)) by lia. destruct (skipToNextpos _ _) as [ok rest2] eqn:SK in X. destruct (skip_drop _ _ _ _ _ LN1 K9 SK) as [k2 [K2 ->]].
    exact (IH _ _ _ _ _ _ _ K2 P3 A NX VF (or_introl HC) X).
Qed.
