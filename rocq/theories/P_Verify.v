(** Testing entries: what reading the entries before a given one does. *)
From Verif Require Import Go GoLemmas M_Crc M_Bitio P_Bitio M_Maketree M_Maketbl M_Huf M_Slide M_Lzhuf S_Header S_Listing M_Header M_Os M_Archive S_History S_Archive
  P_Header P_Os P_Single P_Extract P_Read1 P_Accept P_List P_RoundTrip P_ExtractAll.

(** The bytes of entries. *)
Definition entries_bytes (es : list (entry0 * list Z)) : list Z := flat_map (fun x => layout0 (fst x) ++ snd x) es.

Lemma archive_app es e data more : archive_bytes (es ++ (e, data) :: more) = entries_bytes es ++ layout0 e ++ data ++ archive_bytes more.
Proof. unfold archive_bytes, entries_bytes. rewrite flat_map_app. cbn [flat_map fst snd]. now rewrite <- !app_assoc. Qed.

(** Extracting in VerifyMode or to standard output. *)
Lemma printed_same l w : w_fs (printed l w) = w_fs w /\ w_ops (printed l w) = w_ops w /\ w_glob (printed l w) = w_glob w /\ w_verify (printed l w) = w_verify w /\ w_lha (printed l w) = w_lha w /\ w_out (printed l w) = w_out w ++ l.
Proof. destruct l; cbn; rewrite ?app_nil_r; repeat split. Qed.

Lemma extract_test E h0 e dir base method w data g2 crc out n rest : file_entry e -> named e dir base -> method_num (e_method e) = Some method -> method <> LzhdirsMethodNum ->
  l_ignoredir (w_lha w) = false -> l_extractdir (w_lha w) = [] -> l_noexec (w_lha w) = false -> l_stdout (w_lha w) || w_verify w = true ->
  DecodeLzhuf method (l_broken (w_lha w)) (e_original e) (e_packed e) data (w_glob w) = Ok (g2, crc, out, n, rest) ->
  extractOne E (read0 h0 e) data w = Done (if crc =? e_crc e then (false, n, read0 h0 e, rest) else (true, 0, read0 h0 e, rest))
    (printed (if w_verify w && negb (copied method) then [] else out) (set_wglob g2 (printed (if l_stdout (w_lha w) then banner base else []) w))).
Proof.
  intros FE ND Hmeth Hdir H1 H2 H4 H6 D. unfold extractOne. istep. istep. istep.
  destruct (name_base_any h0 e FE dir base ND (w_lha w) H1) as [p0 [NS DP]]. rewrite NS. istep. rewrite DP.
  rewrite (pathcheck_plain (w_lha w) _ base H2 (fe_slash e dir base ND)). istep. change (Method (read0 h0 e)) with (e_method e). rewrite Hmeth, (r0_reg_any h0 e FE).
  apply Z.eqb_neq in Hdir. rewrite Hdir. cbn [negb andb]. rewrite H6. change (ExtendType (read0 h0 e) =? ExtendMacos) with false. cbn [andb]. rewrite H4.
  istep. set (w1 := printed (if l_stdout (w_lha w) then banner base else []) w).
  destruct (printed_same (if l_stdout (w_lha w) then banner base else []) w) as (_ & _ & G1 & V1 & L1 & _). fold w1 in G1, V1, L1.
  unfold run_decode. istep. istep. istep. change (OriginalSize (read0 h0 e)) with (e_original e). change (PackedSize (read0 h0 e)) with (e_packed e).
  rewrite L1, G1, V1, D. istep. istep. istep. istep. change (HasCrc (read0 h0 e)) with true. change (Crc (read0 h0 e)) with (e_crc e). cbn [andb]. destruct (crc =? e_crc e); reflexivity.
Qed.

(** The entries before a given one, in Headers. *)
Lemma headers_prefix E tail : forall es w acc cs fuel,
  Forall (fun x => file_entry (fst x) /\ (exists dir base, named (fst x) dir base) /\ exists body, decodable (fst x) (snd x) body) es ->
  l_filec (w_lha w) = 0 -> l_broken (w_lha w) = false -> l_ignoredir (w_lha w) = false -> l_extractdir (w_lha w) = [] -> l_noexec (w_lha w) = false -> w_verify w = true -> l_stdout (w_lha w) = false ->
  after cs (w_glob w) -> bytes (entries_bytes es ++ tail) ->
  exists g' cs', headers_loop E (length es + fuel) (entries_bytes es ++ tail) acc w = headers_loop E fuel tail (acc ++ map (fun x => read0 NewLzHeader (fst x)) es) (set_wglob g' w) /\ after cs' g'.
Proof.
  induction es as [|[e data] es IH]; intros w acc cs fuel F H1 H2 H3 H4 H5 H6 H6s A B.
  - exists (w_glob w), cs. cbn [map length Nat.add entries_bytes flat_map app]. rewrite app_nil_r. destruct w; split; [reflexivity|exact A].
  - inversion F as [|? ? F1 F2]; subst. cbn [fst snd] in F1. destruct F1 as [FE [[dir [base ND]] [body P]]].
    destruct P as (method & MN & MD & MC & _ & P). cbn [length Nat.add].
    unfold entries_bytes in *. cbn [flat_map fst snd] in *. rewrite <- !app_assoc in *. fold (entries_bytes es) in *.
    apply Forall_app in B. destruct B as [B1 B2]. pose proof B2 as B12. apply Forall_app in B2. destruct B2 as [B2 B3].
    destruct (P cs (w_glob w) (entries_bytes es ++ tail) A B12) as [g2 D].
    cbn [headers_loop]. rewrite (fe_get_new E e FE). istep. istep. unfold needFile. rewrite H1. change (0 =? 0) with true. cbv iota.
    rewrite <- H2 in D.
    rewrite (bindIO_done _ _ _ _ _ (extract_test E NewLzHeader e dir base method w (data ++ entries_bytes es ++ tail) g2 (e_crc e) body (e_packed e) (entries_bytes es ++ tail) FE ND MN MD H3 H4 H5 ltac:(rewrite H6; apply orb_true_r) D)).
    rewrite Z.eqb_refl, H6, H6s, MC. cbn [negb andb printed]. cbv beta iota zeta. change (PackedSize (read0 NewLzHeader e)) with (e_packed e). rewrite Z.eqb_refl.
    destruct (l0_original _ (fe_legal _ FE)) as [O1 _]. destruct (l0_packed _ (fe_legal _ FE)) as [O2 _].
    destruct (after_decode cs (w_glob w) _ _ _ _ _ _ _ _ _ _ A O1 O2 B12 D) as [cs' A'].
    destruct (IH (set_wglob g2 w) (acc ++ [read0 NewLzHeader e]) cs' fuel) as (g' & cs2 & W & A2); auto.
    exists g', cs2. split; [|exact A2]. rewrite W. rewrite <- app_assoc. reflexivity.
Qed.

(** The entries before a given one, in CommandExtract when testing or printing. *)
Lemma test_prefix E tail : forall es files h n w cs fuel,
  Forall2 (fun x f => file_entry (fst x) /\ (exists dir, named (fst x) dir (fst f)) /\ decodable (fst x) (snd x) (snd f)) es files ->
  names_shrink n es -> Z.of_nat n < zlen (Name h) -> zlen (Method h) = 5 ->
  l_filec (w_lha w) = 0 -> l_broken (w_lha w) = false -> l_ignoredir (w_lha w) = false -> l_extractdir (w_lha w) = [] -> l_noexec (w_lha w) = false -> l_stdout (w_lha w) || w_verify w = true ->
  after cs (w_glob w) -> bytes (entries_bytes es ++ tail) ->
  exists h' w' cs', extract_loop E (length es + fuel) everything (one_file E) h (entries_bytes es ++ tail) tt w = extract_loop E fuel everything (one_file E) h' tail tt w' /\ after cs' (w_glob w') /\
    zlen (Method h') = 5 /\ Z.of_nat (last (map (fun x => length (e_name (fst x))) es) n) < zlen (Name h') /\
    w_fs w' = w_fs w /\ w_ops w' = w_ops w /\ w_lha w' = w_lha w /\ w_verify w' = w_verify w /\
    w_out w' = w_out w ++ flat_map (fun f => (if l_stdout (w_lha w) then banner (fst f) else []) ++ (if w_verify w then [] else snd f)) files.
Proof.
  induction es as [|[e data] es IH]; intros files h n w cs fuel F NS HN HM H1 H2 H3 H4 H5 H6 A B.
  - inversion F; subst. exists h, w, cs. cbn [map length Nat.add entries_bytes flat_map app last]. rewrite app_nil_r. repeat (split; [auto; reflexivity|]). reflexivity.
  - inversion F as [|? [base body] ? files' F1 F2]; subst. cbn [fst snd] in F1. destruct F1 as [FE [[dir ND] P]]. cbn [names_shrink fst] in NS. destruct NS as [N1 N2].
    destruct P as (method & MN & MD & MC & _ & P). cbn [length Nat.add].
    unfold entries_bytes in *. cbn [flat_map fst snd] in *. rewrite <- !app_assoc in *. fold (entries_bytes es) in *.
    apply Forall_app in B. destruct B as [B1 B2]. pose proof B2 as B12. apply Forall_app in B2. destruct B2 as [B2 B3].
    destruct (P cs (w_glob w) (entries_bytes es ++ tail) A B12) as [g2 D]. destruct (l0_method _ (fe_legal _ FE)) as [LM _].
    cbn [extract_loop]. rewrite (fe_get E e FE h); [|lia|unfold zlen in *; lia]. istep. cbn [negb]. unfold everything at 1. rewrite bind_assoc, bind_get, bind_ret. unfold needFile. rewrite H1. change (0 =? 0) with true. cbv iota.
    rewrite <- H2 in D. unfold one_file at 1.
    rewrite bind_assoc, (bindIO_done _ _ _ _ _ (extract_test E h e dir base method w (data ++ entries_bytes es ++ tail) g2 (e_crc e) body (e_packed e) (entries_bytes es ++ tail) FE ND MN MD H3 H4 H5 H6 D)).
    rewrite Z.eqb_refl, bind_ret. cbv beta iota zeta. change (PackedSize (read0 h e)) with (e_packed e). rewrite Z.eqb_refl.
    destruct (l0_original _ (fe_legal _ FE)) as [O1 _]. destruct (l0_packed _ (fe_legal _ FE)) as [O2 _].
    destruct (after_decode cs (w_glob w) _ _ _ _ _ _ _ _ _ _ A O1 O2 B12 D) as [cs' A'].
    set (l1 := if l_stdout (w_lha w) then banner base else []). set (l2 := if w_verify w && negb (copied method) then [] else body).
    set (w1 := printed l2 (set_wglob g2 (printed l1 w))).
    destruct (printed_same l2 (set_wglob g2 (printed l1 w))) as (X1 & X2 & X3 & X4 & X5 & X6). fold w1 in X1, X2, X3, X4, X5, X6.
    destruct (printed_same l1 w) as (Y1 & Y2 & Y3 & Y4 & Y5 & Y6). cbn [set_wglob w_fs w_ops w_glob w_verify w_lha w_out] in X1, X2, X3, X4, X5, X6.
    rewrite Y1 in X1. rewrite Y2 in X2. rewrite Y4 in X4. rewrite Y5 in X5. rewrite Y6, <- app_assoc in X6.
    destruct (IH files' (read0 h e) (length (e_name e)) w1 cs' fuel) as (h' & w' & cs2 & W & A2 & M2 & L2 & Z1 & Z2 & Z3 & Z4 & Z5); rewrite ?X5, ?X4; auto.
    { cbn [read0 Name]. rewrite zlen_app. unfold slash_back. rewrite zlen_map. unfold zlen. cbn [length]. lia. }
    { change (Method (read0 h e)) with (e_method e). unfold zlen. rewrite LM. reflexivity. }
    { rewrite X3. exact A'. }
    exists h', w', cs2. split; [exact W|]. split; [exact A2|]. split; [exact M2|]. split; [|repeat (split; [congruence|])].
    + cbn [map fst]. destruct (map (fun x => length (e_name (fst x))) es) eqn:Em; cbn [last] in *; [exact L2|].
      clear -L2. revert L2. generalize (length (e_name e)). revert n0. induction l as [|y l IHl]; intros x m L2; cbn [last] in *; [exact L2|]. now apply (IHl y m).
    + rewrite Z5, X6, X5, X4, <- app_assoc. unfold l2. rewrite MC, andb_true_r. cbn [flat_map fst snd]. fold l1. now rewrite <- !app_assoc.
Qed.

(** Extracting a regular file creates it and writes to it, nothing else. *)
Definition creates (o : op) : Prop := match o with OCreate _ _ | OWrite _ _ _ => True | _ => False end.

Lemma name_start_kind l h h' p : name_start l h = Ok (Some (h', p)) -> isRegular h' = isRegular h /\ Method h' = Method h.
Proof.
  unfold name_start. cbv zeta. set (q := if LastIndex 47 (Name h) =? -1 then 0 else LastIndex 47 (Name h)).
  destruct (l_ignoredir l). { destruct (q + 1 <=? zlen (Name h)); [|discriminate]. intros H. injection H as <- _. auto. }
  destruct (isDirectoryTraversal _); [discriminate|]. destruct (nth_error (Name h) (Z.to_nat q)) as [c|]; [|discriminate].
  destruct (c =? 47); [|intros H; injection H as <- _; auto].
  destruct (skip_slashes _ _ _) as [p1| |]; cbn [bind]; try discriminate.
  destruct ((ExtendType h =? ExtendOs68k) || (ExtendType h =? ExtendXosk)); [|intros H; injection H as <- _; auto].
  destruct (skip_device _ _ _) as [[c2 p2]| |]; cbn [bind]; try discriminate. destruct (nth_error (Name h) (Z.to_nat p2)); [|discriminate].
  destruct (negb (c2 =? 0) || negb (z =? 0)); intros H; injection H as <- _; auto.
Qed.

Lemma reg_one E h inp w : isRegular h = true -> method_num (Method h) <> Some LzhdirsMethodNum -> eff creates anyl w (extractOne E h inp w).
Proof.
  intros HR HM.
  assert (D : does creates anyl (extractOne E h inp)); [|apply D].
  unfold extractOne. ebind; [estep|]. ebind; [estep|]. ebind; [estep|]. apply does_bind_lift. intros st ES. destruct st as [[h' p]|]; [|estep].
  destruct (name_start_kind _ _ _ _ ES) as [K1 K2].
  ebind; [estep|]. destruct a2 as [name|]; [|estep]. destruct (method_num (Method h')) as [method|] eqn:EM; [|estep].
  rewrite K1, HR. destruct (Z.eqb_spec method LzhdirsMethodNum) as [->|_]; [congruence|]. cbn [negb andb].
  assert (X : forall m hh i, does creates anyl (run_decode m hh i)).
  { intros m hh i. unfold run_decode. ebind; [estep|]. ebind; [estep|]. ebind; [estep|]. ebind; [estep|]. destruct a5 as [[[[g c] o] n] rest]. ebind; estep. }
  destruct (l_stdout a || a1).
  - destruct ((ExtendType h' =? ExtendMacos) && l_macbin a && list_eqb (Base name) [73; 99; 111; 110; 13]); [estep|]. destruct (l_noexec a); [estep|].
    ebind; [estep|]. ebind; [apply X|]. destruct a3 as [[[c o] n] rest]. ebind; [estep|]. destruct (HasCrc h' && negb (c =? Crc h')); estep.
  - ebind.
    { unfold ask. ebind; [estep|]. ebind; [|ebind; estep]. destruct a2; [estep|]. unfold inquireExtract. ebind; [estep|]. ebind; [estep|]. ebind; [estep|]. destruct (lstat a3 name) as [[]| |]; try estep.
      destruct (l_noexec a4); [estep|]. destruct (l_force a4); [estep|]. ebind; [estep|]. ebind; [estep|]. ebind; [estep|estep]. }
    ebind; [estep|]. destruct (negb a2); [estep|]. destruct (l_skip a3 && negb (l_force a3)); [estep|]. destruct (l_noexec a3); [estep|].
    ebind. { unfold os_create. ebind; [estep|]. destruct (has_nul name); [estep|]. destruct name as [|z n]; [estep|]. cbv zeta.
             destruct (a4 (follow a4 (z :: n))) as [[c| |t]|]; try estep; (ebind; [apply does_emit; [intros; exact I|exact I]|estep]). }
    destruct a4 as [q|]; [|estep]. ebind; [apply X|]. destruct a4 as [[[c o] n] rest]. ebind; [|estep]. unfold os_append. ebind; [estep|]. apply does_emit; [intros; exact I|exact I].
Qed.

(** The entries before a given one, extracted to files. *)
Lemma extract_prefix E tail : forall es files h n w cs fuel,
  Forall2 (fun x f => file_entry (fst x) /\ (exists dir, named (fst x) dir (fst f)) /\ decodable (fst x) (snd x) (snd f)) es files ->
  NoDup (map fst files) -> (forall f, In f files -> w_fs w (fst f) = None) -> names_shrink n es -> Z.of_nat n < zlen (Name h) -> zlen (Method h) = 5 ->
  l_filec (w_lha w) = 0 -> l_broken (w_lha w) = false -> l_ignoredir (w_lha w) = false -> l_extractdir (w_lha w) = [] -> l_stdout (w_lha w) = false -> l_noexec (w_lha w) = false ->
  l_skip (w_lha w) = false -> w_verify w = false -> after cs (w_glob w) -> bytes (entries_bytes es ++ tail) ->
  exists h' w' cs', extract_loop E (length es + fuel) everything (one_file E) h (entries_bytes es ++ tail) tt w = extract_loop E fuel everything (one_file E) h' tail tt w' /\
    (forall f, In f files -> w_fs w' (fst f) = Some (NFile (snd f))) /\ (forall q, ~ In q (map fst files) -> w_fs w' q = w_fs w q) /\
    after cs' (w_glob w') /\ w_lha w' = w_lha w /\ w_verify w' = false /\
    zlen (Method h') = 5 /\ Z.of_nat (last (map (fun x => length (e_name (fst x))) es) n) < zlen (Name h') /\
    exists ops, did ops w w' /\ Forall creates ops.
Proof.
  induction es as [|[e data] es IH]; intros files h n w cs fuel F ND0 NF NS HN HM H1 H2 H3 H4 H5 H6 H7 H8 A B.
  - inversion F; subst. exists h, w, cs. cbn [length Nat.add entries_bytes flat_map app map last]. split; [reflexivity|]. split; [intros f []|]. repeat (split; [now auto|]). exists []. split; [reflexivity|constructor].
  - inversion F as [|? f ? files' F1 F2]; subst. destruct f as [base body]. cbn [fst snd map names_shrink] in *. destruct F1 as [FE [[dir ND] P]].
    destruct P as (method & MN & NM & _ & PD & P). destruct NS as [N1 N2]. cbn [length Nat.add].
    unfold entries_bytes in *. cbn [flat_map fst snd] in *. rewrite <- !app_assoc in *. fold (entries_bytes es) in *.
    apply Forall_app in B. destruct B as [B1 B2]. pose proof B2 as B12. apply Forall_app in B2. destruct B2 as [B2 B3].
    destruct (P cs (w_glob w) (entries_bytes es ++ tail) A B12) as [g2 D]. destruct (l0_method _ (fe_legal _ FE)) as [LM _].
    cbn [extract_loop]. rewrite (fe_get E e FE h); [|lia|unfold zlen in *; lia]. istep. cbn [negb]. unfold everything at 1. rewrite bind_assoc, bind_get, bind_ret. unfold needFile. rewrite H1. change (0 =? 0) with true. cbv iota.
    rewrite <- H2 in D.
    destruct (extract_file_any E h e FE dir base ND method MN NM w (data ++ entries_bytes es ++ tail) g2 (e_crc e) body (e_packed e) (entries_bytes es ++ tail) H3 H4 H5 H6 H7 H8 (NF _ (or_introl eq_refl)) D) as (w1 & X1 & X2 & X3 & X4 & X5 & X6 & X7).
    unfold one_file at 1. rewrite bind_assoc, (bindIO_done _ _ _ _ _ X1), bind_ret. cbv iota. change (PackedSize (read0 h e)) with (e_packed e). rewrite Z.eqb_refl.
    destruct (l0_original _ (fe_legal _ FE)) as [O1 _]. destruct (l0_packed _ (fe_legal _ FE)) as [O2 _].
    destruct (after_decode cs (w_glob w) _ _ _ _ _ _ _ _ _ _ A O1 O2 B12 D) as [cs' A']. rewrite <- X5 in A'.
    inversion ND0 as [|? ? NI ND']; subst.
    assert (EF := reg_one E (read0 h e) (data ++ entries_bytes es ++ tail) w (r0_reg_any h e FE)). change (Method (read0 h e)) with (e_method e) in EF. rewrite MN, X1 in EF.
    destruct (EF ltac:(congruence)) as (ops1 & OP1 & OP2 & _). clear EF.
    destruct (IH files' (read0 h e) (length (e_name e)) w1 cs' fuel) as (h' & w' & cs2 & W1 & W2 & W3 & W4 & W5 & W6 & W7 & W8 & ops2 & W9 & W10); rewrite ?X4; auto.
    + intros f If. rewrite X3; [apply NF; now right|]. intros EQ. apply NI. rewrite <- EQ. now apply in_map.
    + cbn [read0 Name]. rewrite zlen_app. unfold slash_back. rewrite zlen_map. unfold zlen. cbn [length]. lia.
    + change (Method (read0 h e)) with (e_method e). unfold zlen. rewrite LM. reflexivity.
    + exists h', w', cs2. split; [exact W1|]. split; [|split; [|split; [exact W4|split; [congruence|split; [exact W6|split; [exact W7|split]]]]]].
      * intros f [<-|If]; [cbn [fst snd]; rewrite W3 by exact NI; exact X2|now apply W2].
      * intros q Q. rewrite W3 by (intros I; apply Q; now right). apply X3. intros ->. apply Q. now left.
      * destruct (map (fun x => length (e_name (fst x))) es) eqn:Em; cbn [last] in *; [exact W8|].
        clear -W8. revert W8. generalize (length (e_name e)). revert n0. induction l as [|y l IHl]; intros x m L2; cbn [last] in *; [exact L2|]. now apply (IHl y m).
      * exists (ops1 ++ ops2). unfold did in *. split; [now rewrite W9, OP1, rev_app_distr, app_assoc|apply Forall_app; auto].
Qed.

(** An entry whose method is not known. *)
Lemma extract_unknown E h0 e dir base w data : file_entry e -> named e dir base -> method_num (e_method e) = None ->
  l_ignoredir (w_lha w) = false -> l_extractdir (w_lha w) = [] ->
  extractOne E (read0 h0 e) data w = Done (true, 0, read0 h0 e, data) w.
Proof.
  intros FE ND Hmeth H1 H2. unfold extractOne. istep. istep. istep.
  destruct (name_base_any h0 e FE dir base ND (w_lha w) H1) as [p0 [NS DP]]. rewrite NS. istep. rewrite DP.
  rewrite (pathcheck_plain (w_lha w) _ base H2 (fe_slash e dir base ND)). istep. change (Method (read0 h0 e)) with (e_method e). rewrite Hmeth. reflexivity.
Qed.

Lemma names_shrink_app es x more : forall n, names_shrink n (es ++ x :: more) -> names_shrink n es /\ (length (e_name (fst x)) <= last (map (fun x => length (e_name (fst x))) es) n)%nat.
Proof.
  induction es as [|y es IH]; intros n H; cbn [app names_shrink map] in *; [tauto|]. destruct H as [H1 H2]. destruct (IH _ H2) as [I1 I2]. split; [auto|].
  destruct (map (fun x => length (e_name (fst x))) es) eqn:Em; cbn [last] in *; [exact I2|].
  clear -I2. revert I2. generalize (length (e_name (fst y))). revert n0. induction l as [|z l IHl]; intros u m L2; cbn [last] in *; [exact L2|]. now apply (IHl z m).
Qed.
