(** What extracting does to the file system. *)
From Verif Require Import Go GoLemmas M_Crc M_Bitio M_Maketree M_Maketbl M_Huf M_Slide M_Lzhuf M_Header M_Os M_Archive P_Header P_Os P_Single.

(** ** Names *)

Lemma find_byte_range c l : forall i j, find_byte c l i = Some j -> i <= j /\ nth_error l (Z.to_nat (j - i)) = Some c.
Proof.
  induction l as [|x l IH]; intros i j H; cbn [find_byte] in H; [discriminate|]. destruct (Z.eqb_spec x c) as [->|N].
  - injection H as <-. split; [lia|]. rewrite Z.sub_diag. reflexivity.
  - apply IH in H. destruct H as [H1 H2]. split; [lia|]. replace (Z.to_nat (j - i)) with (S (Z.to_nat (j - (i + 1)))) by lia. exact H2.
Qed.

Lemma find_byte_drop c l j : find_byte c l 0 = Some j -> exists t, drop j l = c :: t.
Proof.
  intros H. apply find_byte_range in H. destruct H as [H1 H2]. rewrite Z.sub_0_r in H2. unfold drop.
  apply nth_error_split in H2. destruct H2 as [a [b [-> <-]]]. exists b. now rewrite skipn_app, Nat.sub_diag, skipn_all2.
Qed.

Lemma Index47_slash q : In 47 q -> exists t, drop (Index47 q) q = 47 :: t.
Proof.
  intros H. unfold Index47. destruct (find_byte 47 q 0) as [j|] eqn:E; [now apply find_byte_drop in E|]. exfalso.
  assert (X : forall l i, In 47 l -> find_byte 47 l i <> None).
  { induction l as [|x l IH]; intros i I; [destruct I|]. cbn [find_byte]. destruct (Z.eqb_spec x 47) as [->|N]; [discriminate|]. destruct I as [I|I]; [congruence|]. now apply IH. }
  exact (X q 0 H E).
Qed.

(** A name with a slash is never accepted. *)
Lemma Index47_nonneg q : In 47 q -> 0 <= Index47 q.
Proof.
  intros H. unfold Index47. destruct (find_byte 47 q 0) as [j|] eqn:E; [apply find_byte_range in E; lia|].
  exfalso. destruct (Index47_slash q H) as [t Ht]. unfold Index47 in Ht. rewrite E in Ht. clear -E H.
  assert (X : forall l i, In 47 l -> find_byte 47 l i <> None).
  { induction l as [|x l IH]; intros i I; [destruct I|]. cbn [find_byte]. destruct (Z.eqb_spec x 47) as [->|N]; [discriminate|]. destruct I as [I|I]; [congruence|]. now apply IH. }
  exact (X q 0 H E).
Qed.

Lemma pathcheck_slash q : In 47 q -> forall k f name offset p, p = 0 \/ p = Index47 q -> forall o, pathcheck_loop k f name q offset p <> Ok (Some o).
Proof.
  intros I. pose proof (Index47_nonneg q I) as Hn. induction k as [|k IH]; intros f name offset p Hp o; cbn [pathcheck_loop]; [discriminate|].
  destruct (Z.eqb_spec p (-1)) as [X|_]; [lia|]. cbv zeta.
  destruct (lstat f (name ++ drop p q)); try discriminate. destruct (stat f (name ++ drop p q)); try discriminate.
  apply IH. destruct Hp as [-> | ->]; [right; reflexivity|left]. destruct (Index47_slash q I) as [t ->]. reflexivity.
Qed.

Lemma In_subslice q a b r x : subslice q a b = Ok r -> In x r -> In x q.
Proof.
  unfold subslice. destruct ((0 <=? a) && (a <=? b) && (b <=? zlen q)); [|discriminate]. intros H I. injection H as <-.
  unfold take, drop in I. rewrite <- (firstn_skipn (Z.to_nat a) q). apply in_or_app. right.
  rewrite <- (firstn_skipn (Z.to_nat (b - a)) (skipn (Z.to_nat a) q)). apply in_or_app. now left.
Qed.

Lemma pathcheck_name l f q nm : makeNameWithPathcheck l f q = Ok (Some nm) -> ~ In 47 nm /\ forall x, In x nm -> In x q.
Proof.
  intros H. unfold makeNameWithPathcheck in H.
  destruct (match l_extractdir l with [] => (zeros FilenameLength, 0) | p :: l0 => ((p :: l0) ++ [47], zlen (p :: l0) + 1) end) as [name offset].
  destruct (in_dec Z.eq_dec 47 q) as [I|N].
  - exfalso. destruct (pathcheck_loop 100 f name q offset (Index47 q)) as [[o|]| |] eqn:E; cbn [bind] in H; try discriminate.
    exact (pathcheck_slash q I 100 f name offset (Index47 q) (or_intror eq_refl) o E).
  - destruct (pathcheck_loop 100 f name q offset (Index47 q)) as [[o|]| |] eqn:E; cbn [bind] in H; try discriminate.
    destruct (subslice q o _) as [r| |] eqn:S; cbn [bind] in H; try discriminate. injection H as ->. split; [|intros x; eapply In_subslice; eauto].
    intros I. apply N. eapply In_subslice; eauto.
Qed.

(** ** Operations *)

(** Files are created, and links made, under names without a slash; nothing is
    renamed or removed, and no directory is made. *)
Definition plain_op (o : op) : Prop :=
  match o with
  | OCreate n _ => ~ In 47 n
  | OSymlink _ n => ~ In 47 n
  | OWrite _ _ _ | OChtimes _ _ | OChmod _ _ | OChown _ _ _ => True
  | ORename _ _ | ORemove _ | OMkdir _ => False
  end.

Definition anyl (_ _ : lha) : Prop := True.
Ltac estep := first
  [ apply does_ret; intros; exact I | apply does_panic; intros; exact I | apply does_unknown | apply does_lift; intros; exact I
  | apply does_get; intros; exact I | apply does_getl; intros; exact I | apply does_glob; intros; exact I | apply does_stdin; intros; exact I | apply does_print; intros; exact I
  | apply does_modl; intros; exact I ].
Ltac ebind := apply does_bind; [intros; exact I| |intros ?].

Lemma does_bind_lift P {A B} (r : res A) (k : A -> IO B) : (forall a, r = Ok a -> does P anyl (k a)) -> does P anyl (bindIO (lift r) k).
Proof.
  intros H. destruct r as [a| |].
  - intros w. rewrite bind_lift. now apply H.
  - apply does_same. intros w. cbn. unfold anyl. auto.
  - intros w. exact I.
Qed.

Section Ops.
  Variable E : env.
  Let D {A} (m : IO A) := does plain_op anyl m.

  Lemma x_meta p o : (forall q, plain_op (o q)) -> D (os_meta p o).
  Proof. intros H. unfold os_meta. ebind; [estep|]. destruct (stat a p); try estep. apply does_emit; [intros; exact I|apply H]. Qed.

  Lemma x_append p l : D (os_append p l).
  Proof. unfold os_append. ebind; [estep|]. apply does_emit; [intros; exact I|exact I]. Qed.

  Lemma x_create n : ~ In 47 n -> D (os_create n).
  Proof.
    intros H. unfold os_create. ebind; [estep|]. destruct (has_nul n); [estep|]. destruct n; [estep|]. cbv zeta.
    destruct (a (follow a (z :: n))) as [[c| |t]|]; try estep; (ebind; [apply does_emit; [intros; exact I|exact H]|estep]).
  Qed.

  Lemma x_symlink t n : ~ In 47 n -> D (os_symlink t n).
  Proof.
    intros H. unfold os_symlink. ebind; [estep|]. destruct (has_nul t || has_nul n || _); [estep|].
    destruct (lstat a n); try estep; destruct n; try estep. ebind; [apply does_emit; [intros; exact I|exact H]|estep].
  Qed.

  Lemma x_parent n : D (makeParentPath n).
  Proof. unfold makeParentPath. ebind; [estep|]. destruct (lstat a n) as [[]| |]; estep. Qed.

  Lemma x_mksym t n : ~ In 47 n -> D (symlinkWithMakePath t n).
  Proof.
    intros H. unfold symlinkWithMakePath. ebind; [now apply x_symlink|]. destruct a; [estep|]. ebind; [apply x_parent|].
    ebind; [now apply x_symlink|estep].
  Qed.

  Lemma x_adjust n h : D (adjustInfo n h).
  Proof.
    unfold adjustInfo. ebind. { destruct (isSymlink h); [estep|apply x_meta; intros; exact I]. }
    destruct ((ExtendType h =? ExtendUnix) || _ || _); [|estep]. ebind; [destruct (Z.land _ _ =? _); [estep|apply x_meta; intros; exact I]|].
    apply x_meta; intros; exact I.
  Qed.

  Lemma x_inquire n : D (inquireExtract n).
  Proof.
    unfold inquireExtract. ebind; [estep|]. ebind; [estep|]. ebind; [estep|]. destruct (lstat a0 n) as [[]| |]; try estep.
    destruct (l_noexec a1); [estep|]. destruct (l_force a1); [estep|]. ebind; [estep|]. ebind; [estep|]. ebind; [estep|estep].
  Qed.

  Lemma x_ask n : D (ask n).
  Proof. unfold ask. ebind; [estep|]. ebind; [destruct a; [estep|apply x_inquire]|]. ebind; estep. Qed.

  Lemma x_decode m h inp : D (run_decode m h inp).
  Proof.
    unfold run_decode. ebind; [estep|]. ebind; [estep|]. ebind; [estep|]. set (r := DecodeLzhuf m a0 _ _ inp a).
    ebind; [estep|]. destruct a2 as [[[[g c] o] n] rest]. ebind; estep.
  Qed.

  Lemma x_one h inp : D (extractOne E h inp).
  Proof.
    unfold extractOne. ebind; [estep|]. ebind; [estep|]. ebind; [estep|]. ebind; [estep|]. destruct a2 as [[h' p]|]; [|estep].
    apply does_bind_lift. intros nm EN.
    destruct nm as [name|]; [|estep]. destruct (pathcheck_name _ _ _ _ EN) as [NS _].
    destruct (method_num (Method h')) as [method|]; [|estep].
    destruct (isRegular h' && negb (method =? LzhdirsMethodNum)).
    - destruct (l_stdout a || a1).
      + destruct ((ExtendType h' =? ExtendMacos) && l_macbin a && list_eqb (Base name) [73; 99; 111; 110; 13]); [estep|]. destruct (l_noexec a); [estep|].
        ebind; [estep|]. ebind; [apply x_decode|]. destruct a3 as [[[c o] n] rest]. ebind; [estep|]. destruct (HasCrc h' && negb (c =? Crc h')); estep.
      + ebind; [apply x_ask|]. ebind; [estep|]. destruct (negb a2); [estep|]. destruct (l_skip a3 && negb (l_force a3)); [estep|]. destruct (l_noexec a3); [estep|].
        ebind; [now apply x_create|]. destruct a4 as [q|]; [|estep]. ebind; [apply x_decode|]. destruct a4 as [[[c o] n] rest]. ebind; [apply x_append|estep].
    - destruct (isDirectory h' || isSymlink h' || (method =? LzhdirsMethodNum)).
      + destruct (negb (l_ignoredir a) && negb a1 && negb (l_stdout a)).
        * destruct (l_noexec a); [estep|]. destruct (isSymlink h').
          -- ebind; [apply x_ask|]. ebind; [estep|]. ebind; [estep|]. destruct (negb a2); [estep|].
             destruct (l_skip a3 && _ && negb (l_force a3)); [estep|]. ebind; [now apply x_mksym|]. ebind; [apply x_adjust|estep].
          -- ebind; [apply x_parent|]. destruct a2; estep.
        * destruct (l_stdout a || a1 || isDirectory h'); [estep|]. ebind; [apply x_adjust|estep].
      + destruct (l_force a); [|estep]. destruct (l_stdout a || a1 || isDirectory h'); [estep|]. ebind; [apply x_adjust|estep].
  Qed.

  Lemma x_loop {A} sel (one : hdr -> list Z -> A -> IO (bool * Z * A * hdr * list Z)) : (forall h, D (sel h)) -> (forall h i a, D (one h i a)) ->
    forall fuel h inp acc, D (extract_loop E fuel sel one h inp acc).
  Proof.
    intros Hs Ho. induction fuel as [|fuel IH]; intros h inp acc; cbn [extract_loop]; [estep|].
    ebind; [estep|]. destruct a as [[[e ok] h'] rest]. destruct e; try estep. destruct (negb ok); [estep|]. ebind; [apply Hs|]. destruct a.
    - ebind; [apply Ho|]. destruct a as [[[[err n] acc'] h2] rest2]. destruct err; [estep|]. destruct (n =? PackedSize h2); [apply IH|].
      destruct (skipToNextpos (PackedSize h2) rest2) as [ok2 rest3]. destruct ok2; [apply IH|estep].
    - destruct (skipToNextpos (PackedSize h') rest) as [ok2 rest3]. apply IH.
  Qed.

  Lemma x_open : D (open_archive E).
  Proof. unfold open_archive. ebind; [estep|]. ebind; [estep|]. destruct (os_open E a a0); [|estep]. destruct (archiveIsMsdosSfx1 a0); [|estep]. ebind; estep. Qed.

  Lemma x_file h i a : D (one_file E h i a).
  Proof. unfold one_file. ebind; [apply x_one|]. destruct a0 as [[[err n] h'] rest]. estep. Qed.

  Lemma x_Decompress header : D (Decompress E header).
  Proof.
    unfold Decompress. ebind; [estep|]. ebind; [apply x_open|]. destruct a0; [|estep]. ebind; [|destruct a0; estep].
    apply x_loop; [intros; unfold by_name; estep|apply x_file].
  Qed.

  Lemma x_CommandExtract archive : D (CommandExtract E archive).
  Proof.
    unfold CommandExtract. ebind; [estep|]. ebind; [apply x_open|]. destruct a0; [|estep]. ebind; [|destruct a0; estep].
    apply x_loop; [intros; ebind; estep|apply x_file].
  Qed.
End Ops.

(** ** Files that exist stay as they are, unless the user says yes *)

Definition keeps (f f' : fs) : Prop := forall p n, f p = Some n -> f' p = Some n.

Definition safe (w : world) : Prop :=
  l_force (w_lha w) = false /\ l_skip (w_lha w) = false /\ Forall (fun l => hd 0 l <> 89) (w_stdin w).

(** Every file created is created under its own name, not through a link. *)
Definition direct (ops ops' : list op) : Prop := forall n q, In (OCreate n q) ops' -> In (OCreate n q) ops \/ n = q.

Definition keepw (w w' : world) : Prop := keeps (w_fs w) (w_fs w') /\ direct (w_ops w) (w_ops w').

Definition hold_at {A} (w : world) (o : outcome A) : Prop :=
  match o with Done _ w' | Crash w' => safe w' /\ keepw w w' | Unknown => True end.
Definition hold {A} (m : IO A) : Prop := forall w, safe w -> hold_at w (m w).

Lemma keeps_refl f : keeps f f.
Proof. intros p n H. exact H. Qed.

Lemma kw_refl w w' : w_fs w' = w_fs w -> w_ops w' = w_ops w -> keepw w w'.
Proof. intros H1 H2. split; [rewrite H1; apply keeps_refl|rewrite H2; intros n q H; now left]. Qed.

Lemma kw_trans w w' w'' : keepw w w' -> keepw w' w'' -> keepw w w''.
Proof.
  intros [K1 D1] [K2 D2]. split; [intros p n H; auto|]. intros n q H. destruct (D2 n q H) as [H'|]; [|now right]. apply (D1 n q H').
Qed.

Lemma keeps_new f p n : f p = None -> keeps f (fs_set p n f).
Proof. intros H q m Hq. unfold fs_set. destruct (list_eqb q p) eqn:X; [|exact Hq]. apply list_eqb_eq in X. congruence. Qed.

Lemma hold_bind {A B} (m : IO A) (k : A -> IO B) : hold m -> (forall a, hold (k a)) -> hold (bindIO m k).
Proof.
  intros Hm Hk w Sw. specialize (Hm w Sw). unfold bindIO. destruct (m w) as [a w'|w'|]; auto. destruct Hm as [S' K]. specialize (Hk a w' S').
  unfold hold_at in *. destruct (k a w') as [b w''|w''|]; auto; destruct Hk as [S'' K']; (split; [exact S''|]); eapply kw_trans; eauto.
Qed.

Lemma hold_same {A} (m : IO A) : (forall w, safe w -> match m w with Done _ w' | Crash w' => safe w' /\ w_fs w' = w_fs w /\ w_ops w' = w_ops w | Unknown => True end) -> hold m.
Proof. intros H w Sw. specialize (H w Sw). unfold hold_at. destruct (m w); auto; destruct H as [X [Y Z]]; (split; [exact X|now apply kw_refl]). Qed.

Lemma hold_lift_bind {A B} (r : res A) (k : A -> IO B) : (forall a, r = Ok a -> hold (k a)) -> hold (bindIO (lift r) k).
Proof.
  intros H. destruct r as [a| |].
  - intros w. rewrite bind_lift. now apply H.
  - apply hold_same. intros w S. cbn. auto.
  - intros w S. exact I.
Qed.

Ltac hs := apply hold_same; intros ? ?; cbn; auto.
Ltac hbind := apply hold_bind; [|intros ?].

Lemma inquire_no ls : Forall (fun l => hd 0 l <> 89) ls -> inquire_lines ls = Panic.
Proof.
  induction 1 as [|l ls Hl F IH]; [reflexivity|]. destruct l as [|c l]; [reflexivity|]. cbn [inquire_lines hd] in *. apply Z.eqb_neq in Hl. now rewrite Hl.
Qed.

Lemma ask_safe n w : safe w ->
  match ask n w with
  | Done b w' => safe w' /\ (w_fs w' = w_fs w /\ w_ops w' = w_ops w) /\ (b = true -> lstat (w_fs w) n = SNotExist)
  | Crash w' => safe w' /\ w_fs w' = w_fs w /\ w_ops w' = w_ops w
  | Unknown => True
  end.
Proof.
  intros [S1 [S2 S3]]. unfold ask. rewrite bind_getl, S2. unfold inquireExtract. rewrite bind_assoc, bind_modl, bind_assoc, bind_get, bind_assoc, bind_get.
  set (w1 := set_wlha (set_skip false (w_lha w)) w).
  assert (SW : safe w1) by (split; [exact S1|split; [reflexivity|exact S3]]).
  change (w_fs w1) with (w_fs w). change (l_noexec (w_lha w1)) with (l_noexec (w_lha w)). change (l_force (w_lha w1)) with (l_force (w_lha w)).
  destruct (lstat (w_fs w) n) as [[c| |t]| |] eqn:L.
  2-3,5: rewrite bind_ret, bind_getl; cbn [ret]; change (l_force (w_lha w1)) with (l_force (w_lha w)); rewrite S1; split; [exact SW|split; [split; reflexivity|discriminate]].
  2: rewrite bind_ret, bind_getl; cbn [ret]; split; [exact SW|split; [split; reflexivity|auto]].
  destruct (l_noexec (w_lha w)); [rewrite bind_ret, bind_getl; cbn [ret]; change (l_force (w_lha w1)) with (l_force (w_lha w)); rewrite S1; cbn [orb]; split; [exact SW|split; [split; reflexivity|discriminate]]|].
  rewrite S1, bind_assoc, bind_get, bind_assoc. change (w_stdin w1) with (w_stdin w). rewrite (inquire_no _ S3). cbn. auto.
Qed.

Section Hold.
  Variable E : env.

  Lemma h_ask_k {B} n (k : bool -> IO B) : (forall w, safe w -> lstat (w_fs w) n = SNotExist -> hold_at w (k true w)) -> hold (k false) ->
    hold (bindIO (ask n) k).
  Proof.
    intros Ht Hf w Sw. pose proof (ask_safe n w Sw) as H. unfold bindIO. destruct (ask n w) as [b w'|w'|]; auto.
    - destruct H as [S' [[F' O'] X]]. assert (K : keepw w w') by now apply kw_refl. destruct b.
      + specialize (X eq_refl). rewrite <- F' in X. specialize (Ht w' S' X). unfold hold_at in *. destruct (k true w'); auto; destruct Ht as [Y1 Y2]; (split; [exact Y1|eapply kw_trans; eauto]).
      + specialize (Hf w' S'). unfold hold_at in *. destruct (k false w'); auto; destruct Hf as [Y1 Y2]; (split; [exact Y1|eapply kw_trans; eauto]).
    - destruct H as [S' [F' O']]. cbn. split; [exact S'|]. now apply kw_refl.
  Qed.

  Lemma h_decode m h inp : hold (run_decode m h inp).
  Proof.
    unfold run_decode. hbind; [hs|]. hbind; [hs|]. hbind; [hs|]. set (r := DecodeLzhuf m a0 _ _ inp a).
    apply hold_lift_bind. intros [[[[g c] o] n] rest] _. hbind; [hs|hs].
  Qed.

  Lemma h_print l : hold (print l).
  Proof. destruct l; hs. Qed.

  Lemma h_meta p o : (forall q f, run_op (o q) f = f) -> (forall q, match o q with OCreate _ _ => False | _ => True end) -> hold (os_meta p o).
  Proof.
    intros H H'. unfold os_meta. hbind; [hs|]. destruct (stat a p); [|hs|hs]. generalize (follow a p). intros z w S. cbn. split; [exact S|]. split; [rewrite H; apply keeps_refl|].
    intros x y [X|X]; [|now left]. specialize (H' z). rewrite X in H'. contradiction.
  Qed.

  Lemma h_adjust n h : hold (adjustInfo n h).
  Proof.
    unfold adjustInfo. hbind. { destruct (isSymlink h); [hs|apply h_meta; [reflexivity|intros; exact I]]. }
    destruct ((ExtendType h =? ExtendUnix) || _ || _); [|hs]. hbind; [destruct (Z.land _ _ =? _); [hs|apply h_meta; [reflexivity|intros; exact I]]|].
    apply h_meta; [reflexivity|intros; exact I].
  Qed.

  Lemma lstat_none f n : lstat f n = SNotExist -> has_nul n = false /\ (n = [] \/ f n = None).
  Proof.
    unfold lstat. destruct (has_nul n); [discriminate|]. destruct n as [|x n]; [auto|]. destruct (f (x :: n)); [discriminate|auto].
  Qed.

  Lemma h_symlink t n : hold (os_symlink t n).
  Proof.
    intros w S. unfold os_symlink. rewrite bind_get. destruct (has_nul t || has_nul n || _); [cbn; split; [exact S|now apply kw_refl]|].
    destruct (lstat (w_fs w) n) eqn:L; try (cbn; split; [exact S|now apply kw_refl]). apply lstat_none in L. destruct L as [_ L].
    destruct n as [|x n]; [cbn; split; [exact S|now apply kw_refl]|]. destruct L as [L|L]; [discriminate|]. cbn. split; [exact S|]. split; [now apply keeps_new|]. intros x1 y1 [X1|X1]; [discriminate X1|now left].
  Qed.

  Lemma h_mksym t n : hold (symlinkWithMakePath t n).
  Proof.
    unfold symlinkWithMakePath. hbind; [apply h_symlink|]. destruct a; [hs|].
    hbind. { unfold makeParentPath. hbind; [hs|]. destruct (lstat a n) as [[]| |]; hs. } hbind; [apply h_symlink|hs].
  Qed.

  (** Creating the file, decoding and writing *)
  Lemma h_write name method h inp w : safe w -> lstat (w_fs w) name = SNotExist ->
    hold_at w ((fp <~ os_create name ;;;
                    match fp with
                    | None => ret (false, 0, h, inp)
                    | Some q =>
                        '(crc, out, n, rest) <~ run_decode method h inp ;;;
                        _ <~ os_append q out ;;;
                        ret (false, n, h, rest)
                    end) w).
  Proof.
    intros S L. destruct (lstat_none _ _ L) as [N X]. unfold os_create. rewrite bind_assoc, bind_get, N.
    destruct name as [|x name]; [rewrite bind_ret; cbn; split; [exact S|now apply kw_refl]|]. destruct X as [X|X]; [discriminate|]. cbv zeta.
    rewrite (resolve_none (w_fs w) (x :: name) X), X. set (nm := x :: name) in *. rewrite bind_assoc.
    set (w1 := W (run_op (OCreate nm nm) (w_fs w)) (OCreate nm nm :: w_ops w) (w_glob w) (w_verify w) (w_stdin w) (w_lha w) (w_out w)).
    rewrite (bindIO_done (emit (OCreate nm nm)) _ w tt w1 eq_refl). rewrite bind_ret.
    assert (S1 : safe w1) by exact S. pose proof (h_decode method h inp w1 S1) as HD. pose proof (x_decode method h inp w1) as XD.
    assert (K1 : forall n, keeps (w_fs w) (fs_set nm n (w_fs w1))).
    { intros n p m Hp. unfold fs_set at 1. destruct (list_eqb p nm) eqn:Y; [apply list_eqb_eq in Y; congruence|]. cbn [w1 w_fs run_op]. unfold fs_set. now rewrite Y. }
    assert (K0 : keeps (w_fs w) (w_fs w1)) by now apply keeps_new.
    assert (D1 : direct (w_ops w) (w_ops w1)) by (intros n q [H|H]; [injection H as <- <-; now right|now left]).
    unfold bindIO at 1. 
    assert (SF : match run_decode method h inp w1 with Done _ w' | Crash w' => w_fs w' = w_fs w1 /\ w_ops w' = w_ops w1 /\ safe w' | Unknown => True end).
    { clear -S1. unfold run_decode. rewrite bind_get, bind_getl, bind_get. set (r := DecodeLzhuf method _ _ _ inp _).
      destruct r as [[[[[g c] o] n] rest]| |]; [rewrite bind_lift, bind_modify; cbn; auto|cbn; auto|exact I]. }
    destruct (run_decode method h inp w1) as [[[[crc out] n] rest] w2|w2|]; [|destruct SF as [F2 [O2 S2]]; cbn; split; [exact S2|split; [rewrite F2; exact K0|rewrite O2; exact D1]]|exact I].
    destruct SF as [F2 [O2 S2]]. unfold os_append. rewrite bind_assoc, bind_get. cbn. split; [exact S2|]. split; cbn; [rewrite F2; apply K1|].
    rewrite O2. intros x' y' [X'|X']; [discriminate X'|]. apply D1, X'.
  Qed.

  Lemma h_one h inp : hold (extractOne E h inp).
  Proof.
    unfold extractOne. hbind; [hs|]. hbind; [hs|]. hbind; [hs|]. apply hold_lift_bind. intros st _. destruct st as [[h' p]|]; [|hs].
    apply hold_lift_bind. intros nm EN. destruct nm as [name|]; [|hs].
    destruct (method_num (Method h')) as [method|]; [|hs].
    destruct (isRegular h' && negb (method =? LzhdirsMethodNum)).
    - destruct (l_stdout a || a1).
      + destruct ((ExtendType h' =? ExtendMacos) && l_macbin a && list_eqb (Base name) [73; 99; 111; 110; 13]); [hs|]. destruct (l_noexec a); [hs|].
        hbind; [apply h_print|]. hbind; [apply h_decode|]. destruct a3 as [[[c o] n] rest]. hbind; [apply h_print|]. destruct (HasCrc h' && negb (c =? Crc h')); hs.
      + apply h_ask_k.
        * intros w S L. rewrite bind_get. cbn [negb]. destruct S as [S1 [S2 S3]]. rewrite S2. cbn [andb]. destruct (l_noexec (w_lha w)); [cbn; split; [repeat split; auto|now apply kw_refl]|].
          apply h_write; [repeat split; auto|exact L].
        * hbind; [hs|]. cbn [negb]. hs.
    - destruct (isDirectory h' || isSymlink h' || (method =? LzhdirsMethodNum)).
      + destruct (negb (l_ignoredir a) && negb a1 && negb (l_stdout a)).
        * destruct (l_noexec a); [hs|]. destruct (isSymlink h').
          -- apply h_ask_k.
             ++ intros w S L. rewrite bind_get, bind_get. cbn [negb]. destruct (l_skip (w_lha w) && _ && _); [cbn; split; [exact S|now apply kw_refl]|].
                revert w S L. change (forall w, safe w -> lstat (w_fs w) name = SNotExist -> hold_at w ((_ <~ symlinkWithMakePath (Realname h') name ;;; _ <~ adjustInfo name h' ;;; ret (false, 0, h', inp)) w)).
                intros w S _. revert w S. change (hold (_ <~ symlinkWithMakePath (Realname h') name ;;; _ <~ adjustInfo name h' ;;; ret (false, 0, h', inp))).
                hbind; [apply h_mksym|]. hbind; [apply h_adjust|hs].
             ++ hbind; [hs|]. hbind; [hs|]. cbn [negb]. hs.
          -- hbind. { unfold makeParentPath. hbind; [hs|]. destruct (lstat a2 name) as [[]| |]; hs. } destruct a2; hs.
        * destruct (l_stdout a || a1 || isDirectory h'); [hs|]. hbind; [apply h_adjust|hs].
      + destruct (l_force a); [|hs]. destruct (l_stdout a || a1 || isDirectory h'); [hs|]. hbind; [apply h_adjust|hs].
  Qed.

  Lemma h_loop {A} sel (one : hdr -> list Z -> A -> IO (bool * Z * A * hdr * list Z)) : (forall h, hold (sel h)) -> (forall h i a, hold (one h i a)) ->
    forall fuel h inp acc, hold (extract_loop E fuel sel one h inp acc).
  Proof.
    intros Hs Ho. induction fuel as [|fuel IH]; intros h inp acc; cbn [extract_loop]; [intros w S; exact I|].
    apply hold_lift_bind. intros [[[e ok] h'] rest] _. destruct e; try (now hs). destruct (negb ok); [hs|]. hbind; [apply Hs|]. destruct a.
    - hbind; [apply Ho|]. destruct a as [[[[err n] acc'] h2] rest2]. destruct err; [hs|]. destruct (n =? PackedSize h2); [apply IH|].
      destruct (skipToNextpos (PackedSize h2) rest2) as [ok2 rest3]. destruct ok2; [apply IH|hs].
    - destruct (skipToNextpos (PackedSize h') rest) as [ok2 rest3]. apply IH.
  Qed.

  Lemma h_open : hold (open_archive E).
  Proof. unfold open_archive. hbind; [hs|]. hbind; [hs|]. destruct (os_open E a a0); [|hs]. destruct (archiveIsMsdosSfx1 a0); [|hs]. apply hold_lift_bind. intros; hs. Qed.

  Lemma h_file h i a : hold (one_file E h i a).
  Proof. unfold one_file. hbind; [apply h_one|]. destruct a0 as [[[err n] h'] rest]. hs. Qed.

  Lemma h_Decompress header : hold (Decompress E header).
  Proof.
    unfold Decompress. hbind; [apply hold_same; intros w [S1 [S2 S3]]; cbn; repeat split; auto|]. hbind; [apply h_open|]. destruct a0; [|hs]. hbind; [|destruct a0; hs].
    apply h_loop; [intros; unfold by_name; hs|apply h_file].
  Qed.

  Lemma h_CommandExtract archive : hold (CommandExtract E archive).
  Proof.
    unfold CommandExtract. hbind; [apply hold_same; intros w [S1 [S2 S3]]; cbn; repeat split; auto|]. hbind; [apply h_open|]. destruct a0; [|hs]. hbind; [|destruct a0; hs].
    apply h_loop; [intros; hbind; hs|apply h_file].
  Qed.
End Hold.
