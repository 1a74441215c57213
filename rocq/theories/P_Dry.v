(** Functions that do nothing when Noexec is on. *)
From Verif Require Import Go GoLemmas M_Crc M_Bitio M_Maketree M_Maketbl M_Huf M_Slide M_Lzhuf M_Header M_Os M_Archive P_Os P_Backup P_Single P_Verify.

(** The options that matter: Noexec, DeleteAfterAppend, IgnoreDirectory and Force. *)
Definition four (l : lha) : bool * bool * bool * bool := (l_noexec l, l_delete l, l_ignoredir l, l_force l).

(** No file gets other contents; if [full], no operation at all is done. *)
Definition kept (full : bool) (w w' : world) : Prop := w_fs w' = w_fs w /\ (full = true -> w_ops w' = w_ops w).

Definition dry {A} (full : bool) (v : bool * bool * bool * bool) (m : IO A) : Prop :=
  forall w, four (w_lha w) = v -> match m w with Done _ w' | Crash w' => four (w_lha w') = v /\ kept full w w' | Unknown => True end.

Lemma kept_refl full w : kept full w w.
Proof. split; reflexivity. Qed.

Lemma kept_trans full w1 w2 w3 : kept full w1 w2 -> kept full w2 w3 -> kept full w1 w3.
Proof. intros [A1 A2] [B1 B2]. split; [congruence|]. intros F. rewrite B2, A2 by exact F. reflexivity. Qed.

Lemma dry_bind {A B} full v (m : IO A) (k : A -> IO B) : dry full v m -> (forall a, dry full v (k a)) -> dry full v (bindIO m k).
Proof.
  intros Hm Hk w Hv. specialize (Hm w Hv). unfold bindIO. destruct (m w) as [a w'|w'|]; auto. destruct Hm as [V' K'].
  specialize (Hk a w' V'). destruct (k a w') as [b w''|w''|]; auto; destruct Hk as [V'' K'']; (split; [exact V''|eapply kept_trans; eauto]).
Qed.

Lemma dry_lift {A B} full v (r : res A) (k : A -> IO B) : (forall a, dry full v (k a)) -> dry full v (bindIO (lift r) k).
Proof.
  intros H. destruct r as [a| |].
  - intros w. rewrite bind_lift. now apply H.
  - intros w Hv. cbn. split; [exact Hv|apply kept_refl].
  - intros w Hv. exact Logic.I.
Qed.

Lemma dry_opts {B} full v (k : lha -> IO B) : (forall l, four l = v -> dry full v (k l)) -> dry full v (bindIO (get w_lha) k).
Proof. intros H w Hv. rewrite bind_get. now apply H. Qed.

Lemma dry_opt {A B} full v (f : lha -> A) (k : A -> IO B) : (forall l, four l = v -> dry full v (k (f l))) -> dry full v (bindIO (getl f) k).
Proof. intros H w Hv. rewrite bind_getl. now apply H. Qed.

Lemma dry_ret {A} full v (x : A) : dry full v (ret x).
Proof. intros w H. split; [exact H|apply kept_refl]. Qed.

Lemma dry_panic {A} full v : dry full v (@panic A).
Proof. intros w H. split; [exact H|apply kept_refl]. Qed.

Lemma dry_get {A} full v (f : world -> A) : dry full v (get f).
Proof. intros w H. split; [exact H|apply kept_refl]. Qed.

Lemma dry_getl {A} full v (f : lha -> A) : dry full v (getl f).
Proof. intros w H. split; [exact H|apply kept_refl]. Qed.

Lemma dry_modl full v f : (forall l, four (f l) = four l) -> dry full v (modl f).
Proof. intros F w H. cbn. rewrite F. split; [exact H|split; reflexivity]. Qed.

Lemma dry_glob full v g : dry full v (modify (set_wglob g)).
Proof. intros w H. split; [exact H|split; reflexivity]. Qed.

Lemma dry_stdin full v l : dry full v (modify (set_wstdin l)).
Proof. intros w H. split; [exact H|split; reflexivity]. Qed.

Lemma dry_print full v l : dry full v (print l).
Proof. intros w H. cbn. destruct (printed_same l w) as (P1 & P2 & _ & P4 & P5 & _). rewrite ?P1, ?P2, ?P4, ?P5. split; [congruence|]. split; auto. Qed.

Ltac dr := first [apply dry_ret | apply dry_panic | apply dry_get | apply dry_getl | apply dry_glob | apply dry_stdin | apply dry_print | (apply dry_modl; intros; reflexivity) | (intros ? ?; exact Logic.I)].
Ltac db := apply dry_bind; [try dr|intros ?].

Section Dry.
  Variable E : env.
  Variable full : bool.

  (** ** Adding *)

  Lemma dry_copyOldOne d i fo h inp : dry full (true, d, i, fo) (copyOldOne E h inp).
  Proof. unfold copyOldOne. apply dry_opt. intros l L. injection L as -> _ _ _. dr. Qed.

  Lemma dry_scan d i fo sort : forall fuel h inp c, dry full (true, d, i, fo) (scan_old E fuel sort h inp c).
  Proof.
    induction fuel as [|fuel IH]; intros h inp c; cbn [scan_old]; [dr|]. apply dry_lift. intros [[[e ok] ah] rest].
    destruct (negb ok); [dr|]. destruct (negb sort); [|dr]. db; [apply dry_copyOldOne|apply IH].
  Qed.

  Lemma dry_new d i fo oafp h inp : dry full (true, d, i, fo) (append_new E oafp h inp).
  Proof.
    unfold append_new. db. apply dry_opt. intros l L. injection L as -> _ _ _. db.
    db. { destruct oafp; [|dr]. db; [apply dry_scan|]. destruct a1 as [[[? ?] ?] ?]. dr. }
    destruct a1 as [[[o ah] ne] c]. destruct (ne || _ || _ || _); [db; dr|]. destruct o; [|dr]. db; [apply dry_copyOldOne|dr].
  Qed.

  Lemma dry_appendIt d i fo name o : dry full (true, d, i, fo) (appendIt E name o).
  Proof.
    unfold appendIt. db. apply dry_opts. intros l L. injection L as -> _ _ _. destruct (lstat a name) as [n| |]; [|dr|dr].
    destruct n; (db; [apply dry_new|dr]).
  Qed.

  Lemma dry_appendBytes d i fo body name o : dry full (true, d, i, fo) (appendBytes E body name o).
  Proof.
    unfold appendBytes. db. db. db; [apply dry_new|]. db; [|dr]. destruct (l_recursive a0); [|dr]. unfold findFiles_bytes. db. db.
    destruct (lstat a2 name) as [[]| |]; try dr. destruct (existsb _ _); dr.
  Qed.

  Lemma dry_excluded v append : (forall name o, dry full v (append name o)) -> forall ex name o, dry full v (add_excluded append name ex o).
  Proof.
    intros H. induction ex as [|x ex IH]; intros name o; cbn [add_excluded]; [dr|]. db; [destruct (list_eqb _ _); [dr|apply H]|]. apply IH.
  Qed.

  Lemma dry_files v append : (forall name o, dry full v (append name o)) -> forall k i o, dry full v (add_files append k i o).
  Proof.
    intros H. induction k as [|k IH]; intros i o; cbn [add_files]; [dr|]. db. destruct (i <? l_filec a); [|dr]. destruct (nth_error _ _); [|dr].
    destruct (list_eqb p (l_archive a)); [db; apply IH|]. db; [|apply IH]. destruct (l_exclude a); [apply H|]. now apply dry_excluded.
  Qed.

  Lemma dry_rest d i fo : forall fuel h inp, dry full (true, d, i, fo) (copy_rest E fuel h inp).
  Proof.
    induction fuel as [|fuel IH]; intros h inp; cbn [copy_rest]; [dr|]. apply dry_lift. intros [[[e ok] ah] rest]. destruct (negb ok); [dr|]. db; [apply dry_copyOldOne|apply IH].
  Qed.

  Lemma dry_update v : forall fuel h inp, dry full v (findUpdateFiles E fuel h inp).
  Proof.
    induction fuel as [|fuel IH]; intros h inp; cbn [findUpdateFiles]; [dr|]. apply dry_lift. intros [[[e ok] ah] rest]. destruct e; [|dr|dr]. destruct ok; [apply IH|dr].
  Qed.

  (** With DeleteAfterAppend off. *)
  Lemma dry_add_command i fo append a : (forall name o, dry full (true, false, i, fo) (append name o)) -> dry full (true, false, i, fo) (add_command E append a).
  Proof.
    intros H. unfold add_command. db. apply dry_opts. intros l L. injection L as N _ _ _. rewrite N. destruct (negb (l_update l) && _); [dr|]. db. cbv zeta.
    destruct (l_update l && _ && _); [dr|]. db. { destruct (_ && archiveIsMsdosSfx1 a); [db; dr|dr]. } db. cbn [negb]. destruct a3; cbn [negb]; [|dr].
    db. { destruct (l_update l && _); [apply dry_update|dr]. } destruct (l_filec l =? 0); [dr|]. db; [now apply dry_files|].
    db. { destruct (os_open E a1 a); destruct a4; try dr; apply dry_rest. } db. { intros w W. rewrite backup_run. split; [exact W|apply kept_refl]. } apply dry_opts. intros l' L'. injection L' as _ -> _ _. db; dr.
  Qed.

  Lemma dry_test v : dry full v archive_test.
  Proof. unfold archive_test. db. db. destruct (stat a a0); [dr|db; dr|dr]. Qed.

  Lemma dry_CommandAdd i fo a : dry full (true, false, i, fo) (CommandAdd E a).
  Proof. apply dry_add_command. intros. apply dry_appendIt. Qed.

  Lemma dry_Compress i fo filename m lv : dry full (true, false, i, fo) (Compress E filename m lv).
  Proof. unfold Compress. db; [apply dry_test|]. destruct a; [dr|]. db. db. apply dry_CommandAdd. Qed.

  Lemma dry_CompressBytes i fo filename body m lv : dry full (true, false, i, fo) (CompressBytes E filename body m lv).
  Proof. unfold CompressBytes. db. db; [apply dry_test|]. destruct a0; [dr|]. db. apply dry_add_command. intros. apply dry_appendBytes. Qed.

  (** ** Extracting *)

  Lemma dry_decode v m h inp : dry full v (run_decode m h inp).
  Proof. unfold run_decode. db. db. db. apply dry_lift. intros [[[[g c] o] n] rest]. db. dr. Qed.

  Lemma dry_stream v h inp : dry full v (extractOneStream h inp).
  Proof.
    unfold extractOneStream. destruct (method_num (Method h)); [|dr]. destruct (isRegular h && _); [|dr]. db. destruct a; [dr|].
    db; [apply dry_decode|]. destruct a as [[[c o] n] rest]. destruct (HasCrc h && _); dr.
  Qed.

  Lemma dry_inquire v name : dry full v (inquireExtract name).
  Proof.
    unfold inquireExtract. db. db. db. destruct (lstat a0 name) as [[]| |]; try dr. destruct (l_noexec a1); [dr|]. destruct (l_force a1); [dr|].
    db. apply dry_lift. intros ls. db. dr.
  Qed.

  Lemma dry_ask v name : dry full v (ask name).
  Proof. unfold ask. db. db; [destruct a; [dr|apply dry_inquire]|]. db. dr. Qed.

  Lemma dry_meta v name o : full = false -> (forall p f, run_op (o p) f = f) -> dry full v (os_meta name o).
  Proof.
    intros F R w H. unfold os_meta. rewrite bind_get. destruct (stat (w_fs w) name); try (apply dry_ret; exact H).
    cbn. rewrite R. split; [exact H|]. split; [reflexivity|]. rewrite F. discriminate.
  Qed.

  Lemma dry_adjust v name h : full = false -> dry full v (adjustInfo name h).
  Proof.
    intros F. unfold adjustInfo. db; [destruct (isSymlink h); [dr|apply dry_meta; auto]|]. destruct (_ || _ || _); [|dr]. db; [destruct (_ =? _); [dr|apply dry_meta; auto]|]. apply dry_meta; auto.
  Qed.

  Lemma dry_one d i fo h inp : full = false \/ i = false /\ fo = false -> dry full (true, d, i, fo) (extractOne E h inp).
  Proof.
    intros OK. unfold extractOne. apply dry_opts. intros l L. injection L as N _ I F. rewrite N, I, F. db. db. apply dry_lift. intros [[h' p]|]; [|dr]. apply dry_lift. intros [name|]; [|dr].
    destruct (method_num (Method h')) as [m|]; [|dr]. destruct (isRegular h' && _).
    - destruct (l_stdout l || a0).
      + destruct (_ && _ && _); dr.
      + db; [apply dry_ask|]. apply dry_opts. intros l2 L2. injection L2 as -> _ _ _. destruct (negb a1); [dr|]. destruct (l_skip l2 && _); dr.
    - destruct (isDirectory h' || _ || _).
      + destruct OK as [OK|[-> ->]].
        * destruct (negb i && _ && _); [dr|]. destruct (_ || _ || _); [dr|]. db; [now apply dry_adjust|dr].
        * destruct a0, (l_stdout l); cbn [negb andb orb]; dr.
      + destruct OK as [OK|[-> ->]]; [|dr]. destruct fo; [|dr]. destruct (_ || _ || _); [dr|]. db; [now apply dry_adjust|dr].
  Qed.

  Lemma dry_loop {A} v sel (one : hdr -> list Z -> A -> IO (bool * Z * A * hdr * list Z)) : (forall h, dry full v (sel h)) -> (forall h i a, dry full v (one h i a)) ->
    forall fuel h inp acc, dry full v (extract_loop E fuel sel one h inp acc).
  Proof.
    intros Hs Ho. induction fuel as [|fuel IH]; intros h inp acc; cbn [extract_loop]; [dr|].
    apply dry_lift. intros [[[e ok] h'] rest]. destruct e; [|dr|dr]. destruct (negb ok); [dr|]. db; [apply Hs|]. destruct a.
    - db; [apply Ho|]. destruct a as [[[[err n] acc'] h2] rest2]. destruct err; [dr|]. destruct (n =? PackedSize h2); [apply IH|].
      destruct (skipToNextpos (PackedSize h2) rest2) as [ok2 rest3]. destruct ok2; [apply IH|dr].
    - destruct (skipToNextpos (PackedSize h') rest) as [ok2 rest3]. apply IH.
  Qed.

  Lemma dry_open v : dry full v (open_archive E).
  Proof. unfold open_archive. db. db. destruct (os_open E a a0); [|dr]. destruct (archiveIsMsdosSfx1 a0); [|dr]. apply dry_lift. intros. dr. Qed.

  Lemma dry_one_file d i fo h inp acc : full = false \/ i = false /\ fo = false -> dry full (true, d, i, fo) (one_file E h inp acc).
  Proof. intros OK. unfold one_file. db; [now apply dry_one|]. destruct a as [[[? ?] ?] ?]. dr. Qed.

  Lemma dry_CommandExtract d i fo a : full = false \/ i = false /\ fo = false -> dry full (true, d, i, fo) (CommandExtract E a).
  Proof.
    intros OK. unfold CommandExtract. db. db; [apply dry_open|]. destruct a1; [|dr]. db; [|destruct a1; dr]. apply dry_loop; [|intros; now apply dry_one_file].
    intros h. db. dr.
  Qed.

  Lemma dry_Decompress d i fo h : full = false \/ i = false /\ fo = false -> dry full (true, d, i, fo) (Decompress E h).
  Proof.
    intros OK. unfold Decompress. db. db; [apply dry_open|]. destruct a0; [|dr]. db; [|destruct a0; dr]. apply dry_loop; [|intros; now apply dry_one_file].
    intros h'. unfold by_name. dr.
  Qed.
End Dry.
