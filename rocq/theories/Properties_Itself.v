(** Property C125: an archive is not put into itself. *)
From Verif Require Import Go GoLemmas M_Crc M_Bitio M_Maketree M_Maketbl M_Huf M_Slide M_Lzhuf M_Header M_Os M_Archive P_Os P_Backup P_Single P_Itself.

(** Everything that can be seen of two processes is the same: the files, the operations
    done on them, what was printed, the input left, and the state of the coders. *)
Definition looks_same (w1 w2 : world) : Prop :=
  w_fs w1 = w_fs w2 /\ w_ops w1 = w_ops w2 /\ w_out w1 = w_out w2 /\ w_stdin w1 = w_stdin w2 /\ w_glob w1 = w_glob w2.
Definition same_results {A} (o1 o2 : outcome A) : Prop :=
  match o1, o2 with
  | Done x w1, Done y w2 => x = y /\ looks_same w1 w2
  | Crash w1, Crash w2 => looks_same w1 w2
  | Unknown, Unknown => True
  | _, _ => False
  end.

(** The files given on the command line. *)
Definition given (names : list path) (w : world) : Prop := l_filev (w_lha w) = names /\ l_filec (w_lha w) = zlen names.
Definition giving (names : list path) (w : world) : world := set_wlha (set_files names (zlen names) (w_lha w)) w.

Lemma twin_bind {A B} (m : IO A) (k1 k2 : A -> IO B) v c w : blind m ->
  (forall x w', files_kept w w' -> k2 x (named_files v c w') = omap (named_files v c) (k1 x w')) ->
  bindIO m k2 (named_files v c w) = omap (named_files v c) (bindIO m k1 w).
Proof.
  intros M K. destruct (M w) as [M1 M2]. unfold bindIO. rewrite M1. destruct (m w) as [x w'|w'|]; cbn [omap]; [|reflexivity|reflexivity]. apply K. exact M2.
Qed.

Lemma bind_omap {A B} (m1 m2 : IO A) (k1 k2 : A -> IO B) f w : m2 (f w) = omap f (m1 w) ->
  (forall x w', m1 w = Done x w' -> k2 x (f w') = omap f (k1 x w')) -> bindIO m2 k2 (f w) = omap f (bindIO m1 k1 w).
Proof. intros M K. unfold bindIO. rewrite M. destruct (m1 w) as [x w'|w'|]; cbn [omap]; [|reflexivity|reflexivity]. apply K. reflexivity. Qed.

Lemma command_twin E a w names : given names w -> without a names <> [] ->
  CommandAdd E a (giving (without a names) w) = omap (giving (without a names)) (CommandAdd E a w).
Proof.
  intros [G1 G2] NE. set (V := without a names) in *. change (giving V) with (named_files V (zlen V)).
  unfold CommandAdd, add_command. rewrite !bind_modl, !bind_get.
  set (w1 := set_wlha (set_archive a (w_lha w)) w).
  change (set_wlha (set_archive a (w_lha (named_files V (zlen V) w))) (named_files V (zlen V) w)) with (named_files V (zlen V) w1).
  set (l := w_lha w1). change (w_lha (named_files V (zlen V) w1)) with (set_files V (zlen V) l).
  assert (NN : names <> []) by (intros ->; apply NE; reflexivity).
  assert (C1 : l_filec l =? 0 = false) by (apply Z.eqb_neq; change (l_filec l) with (l_filec (w_lha w)); rewrite G2; destruct names; [contradiction|unfold zlen; cbn [length]; lia]).
  assert (C2 : l_filec (set_files V (zlen V) l) =? 0 = false) by (apply Z.eqb_neq; cbn [l_filec set_files]; destruct V; [contradiction|unfold zlen; cbn [length]; lia]).
  rewrite C1, C2, !andb_false_r. cbv iota. cbn [l_update l_new l_noexec l_newbuf l_backup l_filec set_files]. cbv zeta.
  apply twin_bind; [bl|]. intros f w2 K2. cbn [andb].
  apply twin_bind; [destruct (_ && archiveIsMsdosSfx1 a); [apply blind_bind; [apply blind_newbuf|bl]|bl]|]. intros newname w3 K3.
  apply twin_bind; [bl|]. intros made w4 K4. destruct (negb made); [reflexivity|].
  rewrite !bind_ret.
  assert (K : files_kept w1 w4) by (destruct K2 as (? & ? & ?), K3 as (? & ? & ?), K4 as (? & ? & ?); repeat split; congruence).
  destruct K as (KV & KC & KA). change (l_filev (w_lha w1)) with (l_filev (w_lha w)) in KV. change (l_filec (w_lha w1)) with (l_filec (w_lha w)) in KC. change (l_archive (w_lha w1)) with a in KA. rewrite G1 in KV. rewrite G2 in KC.
  set (o := match os_open E f a with Some c => if l_new l then Some [] else Some c | None => None end).
  pose proof (files_twin (appendIt E) (blind_appendIt E) a V names 0 o w4 KA) as FT. rewrite KV, KC in FT.
  specialize (FT ltac:(lia) (firstn_all names) eq_refl eq_refl ltac:(lia) eq_refl). destruct FT as [F1 F2].
  change (l_filec l) with (l_filec (w_lha w)). rewrite G2. assert (ZL : forall v : list path, Z.to_nat (zlen v) = length v) by (intros v; unfold zlen; apply Nat2Z.id). rewrite !ZL. change (length V) with (length (without a names)).
  change (Z.of_nat 0) with 0 in *. apply bind_omap; [exact F1|]. intros o1 w5 E5. rewrite E5 in F2. destruct F2 as [FC FV].
  assert (RM : forall w6, files_kept w5 w6 ->
    (l0 <~ get w_lha ;;; _ <~ (if l_delete l0 then removeFiles (Z.to_nat (l_filec l0)) 0 (l_filev l0) else ret tt) ;;; ret false) (named_files V (zlen V) w6) =
    omap (named_files V (zlen V)) ((l0 <~ get w_lha ;;; _ <~ (if l_delete l0 then removeFiles (Z.to_nat (l_filec l0)) 0 (l_filev l0) else ret tt) ;;; ret false) w6)).
  { intros w6 (R1 & R2 & R3). rewrite !bind_get. cbn [named_files w_lha set_wlha l_delete l_filec l_filev set_files]. rewrite R1, R2, FC. destruct (l_delete (w_lha w6)); [|reflexivity].
    rewrite !ZL.
    assert (P : forall w7, removeFiles (length V) 0 (l_filev (w_lha w5)) w7 = removeFiles (length V) 0 V w7).
    { intros w7. apply (remove_prefix (length V) 0). cbn [plus]. rewrite FV. symmetry. apply firstn_all. }
    change (set_wlha (set_files V (zlen V) (w_lha w6)) w6) with (named_files V (zlen V) w6). apply bind_omap; [|reflexivity].
    rewrite P. apply (blind_remove (length V) 0 V w6). }
  apply twin_bind; [bl; apply blind_rest|]. intros [] w6 K6. destruct (l_noexec l).
  - apply twin_bind; [apply blind_backup|]. intros [] w7 K7. apply RM. destruct K6 as (? & ? & ?), K7 as (? & ? & ?); repeat split; congruence.
  - apply twin_bind; [bl|]. intros [] w7 K7. apply twin_bind; [apply blind_backup|]. intros [] w8 K8. apply twin_bind; [bl|]. intros ok w9 K9. destruct (negb ok); [reflexivity|].
    apply RM. destruct K6 as (? & ? & ?), K7 as (? & ? & ?), K8 as (? & ? & ?), K9 as (? & ? & ?); repeat split; congruence.
Qed.

(** The name of the archive among the files to add makes no difference, wherever it is
    in the list and however often, if there is another file to add: the process ends in
    the same way, and the archive and all other files are the same. *)
Theorem C125_not_into_itself :
  forall E a w names,
    given names w -> (exists name, In name names /\ name <> a) ->
    same_results (CommandAdd E a w) (CommandAdd E a (giving (remove (list_eq_dec Z.eq_dec) a names) w)).
Proof.
  intros E a w names G (name & I & N).
  assert (NE : without a names <> []). { intros X. assert (Y : In name (without a names)) by (apply in_in_remove; auto). rewrite X in Y. exact Y. }
  change (remove (list_eq_dec Z.eq_dec) a names) with (without a names). rewrite (command_twin E a w names G NE).
  destruct (CommandAdd E a w); cbn; repeat split.
Qed.

(** The archive is named twice, first and last, besides two files. *)
Example C125_example : remove (list_eq_dec Z.eq_dec) [97] [[97]; [98]; [99]; [97]] = [[98]; [99]] /\ (exists name, In name [[97]; [98]; [99]; [97]] /\ name <> [97]) /\
  forall w, given [[97]; [98]; [99]; [97]] (giving [[97]; [98]; [99]; [97]] w).
Proof. split; [reflexivity|]. split; [|intros w; split; reflexivity]. exists [98]. split; [right; now left|discriminate]. Qed.

Print Assumptions C125_not_into_itself.
Print Assumptions C125_example.
