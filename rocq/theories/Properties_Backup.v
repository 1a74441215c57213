(** Properties of BackupOldArchive. *)
From Verif Require Import Go GoLemmas M_Crc M_Bitio M_Maketree M_Maketbl M_Huf M_Slide M_Lzhuf S_Header M_Header M_Os M_Archive S_History S_Archive S_Listing S_Add
  P_Bitio P_Crc P_Header P_Os P_Single P_Add P_Move Properties_Slide Properties_Archive Properties_Extract Properties_Listing Properties_Add Properties_Move.

(** ** C119: a backup of the old archive that was asked for is made *)

(** The claim is false, of every call, whatever the archive, the files and the other
    options, and wherever it ends: a file that is not the archive or the temporary file
    is what it was before, or it is gone.  So if no other file held the contents of the
    old archive before, and the archive has other contents now, they are lost (or, if
    the program crashed, in the temporary file). *)
Theorem C119_backup_refuted :
  forall E a w w' old,
    l_backup (w_lha w) = true -> archiveIsMsdosSfx1 a = false -> l_noexec (w_lha w) = false -> e_tmp E <> a ->
    w_fs w a = Some (NFile old) -> (forall p, w_fs w p = Some (NFile old) -> p = a) ->
    final (CommandAdd E a w) = Some w' -> w_fs w' a <> Some (NFile old) ->
    forall p, p <> e_tmp E -> w_fs w' p <> Some (NFile old).
Proof.
  intros E a w w' old _ SX NX TA A U F C p PT H.
  destruct (list_eq_dec Z.eq_dec p a) as [->|PA]; [contradiction|].
  pose proof (add_command_strict E (appendIt E) (fun name o => d_appendIt E name o) a w SX NX) as S. change (add_command E (appendIt E) a w) with (CommandAdd E a w) in S.
  assert (D : exists ops, did ops w w' /\ w_fs w' = run_ops ops (w_fs w)).
  { unfold strict in S. destruct (CommandAdd E a w) as [x w0|w0|]; cbn [final] in F; try discriminate; injection F as <-; destruct S as (pre & post & S1 & S2 & _); exists (pre ++ post); split; assumption. }
  destruct D as (ops & D1 & D2).
  pose proof (C116_archive_first_partial E a w w' ops (length ops) p SX NX TA PA PT F D1) as X. unfold files_after in X. rewrite firstn_all in X. fold (run_ops ops (w_fs w)) in X. rewrite <- D2, H in X.
  assert (NE : w_fs w p <> Some (NFile old)) by (intros Y; apply PA, U, Y).
  destruct X as [X _]; [congruence|discriminate].
Qed.

(** ** The theorem applies *)

(** "b" is an empty archive, "f" holds ABC, and f is added to b with BackupOldArchive:
    the program ends, and b is changed. *)
Definition ex_keep : world := W ex_fs [] glob0 false [] (LHA [98] false false false false false false true false false false false false false 0 0 [] [] [[102]] 1 []) [].

Example C119_example :
  l_backup (w_lha ex_keep) = true /\ archiveIsMsdosSfx1 [98] = false /\ l_noexec (w_lha ex_keep) = false /\ e_tmp ex_env <> [98] /\
  w_fs ex_keep [98] = Some (NFile [0]) /\ (forall p, w_fs ex_keep p = Some (NFile [0]) -> p = [98]) /\
  exists w', CommandAdd ex_env [98] ex_keep = Done false w' /\ w_fs w' [98] <> Some (NFile [0]).
Proof.
  do 3 (split; [reflexivity|]). split; [discriminate|]. split; [reflexivity|]. split.
  - intros p. cbn [ex_keep w_fs]. unfold ex_fs. destruct (list_eqb p [98]) eqn:P; [intros _; now apply list_eqb_eq|]. destruct (list_eqb p [102]); intros H; discriminate H.
  - assert (X : match CommandAdd ex_env [98] ex_keep with Done false w' => match w_fs w' [98] with Some (NFile c) => negb (zlen c =? 1) | _ => false end | _ => false end = true) by (vm_compute; reflexivity).
    destruct (CommandAdd ex_env [98] ex_keep) as [[] w'|w'|]; try discriminate. exists w'. split; [reflexivity|]. intros Y. rewrite Y in X. discriminate X.
Qed.

Print Assumptions C119_backup_refuted.
