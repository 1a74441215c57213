(** Asking for a backup of the old archive has no effect. *)
From Verif Require Import Go GoLemmas M_Crc M_Bitio M_Maketree M_Maketbl M_Huf M_Slide M_Lzhuf M_Header M_Os M_Archive.

Lemma backup_run b a w : buildBackupFile b a w = Done tt w.
Proof.
  destruct b; [|reflexivity]. unfold buildBackupFile, os_rename, bindIO, get. assert (H : has_nul (zeros 1024) = true) by reflexivity. rewrite H, orb_true_r. reflexivity.
Qed.

Lemma bind_backup {B} b a (k : unit -> IO B) w : bindIO (buildBackupFile b a) k w = k tt w.
Proof. unfold bindIO. now rewrite backup_run. Qed.
