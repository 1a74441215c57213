(** Property C121: files of different directories that have the same last component. *)
From Verif Require Import Go GoLemmas M_Crc M_Bitio M_Maketree M_Maketbl M_Huf M_Slide M_Lzhuf S_Header S_Listing M_Header M_Os M_Archive M_Cli S_History S_Archive S_Cli
  P_Bitio P_Header P_Accept P_List P_Os P_RoundTrip P_Single P_Read1 P_Select P_ExtractAll P_Force P_Verify P_Cli
  Properties_Slide Properties_Archive Properties_Extract Properties_Listing Properties_Select Properties_Lh1 Properties_Cli.

(** The contents of the last of the files that is called [p]. *)
Fixpoint last_called (p : path) (files : list (path * list Z)) : option (list Z) :=
  match files with
  | [] => None
  | f :: files => match last_called p files with Some c => Some c | None => if list_eqb (fst f) p then Some (snd f) else None end
  end.

Lemma written_last p : forall files n, fold_left (written p) files n = match last_called p files with Some c => Some (NFile c) | None => n end.
Proof.
  induction files as [|f files IH]; intros n; cbn [fold_left last_called]; [reflexivity|]. rewrite IH. unfold written. destruct (last_called p files); [reflexivity|].
  destruct (list_eqb (fst f) p); reflexivity.
Qed.

(** With Force, any archive of intact entries whose names do not grow is extracted over
    the files that are there.  Each path [p] that is the last component of a name holds
    the contents of the last such entry; all others are as they were. *)
Theorem C121_last_component_partial :
  forall E w cs a es files,
    forcing E a w -> after cs (w_glob w) -> w_fs w a = Some (NFile (archive_bytes es)) -> bytes (archive_bytes es) -> intact es files -> names_shrink 221 es ->
    (forall f, In f files -> match w_fs w (fst f) with Some NDir | Some (NLink _) => False | _ => True end) ->
    exists w', CommandExtract E a w = Done false w' /\
      forall p, w_fs w' p = match last_called p files with Some c => Some (NFile c) | None => w_fs w p end.
Proof.
  intros E w cs a es files [P1 P2 P3 P4 P5 P6 (P7 & P8 & P9 & P10 & P11 & P12)] A Hf B F NS NF. rewrite (CommandExtract_open E w a _ Hf P1 P2 P3).
  set (w1 := set_wlha (set_archive a (w_lha w)) w).
  destruct (force_decodable E es files NewLzHeader 221 w1 cs (S (length (archive_bytes es)))) as (w' & X1 & X2); auto; try reflexivity.
  { now apply intact_decodable. } { apply entries_length. }
  exists w'. split; [unfold everything in X1; rewrite (bindIO_done _ _ _ _ _ X1); reflexivity|]. intros p. rewrite X2, written_last. reflexivity.
Qed.

(** The claim C121 is false: of two files with the same last component that were stored
    with different directories only the second is left, and success is reported. *)
Theorem C121_same_component_refuted :
  forall E w cs a e1 e2 data1 data2 dir1 dir2 base body1 body2,
    forcing E a w -> after cs (w_glob w) -> w_fs w a = Some (NFile (archive_bytes [(e1, data1); (e2, data2)])) -> bytes (archive_bytes [(e1, data1); (e2, data2)]) ->
    file_entry e1 -> file_entry e2 -> named e1 dir1 base -> named e2 dir2 base -> dir1 <> dir2 -> zlen dir2 <= zlen dir1 ->
    holds e1 data1 body1 -> holds e2 data2 body2 -> body1 <> body2 -> w_fs w base = None -> w_fs w (dir1 ++ base) = None ->
    exists w', CommandExtract E a w = Done false w' /\ w_fs w' base = Some (NFile body2) /\ w_fs w' (dir1 ++ base) <> Some (NFile body1) /\ (forall p, p <> base -> w_fs w' p = w_fs w p).
Proof.
  intros E w cs a e1 e2 data1 data2 dir1 dir2 base body1 body2 F A Hf B FE1 FE2 N1 N2 Hd Hz H1 H2 Hb Hn Hn1.
  assert (L1 : zlen (e_name e1) = zlen dir1 + zlen base) by (rewrite <- zlen_app, <- (nd_name _ _ _ N1); unfold slashes; now rewrite zlen_map).
  assert (L2 : zlen (e_name e2) = zlen dir2 + zlen base) by (rewrite <- zlen_app, <- (nd_name _ _ _ N2); unfold slashes; now rewrite zlen_map).
  destruct (C121_last_component_partial E w cs a _ [(base, body1); (base, body2)] F A Hf B) as (w' & X1 & X2).
  - constructor; [split; [exact FE1|]; split; [now exists dir1|exact H1]|]. constructor; [split; [exact FE2|]; split; [now exists dir2|exact H2]|constructor].
  - destruct (l0_name _ (fe_legal _ FE1)) as [M1 _]. cbn [names_shrink fst]. unfold zlen in *. lia.
  - intros f [<-|[<-|[]]]; cbn [fst]; now rewrite Hn.
  - exists w'. split; [exact X1|]. cbn [last_called fst snd] in X2.
    assert (Y : w_fs w' base = Some (NFile body2)) by (now rewrite X2, list_eqb_refl).
    assert (Z : forall p, p <> base -> w_fs w' p = w_fs w p).
    { intros p Q. rewrite X2. destruct (list_eqb base p) eqn:R; [apply list_eqb_eq in R; now subst|reflexivity]. }
    split; [exact Y|]. split; [|exact Z]. destruct (list_eq_dec Z.eq_dec (dir1 ++ base) base) as [Q|Q].
    + rewrite Q, Y. intros R. injection R as R. now apply Hb.
    + rewrite (Z _ Q), Hn1. discriminate.
Qed.

(** d\z, a hundred zero bytes, and c\z, fifty of them. *)
Definition ex_fifty : list Z := [0; 2; 32; 4; 50; 250; 51; 0; 64].
Definition ex_same1 : entry0 := E0 [45; 108; 104; 53; 45] 9 100 0 32 [100; 92; 122] 0 0 1000000 33188 0 0.
Definition ex_same2 : entry0 := E0 [45; 108; 104; 53; 45] 9 50 0 32 [99; 92; 122] 0 0 1000000 33188 0 0.
Definition ex_same : world := W (fun p => if list_eqb p [98] then Some (NFile (archive_bytes [(ex_same1, ex_packed); (ex_same2, ex_fifty)])) else None) [] glob0 false [] ex_force [].

Lemma ex_fifty_packs : packs ex_same2 ex_fifty (repeat 0 50).
Proof.
  assert (X : match EncodeLzhuf 5 50 (repeat 0 50) glob0 with Ok eo => list_eqb (eo_out eo) ex_fifty && (eo_packed eo <? eo_original eo) | _ => false end = true) by (vm_compute; reflexivity).
  exists 5, [], glob0. change (zlen (repeat 0 50)) with 50. destruct (EncodeLzhuf 5 50 (repeat 0 50) glob0) as [eo| |]; try discriminate. exists eo.
  apply andb_prop in X. destruct X as [X1 X2]. apply list_eqb_eq in X1. apply Z.ltb_lt in X2.
  split; [now left|]. split; [apply Forall_forall; intros x Hx; apply repeat_spec in Hx; subst; unfold is_byte; lia|]. split; [discriminate|].
  split; [split; [constructor|reflexivity]|]. split; [reflexivity|]. split; [exact X2|]. split; [now symmetry|]. do 3 (split; [reflexivity|]). vm_compute. reflexivity.
Qed.

Example C121_example : forcing ex_env [98] ex_same /\ file_entry ex_same1 /\ file_entry ex_same2 /\ named ex_same1 [100; 47] [122] /\ named ex_same2 [99; 47] [122] /\
  holds ex_same1 ex_packed (repeat 0 100) /\ holds ex_same2 ex_fifty (repeat 0 50) /\ bytes (archive_bytes [(ex_same1, ex_packed); (ex_same2, ex_fifty)]) /\
  (match CommandExtract ex_env [98] ex_same with Done false w' => match w_fs w' [122] with Some (NFile c) => list_eqb c (repeat 0 50) | _ => false end | _ => false end) = true.
Proof.
  pose proof ex_fifty_packs as P2.
  split; [constructor; try reflexivity; [split; [discriminate|cbn; lia]|repeat split]|].
  split. { constructor; [constructor; cbn; try lia; split; auto; repeat constructor; lia|cbn; lia|reflexivity]. }
  split. { constructor; [constructor; cbn; try lia; split; auto; repeat constructor; lia|cbn; lia|reflexivity]. }
  split; [constructor; [reflexivity|right; exists [100]; reflexivity|split; [discriminate|cbn; lia]]|].
  split; [constructor; [reflexivity|right; exists [99]; reflexivity|split; [discriminate|cbn; lia]]|].
  split; [apply packs_holds; now apply ex_packs|]. split; [now apply packs_holds|]. split.
  { apply Forall_forall. intros x Hx. assert (Y : forallb (fun b => (0 <=? b) && (b <? 256)) (archive_bytes [(ex_same1, ex_packed); (ex_same2, ex_fifty)]) = true) by (vm_compute; reflexivity).
    rewrite forallb_forall in Y. specialize (Y x Hx). unfold is_byte. lia. }
  vm_compute. reflexivity.
Qed.

Print Assumptions C121_last_component_partial.
Print Assumptions C121_same_component_refuted.
