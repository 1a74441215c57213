(** Properties C25, C26, C27, C29, C49, C50, C51, C53, C54: extracting. *)
From Verif Require Import Go GoLemmas M_Crc P_Crc M_Bitio P_Bitio M_Maketree M_Maketbl M_Huf M_Slide M_Lzhuf S_Header M_Header M_Os M_Archive S_Archive S_Extract
  P_Header P_Os P_Add P_RoundTrip P_Single P_Extract P_Still P_Read1 Properties_Slide Properties_Archive.

(** ** C25: what is opened for writing *)

Lemma does_final {A} P R (m : IO A) w w' ops : does P R m -> final (m w) = Some w' -> did ops w w' -> Forall P ops /\ w_fs w' = run_ops ops (w_fs w).
Proof.
  intros H F D. specialize (H w). assert (X : exists ops0, w_ops w' = rev ops0 ++ w_ops w /\ w_fs w' = run_ops ops0 (w_fs w) /\ Forall P ops0).
  { destruct (m w) as [x w0|w0|]; cbn [final] in F; try discriminate; injection F as ->; destruct H as [ops0 H]; exists ops0; tauto. }
  destruct X as [ops0 [X1 [X2 X3]]]. unfold did in D. rewrite D in X1. apply app_inv_tail in X1. apply (f_equal (@rev op)) in X1. rewrite !rev_involutive in X1. subst. auto.
Qed.

(** For every archive, request, set of options and state of the files, and also when
    the call panics: no name under which a file or a link is created contains a
    slash, and nothing is renamed, removed or made a directory. *)
Theorem C25_written_names_have_no_separator :
  forall E w w' ops,
    (exists header, final (Decompress E header w) = Some w') \/ (exists archive, final (CommandExtract E archive w) = Some w') ->
    did ops w w' ->
    w_fs w' = files_after (length ops) ops (w_fs w) /\
    forall o, In o ops ->
      match o with
      | OCreate n _ | OSymlink _ n => ~ In 47 n
      | OWrite _ _ _ | OChtimes _ _ | OChmod _ _ | OChown _ _ _ => True
      | ORename _ _ | ORemove _ | OMkdir _ => False
      end.
Proof.
  intros E w w' ops H D.
  assert (X : Forall plain_op ops /\ w_fs w' = run_ops ops (w_fs w)).
  { destruct H as [[header H]|[archive H]]; (eapply does_final; [|exact H|exact D]); [apply x_Decompress|apply x_CommandExtract]. }
  destruct X as [X1 X2]. split; [unfold files_after; rewrite firstn_all; exact X2|].
  intros o I. rewrite Forall_forall in X1. exact (X1 o I).
Qed.

(** ** C26: the traversal check *)

Definition at_start (a : list Z) : Prop := a = [] \/ exists a', a = a' ++ [47].

Lemma traversal_sound : forall p st pre,
  (st = 0 -> at_start pre) -> (st = 1 -> exists a, pre = a ++ [46] /\ at_start a) -> (st = 2 -> exists a, pre = a ++ [46; 46] /\ at_start a) ->
  traversal st p = true -> has_dotdot (pre ++ p).
Proof.
  induction p as [|c p IH]; intros st pre H0 H1 H2 T; cbn [traversal] in T.
  - apply Z.eqb_eq in T. destruct (H2 T) as [a [-> A]]. exists a, []. rewrite <- app_assoc. split; [reflexivity|]. split; [exact A|now left].
  - assert (R : pre ++ c :: p = (pre ++ [c]) ++ p) by (rewrite <- app_assoc; reflexivity).
    destruct (Z.eqb_spec st 0) as [S|S].
    { rewrite R. refine (IH _ _ _ _ _ T); intros X; destruct (Z.eqb_spec c 46); try discriminate; subst. exists pre. auto. }
    destruct (Z.eqb_spec st 1) as [S1|S1].
    { rewrite R. destruct (H1 S1) as [a [-> A]]. refine (IH _ _ _ _ _ T); intros X; destruct (Z.eqb_spec c 46) as [->|]; try discriminate; try (destruct (Z.eqb_spec c 47) as [->|]; try discriminate).
      - right. eexists. reflexivity.
      - exists a. rewrite <- app_assoc. auto. }
    destruct (Z.eqb_spec st 2) as [S2|S2].
    { destruct (H2 S2) as [a [-> A]]. destruct (Z.eqb_spec c 47) as [->|].
      - exists a, (47 :: p). rewrite <- app_assoc. split; [reflexivity|]. split; [exact A|right; eauto].
      - rewrite R. refine (IH _ _ _ _ _ T); discriminate. }
    rewrite R. refine (IH _ _ _ _ _ T); intros X; destruct (Z.eqb_spec c 47) as [->|]; try discriminate. right. eexists. reflexivity.
Qed.

Definition st_of (cur : list Z) : Z :=
  if list_eqb cur [] then 0 else if list_eqb cur [46] then 1 else if list_eqb cur [46; 46] then 2 else 3.

Lemma st_of_step cur c p : c <> 47 -> traversal (st_of cur) (c :: p) = traversal (st_of (cur ++ [c])) p.
Proof.
  intros H. apply Z.eqb_neq in H. unfold st_of. destruct cur as [|x cur].
  { cbn. destruct (c =? 46) eqn:X; [rewrite andb_true_r|]; cbn; reflexivity. }
  destruct cur as [|y cur].
  { cbn. destruct (x =? 46); cbn; rewrite ?H; [|reflexivity]. destruct (c =? 46); reflexivity. }
  destruct cur as [|z cur].
  { cbn. destruct (x =? 46), (y =? 46); cbn; rewrite ?H; reflexivity. }
  cbn. rewrite !andb_false_r. cbn. rewrite H. reflexivity.
Qed.

Lemma split47 : forall cur p a b, ~ In 47 cur -> cur ++ 47 :: p = a ++ 47 :: b -> (a = cur /\ b = p) \/ exists a', a = cur ++ 47 :: a' /\ p = a' ++ 47 :: b.
Proof.
  induction cur as [|x cur IH]; intros p a b N E.
  - destruct a as [|y a]; cbn in E; [injection E as ->; auto|injection E as <- ->; right; exists a; auto].
  - destruct a as [|y a]; cbn in E; injection E as -> E; [exfalso; apply N; now left|].
    destruct (IH p a b) as [[-> ->]|[a' [-> ->]]]; auto; [intros I; apply N; now right|right; exists a'; auto].
Qed.

Lemma traversal_complete : forall p cur, ~ In 47 cur -> (cur = [] -> ~ exists p', p = 47 :: p') -> (~ exists a b, p = a ++ [47; 47] ++ b) ->
  has_dotdot (cur ++ p) -> traversal (st_of cur) p = true.
Proof.
  induction p as [|c p IH]; intros cur N S0 NE [a [b [EQ [HA HB]]]].
  - rewrite app_nil_r in EQ. subst cur. assert (a = []) as ->.
    { destruct HA as [->|[a' ->]]; [reflexivity|]. exfalso. apply N. rewrite <- app_assoc. apply in_or_app. right. now left. }
    assert (b = []) as ->. { destruct HB as [->|[b' ->]]; [reflexivity|]. exfalso. apply N. cbn. auto. } reflexivity.
  - destruct (Z.eq_dec c 47) as [->|C].
    + destruct cur as [|x cur]. { exfalso. apply (S0 eq_refl). eauto. } set (cu := x :: cur) in *.
      assert (NE' : ~ exists a b, p = a ++ [47; 47] ++ b). { intros [u [v ->]]. apply NE. exists (47 :: u), v. reflexivity. }
      assert (S' : @nil Z = [] -> ~ exists p', p = 47 :: p'). { intros _ [p' ->]. apply NE. exists [], p'. reflexivity. }
      destruct (list_eqb cu [46; 46]) eqn:X.
      { apply list_eqb_eq in X. rewrite X. reflexivity. }
      assert (T : traversal (st_of cu) (47 :: p) = traversal (st_of []) p).
      { unfold st_of. change (list_eqb cu []) with false. rewrite X. cbv iota. destruct (list_eqb cu [46]); reflexivity. }
      rewrite T. apply IH; auto. cbn [app]. destruct HA as [->|[a' ->]].
      * exfalso. cbn [app] in EQ. destruct HB as [->|[b' ->]].
        -- assert (I : In 47 [46; 46]) by (rewrite <- EQ; apply in_or_app; right; now left). cbn in I. lia.
        -- change (46 :: 46 :: 47 :: b') with ([46; 46] ++ 47 :: b') in EQ. destruct (split47 cu p [46; 46] b' N EQ) as [[Y _]|[a' [Y _]]].
           ++ rewrite <- Y in X. discriminate X.
           ++ unfold cu in Y. assert (I : In 47 [46; 46]) by (rewrite Y; apply in_or_app; right; now left). cbn in I. lia.
      * rewrite <- app_assoc in EQ. cbn [app] in EQ. destruct (split47 cu p a' _ N EQ) as [[_ Y]|[a2 [_ Y]]].
        -- exists [], b. split; [symmetry; exact Y|]. split; [now left|exact HB].
        -- exists (a2 ++ [47]), b. rewrite <- app_assoc. split; [exact Y|]. split; [right; eauto|exact HB].
    + rewrite st_of_step by exact C. apply IH.
      * intros I. apply in_app_or in I. destruct I as [I|[I|[]]]; [now apply N|congruence].
      * intros X. destruct cur; discriminate X.
      * intros [u [v ->]]. apply NE. exists (c :: u), v. reflexivity.
      * rewrite <- app_assoc. exists a, b. auto.
Qed.

(** Whatever the check reports has a component "..". *)
Theorem C26_reported_paths_have_dotdot :
  forall p, isDirectoryTraversal p = true -> has_dotdot p.
Proof. intros p H. apply (traversal_sound p 0 []); try discriminate; [intros _; now left|exact H]. Qed.

(** All such paths are reported, provided that no component is empty. *)
Theorem C26_dotdot_reported_partial :
  forall p, ~ has_empty_component p -> (isDirectoryTraversal p = true <-> has_dotdot p).
Proof.
  intros p H. split; [apply C26_reported_paths_have_dotdot|]. intros D. apply (traversal_complete p []); auto.
  - intros _ X. apply H. now left.
  - intros X. apply H. now right.
Qed.

(** The full claim is false: behind a leading slash or a double slash, "..", is
    never noticed. *)
Theorem C26_dotdot_reported_refuted :
  (forall d, ~ In 47 d -> d <> [] -> d <> [46; 46] -> has_dotdot (d ++ [47; 47; 46; 46]) /\ isDirectoryTraversal (d ++ [47; 47; 46; 46]) = false) /\
  has_dotdot [47; 46; 46] /\ isDirectoryTraversal [47; 46; 46] = false.
Proof.
  split; [|split; [exists [47], []; split; [reflexivity|split; [right; exists []; reflexivity|now left]]|reflexivity]].
  intros d N N0 Nd. split. { exists (d ++ [47; 47]), []. rewrite <- app_assoc. split; [reflexivity|]. split; [right; exists (d ++ [47]); now rewrite <- app_assoc|now left]. }
  assert (G : forall d cur, ~ In 47 d -> ~ In 47 cur -> cur ++ d <> [] -> cur ++ d <> [46; 46] -> traversal (st_of cur) (d ++ [47; 47; 46; 46]) = false).
  { clear d N N0 Nd. induction d as [|c d IH]; intros cur Nd Nc N0 Ne; cbn [app].
    - rewrite app_nil_r in Ne, N0. unfold st_of. destruct (list_eqb cur []) eqn:Y0; [apply list_eqb_eq in Y0; contradiction|]. destruct (list_eqb cur [46]); [reflexivity|].
      destruct (list_eqb cur [46; 46]) eqn:Y; [apply list_eqb_eq in Y; contradiction|reflexivity].
    - rewrite st_of_step by (intros ->; apply Nd; now left). apply IH.
      + intros I. apply Nd. now right.
      + intros I. apply in_app_or in I. destruct I as [I|[I|[]]]; [now apply Nc|subst; apply Nd; now left].
      + now rewrite <- app_assoc.
      + now rewrite <- app_assoc. }
  apply (G d []); auto.
Qed.

(** Cases of both kinds. *)
Example C26_example : isDirectoryTraversal [97; 47; 46; 46; 47; 98] = true /\ ~ has_empty_component [97; 47; 46; 46; 47; 98] /\
  isDirectoryTraversal [97; 47; 46; 46; 98] = false /\ isDirectoryTraversal [97; 47; 47; 46; 46] = false.
Proof.
  split; [reflexivity|]. split; [|split; reflexivity]. intros [[p H]|[a [b H]]]; [discriminate H|].
  do 6 (destruct a as [|? a]; [discriminate H|cbn in H; injection H as _ H]). destruct a; discriminate H.
Qed.

(** ** C27: extracting to a directory *)

(** The claim is false of every archive that starts with a file: with a directory
    set, the call panics before anything is written. *)
Theorem C27_extract_directory_refuted :
  forall E w a e dir base rest header,
    file_entry e -> named e dir base -> asks_for header (dir ++ base) ->
    file_path a -> e_readable E a = true -> archiveIsMsdosSfx1 a = false -> w_fs w a = Some (NFile (layout0 e ++ rest)) ->
    l_archive (w_lha w) = a -> l_ignoredir (w_lha w) = false -> l_extractdir (w_lha w) <> [] ->
    exists w', Decompress E header w = Crash w' /\ w_fs w' = w_fs w /\ w_ops w' = w_ops w.
Proof.
  intros E w a e dir base rest header FE ND Hh [Ha Hn] Hr Hs Hf Hl Hi Hd. apply has_nul_in in Hn.
  unfold Decompress. rewrite bind_modl. unfold open_archive. rewrite !bind_assoc, bind_get, !bind_assoc, bind_getl.
  cbn [w_fs w_lha set_wlha set_level l_archive]. rewrite Hl, (open_file E _ a _ Ha Hn Hf Hr), Hs, bind_ret.
  destruct (layout_fuel e rest) as [n ->]. set (w1 := set_wlha (set_level 2 (w_lha w)) w). exists w1.
  split; [|split; reflexivity]. unfold bindIO at 1. rewrite (loop_entry E e FE). unfold by_name at 1. rewrite bind_ret. unfold asks_for in Hh.
  rewrite (r0_name e FE dir base ND), Hh, list_eqb_refl. unfold one_file at 1. unfold bindIO at 1 2.
  rewrite (extract_dir_panics E e FE dir base ND) by assumption. reflexivity.
Qed.

(** ** C29, C51, C53, C54: extracting to a file *)

(** An archive with one compressed entry.  The CRC [e_crc e], the time, the owner
    and the permissions in the header are arbitrary. *)
Definition one_entry (e : entry0) (method : Z) (body : list Z) (c : list Z) : Prop :=
  exists cs g eo, after cs g /\ EncodeLzhuf method (zlen body) body g = Ok eo /\ eo_packed eo < eo_original eo /\
    e_method e = [45; 108; 104; 48 + method; 45] /\ e_packed e = eo_packed eo /\ e_original e = zlen body /\ c = layout0 e ++ eo_out eo ++ [0].

Lemma extract_any E w cs a e dir base header body method c :
  file_entry e -> named e dir base -> asks_for header (dir ++ base) -> reader E a w -> w_fs w a = Some (NFile c) -> w_fs w base = None ->
  after cs (w_glob w) -> method = 5 \/ method = 6 \/ method = 7 /\ zlen body < 65536 -> bytes body -> body <> [] -> one_entry e method body c ->
  exists w', Decompress E header w = Done false w' /\ w_fs w' base = Some (NFile body) /\ forall q, q <> base -> w_fs w' q = w_fs w q.
Proof.
  intros FE ND Hh R Hf Hb A Hm HB Hne (cs' & g & eo & A' & HE & Hlt & M1 & M2 & M3 & ->).
  destruct (round_trip_567 cs' g cs (w_glob w) method body eo [0]) as [Y1 [Y2 [Y3 [Y4 [g2 D]]]]]; auto.
  { constructor; [unfold is_byte; lia|constructor]. }
  refine (Decompress_one E e FE dir base ND method _ _ header w a (eo_out eo) g2 (eo_crc eo) body Hf R Hh Hb _).
  - rewrite M1. destruct Hm as [-> | [-> | [-> _]]]; reflexivity.
  - unfold LzhdirsMethodNum. lia.
  - rewrite M2, M3, <- Y2. exact D.
Qed.

(** The claim C29 is false: whatever CRC the header holds, the entry is written out
    and no error is reported. *)
Theorem C29_file_crc_refuted :
  forall E w cs a e base header body method c crc,
    file_entry e -> named e [] base -> asks_for header base -> reader E a w -> w_fs w a = Some (NFile c) -> w_fs w base = None ->
    after cs (w_glob w) -> method = 5 \/ method = 6 \/ method = 7 /\ zlen body < 65536 -> bytes body -> body <> [] -> one_entry e method body c ->
    e_crc e = crc ->
    exists w', Decompress E header w = Done false w' /\ w_fs w' base = Some (NFile body).
Proof.
  intros E w cs a e base header body method c crc FE ND Hh R Hf Hb A Hm HB Hne O _.
  destruct (extract_any E w cs a e [] base header body method c) as [w' [X1 [X2 _]]]; eauto.
Qed.

(** A wrong CRC is possible. *)
Definition ex_entry (crc : Z) : entry0 := E0 [45; 108; 104; 53; 45] 9 100 0 32 [122] crc 0 1000000 33188 0 0.
Example C29_example : exists c, one_entry (ex_entry 1) 5 (repeat 0 100) c /\ file_entry (ex_entry 1) /\ named (ex_entry 1) [] [122] /\
  calcCrc 0 (repeat 0 100) <> 1.
Proof.
  destruct C14_example as [eo [X1 [X2 X3]]]. exists (layout0 (ex_entry 1) ++ eo_out eo ++ [0]). split.
  { exists [], glob0, eo. split; [split; [constructor|reflexivity]|]. split; [exact X1|]. rewrite X2, X3. repeat split; lia. }
  split. { constructor; [constructor; cbn; try lia; split; auto; repeat constructor; lia|cbn; lia|reflexivity]. }
  split; [constructor; [reflexivity|now left|split; [discriminate|cbn; lia]]|vm_compute; discriminate].
Qed.

(** C51.  What CompressBytes archives, Decompress writes back to a file. *)
Theorem C51_file_round_trip :
  forall E w cs a filename body method eo,
    usual E -> file_path a -> entry_name (Base filename) -> Base filename <> [] -> filename <> a -> e_tmp E <> a ->
    w_lha w = NewLha a -> w_fs w a = None -> w_fs w (e_tmp E) = None -> after cs (w_glob w) ->
    method = 5 \/ method = 6 \/ method = 7 /\ zlen body < 65536 -> bytes body -> body <> [] -> zlen body < 2 ^ 32 ->
    EncodeLzhuf method (zlen body) body (w_glob w) = Ok eo -> eo_packed eo < eo_original eo ->
    exists w' c,
      CompressBytes E filename body method 0 w = Done false w' /\ w_fs w' a = Some (NFile c) /\
      forall cs' w2 header,
        w_fs w2 a = Some (NFile c) -> reader E a w2 -> after cs' (w_glob w2) -> w_fs w2 (Base filename) = None -> asks_for header (Base filename) ->
        exists w3, Decompress E header w2 = Done false w3 /\ w_fs w3 (Base filename) = Some (NFile body) /\
          forall q, q <> Base filename -> w_fs w3 q = w_fs w2 q.
Proof.
  intros E w cs a filename body method eo U Ha Hnm Hb0 Hfa Ht Hl Fa Ft A Hm HB Hne Hlen HE Hlt.
  destruct (round_trip_567 cs (w_glob w) [] glob0 method body eo []) as [M1 [M2 [M3 [M4 _]]]]; auto; [split; [constructor|reflexivity]|constructor|].
  assert (B4 : 0 <= eo_crc eo < 2 ^ 16) by (rewrite M3; apply calcCrc_range; [lia|exact HB]).
  destruct (compressbytes_packed E filename body method w a eo) as (h & w' & R1 & G1 & L1 & A1 & T1 & O1 & P & Rg); auto; try lia.
  { split; [rewrite <- M4; apply zlen_nonneg|lia]. } { rewrite M2. pose proof (zlen_nonneg body). lia. }
  eexists w', _. split; [exact R1|]. split; [exact A1|]. intros cs' w2 header F2 Rd A2 Nb Hh.
  set (e := entry_of (e_stamp E) (packed_hdr h eo) (Base filename)) in *.
  assert (EN : e_name e = Base filename).
  { unfold e. cbn [entry_of e_name]. unfold to_backslash. rewrite <- (map_id (Base filename)) at 2. apply map_ext_in. intros c Hc. destruct Hnm as [_ F]. rewrite Forall_forall in F.
    specialize (F c Hc). destruct (Z.eqb_spec c 47); [lia|reflexivity]. }
  apply (extract_any E w2 cs' a e [] (Base filename) header body method (layout0 e ++ eo_out eo ++ [0])); auto.
  - constructor; [now apply plain_legal| |exact Rg]. rewrite EN. destruct Hnm as [_ F]. intros I. rewrite Forall_forall in F. specialize (F 0 I). lia.
  - constructor; [|now left|].
    + rewrite EN. unfold slashes. cbn [app]. rewrite <- (map_id (Base filename)) at 2. apply map_ext_in. intros c Hc. destruct Hnm as [_ F]. rewrite Forall_forall in F.
      specialize (F c Hc). destruct (Z.eqb_spec c 92); [lia|reflexivity].
    + split; [exact Hb0|]. destruct Hnm as [_ F]. intros I. rewrite Forall_forall in F. specialize (F 47 I). lia.
  - exists cs, (w_glob w), eo. split; [exact A|]. split; [exact HE|]. split; [exact Hlt|].
    split; [unfold e; cbn [entry_of e_method packed_hdr set_PackedSize set_OriginalSize set_Method Method]; rewrite M1, Z.add_comm; reflexivity|].
    split; [reflexivity|]. split; [exact M2|]. reflexivity.
Qed.

(** C53.  The claim that entries whose name has a component ".." are refused is
    false: whatever directories the name goes through, the entry is extracted
    without an error. *)
Theorem C53_dotdot_entry_refused_refuted :
  forall E w cs a e dir base header body method c,
    file_entry e -> named e dir base -> has_dotdot dir -> asks_for header (dir ++ base) -> reader E a w -> w_fs w a = Some (NFile c) -> w_fs w base = None ->
    after cs (w_glob w) -> method = 5 \/ method = 6 \/ method = 7 /\ zlen body < 65536 -> bytes body -> body <> [] -> one_entry e method body c ->
    exists w', Decompress E header w = Done false w' /\ w_fs w' base = Some (NFile body).
Proof.
  intros E w cs a e dir base header body method c FE ND _ Hh R Hf Hb A Hm HB Hne O.
  destruct (extract_any E w cs a e dir base header body method c) as [w' [X1 [X2 _]]]; eauto.
Qed.

(** C54.  The claim that an entry is extracted to the path it is stored under is
    false: the directory part is dropped.  If the directory part is not empty,
    nothing appears at the full path. *)
Theorem C54_entry_path_refuted :
  forall E w cs a e dir base header body method c,
    file_entry e -> named e dir base -> dir <> [] -> asks_for header (dir ++ base) -> reader E a w -> w_fs w a = Some (NFile c) -> w_fs w base = None ->
    after cs (w_glob w) -> method = 5 \/ method = 6 \/ method = 7 /\ zlen body < 65536 -> bytes body -> body <> [] -> one_entry e method body c ->
    exists w', Decompress E header w = Done false w' /\ w_fs w' base = Some (NFile body) /\ w_fs w' (dir ++ base) = w_fs w (dir ++ base).
Proof.
  intros E w cs a e dir base header body method c FE ND Hd Hh R Hf Hb A Hm HB Hne O.
  destruct (extract_any E w cs a e dir base header body method c) as [w' [X1 [X2 X3]]]; eauto. exists w'. split; [exact X1|]. split; [exact X2|].
  apply X3. intros X. apply Hd. apply (f_equal (@length Z)) in X. rewrite app_length in X. destruct dir; [reflexivity|cbn in X; lia].
Qed.

(** The entry "..\z". *)
Definition ex_dotdot : entry0 := E0 [45; 108; 104; 53; 45] 9 100 0 32 [46; 46; 92; 122] 0 0 1000000 33188 0 0.
Example C53_example : exists c, one_entry ex_dotdot 5 (repeat 0 100) c /\ file_entry ex_dotdot /\ named ex_dotdot [46; 46; 47] [122] /\ has_dotdot [46; 46; 47].
Proof.
  destruct C14_example as [eo [X1 [X2 X3]]]. exists (layout0 ex_dotdot ++ eo_out eo ++ [0]). split.
  { exists [], glob0, eo. split; [split; [constructor|reflexivity]|]. split; [exact X1|]. rewrite X2, X3. repeat split; lia. }
  split. { constructor; [constructor; cbn; try lia; split; auto; repeat constructor; lia|cbn; lia|reflexivity]. }
  split; [constructor; [reflexivity|right; exists [46; 46]; reflexivity|split; [discriminate|cbn; lia]]|].
  exists [], [47]. split; [reflexivity|]. split; [now left|right; eauto].
Qed.

(** ** C49: existing files are not overwritten silently *)

(** Without Force, and as long as no answer starting with [Y] is given, extraction
    leaves every path that exists as it is: for every archive, whether the call
    returns or panics, and after every single operation on the files. *)
Theorem C49_existing_files_kept :
  forall E w w',
    (exists header, final (Decompress E header w) = Some w') \/ (exists archive, final (CommandExtract E archive w) = Some w') ->
    l_force (w_lha w) = false -> l_skip (w_lha w) = false -> Forall (fun answer => hd 0 answer <> 89) (w_stdin w) ->
    forall p n, w_fs w p = Some n -> w_fs w' p = Some n.
Proof.
  intros E w w' H H1 H2 H3. assert (S : safe w) by (repeat split; assumption).
  assert (X : keeps (w_fs w) (w_fs w')).
  { destruct H as [[header H]|[archive H]].
    - pose proof (h_Decompress E header w S) as K. unfold hold_at in K. destruct (Decompress E header w); cbn [final] in H; try discriminate; injection H as ->; apply K.
    - pose proof (h_CommandExtract E archive w S) as K. unfold hold_at in K. destruct (CommandExtract E archive w); cbn [final] in H; try discriminate; injection H as ->; apply K. }
  exact X.
Qed.

(** ** C50: listing and in-memory extraction change no file *)
Theorem C50_reading_changes_nothing :
  forall E w w',
    final (Headers E w) = Some w' \/ (exists header, final (DecompresBytes E header w) = Some w') \/ (exists archive, final (CommandList E archive w) = Some w') ->
    w_fs w' = w_fs w /\ w_ops w' = w_ops w.
Proof.
  intros E w w' [H|[[header H]|[archive H]]].
  - pose proof (s_Headers E w) as S. destruct (Headers E w); cbn [final] in H; try discriminate; injection H as ->; tauto.
  - pose proof (s_DecompresBytes E (w_verify w) header w eq_refl) as S. destruct (DecompresBytes E header w); cbn [final] in H; try discriminate; injection H as ->; tauto.
  - pose proof (s_CommandList E (w_verify w) archive w eq_refl) as S. destruct (CommandList E archive w); cbn [final] in H; try discriminate; injection H as ->; tauto.
Qed.

(** An archive whose entry [z] is extracted next to the file [f]; then the same when
    [z] exists, where the call panics for want of an answer and writes nothing. *)
Definition ex_arch : list Z := match EncodeLzhuf 5 100 (repeat 0 100) glob0 with Ok eo => layout0 (ex_entry 1) ++ eo_out eo ++ [0] | _ => [] end.
Definition ex_dir (z : option node) : fs :=
  fun p => if list_eqb p [98] then Some (NFile ex_arch) else if list_eqb p [102] then Some (NFile [65]) else if list_eqb p [122] then z else None.
Definition ex_read (z : option node) : world := W (ex_dir z) [] glob0 false [[110]] (NewLha [98]) [].
Definition ex_ask : hdr := set_Name [122; 0] NewLzHeader.
Example C25_example :
  match Decompress ex_env ex_ask (ex_read None) with
  | Done false w' => zlen (w_ops w') = 2 /\ w_fs w' [122] = Some (NFile (repeat 0 100))
  | _ => False
  end /\
  match Decompress ex_env ex_ask (ex_read (Some (NFile [66]))) with
  | Crash w' => w_ops w' = []
  | _ => False
  end.
Proof.
  split.
  - assert (X : match Decompress ex_env ex_ask (ex_read None) with
     | Done false w' => (zlen (w_ops w') =? 2) && match w_fs w' [122] with Some (NFile c) => list_eqb c (repeat 0 100) | _ => false end
     | _ => false end = true) by (vm_compute; reflexivity).
    destruct (Decompress ex_env ex_ask (ex_read None)) as [[] w'|w'|]; try discriminate X. apply andb_true_iff in X. destruct X as [X1 X2].
    split; [now apply Z.eqb_eq|]. destruct (w_fs w' [122]) as [[c| |]|]; try discriminate X2. apply list_eqb_eq in X2. now subst.
  - assert (X : match Decompress ex_env ex_ask (ex_read (Some (NFile [66]))) with Crash w' => match w_ops w' with [] => true | _ => false end | _ => false end = true) by (vm_compute; reflexivity).
    destruct (Decompress ex_env ex_ask (ex_read (Some (NFile [66])))) as [r w'|w'|]; try discriminate X. destruct (w_ops w'); [reflexivity|discriminate X].
Qed.

(** The same world meets the hypotheses of C27 with a directory set, and those of
    C49. *)
Example C49_example : safe (ex_read (Some (NFile [66]))) /\ w_fs (ex_read (Some (NFile [66]))) [122] = Some (NFile [66]).
Proof. split; [|reflexivity]. repeat split. constructor; [discriminate|constructor]. Qed.

(** ** C52, C55: what is done to a path that exists *)

(** C52.  Without Force and without an answer [Y], no file is created through a
    symbolic link: every file created is the one that was named.  (The full claim is
    about every setting.) *)
Theorem C52_no_write_through_link_partial :
  forall E w w',
    (exists header, final (Decompress E header w) = Some w') \/ (exists archive, final (CommandExtract E archive w) = Some w') ->
    l_force (w_lha w) = false -> l_skip (w_lha w) = false -> Forall (fun answer => hd 0 answer <> 89) (w_stdin w) ->
    forall n q, In (OCreate n q) (w_ops w') -> In (OCreate n q) (w_ops w) \/ n = q.
Proof.
  intros E w w' H H1 H2 H3. assert (S : safe w) by (repeat split; assumption).
  assert (X : direct (w_ops w) (w_ops w')).
  { destruct H as [[header H]|[archive H]].
    - pose proof (h_Decompress E header w S) as K. unfold hold_at in K. destruct (Decompress E header w); cbn [final] in H; try discriminate; injection H as ->; apply K.
    - pose proof (h_CommandExtract E archive w S) as K. unfold hold_at in K. destruct (CommandExtract E archive w); cbn [final] in H; try discriminate; injection H as ->; apply K. }
  exact X.
Qed.

(** Settings for extracting everything over what is there. *)
Record forcing (E : env) (a : path) (w : world) : Prop := {
  fc_path : file_path a;
  fc_readable : e_readable E a = true;
  fc_sfx : archiveIsMsdosSfx1 a = false;
  fc_verify : w_verify w = false;
  fc_force : l_force (w_lha w) = true;
  fc_all : l_filec (w_lha w) = 0;
  fc_plain : l_broken (w_lha w) = false /\ l_ignoredir (w_lha w) = false /\ l_extractdir (w_lha w) = [] /\ l_stdout (w_lha w) = false /\
    l_noexec (w_lha w) = false /\ l_skip (w_lha w) = false
}.

Lemma extract_forced E w cs a e dir base body method c q :
  file_entry e -> named e dir base -> forcing E a w -> w_fs w a = Some (NFile c) -> w_fs w base <> None -> follow (w_fs w) base = q ->
  match w_fs w q with Some NDir | Some (NLink _) => False | _ => True end ->
  after cs (w_glob w) -> method = 5 \/ method = 6 \/ method = 7 /\ zlen body < 65536 -> bytes body -> body <> [] -> one_entry e method body c ->
  exists w', CommandExtract E a w = Done false w' /\ w_fs w' q = Some (NFile body) /\ forall q', q' <> q -> w_fs w' q' = w_fs w q'.
Proof.
  intros FE ND [P1 P2 P3 P4 P5 P6 (P7 & P8 & P9 & P10 & P11 & P12)] Hf Hb HQ HN A Hm HB Hne (cs' & g & eo & A' & HE & Hlt & M1 & M2 & M3 & ->).
  destruct (round_trip_567 cs' g cs (w_glob w) method body eo [0]) as [Y1 [Y2 [Y3 [Y4 [g2 D]]]]]; auto.
  { constructor; [unfold is_byte; lia|constructor]. }
  refine (CommandExtract_over E e FE dir base ND method _ _ w a (eo_out eo) g2 (eo_crc eo) body q _ _ _ _ _ _ _ _ _ _ _ _ _ _ _ _ _); auto.
  - rewrite M1. destruct Hm as [-> | [-> | [-> _]]]; reflexivity.
  - unfold LzhdirsMethodNum. lia.
  - rewrite M2, M3, <- Y2. exact D.
Qed.

(** The full claim C52 is false: with Force, if the path is a symbolic link to a file
    or to a path [t] where there is nothing, the bytes go to [t], wherever that is. *)
Theorem C52_no_write_through_link_refuted :
  forall E w cs a e dir base body method c t,
    file_entry e -> named e dir base -> forcing E a w -> w_fs w a = Some (NFile c) -> w_fs w base = Some (NLink t) ->
    match w_fs w t with Some NDir | Some (NLink _) => False | _ => True end ->
    after cs (w_glob w) -> method = 5 \/ method = 6 \/ method = 7 /\ zlen body < 65536 -> bytes body -> body <> [] -> one_entry e method body c ->
    exists w', CommandExtract E a w = Done false w' /\ w_fs w' t = Some (NFile body) /\ w_fs w' base = Some (NLink t).
Proof.
  intros E w cs a e dir base body method c t FE ND F Hf Hb Ht A Hm HB Hne O.
  assert (FO : follow (w_fs w) base = t).
  { unfold follow. cbn [resolve]. rewrite Hb. destruct (w_fs w t) as [[]|]; try contradiction; reflexivity. }
  destruct (extract_forced E w cs a e dir base body method c t) as [w' [X1 [X2 X3]]]; auto; [rewrite Hb; discriminate|].
  exists w'. split; [exact X1|]. split; [exact X2|]. rewrite X3; [exact Hb|]. intros ->. rewrite Hb in Ht. contradiction.
Qed.

(** C55.  With Force, a file that exists is replaced: afterwards it holds the bytes of
    the entry, whatever it held before, and no other path has changed. *)
Theorem C55_force_replaces :
  forall E w cs a e dir base body method c old,
    file_entry e -> named e dir base -> forcing E a w -> w_fs w a = Some (NFile c) -> w_fs w base = Some (NFile old) ->
    after cs (w_glob w) -> method = 5 \/ method = 6 \/ method = 7 /\ zlen body < 65536 -> bytes body -> body <> [] -> one_entry e method body c ->
    exists w', CommandExtract E a w = Done false w' /\ w_fs w' base = Some (NFile body) /\ forall q, q <> base -> w_fs w' q = w_fs w q.
Proof.
  intros E w cs a e dir base body method c old FE ND F Hf Hb A Hm HB Hne O.
  apply (extract_forced E w cs a e dir base body method c base); auto.
  - rewrite Hb. discriminate.
  - unfold follow. cbn [resolve]. now rewrite Hb.
  - now rewrite Hb.
Qed.

(** A link [z] to [s], where there is nothing, and a file [z]. *)
Definition ex_force : lha := LHA [98] false true false false false false false false false false false false false 0 5 [] [] [] 0 [].
Definition ex_over (z : node) : world := W (ex_dir (Some z)) [] glob0 false [] ex_force [].
Example C52_example : forcing ex_env [98] (ex_over (NLink [115])) /\ forcing ex_env [98] (ex_over (NFile [66])) /\
  match CommandExtract ex_env [98] (ex_over (NLink [115])) with
  | Done false w' => w_fs w' [115] = Some (NFile (repeat 0 100))
  | _ => False
  end.
Proof.
  split; [|split].
  1, 2: constructor; try reflexivity; [split; [discriminate|cbn; lia]|repeat split].
  assert (X : match CommandExtract ex_env [98] (ex_over (NLink [115])) with
     | Done false w' => match w_fs w' [115] with Some (NFile c) => list_eqb c (repeat 0 100) | _ => false end
     | _ => false end = true) by (vm_compute; reflexivity).
  destruct (CommandExtract ex_env [98] (ex_over (NLink [115]))) as [[] w'|w'|]; try discriminate X.
  destruct (w_fs w' [115]) as [[c| |]|]; try discriminate X. apply list_eqb_eq in X. now subst.
Qed.

Print Assumptions C52_no_write_through_link_partial.
Print Assumptions C52_no_write_through_link_refuted.
Print Assumptions C55_force_replaces.
Print Assumptions C25_written_names_have_no_separator.
Print Assumptions C26_reported_paths_have_dotdot.
Print Assumptions C26_dotdot_reported_partial.
Print Assumptions C26_dotdot_reported_refuted.
Print Assumptions C27_extract_directory_refuted.
Print Assumptions C29_file_crc_refuted.
Print Assumptions C51_file_round_trip.
Print Assumptions C53_dotdot_entry_refused_refuted.
Print Assumptions C54_entry_path_refuted.
Print Assumptions C49_existing_files_kept.
Print Assumptions C50_reading_changes_nothing.
