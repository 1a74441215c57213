(** Property C120: extracting without directories. *)
From Verif Require Import Go GoLemmas M_Crc P_Crc M_Bitio P_Bitio M_Maketree M_Maketbl M_Huf M_Slide M_Lzhuf S_Header M_Header M_Os M_Archive S_Archive S_Extract
  P_Header P_Os P_Add P_RoundTrip P_Single P_Extract P_Read1 P_Ignore Properties_Slide Properties_Archive Properties_Extract.

(** Settings for extracting everything with IgnoreDirectory. *)
Record ignoring (E : env) (a : path) (w : world) : Prop := {
  ig_path : file_path a;
  ig_readable : e_readable E a = true;
  ig_sfx : archiveIsMsdosSfx1 a = false;
  ig_verify : w_verify w = false;
  ig_all : l_filec (w_lha w) = 0;
  ig_ignore : l_ignoredir (w_lha w) = true;
  ig_plain : l_broken (w_lha w) = false /\ l_extractdir (w_lha w) = [] /\ l_stdout (w_lha w) = false /\ l_noexec (w_lha w) = false /\ l_skip (w_lha w) = false
}.

Lemma extract_ignoring E w cs a e dir base short body method c :
  file_entry e -> named e dir base -> ignoring E a w -> w_fs w a = Some (NFile c) ->
  (forall l, l_ignoredir l = true -> exists p, name_start l (read0 NewLzHeader e) = Ok (Some (read0 NewLzHeader e, p)) /\ drop p (Name (read0 NewLzHeader e)) = short ++ [0]) ->
  short <> [] -> ~ In 0 short -> ~ In 47 short -> w_fs w short = None ->
  after cs (w_glob w) -> method = 5 \/ method = 6 \/ method = 7 /\ zlen body < 65536 -> bytes body -> body <> [] -> one_entry e method body c ->
  exists w', CommandExtract E a w = Done false w' /\ w_fs w' short = Some (NFile body) /\ forall q, q <> short -> w_fs w' q = w_fs w q.
Proof.
  intros FE ND [P1 P2 P3 P4 P5 P6 (P7 & P8 & P9 & P10 & P11)] Hf HS S1 S2 S3 Hb A Hm HB Hne (cs' & g & eo & A' & HE & Hlt & M1 & M2 & M3 & ->).
  destruct (round_trip_567 cs' g cs (w_glob w) method body eo [0]) as [Y1 [Y2 [Y3 [Y4 [g2 D]]]]]; auto.
  { constructor; [unfold is_byte; lia|constructor]. }
  refine (CommandExtract_as E e FE method _ _ short w a (eo_out eo) g2 (eo_crc eo) body _ _ _ _ _ _ _ _ _ _ _ _ _ _ _ _ _); auto.
  - rewrite M1. destruct Hm as [-> | [-> | [-> _]]]; reflexivity.
  - unfold LzhdirsMethodNum. lia.
  - intros l Hl. apply HS. now rewrite Hl.
  - rewrite M2, M3, <- Y2. exact D.
Qed.

(** C120, the part that holds: with IgnoreDirectory, an entry whose name has a directory
    is extracted to the last component of its name, and nothing else changes. *)
Theorem C120_ignore_partial :
  forall E w cs a e dir base body method c,
    file_entry e -> named e dir base -> dir <> [] -> ignoring E a w -> w_fs w a = Some (NFile c) -> w_fs w base = None ->
    after cs (w_glob w) -> method = 5 \/ method = 6 \/ method = 7 /\ zlen body < 65536 -> bytes body -> body <> [] -> one_entry e method body c ->
    exists w', CommandExtract E a w = Done false w' /\ w_fs w' base = Some (NFile body) /\ forall q, q <> base -> w_fs w' q = w_fs w q.
Proof.
  intros E w cs a e dir base body method c FE ND Hd G Hf Hb A Hm HB Hne O. destruct (nd_base _ _ _ ND) as [B1 B2].
  apply (extract_ignoring E w cs a e dir base base body method c); auto.
  - intros l Hl. now apply (ignore_dir e FE dir base ND).
  - intros I. apply (nm_nul e FE dir base ND). apply in_or_app. now right.
Qed.

(** The full claim C120 is false: an entry whose name has no directory loses the first
    character of its name.  Where the file should be, nothing appears. *)
Theorem C120_ignore_refuted :
  forall E w cs a e x short body method c,
    file_entry e -> named e [] (x :: short) -> short <> [] -> ignoring E a w -> w_fs w a = Some (NFile c) -> w_fs w short = None -> w_fs w (x :: short) = None ->
    after cs (w_glob w) -> method = 5 \/ method = 6 \/ method = 7 /\ zlen body < 65536 -> bytes body -> body <> [] -> one_entry e method body c ->
    exists w', CommandExtract E a w = Done false w' /\ w_fs w' (x :: short) = None /\ w_fs w' short = Some (NFile body).
Proof.
  intros E w cs a e x short body method c FE ND Hs G Hf Hb Hb2 A Hm HB Hne O. destruct (nd_base _ _ _ ND) as [B1 B2].
  destruct (extract_ignoring E w cs a e [] (x :: short) short body method c) as [w' [X1 [X2 X3]]]; auto.
  - intros l Hl. now apply (ignore_none e FE [] (x :: short) ND l x short Hl).
  - intros I. apply (nm_nul e FE [] (x :: short) ND). now right.
  - intros I. apply B2. now right.
  - exists w'. split; [exact X1|]. split; [|exact X2]. rewrite X3; [exact Hb2|]. intros Y. apply (f_equal (@length Z)) in Y. cbn [length] in Y. lia.
Qed.

(** An entry d\z and an entry zz. *)
Definition ex_named (n : list Z) : entry0 := E0 [45; 108; 104; 53; 45] 9 100 0 32 n 1 0 1000000 33188 0 0.
Definition ex_named_arch (n : list Z) : list Z := match EncodeLzhuf 5 100 (repeat 0 100) glob0 with Ok eo => layout0 (ex_named n) ++ eo_out eo ++ [0] | _ => [] end.
Definition ex_ignore : lha := LHA [98] false false true false false false false false false false false false false 0 5 [] [] [] 0 [].
Definition ex_ignoring (n : list Z) : world := W (fun p => if list_eqb p [98] then Some (NFile (ex_named_arch n)) else None) [] glob0 false [] ex_ignore [].
Definition ex_ignored (n : list Z) : bool :=
  match CommandExtract ex_env [98] (ex_ignoring n) with
  | Done false w' => match w_fs w' [122] with Some (NFile c) => list_eqb c (repeat 0 100) | _ => false end
  | _ => false
  end.
Example C120_example : ignoring ex_env [98] (ex_ignoring [100; 92; 122]) /\ named (ex_named [100; 92; 122]) [100; 47] [122] /\ named (ex_named [120; 122]) [] [120; 122] /\
  file_entry (ex_named [100; 92; 122]) /\ file_entry (ex_named [120; 122]) /\ ex_ignored [100; 92; 122] = true /\ ex_ignored [120; 122] = true.
Proof.
  split; [constructor; try reflexivity; [split; [discriminate|cbn; lia]|repeat split]|].
  split; [constructor; [reflexivity|right; exists [100]; reflexivity|split; [discriminate|cbn; lia]]|].
  split; [constructor; [reflexivity|left; reflexivity|split; [discriminate|cbn; lia]]|].
  split. { constructor; [constructor; cbn; try lia; split; auto; repeat constructor; lia|cbn; lia|reflexivity]. }
  split. { constructor; [constructor; cbn; try lia; split; auto; repeat constructor; lia|cbn; lia|reflexivity]. }
  split; vm_compute; reflexivity.
Qed.

Print Assumptions C120_ignore_partial.
Print Assumptions C120_ignore_refuted.
