(** The command line program, by command. *)
From Verif Require Import Go GoLemmas M_Crc M_Bitio P_Bitio M_Maketree M_Maketbl M_Huf M_Slide M_Lzhuf S_Header S_Listing M_Header M_Os M_Archive S_History S_Archive M_Cli S_Cli
  P_Header P_Os P_Single P_Extract P_Read1 P_Accept P_List P_RoundTrip P_ExtractAll P_Verify P_Still.

(** The options that matter for reading are off. *)
Record idle (l : lha) : Prop := {
  id_filec : l_filec l = 0; id_broken : l_broken l = false; id_ignoredir : l_ignoredir l = false; id_dir : l_extractdir l = [];
  id_noexec : l_noexec l = false; id_skip : l_skip l = false; id_force : l_force l = false
}.

(** Where the program starts its work: the files as they are, a new object. *)
Definition started (v : bool) (l : lha) (w : world) : world := set_wverify v (set_wlha l w).

Lemma main_list E a fl w : asks_list a fl -> a <> [] -> exists l, idle l /\ l_stdout l = false /\
  main E fl w = ('(hs, err) <~ CommandList (with_generic false E) a ;;; ret (if (err : bool) then 1 else 0, hs)) (started false l w).
Proof.
  intros [A L] NE. unfold main. rewrite A. destruct a as [|x a]; [contradiction|]. cbn [is_empty]. cbv zeta. unfold parseOption. rewrite L.
  eexists. split; [|split; [|rewrite bind_modify; reflexivity]]; [constructor|]; reflexivity.
Qed.

Lemma main_extract E a fl w : asks_extract a fl -> a <> [] -> exists l, idle l /\ l_stdout l = false /\
  main E fl w = (err <~ CommandExtract (with_generic false E) a ;;; ret (if (err : bool) then 1 else 0, [])) (started false l w).
Proof.
  intros [A L X] NE. unfold main. rewrite A. destruct a as [|x a]; [contradiction|]. cbn [is_empty]. cbv zeta. unfold parseOption. rewrite L, X.
  eexists. split; [|split; [|rewrite bind_modify; reflexivity]]; [constructor|]; reflexivity.
Qed.

Lemma main_print E a fl w : asks_print a fl -> a <> [] -> exists l, idle l /\ l_stdout l = true /\
  main E fl w = (err <~ CommandExtract (with_generic false E) a ;;; ret (if (err : bool) then 1 else 0, [])) (started false l w).
Proof.
  intros [A L X P] NE. unfold main. rewrite A. destruct a as [|x a]; [contradiction|]. cbn [is_empty]. cbv zeta. unfold parseOption. rewrite L, X, P.
  eexists. split; [|split; [|rewrite bind_modify; reflexivity]]; [constructor|]; reflexivity.
Qed.

(** What the options -g, -o, -x and -h leave alone. *)
Record same_work (c c' : cli) : Prop := {
  sw_cmd : c_cmd c' = c_cmd c; sw_verify : c_verify c' = c_verify c; sw_filec : l_filec (c_lha c') = l_filec (c_lha c); sw_filev : l_filev (c_lha c') = l_filev (c_lha c);
  sw_broken : l_broken (c_lha c') = l_broken (c_lha c); sw_ignoredir : l_ignoredir (c_lha c') = l_ignoredir (c_lha c); sw_dir : l_extractdir (c_lha c') = l_extractdir (c_lha c);
  sw_noexec : l_noexec (c_lha c') = l_noexec (c_lha c); sw_skip : l_skip (c_lha c') = l_skip (c_lha c); sw_force : l_force (c_lha c') = l_force (c_lha c);
  sw_stdout : l_stdout (c_lha c') = l_stdout (c_lha c); sw_sort : l_sort (c_lha c') = l_sort (c_lha c); sw_update : l_update (c_lha c') = l_update (c_lha c);
  sw_delete : l_delete (c_lha c') = l_delete (c_lha c); sw_new : l_new (c_lha c') = l_new (c_lha c)
}.

Lemma sub_same fl c : same_work c (parseSubOption fl c).
Proof.
  unfold parseSubOption. cbv zeta. destruct (f_g fl =? 5), (f_o fl =? 0), (f_o fl =? 5), (f_o fl =? 6), (f_o fl =? 7), (is_empty (f_x fl)), (f_h fl =? 2), (f_h fl =? 0), (f_h fl =? 1); constructor; reflexivity.
Qed.

Lemma sort_same fl c : same_work c (parseSubOption fl c) -> l_filev (c_lha c) = [] -> same_work c (sortFiles (parseSubOption fl c)).
Proof.
  intros S H. unfold sortFiles. rewrite (sw_sort _ _ S). destruct (l_sort (c_lha c)); [|exact S]. destruct S. constructor; cbn; try assumption. rewrite sw_filev0, H. reflexivity.
Qed.

Lemma main_test E a fl w : asks_test a fl -> a <> [] -> exists g l, idle l /\ l_stdout l = false /\
  main E fl w = (err <~ CommandExtract (with_generic g E) a ;;; ret (if (err : bool) then 1 else 0, [])) (started true l w).
Proof.
  intros [A L X P T C D] NE. unfold main. rewrite A. destruct a as [|x a]; [contradiction|]. cbn [is_empty]. cbv zeta. unfold parseOption. rewrite L, X, P, T, C, D. cbn [is_empty].
  set (c := set_cverify true _). set (c' := sortFiles _).
  assert (S : same_work c c') by (apply sort_same; [apply sub_same|]; unfold c; destruct (f_d fl), (f_u fl), (f_m fl), (f_lv fl); reflexivity).
  exists (c_generic c'), (c_lha c'). rewrite bind_modify, (sw_cmd _ _ S), (sw_verify _ _ S).
  assert (I : c_cmd c = CmdExtract /\ c_verify c = true /\ idle (c_lha c) /\ l_stdout (c_lha c) = false) by (unfold c; destruct (f_d fl), (f_u fl), (f_m fl), (f_lv fl); repeat split).
  destruct I as (I1 & I2 & I3 & I4). rewrite I1, I2. split; [|split; [|reflexivity]].
  - destruct S, I3. constructor; congruence.
  - rewrite (sw_stdout _ _ S). exact I4.
Qed.

(** Reading is not affected by the kind of headers written. *)
Lemma stored_generic E a c w g v l : stored_at E a c w -> stored_at (with_generic g E) a c (started v l w).
Proof. intros [S1 S2 S3 S4]. constructor; assumption. Qed.

Lemma extract_opened E a c w : stored_at E a c w ->
  CommandExtract E a w = ('(_, err) <~ extract_loop E (S (length c)) everything (one_file E) NewLzHeader c tt ;;; ret err) (set_wlha (set_archive a (w_lha w)) w).
Proof. intros [S1 S2 S3 S4]. now apply CommandExtract_open. Qed.

Lemma idle_archive a l : idle l -> idle (set_archive a l).
Proof. intros []. constructor; assumption. Qed.
