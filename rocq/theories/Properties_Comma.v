(** The option -x of the command line program: file names separated by commas. *)
From Verif Require Import Go GoLemmas M_Crc M_Bitio P_Bitio M_Maketree M_Maketbl M_Huf M_Slide M_Lzhuf S_Header S_Listing M_Header M_Os M_Archive S_History S_Archive S_Add M_Cli S_Cli
  P_Header P_Os P_Single P_Read1 P_Accept P_List P_Cli P_CliAdd.

(** The names written one after the other with a comma, 44, in between. *)
Fixpoint listed (names : list path) : list Z :=
  match names with
  | [] => []
  | [n] => n
  | n :: rest => n ++ 44 :: listed rest
  end.

(** lharc -archive a -c file -x n1,n2,..., or -a in place of -c *)
Record asks_add_but (a file : path) (names : list path) (fl : flags) : Prop := {
  ab_archive : f_archive fl = a; ab_l : f_l fl = false; ab_e : f_e fl = false; ab_p : f_p fl = false;
  ab_lv : f_lv fl = false; ab_t : f_t fl = false; ab_d : f_d fl = false; ab_x : f_x fl = listed names;
  ab_file : (f_c fl = file /\ f_a fl = []) \/ (f_c fl = [] /\ f_a fl = file)
}.

Definition known_method (o : Z) : Prop := o = 0 \/ o = 5 \/ o = 6 \/ o = 7.

Lemma split_plain n : forall cur s, ~ In 44 n -> split_comma cur (n ++ s) = split_comma (rev n ++ cur) s.
Proof.
  induction n as [|x n IH]; intros cur s N; [reflexivity|]. cbn [app split_comma].
  destruct (Z.eqb_spec x 44) as [->|_]; [exfalso; apply N; left; reflexivity|].
  rewrite IH by (intro I; apply N; right; exact I). cbn [rev]. rewrite <- app_assoc. reflexivity.
Qed.

Lemma split_listed names : names <> [] -> (forall n, In n names -> ~ In 44 n) -> split_comma [] (listed names) = names.
Proof.
  induction names as [|n [|m rest] IH]; intros NE N; [contradiction| |].
  - cbn [listed]. rewrite <- (app_nil_r n) at 1. rewrite split_plain by (apply N; left; reflexivity). cbn [split_comma]. rewrite app_nil_r, rev_involutive. reflexivity.
  - change (listed (n :: m :: rest)) with (n ++ 44 :: listed (m :: rest)). rewrite split_plain by (apply N; left; reflexivity).
    cbn [split_comma]. change (44 =? 44) with true. cbv iota. rewrite app_nil_r, rev_involutive, IH; [reflexivity|discriminate|].
    intros q I. apply N. right. exact I.
Qed.

Lemma sub_exclude fl c : known_method (f_o fl) -> f_x fl <> [] -> l_exclude (c_lha (parseSubOption fl c)) = split_comma [] (f_x fl).
Proof.
  intros K X. unfold parseSubOption. cbv zeta. destruct (f_x fl) as [|y xs]; [contradiction|]. cbn [is_empty].
  generalize (split_comma [] (y :: xs)). intro v.
  destruct K as [->|[->|[->| ->]]]; destruct (f_g fl =? 5), (f_h fl =? 2), (f_h fl =? 0), (f_h fl =? 1); reflexivity.
Qed.

Lemma sub_unknown fl c : ~ known_method (f_o fl) -> l_exclude (c_lha (parseSubOption fl c)) = l_exclude (c_lha c).
Proof.
  intros K. unfold parseSubOption. cbv zeta. unfold known_method in K.
  destruct (Z.eqb_spec (f_o fl) 0), (Z.eqb_spec (f_o fl) 5), (Z.eqb_spec (f_o fl) 6), (Z.eqb_spec (f_o fl) 7); try tauto.
  destruct (f_g fl =? 5); reflexivity.
Qed.

Lemma sub_generic fl c : c_generic c = false -> c_generic (parseSubOption fl c) = negb (f_g fl =? 5).
Proof.
  intros G. unfold parseSubOption. cbv zeta.
  destruct (f_g fl =? 5), (f_o fl =? 0), (f_o fl =? 5), (f_o fl =? 6), (f_o fl =? 7), (is_empty (f_x fl)), (f_h fl =? 2), (f_h fl =? 0), (f_h fl =? 1); cbn; auto.
Qed.

Lemma main_add_but E a file names fl w : asks_add_but a file names fl -> a <> [] -> file <> [] -> exists l c0, l_exclude (c_lha c0) = [] /\
  l_exclude l = l_exclude (c_lha (parseSubOption fl c0)) /\ l_filev l = [file] /\ l_filec l = 1 /\
  main E fl w = (err <~ CommandAdd (with_generic (negb (f_g fl =? 5)) E) a ;;; ret (if (err : bool) then 1 else 0, [])) (started false l w).
Proof.
  intros [A L X P LV T D XX F] NE NF. unfold main. rewrite A. destruct a as [|x a]; [contradiction|]. cbn [is_empty]. cbv zeta. unfold parseOption. rewrite L, X, P, LV, T, D.
  set (c0 := add_name file (set_cmd CmdAdd (initVariable (NewLha (x :: a))))).
  assert (C : (let c := if is_empty (f_c fl) then initVariable (NewLha (x :: a)) else add_name (f_c fl) (set_cmd CmdAdd (initVariable (NewLha (x :: a)))) in
               if is_empty (f_a fl) then c else add_name (f_a fl) (set_cmd CmdAdd c)) = c0).
  { cbv zeta. destruct file as [|y f]; [contradiction|]. destruct F as [[-> ->]|[-> ->]]; reflexivity. }
  cbv zeta in C. rewrite C. clear C.
  assert (C1 : (if f_m fl then set_cmd CmdAdd (if f_u fl then set_cmd CmdAdd c0 else c0) else if f_u fl then set_cmd CmdAdd c0 else c0) = c0) by (destruct (f_m fl), (f_u fl); reflexivity).
  rewrite C1. clear C1. pose proof (sub_same fl c0) as S. pose proof (sub_generic fl c0 eq_refl) as Q4.
  set (c := parseSubOption fl c0) in *.
  assert (SF : sortFiles c = set_clha (set_files [file] 1 (c_lha c)) c).
  { unfold sortFiles. rewrite (sw_sort _ _ S). change (l_sort (c_lha c0)) with true. cbv iota. rewrite (sw_filev _ _ S), (sw_filec _ _ S). reflexivity. }
  rewrite SF. exists (set_files [file] 1 (c_lha c)), c0. split; [reflexivity|]. split; [reflexivity|]. split; [reflexivity|]. split; [reflexivity|].
  rewrite bind_modify. cbn [c_cmd c_lha c_verify c_generic set_clha]. rewrite (sw_cmd _ _ S), (sw_verify _ _ S), Q4. reflexivity.
Qed.

(** ** C128: -x excludes the files it lists *)

(** With a method the program knows, the files that are excluded while the file is
    added are exactly those listed, in their order. *)
Theorem C128_listed_partial E a file names fl w : asks_add_but a file names fl -> a <> [] -> file <> [] ->
  known_method (f_o fl) -> listed names <> [] -> (forall n, In n names -> ~ In 44 n) ->
  exists l, l_exclude l = names /\ l_filev l = [file] /\ l_filec l = 1 /\
    main E fl w = (err <~ CommandAdd (with_generic (negb (f_g fl =? 5)) E) a ;;; ret (if (err : bool) then 1 else 0, [])) (started false l w).
Proof.
  intros HA NE NF K X N. destruct (main_add_but E a file names fl w HA NE NF) as (l & c0 & _ & L & V & C & M).
  exists l. split; [|auto]. rewrite L, sub_exclude by (rewrite ?(ab_x _ _ _ _ HA); assumption). rewrite (ab_x _ _ _ _ HA).
  apply split_listed; [|exact N]. intros ->. apply X. reflexivity.
Qed.

(** With any other method number the file is still added, with no file excluded. *)
Theorem C128_listed_refuted E a file names fl w : asks_add_but a file names fl -> a <> [] -> file <> [] -> ~ known_method (f_o fl) ->
  exists l, l_exclude l = [] /\ l_filev l = [file] /\ l_filec l = 1 /\
    main E fl w = (err <~ CommandAdd (with_generic (negb (f_g fl =? 5)) E) a ;;; ret (if (err : bool) then 1 else 0, [])) (started false l w).
Proof.
  intros HA NE NF K. destruct (main_add_but E a file names fl w HA NE NF) as (l & c0 & Z & L & V & C & M).
  exists l. split; [|auto]. rewrite L, sub_unknown by exact K. exact Z.
Qed.

(** The same command line with another -x. *)
Definition with_x (x : list Z) (fl : flags) : flags :=
  FLAGS (f_archive fl) (f_l fl) (f_lv fl) (f_e fl) (f_u fl) (f_d fl) (f_a fl) (f_m fl) (f_c fl) (f_t fl) (f_n fl) (f_f fl) (f_p fl) (f_g fl) (f_o fl) (f_h fl) x.

Lemma sub_with_x fl x c : ~ known_method (f_o fl) -> parseSubOption (with_x x fl) c = parseSubOption fl c.
Proof.
  intros K. unfold parseSubOption, with_x. cbn [f_g f_o f_h f_x]. cbv zeta. unfold known_method in K.
  destruct (Z.eqb_spec (f_o fl) 0), (Z.eqb_spec (f_o fl) 5), (Z.eqb_spec (f_o fl) 6), (Z.eqb_spec (f_o fl) 7); try tauto.
Qed.

(** With any other method number -x makes no difference to the program, whatever it
    names, the file that is added included. *)
Theorem C128_ignored_refuted E fl x w : ~ known_method (f_o fl) -> main E (with_x x fl) w = main E fl w.
Proof.
  intros K. unfold main. change (f_archive (with_x x fl)) with (f_archive fl).
  assert (P : forall c, parseOption (with_x x fl) c = parseOption fl c).
  { intros c. unfold parseOption. change (f_l (with_x x fl)) with (f_l fl). change (f_e (with_x x fl)) with (f_e fl). change (f_p (with_x x fl)) with (f_p fl).
    destruct (f_l fl); [reflexivity|]. destruct (f_e fl); [reflexivity|]. destruct (f_p fl); [reflexivity|]. cbv zeta. rewrite sub_with_x by exact K. reflexivity. }
  rewrite P. reflexivity.
Qed.

(** lharc -archive b -c z -o 6 -x yy,,x and the same with -o 3 *)
Example C128_example :
  asks_add_but [98] [122] [[121; 121]; []; [120]] (FLAGS [98] false false false false false [] false [122] false false false false 2 6 2 [121; 121; 44; 44; 120]) /\
  known_method 6 /\ listed [[121; 121]; []; [120]] <> [] /\ (forall n, In n [[121; 121]; []; [120]] -> ~ In 44 n) /\
  asks_add_but [98] [122] [[122]] (FLAGS [98] false false false false false [] false [122] false false false false 2 3 2 [122]) /\ ~ known_method 3.
Proof.
  split; [constructor; try reflexivity; left; split; reflexivity|]. split; [right; right; left; reflexivity|]. split; [discriminate|]. split.
  { intros n I. cbn in I. destruct I as [<-|[<-|[<-|[]]]]; cbn; lia. }
  split; [constructor; try reflexivity; left; split; reflexivity|]. unfold known_method. lia.
Qed.

Print Assumptions C128_listed_partial.
Print Assumptions C128_listed_refuted.
Print Assumptions C128_ignored_refuted.
