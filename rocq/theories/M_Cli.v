(** Model of cmd/lharc.go, the command line program.

    Parsing of the command line by the standard package flag is not modelled: the
    model starts from the values of the flags.  Messages are not modelled. *)
From Verif Require Import Go M_Crc M_Bitio M_Maketree M_Maketbl M_Huf M_Slide M_Lzhuf M_Header M_Os M_Archive.

(** cmd/lharc.go:15-38: the values of the flags. *)
Record flags := FLAGS {
  f_archive : path;          (* -archive *)
  f_l : bool;
  f_lv : bool;
  f_e : bool;
  f_u : bool;
  f_d : bool;
  f_a : path;
  f_m : bool;
  f_c : path;
  f_t : bool;
  f_n : bool;
  f_f : bool;
  f_p : bool;
  f_g : Z;
  f_o : Z;
  f_h : Z;
  f_x : list Z
}.

(** cmd/lharc.go:40, macro.go:171-175: the commands. *)
Inductive command := CmdUnknown | CmdExtract | CmdAdd | CmdList | CmdDelete.

(** What the options decide: the command, the Lha object, VerifyMode and
    GenericFormat. *)
Record cli := CLI { c_cmd : command; c_lha : lha; c_verify : bool; c_generic : bool }.

Definition set_cmd v c := CLI v (c_lha c) (c_verify c) (c_generic c).
Definition set_clha v c := CLI (c_cmd c) v (c_verify c) (c_generic c).
Definition set_cverify v c := CLI (c_cmd c) (c_lha c) v (c_generic c).
Definition set_cgeneric v c := CLI (c_cmd c) (c_lha c) (c_verify c) v.

(** cmd/lharc.go:215-259 initVariable.  The fields NewArchive, Verbose and
    VerboseListing have no effect on files; newArchive, RecursiveArchiving and the
    names keep the values of NewLha. *)
Definition initVariable (l : lha) : cli :=
  CLI CmdUnknown
    (LHA (l_archive l) false false false false false false false (l_new l) false true (l_recursive l) false (l_skip l)
       0 5 [] [] (l_filev l) (l_filec l) (l_newbuf l))
    false false.

(** strings.Split with the separator ",", for a string that is not empty *)
Fixpoint split_comma (cur s : list Z) : list path :=
  match s with
  | [] => [rev cur]
  | c :: s' => if c =? 44 then rev cur :: split_comma [] s' else split_comma (c :: cur) s'
  end.

Definition is_empty (p : list Z) : bool := match p with [] => true | _ => false end.

(** cmd/lharc.go:173-207 parseSubOption *)
Definition parseSubOption (fl : flags) (c : cli) : cli :=
  let c := if f_g fl =? 5 then c else set_clha (set_level (f_g fl) (c_lha c)) (set_cgeneric true c) in
  let rest c :=
    let c := if is_empty (f_x fl) then c else set_clha (set_exclude (split_comma [] (f_x fl)) (c_lha c)) c in
    if f_h fl =? 2 then c
    else if f_h fl =? 0 then set_clha (set_level 0 (c_lha c)) c
    else if f_h fl =? 1 then set_clha (set_level 1 (c_lha c)) c
    else c in
  if f_o fl =? 0 then rest c
  else
    let l := set_level 0 (c_lha c) in
    if f_o fl =? 5 then rest (set_clha (set_method 5 l) c)
    else if f_o fl =? 6 then rest (set_clha (set_method 6 l) c)
    else if f_o fl =? 7 then rest (set_clha (set_method 7 l) c)
    else set_clha (set_method 1 l) c.

Definition add_name (p : path) (c : cli) : cli :=
  set_clha (set_files (l_filev (c_lha c) ++ [p]) (l_filec (c_lha c) + 1) (c_lha c)) c.

(** cmd/lharc.go:109-171 parseOption.  newArchive, updateIfNewer and
    deleteAfterAppend are variables of the command that nothing reads. *)
Definition parseOption (fl : flags) (c : cli) : cli :=
  if f_l fl then set_cmd CmdList (set_clha (set_files [] (l_filec (c_lha c)) (c_lha c)) c)
  else if f_e fl then set_cmd CmdExtract c
  else if f_p fl then set_cmd CmdExtract (set_clha (set_stdout true (c_lha c)) c)
  else
    let c := if is_empty (f_c fl) then c else add_name (f_c fl) (set_cmd CmdAdd c) in
    let c := if is_empty (f_a fl) then c else add_name (f_a fl) (set_cmd CmdAdd c) in
    let c := if f_d fl then set_cmd CmdDelete c else c in
    let c := if f_u fl then set_cmd CmdAdd c else c in
    let c := if f_m fl then set_cmd CmdAdd c else c in
    let c := if f_lv fl then set_cmd CmdList c else c in
    let c := if f_t fl then set_cverify true (set_cmd CmdExtract c) else c in
    parseSubOption fl c.

(** sort.Strings: byte strings in ascending order *)
Fixpoint string_leb (a b : path) : bool :=
  match a, b with
  | [], _ => true
  | _ :: _, [] => false
  | x :: a', y :: b' => if x <? y then true else if y <? x then false else string_leb a' b'
  end.
Fixpoint insert_string (p : path) (l : list path) : list path :=
  match l with
  | [] => [p]
  | q :: l' => if string_leb p q then p :: l else q :: insert_string p l'
  end.
Definition sort_strings (l : list path) : list path := fold_right insert_string [] l.

(** cmd/lharc.go:261-265 sortFiles *)
Definition sortFiles (c : cli) : cli :=
  if l_sort (c_lha c) then set_clha (set_files (sort_strings (l_filev (c_lha c))) (l_filec (c_lha c)) (c_lha c)) c else c.

(** lha.GenericFormat is a package variable; ConvertCase is switched off at line 247. *)
Definition with_generic (g : bool) (E : env) : env :=
  ENV (OPTS false g) (e_stamp E) (e_perm E) (e_mtime E) (e_readable E) (e_readdir E) (e_now E) (e_uid_ E) (e_gid_ E) (e_tmp E).

(** cmd/lharc.go:66-104 main: the exit status and the headers that are listed.  A
    panic ends the program with the status 2. *)
Definition main (E : env) (fl : flags) : IO (Z * list hdr) :=
  if is_empty (f_archive fl) then ret (0, [])
  else
    let c := sortFiles (parseOption fl (initVariable (NewLha (f_archive fl)))) in
    let E := with_generic (c_generic c) E in
    _ <~ modify (fun w => set_wverify (c_verify c) (set_wlha (c_lha c) w)) ;;;
    match c_cmd c with
    | CmdExtract => err <~ CommandExtract E (f_archive fl) ;;; ret (if (err : bool) then 1 else 0, [])
    | CmdAdd => err <~ CommandAdd E (f_archive fl) ;;; ret (if (err : bool) then 1 else 0, [])
    | CmdList => '(hs, err) <~ CommandList E (f_archive fl) ;;; ret (if (err : bool) then 1 else 0, hs)
    | CmdDelete => _ <~ CommadDelete (f_archive fl) ;;; ret (0, [])
    | CmdUnknown => ret (0, [])
    end.
