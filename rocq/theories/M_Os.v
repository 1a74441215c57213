(** The part of the operating system and of Go's os package the model needs: a
    tree of files, the operations on it, and programs with effects.

    Simplifications.  A file system is a map from paths to nodes; paths are
    compared as byte strings, so two spellings of the same path count as different,
    and the existence of parent directories is not checked.  Symbolic links are
    followed at the end of a path only.  Operations succeed unless an error is
    stated below (no disk-full or input/output errors). *)
From Verif Require Import Go M_Crc M_Bitio M_Maketree M_Maketbl M_Huf M_Slide M_Lzhuf M_Header.

Definition path := list Z.

Inductive node :=
| NFile (content : list Z)
| NDir
| NLink (target : path).

Definition fs := path -> option node.

Definition fs_set (p : path) (n : option node) (f : fs) : fs :=
  fun q => if list_eqb q p then n else f q.

(** What a process does to the file system. *)
Inductive op :=
| OCreate (name p : path)                (* open [name], which is the file [p], with O_CREATE|O_TRUNC *)
| OWrite (p : path) (off : Z) (l : list Z)
| ORename (a b : path)
| ORemove (p : path)
| OSymlink (target p : path)
| OMkdir (p : path)
| OChtimes (p : path) (t : Z)
| OChmod (p : path) (m : Z)
| OChown (p : path) (uid gid : Z).

Definition content (f : fs) (p : path) : list Z :=
  match f p with Some (NFile c) => c | _ => [] end.

(** [write(2)] at an offset inside the file or at its end *)
Definition write_at (off : Z) (l c : list Z) : list Z := take off c ++ l ++ drop (off + zlen l) c.

Definition run_op (o : op) (f : fs) : fs :=
  match o with
  | OCreate _ p => fs_set p (Some (NFile [])) f
  | OWrite p off l => fs_set p (Some (NFile (write_at off l (content f p)))) f
  | ORename a b => fs_set a None (fs_set b (f a) f)
  | ORemove p => fs_set p None f
  | OSymlink t p => fs_set p (Some (NLink t)) f
  | OMkdir p => fs_set p (Some NDir) f
  | OChtimes _ _ | OChmod _ _ | OChown _ _ _ => f     (* times and modes are not part of nodes *)
  end.

Definition has_nul (p : path) : bool := existsb (Z.eqb 0) p.

(** Following symbolic links at the end of a path (at most 40 times). *)
Fixpoint resolve (fuel : nat) (f : fs) (p : path) : path :=
  match fuel with
  | O => p
  | S fuel' => match f p with Some (NLink t) => resolve fuel' f t | _ => p end
  end.
Definition follow (f : fs) (p : path) : path := resolve 40 f p.

(** The Lha structure, lha.go:31-72 (the fields the modelled functions use;
    dirinfo never changes, because addDirinfo panics). *)
Record lha := LHA {
  l_archive : path;          (* archiveName *)
  l_noexec : bool;
  l_force : bool;
  l_ignoredir : bool;        (* IgnoreDirectory *)
  l_stdout : bool;           (* OutputToStdout *)
  l_macbin : bool;           (* DecodeMacbinaryContents *)
  l_update : bool;           (* UpdateIfNewer *)
  l_backup : bool;           (* BackupOldArchive *)
  l_new : bool;              (* newArchive *)
  l_delete : bool;           (* DeleteAfterAppend *)
  l_sort : bool;             (* SortContents *)
  l_recursive : bool;        (* RecursiveArchiving *)
  l_broken : bool;           (* ExtractBrokenArchive *)
  l_skip : bool;             (* skipFlg *)
  l_level : Z;               (* HeaderLevel *)
  l_method : Z;              (* CompressMethod *)
  l_extractdir : path;
  l_exclude : list path;
  l_filev : list path;       (* CmdFilev *)
  l_filec : Z;               (* CmdFilec *)
  l_newbuf : list Z          (* newArchiveNameBuffer *)
}.

(** lha.go:76-84 *)
Definition NewLha (archive : path) : lha :=
  LHA archive false false false false false false false false false false false false false 0 5 [] [] [] 0 (zeros FilenameLength).

Definition set_skip v l := LHA (l_archive l) (l_noexec l) (l_force l) (l_ignoredir l) (l_stdout l) (l_macbin l) (l_update l) (l_backup l) (l_new l) (l_delete l) (l_sort l) (l_recursive l) (l_broken l) v (l_level l) (l_method l) (l_extractdir l) (l_exclude l) (l_filev l) (l_filec l) (l_newbuf l).
Definition set_level v l := LHA (l_archive l) (l_noexec l) (l_force l) (l_ignoredir l) (l_stdout l) (l_macbin l) (l_update l) (l_backup l) (l_new l) (l_delete l) (l_sort l) (l_recursive l) (l_broken l) (l_skip l) v (l_method l) (l_extractdir l) (l_exclude l) (l_filev l) (l_filec l) (l_newbuf l).
Definition set_method v l := LHA (l_archive l) (l_noexec l) (l_force l) (l_ignoredir l) (l_stdout l) (l_macbin l) (l_update l) (l_backup l) (l_new l) (l_delete l) (l_sort l) (l_recursive l) (l_broken l) (l_skip l) (l_level l) v (l_extractdir l) (l_exclude l) (l_filev l) (l_filec l) (l_newbuf l).
Definition set_new v l := LHA (l_archive l) (l_noexec l) (l_force l) (l_ignoredir l) (l_stdout l) (l_macbin l) (l_update l) (l_backup l) v (l_delete l) (l_sort l) (l_recursive l) (l_broken l) (l_skip l) (l_level l) (l_method l) (l_extractdir l) (l_exclude l) (l_filev l) (l_filec l) (l_newbuf l).
Definition set_files v c l := LHA (l_archive l) (l_noexec l) (l_force l) (l_ignoredir l) (l_stdout l) (l_macbin l) (l_update l) (l_backup l) (l_new l) (l_delete l) (l_sort l) (l_recursive l) (l_broken l) (l_skip l) (l_level l) (l_method l) (l_extractdir l) (l_exclude l) v c (l_newbuf l).
Definition set_archive v l := LHA v (l_noexec l) (l_force l) (l_ignoredir l) (l_stdout l) (l_macbin l) (l_update l) (l_backup l) (l_new l) (l_delete l) (l_sort l) (l_recursive l) (l_broken l) (l_skip l) (l_level l) (l_method l) (l_extractdir l) (l_exclude l) (l_filev l) (l_filec l) (l_newbuf l).
Definition set_newbuf v l := LHA (l_archive l) (l_noexec l) (l_force l) (l_ignoredir l) (l_stdout l) (l_macbin l) (l_update l) (l_backup l) (l_new l) (l_delete l) (l_sort l) (l_recursive l) (l_broken l) (l_skip l) (l_level l) (l_method l) (l_extractdir l) (l_exclude l) (l_filev l) (l_filec l) v.
Definition set_stdout v l := LHA (l_archive l) (l_noexec l) (l_force l) (l_ignoredir l) v (l_macbin l) (l_update l) (l_backup l) (l_new l) (l_delete l) (l_sort l) (l_recursive l) (l_broken l) (l_skip l) (l_level l) (l_method l) (l_extractdir l) (l_exclude l) (l_filev l) (l_filec l) (l_newbuf l).
Definition set_exclude v l := LHA (l_archive l) (l_noexec l) (l_force l) (l_ignoredir l) (l_stdout l) (l_macbin l) (l_update l) (l_backup l) (l_new l) (l_delete l) (l_sort l) (l_recursive l) (l_broken l) (l_skip l) (l_level l) (l_method l) (l_extractdir l) v (l_filev l) (l_filec l) (l_newbuf l).

(** The state of a process: files, the operations done so far (latest first), the
    package variables of the coders, VerifyMode (crcio.go:11), the lines waiting
    on standard input, the Lha object in use, and what was written to standard output
    (entries only: messages and progress indicators are not modelled). *)
Record world := W {
  w_fs : fs;
  w_ops : list op;
  w_glob : glob;
  w_verify : bool;
  w_stdin : list (list Z);
  w_lha : lha;
  w_out : list Z
}.

Definition set_wfs v w := W v (w_ops w) (w_glob w) (w_verify w) (w_stdin w) (w_lha w) (w_out w).
Definition set_wglob v w := W (w_fs w) (w_ops w) v (w_verify w) (w_stdin w) (w_lha w) (w_out w).
Definition set_wverify v w := W (w_fs w) (w_ops w) (w_glob w) v (w_stdin w) (w_lha w) (w_out w).
Definition set_wstdin v w := W (w_fs w) (w_ops w) (w_glob w) (w_verify w) v (w_lha w) (w_out w).
Definition set_wlha v w := W (w_fs w) (w_ops w) (w_glob w) (w_verify w) (w_stdin w) v (w_out w).
Definition set_wout v w := W (w_fs w) (w_ops w) (w_glob w) (w_verify w) (w_stdin w) (w_lha w) v.

(** Everything the program asks its surroundings for and cannot change: the
    package options, the time zone, file modes and times, readability of files,
    contents of directories, the clock, the user, and the name chosen for the
    temporary file. *)
Record env := ENV {
  e_opts : opts;
  e_stamp : Z -> Z;
  e_perm : path -> Z;
  e_mtime : path -> Z;
  e_readable : path -> bool;
  e_readdir : path -> list path;
  e_now : Z;
  e_uid_ : Z;
  e_gid_ : Z;
  e_tmp : path
}.

(** Programs.  [Crash w]: the program panicked in state [w]. *)
Inductive outcome (A : Type) :=
| Done (a : A) (w : world)
| Crash (w : world)
| Unknown.
Arguments Done {A} a w.
Arguments Crash {A} w.
Arguments Unknown {A}.

Definition IO (A : Type) := world -> outcome A.
Definition ret {A} (a : A) : IO A := fun w => Done a w.
Definition bindIO {A B} (m : IO A) (k : A -> IO B) : IO B :=
  fun w => match m w with Done a w' => k a w' | Crash w' => Crash w' | Unknown => Unknown end.
Definition panic {A} : IO A := fun w => Crash w.
Definition lift {A} (r : res A) : IO A :=
  fun w => match r with Ok a => Done a w | Panic => Crash w | NoFuel => Unknown end.
Definition get {A} (f : world -> A) : IO A := fun w => Done (f w) w.
Definition modify (f : world -> world) : IO unit := fun w => Done tt (f w).

Notation "x <~ m ;;; k" := (bindIO m (fun x => k))
  (at level 90, m at next level, right associativity).
Notation "' p <~ m ;;; k" := (bindIO m (fun p => k))
  (at level 90, p pattern, m at next level, right associativity).

Definition getl {A} (f : lha -> A) : IO A := get (fun w => f (w_lha w)).
Definition modl (f : lha -> lha) : IO unit := modify (fun w => set_wlha (f (w_lha w)) w).

Definition emit (o : op) : IO unit :=
  fun w => Done tt (W (run_op o (w_fs w)) (o :: w_ops w) (w_glob w) (w_verify w) (w_stdin w) (w_lha w) (w_out w)).

(** Writing to os.Stdout *)
Definition printed (l : list Z) (w : world) : world :=
  match l with [] => w | _ => set_wout (w_out w ++ l) w end.
Definition print (l : list Z) : IO unit := fun w => Done tt (printed l w).

(** os.Lstat *)
Inductive stat_res := SNode (n : node) | SNotExist | SErr.
Definition lstat (f : fs) (p : path) : stat_res :=
  if has_nul p then SErr
  else match p with
       | [] => SNotExist
       | _ => match f p with Some n => SNode n | None => SNotExist end
       end.
(** os.Stat *)
Definition stat (f : fs) (p : path) : stat_res :=
  if has_nul p then SErr
  else match p with
       | [] => SNotExist
       | _ => match f (follow f p) with Some n => SNode n | None => SNotExist end
       end.

(** os.Open and reading: the content.  (Opening a directory succeeds in Go and
    reading it fails; here opening fails.) *)
Definition os_open (E : env) (f : fs) (p : path) : option (list Z) :=
  match stat f p with
  | SNode (NFile c) => if e_readable E p then Some c else None
  | _ => None
  end.

(** os.Create: the path written to, or an error *)
Definition os_create (p : path) : IO (option path) :=
  f <~ get w_fs ;;;
  if has_nul p then ret None
  else match p with
       | [] => ret None
       | _ => let q := follow f p in
              match f q with
              | Some NDir | Some (NLink _) => ret None
              | _ => _ <~ emit (OCreate p q) ;;; ret (Some q)
              end
       end.

(** os.CreateTemp: the file is new *)
Definition os_createtemp (E : env) : IO bool :=
  f <~ get w_fs ;;;
  match f (e_tmp E) with
  | None => _ <~ emit (OCreate (e_tmp E) (e_tmp E)) ;;; ret true
  | Some _ => ret false
  end.

(** Writing at the end of a file open for writing *)
Definition os_append (p : path) (l : list Z) : IO unit :=
  f <~ get w_fs ;;; emit (OWrite p (zlen (content f p)) l).

(** os.Rename: whether it succeeded *)
Definition os_rename (a b : path) : IO bool :=
  f <~ get w_fs ;;;
  if has_nul a || has_nul b then ret false
  else match f a, f b with
       | None, _ => ret false
       | _, Some NDir => ret false
       | Some _, _ => _ <~ emit (ORename a b) ;;; ret true
       end.

(** os.Remove *)
Definition os_remove (p : path) : IO unit :=
  f <~ get w_fs ;;;
  match lstat f p with
  | SNode _ => emit (ORemove p)
  | _ => ret tt
  end.

(** os.Symlink: whether it succeeded.  Strings with a NUL byte are refused. *)
Definition os_symlink (target p : path) : IO bool :=
  f <~ get w_fs ;;;
  if has_nul target || has_nul p || (match target with [] => true | _ => false end) then ret false
  else match lstat f p, p with
       | SNotExist, _ :: _ => _ <~ emit (OSymlink target p) ;;; ret true
       | _, _ => ret false
       end.

(** os.Chtimes, os.Chmod, os.Chown (errors are ignored by the callers) *)
Definition os_meta (p : path) (o : path -> op) : IO unit :=
  f <~ get w_fs ;;;
  match stat f p with
  | SNode _ => emit (o (follow f p))
  | _ => ret tt
  end.
