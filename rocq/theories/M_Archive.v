(** Model of lhext.go and lha.go: making, listing and extracting archives.
    Messages on the terminal and the progress indicators are not modelled; error
    results are reduced to whether there was an error. *)
From Verif Require Import Go M_Crc M_Bitio M_Maketree M_Maketbl M_Huf M_Slide M_Lzhuf M_Header M_Os.

(** ** Path functions of the standard library *)

(** strings.LastIndex(s, c), -1 when absent *)
Fixpoint last_index (c : Z) (l : list Z) (i r : Z) : Z :=
  match l with
  | [] => r
  | x :: l' => last_index c l' (i + 1) (if x =? c then i else r)
  end.
Definition LastIndex (c : Z) (l : list Z) : Z := last_index c l 0 (-1).

Fixpoint strip_slashes (l : list Z) : list Z :=
  match l with
  | x :: l' => if x =? 47 then strip_slashes l' else l
  | [] => []
  end.

(** filepath.Base on Unix *)
Definition Base (p : path) : path :=
  match p with
  | [] => [46]
  | _ => match rev (strip_slashes (rev p)) with
         | [] => [47]
         | q => drop (LastIndex 47 q + 1) q
         end
  end.

(** filepath.Ext *)
Definition Ext (p : path) : path :=
  let q := drop (LastIndex 47 p + 1) p in
  let i := LastIndex 46 q in
  if i =? -1 then [] else drop i q.

(** strings.ToUpper.  Simplification: bytes from 128 up are left alone (Go maps
    whole Unicode characters). *)
Definition ToUpper (l : list Z) : list Z := map (fun c => if isLower c then c - 32 else c) l.

(** ** util.go:84-102 *)
Definition archiveIsMsdosSfx1 (name : path) : bool :=
  ((4 <=? zlen name) && (list_eqb (ToUpper (Ext name)) [46; 67; 79; 77] || list_eqb (ToUpper (Ext name)) [46; 69; 88; 69]))
  || ((2 <=? zlen name) && list_eqb (ToUpper (Ext name)) [46; 120]).

(** header.go:1010-1049 SeekLhaHeader: the 65536 bytes it reads are gone, whatever
    it finds, because the seeks back are commented out.  The test at line 1029
    compares the checksum with 0.  The slice at line 1020 panics from 32768 on.
    [p] holds the first 21 bytes of the Go array of that name. *)
Definition seek_match (p : list Z) : bool :=
  (nth 2 p 0 =? 45) && ((nth 3 p 0 =? 108) || (nth 3 p 0 =? 112)) && (nth 6 p 0 =? 45) &&
  ((((nth 20 p 0 =? 0) || (nth 20 p 0 =? 1)) && (20 <? nth 0 p 0) && (nth 1 p 0 =? 0))
   || ((nth 20 p 0 =? 2) && (24 <=? nth 0 p 0) && (nth 19 p 0 =? 32))).

Fixpoint seek_loop (k : nat) (i : Z) (p buf : list Z) : res unit :=
  match k with
  | O => Ok tt
  | S k' =>
      if 32767 <? i then Panic
      else
        let p := copy p (take (65535 - 2 * i) (take 21 buf)) in
        if seek_match p then Ok tt else seek_loop k' (i + 1) p (drop 1 buf)
  end.

Definition SeekLhaHeader (inp : list Z) : res (list Z) :=
  let buf := take 65536 inp in
  _ <- seek_loop (length buf) 0 (zeros 21) (buf ++ zeros (65536 - zlen buf)) ;;
  Ok (drop 65536 inp).

(** ** Making archives *)

(** header.go:82-131 initHeader for a regular file or a byte slice *)
Definition initHeader_file (E : env) (l : lha) (f : fs) (name : path) (size mtime : Z) : hdr :=
  let h := NewLzHeader in
  let perm := match stat f name with SNode _ => e_perm E name | _ => 511 end in
  set_UnixMode (u16 (perm + 33000)) (set_UnixGid (u16 (e_gid_ E)) (set_UnixUID (u16 (e_uid_ E))
  (set_Stamp mtime (set_ExtendType ExtendUnix (set_Crc 0
  (set_Name (copy (Name h) (Base name)) (set_HeaderLevel (u8 (l_level l)) (set_Attribute genericAttribute
  (set_OriginalSize size (set_PackedSize 0 (set_Method Lzhuff0Method h))))))))))).

(** header.go:110-128: what is different for directories and symbolic links *)
Definition initHeader (E : env) (l : lha) (f : fs) (name : path) (n : node) : hdr :=
  match n with
  | NFile c => initHeader_file E l f name (zlen c) (e_mtime E name)
  | NDir =>
      let h := initHeader_file E l f name 0 (e_mtime E name) in
      set_UnixMode (u16 (UnixMode h + 40000)) (set_Attribute genericDirectoryAttribute (set_Method LzhdirsMethod h))
  | NLink t =>
      let h := initHeader_file E l f name 0 (e_mtime E name) in
      set_Realname (copy (Realname h) t) (set_Attribute genericDirectoryAttribute (set_Method LzhdirsMethod h))
  end.

(** Running a coder: it works on the package variables of the process.  What it
    has already written when it panics is not modelled. *)
Definition run_encode (size : Z) (inp : list Z) : IO encout :=
  g <~ get w_glob ;;;
  m <~ getl l_method ;;;
  eo <~ lift (EncodeLzhuf m size inp g) ;;;
  _ <~ modify (set_wglob (eo_glob eo)) ;;;
  ret eo.

Definition put_header (p : path) (off : option Z) (r : option (list Z)) : IO unit :=
  match r with
  | None => ret tt
  | Some l => match off with None => os_append p l | Some o => emit (OWrite p o l) end
  end.

(** lhext.go:287-342 addOne: [inp] is what the reader holds *)
Definition addOne (E : env) (h : hdr) (inp : list Z) : IO unit :=
  r <~ lift (WriteHeader (e_opts E) (e_stamp E) h) ;;;
  _ <~ put_header (e_tmp E) None r ;;;
  if OriginalSize h =? 0 then ret tt
  else
    eo <~ run_encode (OriginalSize h) inp ;;;
    _ <~ os_append (e_tmp E) (eo_out eo) ;;;
    let h := set_Method (meth 104 (eo_method eo)) (set_Crc (eo_crc eo) h) in
    h <~ (if eo_packed eo <? eo_original eo then
            ret (set_PackedSize (eo_packed eo) (set_OriginalSize (eo_original eo) h))
          else
            '(out, crc, r) <~ lift (encodeStoredCrc (OriginalSize h) (eo_rest eo)) ;;;
            _ <~ os_append (e_tmp E) out ;;;
            ret (set_PackedSize r (set_OriginalSize r (set_Method Lzhuff0Method (set_Crc crc h))))) ;;;
    r <~ lift (WriteHeader (e_opts E) (e_stamp E) h) ;;;
    put_header (e_tmp E) (Some 0) r.

(** lhext.go:178-195 copyOldOne: what is left of the old archive.  mostRecent is
    never used, and the method of the scratch header is overwritten by the next
    GetHeader. *)
Definition copyOldOne (E : env) (h : hdr) (inp : list Z) : IO (list Z) :=
  noexec <~ getl l_noexec ;;;
  if noexec then ret inp
  else
    '(out, _, rest) <~ lift (copyfile (HeaderSize h + PackedSize h) inp) ;;;
    _ <~ os_append (e_tmp E) out ;;;
    ret rest.

(** lhext.go:375-412 and 674-710: the loop over the old archive.  The result is
    the rest of the old archive, the header read last, whether the last error was
    nil, and cmp.  [None] stands for the nil reader.  With SortContents, cmp is 0
    before the first comparison and stays so. *)
Fixpoint scan_old (E : env) (fuel : nat) (sort : bool) (ahdr : hdr) (inp : list Z) (cmp : Z) : IO (list Z * hdr * bool * Z) :=
  match fuel with
  | O => fun _ => Unknown
  | S fuel' =>
      '(e, ok, ahdr, rest) <~ lift (GetHeader (e_opts E) ahdr inp) ;;;
      let noerr := match e with ENil => true | _ => false end in
      if negb ok then ret (rest, ahdr, noerr, cmp)
      else if negb sort then
        rest <~ copyOldOne E ahdr rest ;;;
        scan_old E fuel' sort ahdr rest (-1)
      else ret (rest, ahdr, noerr, 0)
  end.

(** lhext.go:414-434 and 712-732: adding the entry.  Returns the rest of the old
    archive. *)
Definition append_new (E : env) (oafp : option (list Z)) (h : hdr) (inp : list Z) : IO (option (list Z)) :=
  sort <~ getl l_sort ;;;
  noexec <~ getl l_noexec ;;;
  update <~ getl l_update ;;;
  '(oafp, ahdr, noerr, cmp) <~
    match oafp with
    | None => ret (None, NewLzHeader, true, 0)
    | Some old =>
        '(rest, ahdr, noerr, cmp) <~ scan_old E (S (length old)) sort NewLzHeader old 0 ;;;
        ret (Some rest, ahdr, noerr, cmp)
    end ;;;
  if noerr || (0 <? cmp) || negb update || (UnixLastModifiedStamp ahdr <? UnixLastModifiedStamp h) then
    _ <~ (if noexec then ret tt else addOne E h inp) ;;;
    ret oafp
  else
    match oafp with
    | None => ret None
    | Some rest => rest <~ copyOldOne E ahdr rest ;;; ret (Some rest)
    end.

(** lhext.go:344-451 appendIt.  The type assertion at line 436 panics when no file
    was opened: directories, symbolic links, Noexec. *)
Definition appendIt (E : env) (name : path) (oafp : option (list Z)) : IO (option (list Z)) :=
  f <~ get w_fs ;;;
  l <~ get w_lha ;;;
  match lstat f name with
  | SNode n =>
      match n with
      | NFile c =>
          if l_noexec l then
            _ <~ append_new E oafp (initHeader E l f name n) [] ;;; panic
          else match os_open E f name with
               | None => ret oafp
               | Some _ => append_new E oafp (initHeader E l f name n) c
               end
      | _ => _ <~ append_new E oafp (initHeader E l f name n) [] ;;; panic
      end
  | _ => ret oafp
  end.

(** lhext.go:1894-1936 findFiles as called from appendBytes: addSP (204-212)
    indexes an empty slice, and finishSP (214-218) does not count, so no file is
    ever found. *)
Definition findFiles_bytes (E : env) (name : path) : IO unit :=
  f <~ get w_fs ;;;
  exclude <~ getl l_exclude ;;;
  match lstat f name with
  | SNode NDir =>
      if existsb (fun q => negb (existsb (fun x => list_eqb (ToUpper x) (ToUpper q)) exclude)) (e_readdir E name)
      then panic else ret tt
  | SNode _ => ret tt
  | _ => panic
  end.

(** lhext.go:654-746 appendBytes *)
Definition appendBytes (E : env) (body : list Z) (name : path) (oafp : option (list Z)) : IO (option (list Z)) :=
  f <~ get w_fs ;;;
  l <~ get w_lha ;;;
  oafp <~ append_new E oafp (initHeader_file E l f name (zlen body) (e_now E)) body ;;;
  _ <~ (if l_recursive l then findFiles_bytes E name else ret tt) ;;;
  ret oafp.

(** lhext.go:541-554 (836-849): one file name, with the exclusion list *)
Fixpoint add_excluded (append : path -> option (list Z) -> IO (option (list Z))) (name : path) (ex : list path)
  (oafp : option (list Z)) : IO (option (list Z)) :=
  match ex with
  | [] => ret oafp
  | x :: ex' =>
      oafp <~ (if list_eqb (ToUpper x) (ToUpper (Base name)) then ret oafp else append name oafp) ;;;
      add_excluded append name ex' oafp
  end.

(** The shift at lhext.go:533-535 (828-830): entry [i] is dropped from the first
    [c]; the vector keeps its length. *)
Definition drop_file (i c : Z) (v : list path) : list path :=
  firstn (Z.to_nat i) v ++ firstn (Z.to_nat (c - 1 - i)) (skipn (S (Z.to_nat i)) v) ++ skipn (Z.to_nat (c - 1)) v.

(** lhext.go:527-556 (822-851): the loop over the file names.  [k] bounds the
    number of rounds: each one advances [i] or decrements CmdFilec. *)
Fixpoint add_files (append : path -> option (list Z) -> IO (option (list Z))) (k : nat) (i : Z) (oafp : option (list Z))
  : IO (option (list Z)) :=
  match k with
  | O => ret oafp
  | S k' =>
      l <~ get w_lha ;;;
      if i <? l_filec l then
        match nth_error (l_filev l) (Z.to_nat i) with
        | None => panic
        | Some name =>
            if list_eqb name (l_archive l) then
              _ <~ modl (set_files (drop_file i (l_filec l) (l_filev l)) (l_filec l - 1)) ;;;
              add_files append k' i oafp
            else
              oafp <~ match l_exclude l with
                      | [] => append name oafp
                      | ex => add_excluded append name ex oafp
                      end ;;;
              add_files append k' (i + 1) oafp
        end
      else ret oafp
  end.

(** lhext.go:558-572 (853-867): copying the rest of the old archive *)
Fixpoint copy_rest (E : env) (fuel : nat) (ahdr : hdr) (inp : list Z) : IO unit :=
  match fuel with
  | O => fun _ => Unknown
  | S fuel' =>
      '(e, ok, ahdr, rest) <~ lift (GetHeader (e_opts E) ahdr inp) ;;;
      if negb ok then ret tt
      else
        rest <~ copyOldOne E ahdr rest ;;;
        copy_rest E fuel' ahdr rest
  end.

(** lhext.go:220-264 findUpdateFiles.  os.IsExist of a nil error is false, so no
    name is ever added; only the reading of headers is left. *)
Fixpoint findUpdateFiles (E : env) (fuel : nat) (h : hdr) (inp : list Z) : IO unit :=
  match fuel with
  | O => fun _ => Unknown
  | S fuel' =>
      '(e, ok, h, rest) <~ lift (GetHeader (e_opts E) h inp) ;;;
      match e, ok with
      | ENil, true => findUpdateFiles E fuel' h rest
      | _, _ => ret tt
      end
  end.

(** lhext.go:281-285 removeFiles *)
Fixpoint removeFiles (k : nat) (i : Z) (v : list path) : IO unit :=
  match k with
  | O => ret tt
  | S k' =>
      match nth_error v (Z.to_nat i) with
      | None => panic
      | Some p => _ <~ os_remove p ;;; removeFiles k' (i + 1) v
      end
  end.

(** lhext.go:590-595 (885-890) and 271-273 buildBackupFile.  backupArchiveName is made
    of 1024 NUL bytes (lha.go:81) and never filled in.  An error is only reported. *)
Definition buildBackupFile (wanted : bool) (archive : path) : IO unit :=
  if wanted then _ <~ os_rename archive (zeros 1024) ;;; ret tt else ret tt.

(** lhext.go:453-620 CommandAdd and 748-915 compressBytes, which differ only in
    [append].  The result says whether an error is returned.  When newArchive is
    set the old archive is closed, so reading it fails at once: an empty reader. *)
Definition add_command (E : env) (append : path -> option (list Z) -> IO (option (list Z))) (archive : path) : IO bool :=
  _ <~ modl (set_archive archive) ;;;
  l <~ get w_lha ;;;
  if negb (l_update l) && (l_filec l =? 0) then ret true
  else
    f <~ get w_fs ;;;
    let fr := os_open E f archive in
    let exist := match fr with Some _ => true | None => false end in
    if l_update l && (l_filec l =? 0) && negb exist then ret true
    else
      let oafp := match fr with Some c => if l_new l then Some [] else Some c | None => None end in
      newname <~ (if exist && archiveIsMsdosSfx1 archive then
                    _ <~ modl (set_newbuf (copy (l_newbuf l) archive)) ;;;
                    getl l_newbuf
                  else ret archive) ;;;
      made <~ (if l_noexec l then ret true else os_createtemp E) ;;;
      if negb made then ret true
      else
        _ <~ (if l_update l && (l_filec l =? 0)
              then findUpdateFiles E (S (length (match oafp with Some c => c | None => [] end))) NewLzHeader
                     (match oafp with Some c => c | None => [] end)
              else ret tt) ;;;
        if l_filec l =? 0 then ret false
        else
          oafp <~ add_files append (Z.to_nat (l_filec l)) 0 oafp ;;;
          _ <~ (match exist, oafp with
                | true, Some rest => copy_rest E (S (length rest)) NewLzHeader rest
                | _, _ => ret tt
                end) ;;;
          if l_noexec l then
            _ <~ buildBackupFile (exist && l_backup l) archive ;;;
            l <~ get w_lha ;;;
            _ <~ (if l_delete l then removeFiles (Z.to_nat (l_filec l)) 0 (l_filev l) else ret tt) ;;;
            ret false
          else
            _ <~ os_append (e_tmp E) [0] ;;;
            _ <~ buildBackupFile (exist && l_backup l) archive ;;;
            ok <~ os_rename (e_tmp E) newname ;;;
            if negb ok then ret true
            else
              l <~ get w_lha ;;;
              _ <~ (if l_delete l then removeFiles (Z.to_nat (l_filec l)) 0 (l_filev l) else ret tt) ;;;
              ret false.

Definition CommandAdd (E : env) (archive : path) : IO bool := add_command E (appendIt E) archive.
Definition compressBytes (E : env) (archive : path) (body : list Z) : IO bool := add_command E (appendBytes E body) archive.

(** lha.go:152-159 and 165-172: the test on the archive.  os.IsExist(nil) is false,
    so nothing is done when the archive exists. *)
Definition archive_test : IO (option bool) :=
  f <~ get w_fs ;;;
  a <~ getl l_archive ;;;
  match stat f a with
  | SNotExist => _ <~ modl (set_new true) ;;; ret None
  | SNode _ => ret (Some false)
  | SErr => ret (Some true)
  end.

(** lha.go:146-162 *)
Definition CompressBytes (E : env) (filename : path) (body : list Z) (method level : Z) : IO bool :=
  _ <~ modl (fun l => set_files (l_filev l ++ [filename]) (l_filec l + 1) (set_method method (set_level level l))) ;;;
  t <~ archive_test ;;;
  match t with
  | Some e => ret e
  | None => a <~ getl l_archive ;;; compressBytes E a body
  end.

(** lha.go:164-179 *)
Definition Compress (E : env) (filename : path) (method level : Z) : IO bool :=
  t <~ archive_test ;;;
  match t with
  | Some e => ret e
  | None =>
      _ <~ modl (fun l => set_files (l_filev l ++ [filename]) (l_filec l + 1) (set_method method (set_level level l))) ;;;
      a <~ getl l_archive ;;;
      CommandAdd E a
  end.

(** ** Extracting *)

(** lhext.go:40-79 *)
Fixpoint traversal (state : Z) (p : list Z) : bool :=
  match p with
  | [] => state =? 2
  | c :: p' =>
      if state =? 0 then traversal (if c =? 46 then 1 else 3) p'
      else if state =? 1 then traversal (if c =? 46 then 2 else if c =? 47 then 0 else 3) p'
      else if state =? 2 then if c =? 47 then true else traversal 3 p'
      else traversal (if c =? 47 then 0 else 3) p'
  end.
Definition isDirectoryTraversal (p : list Z) : bool := traversal 0 p.

(** lhext.go:81-95 inquire: every answer is compared with 'Y' only; at end of input
    the answer is empty and response[0] panics.  The lines the buffered reader
    reads ahead and loses are not modelled. *)
Fixpoint inquire_lines (ls : list (list Z)) : res (list (list Z)) :=
  match ls with
  | [] => Panic
  | [] :: _ => Panic
  | (c :: _) :: ls' => if c =? 89 then Ok ls' else inquire_lines ls'
  end.

(** lhext.go:97-142 inquireExtract: upFlag.  inquire returns -9, which no case of the
    switch matches. *)
Definition inquireExtract (name : path) : IO bool :=
  _ <~ modl (set_skip false) ;;;
  f <~ get w_fs ;;;
  l <~ get w_lha ;;;
  match lstat f name with
  | SNotExist => ret true
  | SErr => ret false
  | SNode (NFile _) =>
      if l_noexec l then ret false
      else if l_force l then ret true
      else
        ls <~ get w_stdin ;;;
        ls <~ lift (inquire_lines ls) ;;;
        _ <~ modify (set_wstdin ls) ;;;
        ret true
  | SNode _ => ret false
  end.

(** lhext.go:1264-1279 skipToNextpos with pos = 0 *)
Definition skipToNextpos (off : Z) (inp : list Z) : bool * list Z :=
  if off =? 0 then (true, inp)
  else match inp with
       | [] => (false, [])
       | _ => (true, drop off inp)
       end.

(** Go's q[a:b] *)
Definition subslice (q : list Z) (a b : Z) : res (list Z) :=
  if (0 <=? a) && (a <=? b) && (b <=? zlen q) then Ok (take (b - a) (drop a q)) else Panic.

(** strings.Index(q, "/") *)
Definition Index47 (q : list Z) : Z := match find_byte 47 q 0 with Some i => i | None => -1 end.

(** lhext.go:1281-1311 makeNameWithPathcheck: [None] when the check fails. *)
Fixpoint pathcheck_loop (k : nat) (f : fs) (name q : list Z) (offset p : Z) : res (option Z) :=
  match k with
  | O => NoFuel
  | S k' =>
      if p =? -1 then Ok (Some offset)
      else
        let name := name ++ drop p q in
        let offset := offset + (zlen q - p) in
        match lstat f name with
        | SNode _ =>
            match stat f name with
            | SNode _ => pathcheck_loop k' f name q offset (Index47 (drop p q))
            | _ => Ok None
            end
        | _ => Ok None
        end
  end.

Definition makeNameWithPathcheck (l : lha) (f : fs) (q : list Z) : res (option (list Z)) :=
  let '(name, offset) := match l_extractdir l with
                         | [] => (zeros FilenameLength, 0)
                         | d => (d ++ [47], zlen d + 1)
                         end in
  r <- pathcheck_loop 100 f name q offset (Index47 q) ;;
  match r with
  | None => Ok None
  | Some offset =>
      let last := if offset =? 0 then zlen q - 1 else FilenameLength - offset in
      n <- subslice q offset last ;;
      Ok (Some n)
  end.

(** lhext.go:17-31; the position in the list is the method number *)
Definition methods : list (list Z) :=
  [meth 104 48; meth 104 49; meth 104 50; meth 104 51; meth 104 52; meth 104 53; meth 104 54; meth 104 55;
   meth 122 115; meth 122 53; meth 122 52; meth 104 100; [45; 112; 109; 48; 45]; [45; 112; 109; 50; 45]].
Definition LzhdirsMethodNum : Z := 11.

Fixpoint method_index (m : list Z) (ms : list (list Z)) (i : Z) : option Z :=
  match ms with
  | [] => None
  | x :: ms' => if list_eqb m x then Some i else method_index m ms' (i + 1)
  end.
Definition method_num (m : list Z) : option Z := method_index m methods 0.

(** The methods without compression, extract.go:75: their data goes through copyfile. *)
Definition copied (method : Z) : bool := match dec_dicbit method with Some d => d =? 0 | None => false end.

(** extract.go:18-107 in a process: CRC, output, bytes read, rest of the archive.
    In VerifyMode the coders write nothing (crcio.go:104), but copyfile does. *)
Definition run_decode (method : Z) (h : hdr) (inp : list Z) : IO (Z * list Z * Z * list Z) :=
  g <~ get w_glob ;;;
  broken <~ getl l_broken ;;;
  verify <~ get w_verify ;;;
  '(g, crc, out, n, rest) <~ lift (DecodeLzhuf method broken (OriginalSize h) (PackedSize h) inp g) ;;;
  _ <~ modify (set_wglob g) ;;;
  ret (crc, if verify && negb (copied method) then [] else out, n, rest).

Definition isRegular (h : hdr) : bool := Z.land (UnixMode h) UnixFileTypemask =? UnixFileRegular.
Definition isDirectory (h : hdr) : bool := Z.land (UnixMode h) UnixFileTypemask =? UnixFileDirectory.
Definition isSymlink (h : hdr) : bool := Z.land (UnixMode h) UnixFileTypemask =? UnixFileSymlink.

(** lhext.go:1377-1425 extractOneStream: error, bytes read, data, rest of the
    archive.  The data returned together with a CRC error (whatever the buffered
    writer has passed on) are taken to be empty. *)
Definition extractOneStream (h : hdr) (inp : list Z) : IO (bool * Z * list Z * list Z) :=
  match method_num (Method h) with
  | None => ret (true, 0, [], inp)
  | Some method =>
      if isRegular h && negb (method =? LzhdirsMethodNum) then
        noexec <~ getl l_noexec ;;;
        if noexec then ret (false, 0, [], inp)
        else
          '(crc, out, n, rest) <~ run_decode method h inp ;;;
          if HasCrc h && negb (crc =? Crc h) then ret (true, 0, [], rest)
          else ret (false, n, out, rest)
      else ret (true, 0, [], inp)
  end.

(** lhext.go:1450-1452 *)
Fixpoint skip_slashes (k : nat) (name : list Z) (p : Z) : res Z :=
  match k with
  | O => Panic
  | S k' =>
      match nth_error name (Z.to_nat p) with
      | None => Panic
      | Some c => if c =? 47 then skip_slashes k' name (p + 1) else Ok p
      end
  end.

(** lhext.go:1458-1464 *)
Fixpoint skip_device (k : nat) (name : list Z) (p : Z) : res (Z * Z) :=
  match k with
  | O => Panic
  | S k' =>
      match nth_error name (Z.to_nat p) with
      | None => Panic
      | Some c => let p := p + 1 in if (zlen name <=? p) || (c =? 47) then Ok (c, p) else skip_device k' name p
      end
  end.

(** lhext.go:1437-1471: where the name starts, after the checks; [None] is the
    traversal error.  The header is the one with Name[p] replaced (1466). *)
Definition name_start (l : lha) (h : hdr) : res (option (hdr * Z)) :=
  let p := LastIndex 47 (Name h) in
  let p := if p =? -1 then 0 else p in
  if l_ignoredir l then
    if p + 1 <=? zlen (Name h) then Ok (Some (h, p + 1)) else Panic
  else if isDirectoryTraversal (drop p (Name h)) then Ok None
  else
    match nth_error (Name h) (Z.to_nat p) with
    | None => Panic
    | Some c =>
        if c =? 47 then
          p <- skip_slashes (S (length (Name h))) (Name h) p ;;
          if (ExtendType h =? ExtendOs68k) || (ExtendType h =? ExtendXosk) then
            '(c, p) <- skip_device (S (length (Name h))) (Name h) p ;;
            match nth_error (Name h) (Z.to_nat p) with
            | None => Panic
            | Some d =>
                if negb (c =? 0) || negb (d =? 0)
                then Ok (Some (set_Name (take p (Name h) ++ 46 :: drop (p + 1) (Name h)) h, p))
                else Ok (Some (h, p))
            end
          else Ok (Some (h, p))
        else Ok (Some (h, p))
    end.

(** lhext.go:1313-1326 makeParentPath.  MkdirAll on a path that exists and is not a
    directory fails. *)
Definition makeParentPath (name : path) : IO bool :=
  f <~ get w_fs ;;;
  match lstat f name with
  | SNode NDir => ret true
  | _ => ret false
  end.

(** lhext.go:1362-1375 symlinkWithMakePath *)
Definition symlinkWithMakePath (realname name : path) : IO unit :=
  ok <~ os_symlink realname name ;;;
  if ok then ret tt
  else
    _ <~ makeParentPath name ;;;
    _ <~ os_symlink realname name ;;;
    ret tt.

(** lhext.go:1232-1254 adjustInfo *)
Definition adjustInfo (name : path) (h : hdr) : IO unit :=
  _ <~ (if isSymlink h then ret tt else os_meta name (fun p => OChtimes p (UnixLastModifiedStamp h))) ;;;
  if (ExtendType h =? ExtendUnix) || (ExtendType h =? ExtendOs68k) || (ExtendType h =? ExtendXosk) then
    _ <~ (if Z.land (UnixMode h) UnixFileTypemask =? UnixFileTypemask then ret tt else os_meta name (fun p => OChmod p (UnixMode h))) ;;;
    os_meta name (fun p => OChown p (UnixUID h) (UnixGid h))
  else ret tt.

(** lhext.go:1530-1549 and 1586-1601: asking, and skipping.  os.IsExist in the test
    at 1540 is never true of a Lstat error. *)
Definition ask (name : path) : IO bool :=
  skip <~ getl l_skip ;;;
  up <~ (if skip then ret true else inquireExtract name) ;;;
  force <~ getl l_force ;;;
  ret (up || force).

(** lhext.go:1511: "::::::::" before and after the name.  Quiet is taken to be false,
    as it is unless a caller sets it. *)
Definition banner (name : path) : list Z :=
  [58; 58; 58; 58; 58; 58; 58; 58; 10] ++ name ++ [10; 58; 58; 58; 58; 58; 58; 58; 58; 10].

(** lhext.go:1427-1638 extractOne: error, bytes read, the header, rest of the
    archive. *)
Definition extractOne (E : env) (h : hdr) (inp : list Z) : IO (bool * Z * hdr * list Z) :=
  l <~ get w_lha ;;;
  f <~ get w_fs ;;;
  verify <~ get w_verify ;;;
  st <~ lift (name_start l h) ;;;
  match st with
  | None => ret (true, 0, h, inp)
  | Some (h, p) =>
      nm <~ lift (makeNameWithPathcheck l f (drop p (Name h))) ;;;
      match nm with
      | None => ret (true, 0, h, inp)
      | Some name =>
          match method_num (Method h) with
          | None => ret (true, 0, h, inp)
          | Some method =>
              if isRegular h && negb (method =? LzhdirsMethodNum) then
                if l_stdout l || verify then
                  if (ExtendType h =? ExtendMacos) && l_macbin l && list_eqb (Base name) [73; 99; 111; 110; 13] then ret (false, 0, h, inp)
                  else if l_noexec l then ret (false, 0, h, inp)
                  else
                    _ <~ print (if l_stdout l then banner name else []) ;;;
                    '(crc, out, n, rest) <~ run_decode method h inp ;;;
                    _ <~ print out ;;;
                    if HasCrc h && negb (crc =? Crc h) then ret (true, 0, h, rest)
                    else ret (false, n, h, rest)
                else
                  go <~ ask name ;;;
                  l <~ get w_lha ;;;
                  if negb go then ret (false, 0, h, inp)
                  else if l_skip l && negb (l_force l) then ret (false, 0, h, inp)
                  else if l_noexec l then ret (false, 0, h, inp)
                  else
                    fp <~ os_create name ;;;
                    match fp with
                    | None => ret (false, 0, h, inp)
                    | Some q =>
                        '(crc, out, n, rest) <~ run_decode method h inp ;;;
                        _ <~ os_append q out ;;;
                        ret (false, n, h, rest)
                    end
              else if isDirectory h || isSymlink h || (method =? LzhdirsMethodNum) then
                if negb (l_ignoredir l) && negb verify && negb (l_stdout l) then
                  if l_noexec l then ret (false, 0, h, inp)
                  else if isSymlink h then
                    go <~ ask name ;;;
                    l <~ get w_lha ;;;
                    f <~ get w_fs ;;;
                    if negb go then ret (false, 0, h, inp)
                    else if l_skip l && (match lstat f name with SNode _ => true | _ => false end) && negb (l_force l) then ret (false, 0, h, inp)
                    else
                      _ <~ symlinkWithMakePath (Realname h) name ;;;
                      _ <~ adjustInfo name h ;;;
                      ret (false, 0, h, inp)
                  else
                    ok <~ makeParentPath name ;;;
                    (* addDirinfo, lhext.go:1337-1360, assigns through a nil pointer *)
                    if ok then panic else ret (false, 0, h, inp)
                else if l_stdout l || verify || isDirectory h then ret (false, 0, h, inp)
                else _ <~ adjustInfo name h ;;; ret (false, 0, h, inp)
              else if l_force l then
                if l_stdout l || verify || isDirectory h then ret (false, 0, h, inp)
                else _ <~ adjustInfo name h ;;; ret (false, 0, h, inp)
              else ret (true, 0, h, inp)
          end
      end
  end.

(** lhext.go:1640-1650 needFile *)
Definition needFile (l : lha) (name : list Z) : bool :=
  if l_filec l =? 0 then true else existsb (fun x => list_eqb x name) (l_filev l).

(** lha.go:86-132 Headers: the headers and whether an error is returned.  VerifyMode
    is switched back also when a panic leaves the function. *)
Fixpoint headers_loop (E : env) (fuel : nat) (inp : list Z) (acc : list hdr) : IO (list hdr * bool) :=
  match fuel with
  | O => fun _ => Unknown
  | S fuel' =>
      '(e, ok, h, rest) <~ lift (GetHeader (e_opts E) NewLzHeader inp) ;;;
      match e, ok with
      | ENil, true =>
          l <~ get w_lha ;;;
          if needFile l (Name h) then
            '(err, n, h, rest) <~ extractOne E h rest ;;;
            if (err : bool) then ret (acc ++ [h], true)
            else if n =? PackedSize h then headers_loop E fuel' rest (acc ++ [h])
            else
              let '(ok, rest) := skipToNextpos (PackedSize h) rest in
              if (ok : bool) then headers_loop E fuel' rest (acc ++ [h]) else ret (acc ++ [h], true)
          else
            let '(ok, rest) := skipToNextpos (PackedSize h) rest in
            if (ok : bool) then ret (acc ++ [h], true) else headers_loop E fuel' rest (acc ++ [h])
      | _, _ => ret (acc, false)
      end
  end.

Definition with_verify {A} (m : IO A) : IO A :=
  fun w => match m (set_wverify true w) with
           | Done a w' => Done a (set_wverify false w')
           | Crash w' => Crash (set_wverify false w')
           | Unknown => Unknown
           end.

Definition Headers (E : env) : IO (list hdr * bool) :=
  with_verify
    (f <~ get w_fs ;;;
     a <~ getl l_archive ;;;
     match os_open E f a with
     | None => ret ([], true)
     | Some c => headers_loop E (S (length c)) c []
     end).

(** lhext.go:1071-1102, 1130-1160 and 1191-1220: the loop of the three extracting
    functions.  The header is reused from entry to entry.  [sel] says whether the
    entry is wanted; [one] extracts it. *)
Fixpoint extract_loop {A} (E : env) (fuel : nat) (sel : hdr -> IO bool) (one : hdr -> list Z -> A -> IO (bool * Z * A * hdr * list Z))
  (h : hdr) (inp : list Z) (acc : A) : IO (A * bool) :=
  match fuel with
  | O => fun _ => Unknown
  | S fuel' =>
      '(e, ok, h, rest) <~ lift (GetHeader (e_opts E) h inp) ;;;
      match e with
      | EEof => ret (acc, false)
      | EOther => ret (acc, true)
      | ENil =>
          if negb ok then ret (acc, false)
          else
            s <~ sel h ;;;
            if (s : bool) then
              '(err, n, acc, h, rest) <~ one h rest acc ;;;
              if (err : bool) then ret (acc, true)
              else if n =? PackedSize h then extract_loop E fuel' sel one h rest acc
              else
                let '(ok, rest) := skipToNextpos (PackedSize h) rest in
                if (ok : bool) then extract_loop E fuel' sel one h rest acc else ret (acc, true)
            else
              let '(_, rest) := skipToNextpos (PackedSize h) rest in
              extract_loop E fuel' sel one h rest acc
      end
  end.

(** lhext.go:1060-1069 (1119-1128, 1180-1189) *)
Definition open_archive (E : env) : IO (option (list Z)) :=
  f <~ get w_fs ;;;
  a <~ getl l_archive ;;;
  match os_open E f a with
  | None => ret None
  | Some c => if archiveIsMsdosSfx1 a then rest <~ lift (SeekLhaHeader c) ;;; ret (Some rest) else ret (Some c)
  end.

Definition one_file (E : env) (h : hdr) (inp : list Z) (acc : unit) : IO (bool * Z * unit * hdr * list Z) :=
  '(err, n, h, rest) <~ extractOne E h inp ;;; ret (err, n, tt, h, rest).
Definition one_stream (h : hdr) (inp : list Z) (acc : list Z) : IO (bool * Z * list Z * hdr * list Z) :=
  '(err, n, out, rest) <~ extractOneStream h inp ;;; ret (err, n, out, h, rest).
Definition by_name (header h : hdr) : IO bool := ret (list_eqb (Name h) (Name header)).

(** lha.go:140-144 and lhext.go:1054-1110: the data and whether an error is
    returned.  adjustDirinfo has nothing to do, dirinfo being always empty. *)
Definition DecompresBytes (E : env) (header : hdr) : IO (list Z * bool) :=
  _ <~ modl (set_level 2) ;;;
  c <~ open_archive E ;;;
  match c with
  | None => ret ([], true)
  | Some c => extract_loop E (S (length c)) (by_name header) one_stream NewLzHeader c []
  end.

(** lha.go:134-138 and lhext.go:1114-1170 *)
Definition Decompress (E : env) (header : hdr) : IO bool :=
  _ <~ modl (set_level 2) ;;;
  c <~ open_archive E ;;;
  match c with
  | None => ret true
  | Some c => '(_, err) <~ extract_loop E (S (length c)) (by_name header) (one_file E) NewLzHeader c tt ;;; ret err
  end.

(** lhext.go:1172-1230 *)
Definition CommandExtract (E : env) (archive : path) : IO bool :=
  _ <~ modl (set_archive archive) ;;;
  c <~ open_archive E ;;;
  match c with
  | None => ret true
  | Some c =>
      '(_, err) <~ extract_loop E (S (length c)) (fun h => l <~ get w_lha ;;; ret (needFile l (Name h))) (one_file E) NewLzHeader c tt ;;;
      ret err
  end.

(** lhext.go:941-994 CommandList: the headers printed, and whether an error is
    returned. *)
Fixpoint list_loop (E : env) (l : lha) (fuel : nat) (h : hdr) (inp : list Z) (acc : list hdr) : res (list hdr * bool) :=
  match fuel with
  | O => NoFuel
  | S fuel' =>
      '(e, ok, h, rest) <- GetHeader (e_opts E) h inp ;;
      if negb ok then Ok (acc, match e with ENil => false | _ => true end)
      else list_loop E l fuel' h (drop (PackedSize h) rest) (if needFile l (Name h) then acc ++ [h] else acc)
  end.

Definition CommandList (E : env) (archive : path) : IO (list hdr * bool) :=
  _ <~ modl (set_archive archive) ;;;
  f <~ get w_fs ;;;
  l <~ get w_lha ;;;
  match os_open E f archive with
  | None => ret ([], true)
  | Some c => lift (list_loop E l (S (length c)) NewLzHeader c [])
  end.

(** lhext.go:1048-1052 CommadDelete *)
Definition CommadDelete (archive : path) : IO bool :=
  _ <~ modl (set_archive archive) ;;; ret false.
