(** Vocabulary for the properties of archives as a whole. *)
From Verif Require Import Go M_Crc M_Bitio M_Maketree M_Maketbl M_Huf M_Slide M_Lzhuf S_History S_Header M_Header M_Os M_Archive.

(** The state in which a program left the process, by returning or by a panic. *)
Definition final {A} (o : outcome A) : option world :=
  match o with Done _ w | Crash w => Some w | Unknown => None end.

(** The files after the first [k] of the operations [ops], starting from [f]: what
    is found after a crash at that point. *)
Definition files_after (k : nat) (ops : list op) (f : fs) : fs :=
  fold_left (fun f o => run_op o f) (firstn k ops) f.

(** [ops] are the operations done between [w] and [w']. *)
Definition did (ops : list op) (w w' : world) : Prop := w_ops w' = rev ops ++ w_ops w.

(** The surroundings in which archives are made: headers in the format for Unix,
    permissions of nine bits, a clock between 1970 and 2106. *)
Record usual (E : env) : Prop := {
  us_format : GenericFormat (e_opts E) = false;
  us_perm : forall p, 0 <= e_perm E p < 512;
  us_now : 0 <= e_now E < 2 ^ 32;
  us_tmp : ~ In 0 (e_tmp E)
}.

(** A name that can be used for a file. *)
Definition file_path (p : path) : Prop := p <> [] /\ ~ In 0 p.

(** A name the header can hold: at most 221 bytes, no NUL, slash or backslash. *)
Definition entry_name (nm : list Z) : Prop := zlen nm <= 221 /\ Forall (fun c => 0 < c < 256 /\ c <> 92 /\ c <> 47) nm.

(** An entry for a regular file in the documented level 0 format, its name without
    NUL. *)
Record file_entry (e : entry0) : Prop := {
  fe_legal : legal0 e;
  fe_name : ~ In 0 (e_name e);
  fe_regular : Z.land (e_mode e) 61440 = 32768
}.

(** Headers separate the parts of a name by backslashes (or slashes); the name is
    [dir], empty or ending in a separator, and [base]. *)
Definition slashes (l : list Z) : list Z := map (fun c => if c =? 92 then 47 else c) l.
Record named (e : entry0) (dir base : list Z) : Prop := {
  nd_name : slashes (e_name e) = dir ++ base;
  nd_dir : dir = [] \/ exists d, dir = d ++ [47];
  nd_base : base <> [] /\ ~ In 47 base
}.

(** A program about to read the archive [a] with default settings. *)
Record reader (E : env) (a : path) (w : world) : Prop := {
  rd_lha : w_lha w = NewLha a;
  rd_verify : w_verify w = false;
  rd_path : file_path a;
  rd_readable : e_readable E a = true;
  rd_sfx : archiveIsMsdosSfx1 a = false
}.

(** The entry a user asks for: headers are matched by name, NUL included. *)
Definition asks_for (header : hdr) (nm : list Z) : Prop := Name header = nm ++ [0].

(** The data of a compressed entry: what EncodeLzhuf made of [body] in some process,
    with the sizes and the CRC in the header. *)
Definition packs (e : entry0) (data body : list Z) : Prop :=
  exists method cs g eo, (method = 5 \/ method = 6 \/ method = 7 /\ zlen body < 65536) /\ bytes body /\ body <> [] /\ after cs g /\
    EncodeLzhuf method (zlen body) body g = Ok eo /\ eo_packed eo < eo_original eo /\ data = eo_out eo /\
    e_method e = [45; 108; 104; 48 + method; 45] /\ e_packed e = zlen data /\ e_original e = zlen body /\ e_crc e = calcCrc 0 body.

(** A header object holds the fields of an entry. *)
Record describes (e : entry0) (h : hdr) : Prop := {
  ds_name : Name h = slashes (e_name e) ++ [0];
  ds_method : Method h = e_method e;
  ds_sizes : PackedSize h = e_packed e /\ OriginalSize h = e_original e;
  ds_crc : HasCrc h = true /\ Crc h = e_crc e;
  ds_time : UnixLastModifiedStamp h = e_time e;
  ds_unix : UnixMode h = e_mode e /\ UnixUID h = e_uid e /\ UnixGid h = e_gid e
}.

(** [data] is what decompressing an entry of the archive [c] with the name of [header]
    gives: a header [h] is accepted at position [k] of [c], and [data] is the
    decompression of the bytes after it.  If the method compresses and the header
    has a CRC, it is the CRC of [data]. *)
Definition data_of (o : opts) (header : hdr) (c data : list Z) : Prop :=
  exists k h0 h rest method broken cs g g' crc n rest',
    0 <= k /\ GetHeader o h0 (drop k c) = Ok (ENil, true, h, rest) /\ Name h = Name header /\
    method_num (Method h) = Some method /\ after cs g /\
    DecodeLzhuf method broken (OriginalSize h) (PackedSize h) rest g = Ok (g', crc, data, n, rest') /\
    (4 <= method <= 7 -> HasCrc h = true -> calcCrc 0 data = Crc h).
