(** Model of the checksum code (crcio.go, macro.go). *)
From Verif Require Import Go.

(** crcio.go:37-42 (inner loop of MakeCrcTable, one iteration); [crcpoly] is
    0xA001 (macro.go). *)
Definition crc_shift (r : Z) : Z :=
  if Z.testbit r 0 then Z.lxor (Z.shiftr r 1) 40961 else Z.shiftr r 1.

(** crcio.go:31-44 MakeCrcTable: the contents of the package variable
    [crctable] after the call.  Every API entry point (lha.go:93,136,142,148,174)
    calls it before anything uses the table. *)
Definition make_crc_table : res arr :=
  forZ 0 256 (fun i t =>
    r <- forZ 0 8 (fun _ r => Ok (crc_shift r)) i ;;
    aset t i r) (amake 256).

(** The table, as a value. *)
Definition crctable : arr :=
  Eval vm_compute in
    match make_crc_table with Ok t => t | _ => amake 0 end.

(** macro.go:222-225 updateCrc.  The index is masked with 0xff and the table has
    256 entries, so the access cannot panic and the unchecked read is used. *)
Definition updateCrc (crc c : Z) : Z :=
  Z.lxor (at_ crctable (Z.land (Z.lxor crc c) 255)) (Z.shiftr crc 8).

(** crcio.go:22-29 calcCrc over a list of bytes (the slice part it reads). *)
Definition calcCrc (crc : Z) (p : list Z) : Z := fold_left updateCrc p crc.
