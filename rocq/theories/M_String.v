(** Model of the text that describes a header: LzHeader.String, header.go:58-69. *)
From Coq Require Import String.
From Verif Require Import Go S_Text M_Header M_List.

(** %v of a bool *)
Definition fmt_bool (b : bool) : list Z := if b then text "true" else text "false".

(** header.go:58-69.  %s and %d without a width write the bytes and the numeral as
    they are; %.4x writes at least four digits, as %04x does. *)
Definition header_String (h : hdr) : list Z :=
  text "Name:" ++ Name h ++ newline
  ++ text "Realname:" ++ Realname h ++ newline
  ++ text "HeaderLevel:" ++ fmt_d 0 (HeaderLevel h) ++ newline
  ++ text "CompressLevel:" ++ Method h ++ newline
  ++ text "HasCrc:" ++ fmt_bool (HasCrc h) ++ newline
  ++ text "Crc:" ++ fmt_04x (Crc h) ++ newline
  ++ text "Original Size :" ++ fmt_d 0 (OriginalSize h) ++ text " bytes" ++ newline
  ++ text "Packed Size : " ++ fmt_d 0 (PackedSize h) ++ text " bytes " ++ newline.
