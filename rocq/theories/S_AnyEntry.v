(** Vocabulary for reading archives whose entries have level 0 headers of any system
    (S_Level0.v). *)
From Verif Require Import Go M_Header M_Os M_Archive S_Header S_Listing S_Level0 S_Archive.

(** The header [h] says what the entry [e] says, its time apart: without an area for
    Unix, a user and a group of 0. *)
Record describesl (e : entryl) (h : hdr) : Prop := {
  dl_name : Name h = slashes (y_name e) ++ [0];
  dl_method : Method h = y_method e;
  dl_sizes : PackedSize h = y_packed e /\ OriginalSize h = y_original e;
  dl_crc : HasCrc h = true /\ Crc h = y_crc e;
  dl_attr : Attribute h = y_attr e;
  dl_mode : UnixMode h = y_mode e;
  dl_user : UnixUID h = (if is_unix (y_area e) then word_at (y_area e) 8 else 0);
  dl_group : UnixGid h = (if is_unix (y_area e) then word_at (y_area e) 10 else 0)
}.
