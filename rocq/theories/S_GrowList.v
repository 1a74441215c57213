(** What a listing shows of entries whose names are longer than the one before: vocabulary. *)
From Verif Require Import Go S_Header S_Grow M_Header S_Archive.

(** What is shown of an entry of whose name only [n] bytes are read. *)
Record cut_describes (n : nat) (e : entry0) (h : hdr) : Prop := {
  cd_name : Name h = slashes (firstn n (e_name e)) ++ repeat 0 (length (e_name e) + 1 - n);
  cd_method : Method h = e_method e;
  cd_sizes : PackedSize h = e_packed e /\ OriginalSize h = e_original e;
  cd_crc : HasCrc h = true /\ firstn 2 (tail n e) = [Crc h mod 256; Crc h / 256];
  cd_time : UnixLastModifiedStamp h = e_dostime e;
  cd_unix : UnixMode h = 33206 /\ UnixUID h = 0 /\ UnixGid h = 0
}.

(** Every entry as it is shown: as it is, or with part of its name. *)
Fixpoint shown (n : nat) (es : list (entry0 * list Z)) (hs : list hdr) : Prop :=
  match es, hs with
  | [], [] => True
  | x :: es', h :: hs' => (if Nat.leb (length (e_name (fst x))) n then describes (fst x) h else cut_describes n (fst x) h) /\ shown (length (e_name (fst x))) es' hs'
  | _, _ => False
  end.
