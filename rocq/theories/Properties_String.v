(** The text that describes a header. *)
From Coq Require Import String.
From Verif Require Import Go S_Text M_Header M_List M_String P_String.

(** *** The specification *)

(** What the description is about. *)
Definition facts (h : hdr) : list Z * list Z * Z * list Z * bool * Z * Z * Z :=
  (Name h, Realname h, HeaderLevel h, Method h, HasCrc h, Crc h, OriginalSize h, PackedSize h).

(** A header whose name, link and method have no line break in them.  Checksums are
    unsigned. *)
Record on_lines (h : hdr) : Prop := {
  ol_name : ~ In 10 (Name h);
  ol_link : ~ In 10 (Realname h);
  ol_method : ~ In 10 (Method h);
  ol_crc : 0 <= Crc h }.

(** *** C122 *)

(** Two headers have the same description if and only if they agree about the name,
    the link, the level, the method, the checksum and both sizes. *)
Theorem C122_description_partial h h' : on_lines h -> on_lines h' -> (header_String h = header_String h' <-> facts h = facts h').
Proof.
  intros [A1 A2 A3 A4] [B1 B2 B3 B4]. split.
  - unfold header_String. intros E. rewrite !fmt_d0 in E.
    apply app_inv_head in E. apply until_newline in E; [|assumption..]. destruct E as [E1 E].
    apply app_inv_head in E. apply until_newline in E; [|assumption..]. destruct E as [E2 E].
    apply app_inv_head in E. apply until_newline in E; [|apply decimal_oneline..]. destruct E as [E3 E].
    apply app_inv_head in E. apply until_newline in E; [|assumption..]. destruct E as [E4 E].
    apply app_inv_head in E. apply until_newline in E; [|apply fmt_bool_oneline..]. destruct E as [E5 E].
    apply app_inv_head in E. apply until_newline in E; [|apply fmt_04x_oneline..]. destruct E as [E6 E].
    apply app_inv_head in E. rewrite !(app_assoc (decimal _)) in E.
    assert (T : forall v s, ~ In 10 s -> ~ In 10 (decimal v ++ s)) by (intros v s H I; apply in_app_or in I; destruct I as [I|I]; [exact (decimal_oneline _ I)|exact (H I)]).
    apply until_newline in E; [|apply T; cbn; intuition discriminate..]. destruct E as [E7 E].
    apply app_inv_tail in E7. apply app_inv_head in E. repeat rewrite app_assoc in E. apply app_inv_tail in E. apply app_inv_tail in E.
    unfold facts. rewrite E1, E2, E4, (decimal_inj _ _ E3), (fmt_bool_inj _ _ E5), (fmt_04x_inj _ _ A4 B4 E6), (decimal_inj _ _ E7), (decimal_inj _ _ E). reflexivity.
  - unfold facts. intros E. injection E as E1 E2 E3 E4 E5 E6 E7 E8. unfold header_String. rewrite E1, E2, E3, E4, E5, E6, E7, E8. reflexivity.
Qed.

(** The hypotheses are met by a file and by a link; a checksum of three digits. *)
Definition ex_file : hdr := HDR 40 0 (text "-lh5-") 1234 5678 32 2 (text "dir/file.txt") [] 2748 true 0 85 0 0 33188 0 0 [] [].
Definition ex_link : hdr := HDR 40 0 (text "-lhd-") 0 0 32 1 (text "link") (text "file.txt") 0 false 0 85 0 0 41471 0 0 [] [].

Example C122_example : on_lines ex_file /\ on_lines ex_link /\
  header_String ex_file = text "Name:dir/file.txt" ++ newline ++ text "Realname:" ++ newline ++ text "HeaderLevel:2" ++ newline ++ text "CompressLevel:-lh5-" ++ newline
    ++ text "HasCrc:true" ++ newline ++ text "Crc:0abc" ++ newline ++ text "Original Size :5678 bytes" ++ newline ++ text "Packed Size : 1234 bytes " ++ newline /\
  header_String ex_link = text "Name:link" ++ newline ++ text "Realname:file.txt" ++ newline ++ text "HeaderLevel:1" ++ newline ++ text "CompressLevel:-lhd-" ++ newline
    ++ text "HasCrc:false" ++ newline ++ text "Crc:0000" ++ newline ++ text "Original Size :0 bytes" ++ newline ++ text "Packed Size : 0 bytes " ++ newline.
Proof. split; [|split; [|split; reflexivity]]; constructor; cbn; try lia; intuition discriminate. Qed.

(** A name may have a line break in it, and is not quoted: a file with such a name
    and a link have the same description. *)
Definition ex_forged : hdr := HDR 40 0 (text "-lh5-") 1234 5678 32 2 (text "a" ++ newline ++ text "Realname:b") [] 2748 true 0 85 0 0 33188 0 0 [] [].
Definition ex_other : hdr := HDR 40 0 (text "-lh5-") 1234 5678 32 2 (text "a") (text "b" ++ newline ++ text "Realname:") 2748 true 0 85 0 0 33188 0 0 [] [].

Theorem C122_description_refuted : ~ (forall h h', header_String h = header_String h' -> Name h = Name h').
Proof. intros H. specialize (H ex_forged ex_other eq_refl). discriminate H. Qed.

Print Assumptions C122_description_partial.
Print Assumptions C122_description_refuted.
Print Assumptions C122_example.
