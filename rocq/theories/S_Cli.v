(** Vocabulary for the properties of the command line program: which command line
    asks for what.  The flags of an option that is not mentioned are free. *)
From Verif Require Import Go M_Crc M_Bitio M_Maketree M_Maketbl M_Huf M_Slide M_Lzhuf S_Header M_Header M_Os M_Archive S_Archive S_Listing M_Cli.

(** lharc -archive a -l *)
Record asks_list (a : path) (fl : flags) : Prop := { al_archive : f_archive fl = a; al_l : f_l fl = true }.

(** lharc -archive a -e *)
Record asks_extract (a : path) (fl : flags) : Prop := { ae_archive : f_archive fl = a; ae_l : f_l fl = false; ae_e : f_e fl = true }.

(** lharc -archive a -p *)
Record asks_print (a : path) (fl : flags) : Prop := { ap_archive : f_archive fl = a; ap_l : f_l fl = false; ap_e : f_e fl = false; ap_p : f_p fl = true }.

(** lharc -archive a -t *)
Record asks_test (a : path) (fl : flags) : Prop := {
  at_archive : f_archive fl = a; at_l : f_l fl = false; at_e : f_e fl = false; at_p : f_p fl = false; at_t : f_t fl = true;
  at_c : f_c fl = []; at_a : f_a fl = []
}.

(** lharc -archive a -d *)
Record asks_delete (a : path) (fl : flags) : Prop := {
  ad_archive : f_archive fl = a; ad_l : f_l fl = false; ad_e : f_e fl = false; ad_p : f_p fl = false; ad_d : f_d fl = true;
  ad_u : f_u fl = false; ad_m : f_m fl = false; ad_lv : f_lv fl = false; ad_t : f_t fl = false
}.

(** lharc -archive a -c file, or -a file, with the method and the kind of header
    chosen by -g, -o and -h *)
Record asks_add (a file : path) (fl : flags) : Prop := {
  aa_archive : f_archive fl = a; aa_l : f_l fl = false; aa_e : f_e fl = false; aa_p : f_p fl = false;
  aa_lv : f_lv fl = false; aa_t : f_t fl = false; aa_d : f_d fl = false; aa_x : f_x fl = [];
  aa_file : (f_c fl = file /\ f_a fl = []) \/ (f_c fl = [] /\ f_a fl = file)
}.

(** The archive [a] is a readable file with contents [c]. *)
Record stored_at (E : env) (a : path) (c : list Z) (w : world) : Prop := {
  sa_path : file_path a;
  sa_file : w_fs w a = Some (NFile c);
  sa_readable : e_readable E a = true;
  sa_sfx : archiveIsMsdosSfx1 a = false
}.

(** The method the options ask for: -o5, -o6 or -o7; -lh5- if there is none. *)
Definition asked_method (fl : flags) : Z :=
  if f_o fl =? 0 then 5 else if (f_o fl =? 5) || (f_o fl =? 6) || (f_o fl =? 7) then f_o fl else 1.

(** The level of the headers the options ask for: -h0 or -h1; otherwise 0 if a method
    is given; otherwise what -g says, 5 standing for no -g (the default is -g 2). *)
Definition asked_level (fl : flags) : Z :=
  if ((f_o fl =? 0) || (f_o fl =? 5) || (f_o fl =? 6) || (f_o fl =? 7)) && ((f_h fl =? 0) || (f_h fl =? 1)) then f_h fl
  else if negb (f_o fl =? 0) then 0 else if f_g fl =? 5 then 0 else f_g fl.

(** The archive [a] can be made: it does not exist, and its temporary file can be
    created. *)
Record creatable (E : env) (a : path) (w : world) : Prop := {
  cr_path : file_path a;
  cr_none : w_fs w a = None;
  cr_tmp : w_fs w (e_tmp E) = None;
  cr_diff : e_tmp E <> a;
  cr_nul : ~ In 0 (e_tmp E);
  cr_perm : forall p, 0 <= e_perm E p < 512;
  cr_now : 0 <= e_now E < 2 ^ 32
}.
