(** Vocabulary: which command lines ask for a list, and what they print. *)
From Verif Require Import Go M_Header M_Os M_Archive S_Listing M_Cli M_List S_Cli.

(** lharc -archive a -lv *)
Record asks_list_verbose (a : path) (fl : flags) : Prop := {
  av_archive : f_archive fl = a; av_l : f_l fl = false; av_e : f_e fl = false; av_p : f_p fl = false; av_t : f_t fl = false;
  av_c : f_c fl = []; av_a : f_a fl = []; av_lv : f_lv fl = true
}.

(** -l, or, if [v] is true, -lv *)
Definition asks_listing (v : bool) (a : path) (fl : flags) : Prop := if v then asks_list_verbose a fl else asks_list a fl.

(** The run of lharc from [w] ends with the status [st], having printed [out]. *)
Definition prints (E : env) (fl : flags) (w : world) (st : Z) (out : list Z) : Prop :=
  exists hs w', main E fl w = Done (st, hs) w' /\ out = main_text fl hs.
