(** Files that the coder does not make shorter, on the command line. *)
From Verif Require Import Go GoLemmas P_Bits S_Lh5 P_Lz M_Crc M_Bitio P_Bitio M_Maketree M_Maketbl M_Huf M_Slide M_Larc M_Decode M_Lzhuf S_Bits S_Huff S_Lz S_Lh1 S_Larc P_Larc S_Header S_Listing S_Level0 M_Header M_Os M_Archive S_History S_Archive S_AnyEntry S_Add M_Cli S_Cli
  P_Crc P_Header P_Accept P_List P_Os P_RoundTrip P_Single P_Extract P_Read1 P_ExtractAll P_Verify P_Still P_Add P_AddFiles P_Cli P_CliAdd P_Level0 P_AnyEntry P_Generic
  Properties_Slide Properties_Archive Properties_Extract Properties_Listing Properties_Larc Properties_Lh5 Properties_Lh1 Properties_Damage Properties_Stored Properties_Add Properties_Header Properties_Cli Properties_CliAdd Properties_Level0 Properties_Generic.

Section Gen.
  Variable E : env.
  Hypothesis Hgen : GenericFormat (e_opts E) = true.
  Hypothesis Hcase : ConvertCase (e_opts E) = false.
  Let tmp := e_tmp E.
  Let hd0 h nm := layoutl (entry_gen (e_stamp E) h nm).

  Lemma gen_stored h nm body c w eo out crc r : plain h nm -> OriginalSize h <> 0 -> w_fs w tmp = Some (NFile c) ->
    EncodeLzhuf (l_method (w_lha w)) (OriginalSize h) body (w_glob w) = Ok eo -> eo_original eo <= eo_packed eo ->
    encodeStoredCrc (OriginalSize h) (eo_rest eo) = Ok (out, crc, r) ->
    plain (stored_hdr h crc r) nm ->
    exists w', addOne E h body w = Done tt w' /\ same_but tmp w w' /\ w_glob w' = eo_glob eo /\
      w_fs w' tmp = Some (NFile (write_at 0 (hd0 (stored_hdr h crc r) nm) (c ++ hd0 h nm ++ eo_out eo ++ out))).
  Proof.
    intros P Ho Hc HE Hge HS P'. unfold addOne. rewrite (gen_write _ _ h nm Hgen Hcase P). istep. cbn [put_header].
    destruct (append_run tmp (layoutl (entry_gen (e_stamp E) h nm)) c w Hc) as [w1 [R1 [S1 [G1 C1]]]].
    fold tmp. rewrite (bindIO_done _ _ _ _ _ R1). destruct (Z.eqb_spec (OriginalSize h) 0) as [X|_]; [contradiction|].
    unfold run_encode. istep. istep. rewrite (sb_lha _ _ _ S1), G1, HE. istep. istep. istep.
    set (w2 := set_wglob (eo_glob eo) w1). assert (C2 : w_fs w2 tmp = Some (NFile (c ++ hd0 h nm))) by exact C1.
    assert (S2 : same_but tmp w w2) by (eapply sb_trans; [exact S1|constructor; auto]).
    destruct (append_run tmp (eo_out eo) _ w2 C2) as [w3 [R3 [S3 [G3 C3]]]]. rewrite (bindIO_done _ _ _ _ _ R3). cbv zeta.
    destruct (Z.ltb_spec (eo_packed eo) (eo_original eo)) as [X|_]; [lia|].
    change (OriginalSize (set_Method (meth 104 (eo_method eo)) (set_Crc (eo_crc eo) h))) with (OriginalSize h). rewrite HS. istep.
    destruct (append_run tmp out _ w3 C3) as [w5 [R5 [S5 [G5 C5]]]]. rewrite !bind_assoc. rewrite (bindIO_done _ _ _ _ _ R5). istep.
    match goal with |- context [WriteHeader _ _ ?x] => change x with (stored_hdr h crc r) end.
    rewrite (gen_write _ _ _ nm Hgen Hcase P'). istep. cbn [put_header].
    destruct (emit_write tmp 0 (hd0 (stored_hdr h crc r) nm) _ w5 C5) as [w4 [R4 [S4 [G4 C4]]]]. exists w4. unfold hd0 in R4.
    split; [exact R4|]. split; [repeat (eapply sb_trans; [eassumption|]); apply sb_refl|]. split; [rewrite G4, G5, G3; reflexivity|].
    rewrite C4, <- !app_assoc. reflexivity.
  Qed.
End Gen.

(** Both formats of a header of level 0. *)
Definition header0 (E : env) (h : hdr) (nm : list Z) : list Z :=
  if GenericFormat (e_opts E) then layoutl (entry_gen (e_stamp E) h nm) else layout0 (entry_of (e_stamp E) h nm).

Lemma added_stored E h nm body w eo out crc r : ConvertCase (e_opts E) = false -> plain h nm -> OriginalSize h <> 0 -> w_fs w (e_tmp E) = Some (NFile []) ->
  EncodeLzhuf (l_method (w_lha w)) (OriginalSize h) body (w_glob w) = Ok eo -> eo_original eo <= eo_packed eo ->
  encodeStoredCrc (OriginalSize h) (eo_rest eo) = Ok (out, crc, r) -> plain (stored_hdr h crc r) nm ->
  exists w', addOne E h body w = Done tt w' /\ same_but (e_tmp E) w w' /\
    w_fs w' (e_tmp E) = Some (NFile (header0 E (stored_hdr h crc r) nm ++ eo_out eo ++ out)).
Proof.
  intros CC P NZ T HE Hge HS P'. unfold header0. destruct (GenericFormat (e_opts E)) eqn:G.
  - destruct (gen_stored E G CC h nm body [] w eo out crc r P NZ T HE Hge HS P') as (w' & X1 & X2 & _ & X4). exists w'. split; [exact X1|]. split; [exact X2|].
    cbn [app] in X4. rewrite (gen_overwrite E) in X4 by assumption. exact X4.
  - destruct (addOne_stored E G h nm body [] w eo out crc r P NZ T HE Hge HS P') as (w' & X1 & X2 & _ & X4). exists w'. split; [exact X1|]. split; [exact X2|].
    cbn [app] in X4. rewrite (overwrite_header E) in X4 by assumption. exact X4.
Qed.

(** What lharc -c or -a makes of such a file. *)
Lemma lost_made E fl w cs a file body eo :
  asks_add a file fl -> asked_level fl = 0 -> asked_method fl = 5 \/ asked_method fl = 6 \/ asked_method fl = 7 ->
  creatable E a w -> file <> a -> source E w file body -> after cs (w_glob w) ->
  body <> [] -> EncodeLzhuf (asked_method fl) (zlen body) body (w_glob w) = Ok eo -> eo_original eo <= eo_packed eo ->
  exists w' h out, main E fl w = Done (0, []) w' /\
    w_fs w' a = Some (NFile (header0 (with_generic (negb (f_g fl =? 5)) E) (stored_hdr h 0 (zlen (eo_rest eo))) (Base file) ++ eo_out eo ++ out ++ [0])) /\
    (forall q, q <> a -> q <> e_tmp E -> w_fs w' q = w_fs w q) /\
    plain (stored_hdr h 0 (zlen (eo_rest eo))) (Base file) /\ Z.land (UnixMode h) 61440 = 32768 /\
    zlen (eo_rest eo) < zlen body /\ (zlen body <= 8448 -> eo_rest eo = [] /\ out = []) /\ bytes (eo_out eo).
Proof.
  intros AD LV Hm CR NA S A NE HE Hge. destruct (made_of E a file body fl w AD CR NA S) as (l & AG & M & CR' & AF & S0 & T0 & L0 & FO). rewrite M. clear M.
  set (E' := with_generic (negb (f_g fl =? 5)) E) in *. set (w0 := made E' (started false l w) a) in *. pose proof AG as [L1 L2 L3 L4 L5 L6 L7 L8 L9 L10].
  set (h := initHeader E' (w_lha w0) (w_fs w0) file (NFile body)) in *.
  pose proof S0 as [_ _ _ [NM NB] TM [HB HL]].
  assert (P : plain h (Base file)).
  { destruct NM as [N1 N2]. apply initHeader_plain; [apply CR|rewrite L0; exact LV|split; assumption| |exact TM]. pose proof (zlen_nonneg body). lia. }
  assert (MT : l_method (w_lha w0) = asked_method fl) by exact L10.
  assert (Zb : 0 < zlen body) by (destruct body as [|x b]; [contradiction|rewrite zlen_cons; pose proof (zlen_nonneg b); lia]).
  destruct (C05_compressed_not_larger cs (w_glob w) (asked_method fl) (zlen body) body eo) as (_ & _ & BO); auto; [lia|].
  destruct (Z.testbit (hd 0 body) 5) eqn:H5. { rewrite (C16_compress_never_panics_refuted cs (w_glob w) (asked_method fl) (zlen body) body) in HE; auto. discriminate. }
  assert (R : room cs (asked_method fl)).
  { intros m0 F. destruct (Z_lt_ge_dec m0 (asked_method fl)) as [L'|L']; [|lia]. rewrite (EncodeLzhuf_panic_window cs (w_glob w) (asked_method fl) m0 (zlen body) body) in HE; auto. discriminate. }
  destruct (encode_lzhuf cs (w_glob w) (asked_method fl) (zlen body) body A R Hm (zlen_nonneg _) HB NE H5) as (eo' & k & n & pb & er & toks & w1 & X1 & X2 & X3 & X4 & X5 & X6 & X7 & X8 & X9 & X10 & X11).
  rewrite HE in X1. injection X1 as <-. destruct (mpar_cases (asked_method fl) Hm) as (k' & n' & pb' & E1 & _ & _ & _ & _ & E6 & _).
  rewrite X2 in E1. injection E1 as <- <- <-. destruct X3. rewrite <- X9 in *.
  pose proof (zlen_nonneg (eo_rest eo)) as Zr.
  assert (P' : plain (stored_hdr h 0 (zlen (eo_rest eo))) (Base file)) by (apply plain_stored; [assumption|lia|lia]).
  destruct (copyfile_size (zlen body) (eo_rest eo) Zb) as [out Eo].
  assert (ES : encodeStoredCrc (zlen body) (eo_rest eo) = Ok (out, 0, zlen (eo_rest eo))) by (unfold encodeStoredCrc; rewrite Eo; reflexivity).
  destruct (added_stored E' h (Base file) body w0 eo out 0 (zlen (eo_rest eo)) eq_refl P) as (w2 & R1 & R2 & R4); auto.
  { change (zlen body <> 0). lia. }
  { rewrite MT. exact HE. }
  assert (AF' : add_files (appendIt E') 1 0 None w0 = Done None w2) by (rewrite AF, (bindIO_done _ _ _ _ _ R1); reflexivity).
  destruct (add_command_new E' (appendIt E') a (started false l w) None w2 _ file CR' L2 L4 L6 L5 AF' R2 R4 L1) as (w3 & Y1 & _ & Y3 & _ & Y5).
  exists w3, h, out. split; [unfold CommandAdd; rewrite (bindIO_done _ _ _ _ _ Y1); reflexivity|].
  split; [rewrite Y3, <- !app_assoc; reflexivity|]. split; [exact Y5|]. split; [exact P'|].
  split. { unfold h, initHeader, initHeader_file. cbn [UnixMode set_UnixMode]. apply mode_plain. destruct (stat (w_fs w0) file); try lia; apply CR. }
  split; [exact ep_short|]. split; [|exact BO].
  intros LE. assert (RN : eo_rest eo = []). { apply ep_in. assert (8192 <= 2 ^ k); [|lia]. destruct Hm as [Em|[Em|Em]]; rewrite Em in X2; injection X2 as <- _ _; vm_compute; discriminate. }
  split; [exact RN|]. rewrite RN in Eo. unfold copyfile in Eo. destruct (Z.ltb_spec 0 (zlen body)); [|lia]. vm_compute in Eo. injection Eo as <-. reflexivity.
Qed.
