(** What reading a single entry returns, whatever its method. *)
From Verif Require Import Go GoLemmas M_Crc M_Bitio P_Bitio M_Maketree M_Maketbl M_Huf M_Slide M_Larc M_Decode M_Lzhuf S_Header S_Listing M_Header M_Os M_Archive S_History S_Archive
  P_Header P_Accept P_List P_Os P_RoundTrip P_Single P_Read1 P_ExtractAll Properties_Slide Properties_Archive Properties_Extract Properties_Listing.

(** What a single entry decompresses to, whatever its CRC. *)
Lemma stream_any E e dir base method header w a tail g2 crc body n rest2 :
  file_entry e -> named e dir base -> method_num (e_method e) = Some method -> method <> LzhdirsMethodNum ->
  w_fs w a = Some (NFile (layout0 e ++ tail)) -> reader E a w -> asks_for header (dir ++ base) ->
  DecodeLzhuf method false (e_original e) (e_packed e) tail (w_glob w) = Ok (g2, crc, body, n, rest2) ->
  exists k, DecompresBytes E header w =
    (if negb (crc =? e_crc e) then ret ([], true)
     else if n =? e_packed e then extract_loop E (S k) (by_name header) one_stream (read0 NewLzHeader e) rest2 body
     else let '(ok, rest) := skipToNextpos (e_packed e) rest2 in
       if (ok : bool) then extract_loop E (S k) (by_name header) one_stream (read0 NewLzHeader e) rest body else ret (body, true))
    (set_wglob g2 (set_wlha (set_level 2 (NewLha a)) w)).
Proof.
  intros FE ND HM HD Hf R Hh D. rewrite (DecompresBytes_open E header w a _ Hf R). set (w1 := set_wlha (set_level 2 (NewLha a)) w).
  assert (X : exists k, length (layout0 e ++ tail) = S k) by apply layout_fuel. destruct X as [k Hk]. exists k.
  rewrite Hk. rewrite (loop_entry E e FE). unfold by_name at 1. rewrite bind_ret.
  unfold asks_for in Hh. rewrite (r0_name e FE dir base ND), Hh, list_eqb_refl. unfold one_stream at 1.
  assert (EX : extractOneStream (read0 NewLzHeader e) tail w1 = Done (if negb (crc =? e_crc e) then (true, 0, [], rest2) else (false, n, body, rest2)) (set_wglob g2 w1)).
  { unfold extractOneStream. change (Method (read0 NewLzHeader e)) with (e_method e). rewrite HM, (r0_reg e FE). apply Z.eqb_neq in HD. rewrite HD. cbn [negb andb].
    istep. change (l_noexec (w_lha w1)) with false. cbv iota. unfold run_decode. istep. istep. istep. change (l_broken (w_lha w1)) with false. change (w_verify w1) with (w_verify w). rewrite (rd_verify _ _ _ R).
    change (OriginalSize (read0 NewLzHeader e)) with (e_original e). change (PackedSize (read0 NewLzHeader e)) with (e_packed e). change (w_glob w1) with (w_glob w). rewrite D.
    istep. istep. istep. change (HasCrc (read0 NewLzHeader e)) with true. change (Crc (read0 NewLzHeader e)) with (e_crc e). cbn [andb]. destruct (crc =? e_crc e); reflexivity. }
  rewrite bind_assoc, (bindIO_done _ _ _ _ _ EX). destruct (negb (crc =? e_crc e)); rewrite bind_ret; reflexivity.
Qed.

(** If decompression panics, so does reading the entry. *)
Lemma stream_fails E e dir base method header w a tail :
  file_entry e -> named e dir base -> method_num (e_method e) = Some method -> method <> LzhdirsMethodNum ->
  w_fs w a = Some (NFile (layout0 e ++ tail)) -> reader E a w -> asks_for header (dir ++ base) ->
  (forall x, DecodeLzhuf method false (e_original e) (e_packed e) tail (w_glob w) <> Ok x) ->
  forall x w', DecompresBytes E header w <> Done x w'.
Proof.
  intros FE ND HM HD Hf R Hh D x w'. rewrite (DecompresBytes_open E header w a _ Hf R). set (w1 := set_wlha (set_level 2 (NewLha a)) w).
  assert (X : exists k, length (layout0 e ++ tail) = S k) by apply layout_fuel. destruct X as [k Hk].
  rewrite Hk. rewrite (loop_entry E e FE). unfold by_name at 1. rewrite bind_ret.
  unfold asks_for in Hh. rewrite (r0_name e FE dir base ND), Hh, list_eqb_refl. unfold one_stream at 1.
  rewrite !bind_assoc. unfold bindIO at 1.
  assert (EX : forall y w2, extractOneStream (read0 NewLzHeader e) tail w1 <> Done y w2).
  { intros y w2. unfold extractOneStream. change (Method (read0 NewLzHeader e)) with (e_method e). rewrite HM, (r0_reg e FE). apply Z.eqb_neq in HD. rewrite HD. cbn [negb andb].
    istep. change (l_noexec (w_lha w1)) with false. cbv iota. unfold run_decode. istep. istep. istep. change (l_broken (w_lha w1)) with false.
    change (OriginalSize (read0 NewLzHeader e)) with (e_original e). change (PackedSize (read0 NewLzHeader e)) with (e_packed e). change (w_glob w1) with (w_glob w).
    destruct (DecodeLzhuf method false (e_original e) (e_packed e) tail (w_glob w)) as [z| |]; [destruct (D z eq_refl)| |]; discriminate. }
  destruct (extractOneStream (read0 NewLzHeader e) tail w1) as [y w2| |]; [destruct (EX y w2 eq_refl)| |]; discriminate.
Qed.
