(** Listing an archive whose names are of any length. *)
From Verif Require Import Go GoLemmas M_Crc M_Bitio M_Maketree M_Maketbl M_Huf M_Slide M_Lzhuf S_Header S_Listing S_Grow M_Header M_Os M_Archive S_History S_Archive S_GrowList
  P_Header P_Os P_Single P_Extract P_Read1 P_Accept P_List P_Grow P_GrowAll.

Lemma tail_bytes n e : legal0 e -> (n < length (e_name e))%nat -> 
  firstn 2 (tail n e) = [byte_at (from_name e) (Z.of_nat n); byte_at (from_name e) (Z.of_nat n + 1)] /\ 0 <= byte_at (from_name e) (Z.of_nat n) < 256 /\ 0 <= byte_at (from_name e) (Z.of_nat n + 1) < 256.
Proof.
  intros L H. destruct (l0_name _ L) as [_ BN].
  assert (FB : Forall (fun b => 0 <= b < 256) (e_name e ++ le16 (e_crc e))).
  { apply Forall_app. split; [exact BN|]. repeat constructor; apply Z.mod_pos_bound; lia. }
  assert (T : forall k, (k < 2)%nat -> byte_at (from_name e) (Z.of_nat n + Z.of_nat k) = nth k (tail n e) 0 /\ 0 <= nth k (tail n e) 0 < 256).
  { intros k Hk. unfold tail, byte_at, from_name. rewrite nth_skipn, app_assoc. rewrite app_nth1 by (rewrite app_length; cbn [le16 length]; lia).
    replace (Z.to_nat (Z.of_nat n + Z.of_nat k)) with (n + k)%nat by lia. split; [reflexivity|].
    rewrite Forall_forall in FB. apply FB, nth_In. rewrite app_length. cbn [le16 length]. lia. }
  destruct (T 0%nat) as [T0 R0]; [lia|]. destruct (T 1%nat) as [T1 R1]; [lia|]. rewrite Z.add_0_r in T0. change (Z.of_nat 1) with 1 in T1. rewrite T0, T1. clear T T0 T1.
  assert (L2 : (2 <= length (tail n e))%nat) by (unfold tail; rewrite skipn_length, app_length; cbn [le16 length]; lia).
  destruct (tail n e) as [|a [|b t]]; cbn [length] in L2; [lia..|]. auto.
Qed.

Lemma cut_shown o h0 n e : file_entry e -> ConvertCase o = false -> (n < length (e_name e))%nat -> nth 2 (tail n e) 0 <> 109 -> cut_describes n e (readcut o h0 (Z.of_nat n) e).
Proof.
  intros FE CC H T. pose proof (fe_legal _ FE) as L. destruct (tail_bytes n e L H) as (T1 & T2 & T3). unfold readcut. constructor; cbn [Name Method PackedSize OriginalSize HasCrc Crc UnixLastModifiedStamp UnixMode UnixUID UnixGid]; auto.
  - rewrite CC. rewrite <- tail_from by (unfold zlen; lia). apply Z.eqb_neq in T. change ExtendMacos with 109. rewrite T.
    match goal with |- convertFilename _ _ _ _ ?f = _ => replace f with none by (now destruct (_ || _)) end.
    unfold convertFilename. change (none =? toLower) with false. rewrite andb_false_r. cbn [andb]. rewrite map_app. f_equal.
    + unfold take, slashes. rewrite Nat2Z.id. apply map_ext_in. intros c Hc.
      pose proof (slash_back_slashes e FE) as SB. unfold slash_back, slashes in SB.
      assert (In c (e_name e)) as Ic by (rewrite <- (firstn_skipn n (e_name e)); apply in_or_app; now left). clear -SB Ic. revert SB Ic. generalize (e_name e) as l. induction l as [|x l IH]; cbn [map]; [intros _ []|]. intros SB. injection SB as S1 S2. intros [->|Ic]; auto.
    + unfold zeros. replace (Z.to_nat (zlen (e_name e) + 1 - Z.of_nat n)) with (length (e_name e) + 1 - n)%nat by (unfold zlen; lia).
      induction (length (e_name e) + 1 - n)%nat as [|k IH]; cbn [repeat map]; [reflexivity|]. now rewrite IH.
  - split; [reflexivity|]. rewrite T1. set (a := byte_at _ _) in *. set (b := byte_at (from_name e) (Z.of_nat n + 1)) in *.
    replace (a + 256 * b) with (a + b * 256) by lia. rewrite Z.mod_add, Z.div_add, (Z.mod_small a), (Z.div_small a) by lia. reflexivity.
Qed.

Lemma list_loop_grow E l : l_filec l = 0 -> ConvertCase (e_opts E) = false -> forall es h n acc fuel, Forall (fun x => file_entry (fst x)) es -> sized es -> unmarked n es -> unmac n es ->
  zlen (Method h) = 5 -> Z.of_nat n < zlen (Name h) -> (Z.of_nat n + 1 = zlen (Name h) \/ n = 221%nat) -> (length es < fuel)%nat ->
  exists hs, list_loop E l fuel h (archive_bytes es) acc = Ok (acc ++ hs, false) /\ shown n es hs.
Proof.
  intros HC CC. induction es as [|[e data] es IH]; intros h n acc fuel FF SZ UM UC HM HN HN2 Hf.
  - destruct fuel; [cbn in Hf; lia|]. exists []. rewrite app_nil_r. split; reflexivity.
  - destruct fuel; [cbn in Hf; lia|]. inversion FF as [|? ? F1 F2]; subst. inversion SZ as [|? ? S1 S2]; subst. cbn [unmarked unmac fst snd] in *. destruct UM as [U1 U2]. destruct UC as [C1 C2].
    unfold archive_bytes. cbn [flat_map fst snd]. rewrite <- !app_assoc. change (flat_map _ es ++ [0]) with (archive_bytes es).
    destruct (l0_method _ (fe_legal _ F1)) as [LM _]. destruct (l0_name _ (fe_legal _ F1)) as [LN _].
    destruct (Nat.leb_spec (length (e_name e)) n) as [LE|GT].
    + rewrite list_loop_entry; [|exact F1|exact HM|unfold zlen at 1; lia|exact S1].
      unfold needFile. rewrite HC. change (0 =? 0) with true. cbv iota.
      assert (NL : zlen (Name (read0 h e)) = Z.of_nat (length (e_name e)) + 1) by (cbn [read0 Name]; rewrite zlen_app; unfold slash_back; rewrite zlen_map; reflexivity).
      destruct (IH (read0 h e) (length (e_name e)) (acc ++ [read0 h e]) fuel) as (hs & X1 & X2); auto; try lia.
      { change (Method (read0 h e)) with (e_method e). unfold zlen. rewrite LM. reflexivity. } { cbn [length] in Hf. lia. }
      exists (read0 h e :: hs). rewrite X1, <- app_assoc. split; [reflexivity|]. cbn [shown fst]. destruct (Nat.leb_spec (length (e_name e)) n); [|lia]. split; [|exact X2].
      constructor; try (repeat split; reflexivity). cbn [read0 Name]. now rewrite slash_back_slashes.
    + destruct HN2 as [HN2| ->]; [|lia].
      assert (HN' : 0 < zlen (Name h) <= zlen (e_name e)) by (unfold zlen in *; lia).
      assert (HU : ~ In (byte_at (from_name e) (zlen (Name h) - 1 + 2)) [85; 75; 88]).
      { replace (zlen (Name h) - 1 + 2) with (Z.of_nat n + 2) by lia. rewrite <- tail_from by (unfold zlen; lia). now apply U1. }
      cbn [list_loop]. rewrite (hc_get E h e F1 HN' HU) by lia. cbn [bind negb]. set (hc := readcut _ _ _ _). change (PackedSize hc) with (e_packed e).
      rewrite (drop_app (e_packed e) data _) by (first [exact S1|symmetry; exact S1]). unfold needFile. rewrite HC. change (0 =? 0) with true. cbv iota.
      assert (NL : zlen (Name hc) = Z.of_nat (length (e_name e)) + 1) by (unfold hc; rewrite (hc_name_len E h e HN'); reflexivity).
      destruct (IH hc (length (e_name e)) (acc ++ [hc]) fuel) as (hs & X1 & X2); auto; try lia.
      { change (Method hc) with (e_method e). unfold zlen. rewrite LM. reflexivity. } { cbn [length] in Hf. lia. }
      exists (hc :: hs). rewrite X1, <- app_assoc. split; [reflexivity|]. cbn [shown fst]. destruct (Nat.leb_spec (length (e_name e)) n); [lia|]. split; [|exact X2].
      unfold hc. replace (zlen (Name h) - 1) with (Z.of_nat n) by lia. apply cut_shown; auto.
Qed.
