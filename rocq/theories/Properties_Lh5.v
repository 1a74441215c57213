(** Properties C67 and C68: the library and other archivers read and write the same
    formats -lh5-, -lh6- and -lh7-; and a part of C32, -lh4-.  The formats are written
    down in S_Lh5.v, S_Huff.v and S_Lz.v; [reader], [file_entry], [named] and [asks_for]
    are defined in S_Archive.v. *)
From Verif Require Import Go GoLemmas M_Crc P_Crc M_Bitio P_Bitio M_Maketree M_Maketbl M_Huf M_Slide M_Larc M_Decode M_Lzhuf S_Bits P_Bits S_Huff S_Lz P_Lz S_Lh5 S_Header S_Listing M_Header M_Os M_Archive S_History S_Archive
  P_Header P_Accept P_List P_Os P_HufLens P_HufBlock P_HufStream P_Encode P_RoundTrip P_Single P_Read1 P_ExtractAll P_Stream P_Lh5 P_DecAny Properties_Slide Properties_Archive Properties_Extract Properties_Listing Properties_Larc.

(** [e] and [data] are an entry of [body], packed in the format -lh4- .. -lh7-. *)
Definition lh_entry (method : Z) (e : entry0) (data body : list Z) : Prop :=
  exists ts bits pad, e_method e = [45; 108; 104; 48 + method; 45] /\ lh_blocks method ts bits /\ byte_string_bits data = bits ++ pad /\ (length pad < 16)%nat /\
    e_packed e = zlen data /\ e_original e = zlen body /\ lz_expand ts = body /\ e_crc e = calcCrc 0 body.

(** ** C67: entries packed by other archivers *)

Lemma lh_decodes cs g m ts bits pad data rest : after cs g -> m = 5 \/ m = 6 \/ m = 7 -> lh_blocks m ts bits ->
  byte_string_bits data = bits ++ pad -> (length pad < 16)%nat -> bytes (data ++ rest) -> m < 7 \/ zlen (lz_expand ts) < 65536 ->
  exists g2, DecodeLzhuf m false (zlen (lz_expand ts)) (zlen data) (data ++ rest) g = Ok (g2, calcCrc 0 (lz_expand ts), lz_expand ts, zlen data, rest).
Proof.
  intros A Hm S EB HP B Hz. destruct (mpar_cases m Hm) as (k & n & pb & E1 & E2 & E3 & E4 & E5 & E6 & E7 & E8 & E9 & E10).
  pose proof (after_inv _ _ A) as [[[D _ _] _ _ _ _ _ _ _] _].
  assert (S' : exists dsize, 2 ^ k = dsize /\ blocks n (Z.to_nat pb) dsize ts bits /\ 0 <= pb /\ (m < 7 -> dsize < 65536)).
  { destruct Hm as [-> | [-> | ->]]; injection E1 as <- <- <-; eexists; (split; [reflexivity|]); (split; [exact S|]); lia. }
  destruct S' as (dsize & Ek & S' & Hpb & Hd).
  destruct (blocks_decode (g_huf g) k n pb dsize ts bits pad data rest D) as [h' X]; auto; try apply E8; try lia.
  eexists. unfold DecodeLzhuf. rewrite E4, E5, X. reflexivity.
Qed.

Lemma lh_decodable m e data body : m = 5 \/ m = 6 \/ m = 7 -> m < 7 \/ zlen body < 65536 -> lh_entry m e data body -> decodable e data body.
Proof.
  intros Hm Hz (ts & bits & pad & M & S & EB & HP & P1 & P2 & P3 & P4). exists m.
  split; [rewrite M; destruct Hm as [-> | [-> | ->]]; reflexivity|]. split; [unfold LzhdirsMethodNum; lia|]. split; [destruct Hm as [-> | [-> | ->]]; reflexivity|]. split; [exact P1|].
  intros cs g rest A B. rewrite P1, P2, P4. subst body. exact (lh_decodes cs g m ts bits pad data rest A Hm S EB HP B Hz).
Qed.

(** Whatever blocks, codes, descriptions of the codes, matches and padding the other
    archiver has chosen, the entry is decompressed to the data it was made of.  Proved
    for -lh5- and -lh6-, and for -lh7- when the data are shorter than 65536 bytes. *)
Theorem C67_conforming_extracted_partial :
  forall E w cs a m e dir base header data body,
    reader E a w -> after cs (w_glob w) -> w_fs w a = Some (NFile (archive_bytes [(e, data)])) ->
    file_entry e -> named e dir base -> asks_for header (dir ++ base) -> bytes data ->
    m = 5 \/ m = 6 \/ m = 7 -> lh_entry m e data body -> m < 7 \/ zlen body < 65536 ->
    exists w', DecompresBytes E header w = Done (body, false) w' /\ w_fs w' = w_fs w.
Proof.
  intros E w cs a m e dir base header data body R A Hf FE ND Hh B Hm LE Hz. destruct (lh_decodable m _ _ _ Hm Hz LE) as (method & MN & MD & _ & EP & P).
  unfold archive_bytes in Hf. cbn [flat_map fst snd] in Hf. rewrite app_nil_r, <- app_assoc in Hf.
  assert (B2 : bytes (data ++ [0])) by (apply Forall_app; split; [exact B|constructor; [unfold is_byte; lia|constructor]]).
  destruct (P cs (w_glob w) [0] A B2) as [g2 D].
  destruct (stream_any E e dir base method header w a (data ++ [0]) g2 _ _ _ _ FE ND MN MD Hf R Hh D) as [k X].
  rewrite X, !Z.eqb_refl. cbn [negb]. rewrite loop_end. eexists. split; reflexivity.
Qed.

(** The full claim is false of every -lh7- entry of 65536 bytes or more. *)
Theorem C67_conforming_extracted_refuted :
  forall E w cs a e dir base header data body,
    reader E a w -> after cs (w_glob w) -> w_fs w a = Some (NFile (archive_bytes [(e, data)])) ->
    file_entry e -> named e dir base -> asks_for header (dir ++ base) -> bytes data ->
    lh_entry 7 e data body -> 65536 <= zlen body ->
    forall got err w', DecompresBytes E header w = Done (got, err) w' -> got <> body.
Proof.
  intros E w cs a e dir base header data body R A Hf FE ND Hh B (ts & bits & pad & HM & S & EB & HP & P1 & P2 & P3 & P4) Hz got err w' X.
  unfold archive_bytes in Hf. cbn [flat_map fst snd] in Hf. rewrite app_nil_r, <- app_assoc in Hf.
  assert (B2 : bytes (data ++ [0])) by (apply Forall_app; split; [exact B|constructor; [unfold is_byte; lia|constructor]]).
  assert (MN : method_num (e_method e) = Some 7) by (rewrite HM; reflexivity).
  destruct (l0_original _ (fe_legal _ FE)) as [O1 _]. destruct (l0_packed _ (fe_legal _ FE)) as [O2 _].
  destruct (DecodeLzhuf 7 false (e_original e) (e_packed e) (data ++ [0]) (w_glob w)) as [[[[[g2 crc] out] n] rest]| |] eqn:D.
  2,3: exfalso; refine (stream_fails E e dir base 7 header w a (data ++ [0]) FE ND MN ltac:(discriminate) Hf R Hh _ _ _ X); rewrite D; discriminate.
  destruct (stream_any E e dir base 7 header w a (data ++ [0]) g2 _ _ _ _ FE ND MN ltac:(discriminate) Hf R Hh D) as [k Z0]. rewrite Z0 in X. clear Z0.
  pose proof (C15_round_trip_lh7_refuted cs (w_glob w) body _ _ _ _ _ _ _ _ A O1 O2 B2 Hz D) as NE.
  assert (NN : [] <> body) by (intros <-; change (zlen []) with 0 in Hz; lia).
  destruct (C06_decompression_stays_in_entry cs (w_glob w) 7 _ _ _ _ _ _ _ _ _ A ltac:(lia) O1 O2 B2 D) as (N & ER & _).
  assert (ZL : zlen (data ++ [0]) = e_packed e + 1) by (rewrite zlen_app, P1; reflexivity).
  destruct (Z.eqb_spec crc (e_crc e)) as [EC|EC]; cbn [negb] in X; [|injection X as <- _ _; exact NN].
  destruct (Z.eqb_spec n (e_packed e)) as [En|En].
  - rewrite ER, En, P1, drop_app in X by reflexivity. rewrite loop_end in X. injection X as <- _ _. exact NE.
  - unfold skipToNextpos in X. destruct (Z.eqb_spec (e_packed e) 0); [lia|]. destruct rest as [|b rest'] eqn:Er.
    + injection X as <- _ _. exact NE.
    + rewrite ER, P_Bitio.drop_drop in X by lia. destruct (Z.eq_dec n 0) as [->|].
      * rewrite Z.add_0_l, P1, drop_app in X by reflexivity. rewrite loop_end in X. injection X as <- _ _. exact NE.
      * rewrite drop_past in X by lia. rewrite loop_eof in X. injection X as <- _ _. exact NE.
Qed.

(** ** C68: what other archivers get *)

(** Compressed data are in the documented format, whatever the process has compressed
    before: an archiver that knows it recovers the data.  The last byte is filled with
    zero bits. *)
Theorem C68_output_conforms :
  forall cs g m body eo,
    after cs g -> m = 5 \/ m = 6 \/ m = 7 -> bytes body -> body <> [] ->
    EncodeLzhuf m (zlen body) body g = Ok eo -> eo_packed eo < eo_original eo ->
    exists ts bits j, lh_blocks m ts bits /\ lz_expand ts = body /\ byte_string_bits (eo_out eo) = bits ++ repeat false j /\ (j < 8)%nat.
Proof.
  intros cs g m body eo A Hm HB Hne E Hp.
  destruct (Z.testbit (hd 0 body) 5) eqn:H5. { rewrite (C16_compress_never_panics_refuted cs g m (zlen body) body) in E; auto. discriminate. }
  assert (R : room cs m).
  { intros m0 F. destruct (Z_lt_ge_dec m0 m) as [L|L]; [|lia]. rewrite (EncodeLzhuf_panic_window cs g m m0 (zlen body) body) in E; auto. discriminate. }
  destruct (encode_lzhuf cs g m (zlen body) body A R Hm (zlen_nonneg _) HB Hne H5) as (eo' & k & n & pb & er & toks & w & X1 & X2 & X3 & X4 & X5 & X6 & X7 & X8 & X9 & X10 & X11).
  rewrite E in X1. injection X1 as <-.
  assert (U : er_unpackable er = false).
  { destruct (er_unpackable er); [|reflexivity]. specialize (X10 eq_refl). destruct X3. lia. }
  rewrite X5. destruct Hm as [-> | [-> | ->]]; injection X2 as <- <- <-.
  - exact (enc_blocks 13 14 4 8192 _ _ _ _ _ (zlen_nonneg _) ltac:(discriminate) eq_refl X3 U).
  - exact (enc_blocks 15 16 5 32768 _ _ _ _ _ (zlen_nonneg _) ltac:(discriminate) eq_refl X3 U).
  - exact (enc_blocks 16 17 5 65536 _ _ _ _ _ (zlen_nonneg _) ltac:(discriminate) eq_refl X3 U).
Qed.

(** ** C32: -lh4- *)

Lemma run_calls_app c1 : forall c2 g, run_calls (c1 ++ c2) g = match run_calls c1 g with Some g1 => run_calls c2 g1 | None => None end.
Proof. induction c1 as [|c c1 IH]; intros c2 g; [reflexivity|]. cbn [run_calls app]. destruct (run_call c g); [apply IH|reflexivity]. Qed.

(** Proved when the process has just decompressed an -lh5- entry. *)
Theorem C32_lh4_after_lh5_partial :
  forall cs g broken original packed inp ts bits pad data rest,
    after (cs ++ [CallDec 5 broken original packed inp]) g ->
    lh_blocks 4 ts bits -> byte_string_bits data = bits ++ pad -> (length pad < 16)%nat -> bytes (data ++ rest) ->
    exists g2, DecodeLzhuf 4 false (zlen (lz_expand ts)) (zlen data) (data ++ rest) g = Ok (g2, calcCrc 0 (lz_expand ts), lz_expand ts, zlen data, rest).
Proof.
  intros cs g broken original packed inp ts bits pad data rest [F R] S EB HP B. apply Forall_app in F. destruct F as [F1 F2]. pose proof (Forall_inv F2) as (C1 & C2 & C3).
  rewrite run_calls_app in R. destruct (run_calls cs glob0) as [g0|] eqn:R0; [|discriminate]. cbn [run_calls run_call] in R.
  destruct (DecodeLzhuf 5 broken original packed inp g0) as [[[[[g1 crc] out] n] rest1]| |] eqn:D; [|discriminate R|discriminate R]. injection R as ->.
  pose proof (after_inv cs g0 (conj F1 R0)) as [I _].
  unfold DecodeLzhuf in D. change (dec_dicbit 5) with (Some 13) in D. cbv iota in D. change (13 =? 0) with false in D. cbv iota in D. apply bind_ok in D. destruct D as [x [D1 D2]]. injection D2 as <- _ _ _ _.
  apply decode_any in D1; auto; [|lia|apply (hi_d _ I)|apply (hi_pb _ (hinv_np 13 _ I))]. destruct D1 as (DI & DF & _).
  pose proof (df_np _ _ DF) as E1. pose proof (df_pb _ _ DF) as E2. change (np (set_np_pbit 13 (g_huf g0))) with 14 in E1. change (pbit (set_np_pbit 13 (g_huf g0))) with 4 in E2.
  destruct DI as [DS _ _].
  destruct (blocks_decode (dr_huf x) 12 14 4 4096 ts bits pad data rest DS) as [h' X]; auto; try lia; [unfold npok; lia|].
  eexists. unfold DecodeLzhuf. change (dec_dicbit 4) with (Some 12). cbv iota. change (12 =? 0) with false. cbv iota. cbn [g_huf]. rewrite X. reflexivity.
Qed.

(** ** Examples *)

(** Two blocks; the second has a single item and so no codes at all.  The code for
    lengths is described with an explicit gap of no symbols. *)
Definition ex_tl (c : Z) : Z := if c =? 2 then 2 else if c =? 3 then 2 else if c =? 4 then 1 else 0.
Definition ex_cl (c : Z) : Z := if c =? 97 then 1 else if c =? 98 then 2 else if c =? 273 then 2 else 0.
Definition ex_items : list lztok := [LzByte 97; LzByte 98; LzCopy 20 2; LzByte 97] ++ [LzByte 99] ++ [].
Definition ex_lh_data : list Z := [0; 4; 40; 8; 70; 37; 19; 116; 154; 0; 172; 0; 2; 0; 0; 12; 96; 0].
Definition ex_lh5 : entry0 := E0 [45; 108; 104; 53; 45] 18 24 0 32 [122] 47244 0 1000000 33188 0 0.

(** Deciding about a code of few words. *)
Ltac few := repeat match goal with |- context [?a =? ?b] => destruct (Z.eqb_spec a b) end; lia.

Lemma ex_blocks dsize : 2 <= dsize -> exists bits, blocks 14 4 dsize ex_items bits /\ byte_string_bits ex_lh_data = bits ++ repeat false 5.
Proof.
  intros Hd. eexists. split.
  - unfold ex_items. apply blocks_more; [|apply blocks_more; [|constructor]].
    + apply block_bits with (tc := Lengths ex_tl) (cc := Lengths ex_cl) (pc := Single 1).
      * cbn. lia.
      * reflexivity.
      * repeat (apply Forall_cons; [cbn; lia|]). constructor.
      * repeat (apply Forall_cons; [repeat split; try lia; discriminate|]). constructor.
      * split; [intros c _; unfold ex_tl; few|reflexivity].
      * apply small_lengths with (m := 5); [lia|intros c Hc; unfold ex_tl; few|].
        apply small_one; [lia|lia|]. apply small_one; [lia|lia|]. apply (small_gap _ _ _ 0); [lia|reflexivity|lia|lia|].
        apply small_one; [lia|lia|]. apply small_one; [lia|lia|]. apply small_end. lia.
      * split; [intros c _; unfold ex_cl; few|vm_compute; reflexivity].
      * apply big_lengths with (m := 274); [lia|intros c Hc; unfold ex_cl; few|].
        apply (big_many _ _ _ 0 77); [lia|lia|intros j Hj; unfold ex_cl; few|split; [lia|discriminate]|].
        apply big_one; [lia|discriminate|repeat split; discriminate|]. apply big_one; [lia|discriminate|repeat split; discriminate|].
        apply (big_many _ _ _ 99 154); [lia|lia|intros j Hj; unfold ex_cl; few|split; [lia|discriminate]|].
        apply big_one; [lia|discriminate|repeat split; discriminate|]. apply big_end. reflexivity.
      * cbn. lia.
      * constructor.
    + apply block_bits with (tc := Single 0) (cc := Single 99) (pc := Single 0); try constructor; cbn; try lia; repeat constructor; lia.
  - vm_compute. reflexivity.
Qed.

Lemma ex_lh5_ok : lh_entry 5 ex_lh5 ex_lh_data (lz_expand ex_items).
Proof.
  destruct (ex_blocks 8192 ltac:(lia)) as (bits & X & Y). exists ex_items, bits, (repeat false 5). split; [reflexivity|]. split; [exact X|]. split; [exact Y|]. split; [cbn; lia|].
  repeat split; vm_compute; reflexivity.
Qed.

(** A zero byte copied 65536 times. *)
Definition ex_cl7 (c : Z) : Z := if c =? 0 then 1 else if c =? 509 then 1 else 0.
Definition ex_tl7 (c : Z) : Z := if c =? 2 then 1 else if c =? 3 then 1 else 0.
Definition ex_items7 : list lztok := LzByte 0 :: repeat (LzCopy 256 1) 256.
Definition ex_lh7_data : list Z := [1; 1; 32; 4; 63; 235; 209; 0] ++ 31 :: repeat 255 31 ++ [224].
Definition ex_lh7 : entry0 := E0 [45; 108; 104; 55; 45] 41 65537 0 32 [122] 0 0 1000000 33188 0 0.

Lemma zeros_copy : forall n k, lz_copy n 1 (repeat 0 (S k)) = repeat 0 (n + S k).
Proof.
  induction n as [|n IH]; intros k; [reflexivity|]. cbn [lz_copy].
  assert (BK : back (repeat 0 (S k)) 1 = 0). { unfold back. destruct (_ <=? _) eqn:LE; [|apply Z.leb_gt in LE; rewrite repeat_length in LE; lia]. apply repeat_spec with (n := S k). apply nth_In. rewrite repeat_length. lia. }
  rewrite BK. replace (repeat 0 (S k) ++ [0]) with (repeat 0 (S (S k))); [rewrite IH; f_equal; lia|]. change [0] with (repeat 0 1). rewrite <- repeat_app. f_equal. lia.
Qed.

Lemma zeros_copies len : 0 <= len -> forall m k z, Z.of_nat z = Z.of_nat m * len + Z.of_nat k + 1 -> fold_left lz_step (repeat (LzCopy len 1) m) (repeat 0 (S k)) = repeat 0 z.
Proof.
  intros HL. induction m as [|m IH]; intros k z Hz; [change (repeat 0 (S k) = repeat 0 z); f_equal; lia|].
  change (repeat (LzCopy len 1) (S m)) with (LzCopy len 1 :: repeat (LzCopy len 1) m). cbn [fold_left lz_step]. rewrite zeros_copy.
  replace (Z.to_nat len + S k)%nat with (S (Z.to_nat len + k)) by lia. apply IH. lia.
Qed.

Lemma ex_zeros len m z : 0 <= len -> Z.of_nat z = Z.of_nat m * len + 1 -> lz_expand (LzByte 0 :: repeat (LzCopy len 1) m) = repeat 0 z.
Proof. intros HL Hz. apply (zeros_copies len HL m 0). lia. Qed.

Lemma zeros_crc k : calcCrc 0 (repeat 0 k) = 0.
Proof. induction k as [|k IH]; [reflexivity|]. change (repeat 0 (S k)) with ([0] ++ repeat 0 k). rewrite calcCrc_app. exact IH. Qed.

Lemma ex_blocks7 : exists bits, lh_blocks 7 ex_items7 bits /\ byte_string_bits ex_lh7_data = bits ++ repeat false 5.
Proof.
  eexists. split.
  - rewrite <- (app_nil_r ex_items7). apply blocks_more; [|constructor]. apply block_bits with (tc := Lengths ex_tl7) (cc := Lengths ex_cl7) (pc := Single 0).
    + cbn. lia.
    + reflexivity.
    + constructor; [cbn; lia|]. apply Forall_forall. intros t It. apply repeat_spec in It. subst. cbn. lia.
    + constructor; [split; [lia|discriminate]|]. apply Forall_forall. intros t It. apply repeat_spec in It. subst. repeat split; try lia; discriminate.
    + split; [intros c _; unfold ex_tl7; few|reflexivity].
    + apply small_lengths with (m := 4); [lia|intros c Hc; unfold ex_tl7; few|].
      apply small_one; [lia|lia|]. apply small_one; [lia|lia|]. apply (small_gap _ _ _ 0); [lia|reflexivity|lia|lia|].
      apply small_one; [lia|lia|]. apply small_end. lia.
    + split; [intros c _; unfold ex_cl7; few|vm_compute; reflexivity].
    + apply big_lengths with (m := 510); [lia|lia|].
      apply big_one; [lia|discriminate|repeat split; discriminate|]. 
      apply (big_many _ _ _ 1 488); [lia|lia|intros j Hj; unfold ex_cl7; few|split; [lia|discriminate]|].
      apply big_one; [lia|discriminate|repeat split; discriminate|]. apply big_end. reflexivity.
    + cbn. lia.
    + constructor.
  - vm_compute. reflexivity.
Qed.

Lemma ex_lh7_ok : exists body, lh_entry 7 ex_lh7 ex_lh7_data body /\ zlen body = 65537.
Proof.
  destruct (Z_of_nat_complete 65537 ltac:(lia)) as [z Hz]. exists (repeat 0 z). assert (ZL : zlen (repeat 0 z) = 65537) by (unfold zlen; rewrite repeat_length; congruence).
  split; [|exact ZL]. destruct ex_blocks7 as (bits & X & Y). exists ex_items7, bits, (repeat false 5). split; [reflexivity|]. split; [exact X|]. split; [exact Y|]. split; [cbn; lia|].
  split; [reflexivity|]. rewrite ZL, zeros_crc. split; [reflexivity|]. split; [|reflexivity]. apply ex_zeros; [discriminate|]. rewrite <- Hz. reflexivity.
Qed.

Example C67_example :
  file_entry ex_lh5 /\ named ex_lh5 [] [122] /\ lh_entry 5 ex_lh5 ex_lh_data (lz_expand ex_items) /\
  lz_expand ex_items = [97; 98] ++ flat_map (fun _ => [97; 98]) (repeat tt 10) ++ [97; 99] /\
  file_entry ex_lh7 /\ named ex_lh7 [] [122] /\ exists body, lh_entry 7 ex_lh7 ex_lh7_data body /\ zlen body = 65537.
Proof.
  split. { constructor; [constructor; cbn; try lia; split; auto; repeat constructor; lia|cbn; lia|reflexivity]. }
  split. { constructor; [reflexivity|now left|split; [discriminate|cbn; lia]]. }
  split; [exact ex_lh5_ok|]. split; [vm_compute; reflexivity|].
  split. { constructor; [constructor; cbn; try lia; split; auto; repeat constructor; lia|cbn; lia|reflexivity]. }
  split; [|exact ex_lh7_ok]. constructor; [reflexivity|now left|split; [discriminate|cbn; lia]].
Qed.

(** A hundred zero bytes are compressed to nine (C14_example). *)
Example C68_example : exists eo ts bits j, EncodeLzhuf 5 100 (repeat 0 100) glob0 = Ok eo /\
  lh_blocks 5 ts bits /\ lz_expand ts = repeat 0 100 /\ byte_string_bits (eo_out eo) = bits ++ repeat false j /\ (length bits <= 72)%nat.
Proof.
  destruct C14_example as (eo & X & P & O). exists eo.
  assert (A : after [] glob0) by (split; [constructor|reflexivity]).
  assert (B : bytes (repeat 0 100)) by (apply Forall_forall; intros x Hx; apply repeat_spec in Hx; subst; unfold is_byte; lia).
  destruct (C68_output_conforms [] glob0 5 (repeat 0 100) eo A ltac:(tauto) B ltac:(discriminate) X ltac:(lia)) as (ts & bits & j & Y1 & Y2 & Y3 & Y4).
  exists ts, bits, j. split; [exact X|]. split; [exact Y1|]. split; [exact Y2|]. split; [exact Y3|].
  destruct (C14_round_trip_lh5_lh6 [] glob0 [] glob0 5 (repeat 0 100) eo [] A A ltac:(tauto) B ltac:(discriminate) ltac:(constructor) X ltac:(lia)) as (_ & _ & _ & L & _).
  apply (f_equal (@length bool)) in Y3. rewrite byte_string_bits_length, app_length, repeat_length in Y3. unfold zlen in L. lia.
Qed.

(** The blocks above are -lh4- blocks too. *)
Example C32_after_lh5_example : exists g bits, after [CallDec 5 false 24 18 ex_lh_data] g /\
  lh_blocks 4 ex_items bits /\ byte_string_bits ex_lh_data = bits ++ repeat false 5.
Proof.
  destruct ex_lh5_ok as (ts & bits5 & pad & _ & S & EB & HP & _ & ZE & EX & _).
  assert (B : bytes ex_lh_data) by (repeat constructor; unfold is_byte; lia).
  destruct (lh_decodes [] glob0 5 ts bits5 pad ex_lh_data [] ltac:(split; [constructor|reflexivity]) ltac:(tauto) S EB HP ltac:(rewrite app_nil_r; exact B) ltac:(lia)) as [g D].
  destruct (ex_blocks 4096 ltac:(lia)) as (bits & X & Y). exists g, bits. split; [|split; [exact X|exact Y]].
  split; [repeat constructor; auto; lia|]. cbn [run_calls run_call]. rewrite app_nil_r, EX, <- ZE in D. change (zlen ex_lh_data) with 18 in D. change (e_original ex_lh5) with 24 in D. rewrite D. reflexivity.
Qed.

Print Assumptions C67_conforming_extracted_partial.
Print Assumptions C67_conforming_extracted_refuted.
Print Assumptions C68_output_conforms.
Print Assumptions C32_lh4_after_lh5_partial.
