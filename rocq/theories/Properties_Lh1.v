(** Properties C64 .. C66: entries packed by the adaptive Huffman method -lh1-, and
    archives whose entries use different methods.  The format -lh1- is written down in
    S_Lh1.v and S_Lz.v; [reader], [file_entry], [named], [asks_for], [describes] and
    [packs] are defined in S_Archive.v. *)
From Verif Require Import Go GoLemmas M_Crc M_Bitio P_Bitio M_Maketree M_Maketbl M_Huf M_Slide M_Larc M_Decode M_Lzhuf S_Bits S_Huff S_Lz S_Lh1 S_Larc P_Larc S_Header S_Listing M_Header M_Os M_Archive S_History S_Archive
  P_Header P_Accept P_List P_Os P_HufLens P_RoundTrip P_Single P_Read1 P_ExtractAll P_Dhuf P_DhKeep P_Lz P_Lh1 P_Stream S_Lh5 Properties_Slide Properties_Archive Properties_Extract Properties_Listing Properties_Larc Properties_Lh5.

(** ** C64: -lh1- entries *)

(** [e] and [data] are an entry of [body], packed in the format -lh1- with copies of up
    to [most] bytes.  The format allows 60. *)
Definition lh1_entry (most : Z) (e : entry0) (data body : list Z) : Prop :=
  exists ts pad, e_method e = [45; 108; 104; 49; 45] /\ Forall (lz_ok 4096 most) ts /\ byte_string_bits data = lh1_stream ts ++ pad /\ (length pad < 16)%nat /\
    e_packed e = zlen data /\ e_original e = zlen body /\ body = lz_expand ts /\ e_crc e = calcCrc 0 body.

Lemma after_entry cs g : after cs g -> P_HufLens.dsz (g_huf g) /\ alen (ptCode (g_huf g)) = Npt /\ Sz (g_dh g).
Proof. intros A. pose proof (after_inv _ _ A) as [[[D _ _] _ _ _ _ _ _ _] _]. pose proof (hi_pc _ (gi_h _ _ (after_inv _ _ A))). eauto using after_sz. Qed.

Lemma lh1_decodable e data body : lh1_entry 59 e data body -> decodable e data body.
Proof.
  intros (ts & pad & M & OK & EB & HP & P1 & P2 & P3 & P4). exists 1. split; [rewrite M; reflexivity|]. split; [discriminate|]. split; [reflexivity|]. split; [exact P1|].
  intros cs g rest A B. destruct (after_entry _ _ A) as (D & PC & AS).
  destruct (lh1_decodes g D PC AS ts data rest pad OK B EB HP) as [g2 X]. exists g2. rewrite P1, P2, P4, P3. exact X.
Qed.

(** Proved for all sequences of items that contain no copy of 60 bytes. *)
Theorem C64_lh1_extracted_partial :
  forall E w cs a e dir base header data body,
    reader E a w -> after cs (w_glob w) -> w_fs w a = Some (NFile (archive_bytes [(e, data)])) ->
    file_entry e -> named e dir base -> asks_for header (dir ++ base) -> bytes data ->
    lh1_entry 59 e data body ->
    exists w', DecompresBytes E header w = Done (body, false) w' /\ w_fs w' = w_fs w.
Proof.
  intros E w cs a e dir base header data body R A Hf FE ND Hh B LE. destruct (lh1_decodable _ _ _ LE) as (method & MN & MD & _ & EP & P).
  unfold archive_bytes in Hf. cbn [flat_map fst snd] in Hf. rewrite app_nil_r, <- app_assoc in Hf.
  assert (B2 : bytes (data ++ [0])) by (apply Forall_app; split; [exact B|constructor; [unfold is_byte; lia|constructor]]).
  destruct (P cs (w_glob w) [0] A B2) as [g2 D].
  destruct (stream_any E e dir base method header w a (data ++ [0]) g2 _ _ _ _ FE ND MN MD Hf R Hh D) as [k X].
  rewrite X, !Z.eqb_refl. cbn [negb]. rewrite loop_end. eexists. split; reflexivity.
Qed.

(** The claim is false of every entry that ends in a copy of 60 bytes from three or
    more bytes back: the data are not what is returned. *)
Theorem C64_lh1_extracted_refuted :
  forall E w cs a e dir base header ts d data pad,
    reader E a w -> after cs (w_glob w) -> w_fs w a = Some (NFile (archive_bytes [(e, data)])) ->
    file_entry e -> named e dir base -> asks_for header (dir ++ base) -> bytes data ->
    e_method e = [45; 108; 104; 49; 45] -> Forall (lz_ok 4096 59) ts -> 3 <= d <= 4096 ->
    byte_string_bits data = lh1_stream (ts ++ [LzCopy 60 d]) ++ pad -> (length pad < 16)%nat ->
    e_packed e = zlen data -> e_original e = zlen (lz_expand (ts ++ [LzCopy 60 d])) -> e_crc e = calcCrc 0 (lz_expand (ts ++ [LzCopy 60 d])) ->
    lh1_entry 60 e data (lz_expand (ts ++ [LzCopy 60 d])) /\
    exists got err w', DecompresBytes E header w = Done (got, err) w' /\ got <> lz_expand (ts ++ [LzCopy 60 d]).
Proof.
  intros E w cs a e dir base header ts d data pad R A Hf FE ND Hh B HM OK Hd EB HP EP EO EC. split.
  { exists (ts ++ [LzCopy 60 d]), pad. split; [exact HM|]. split; [apply Forall_app; split; [|repeat constructor; lia]|auto 10].
    eapply Forall_impl; [|exact OK]. intros [b|l p]; cbn; lia. }
  unfold archive_bytes in Hf. cbn [flat_map fst snd] in Hf. rewrite app_nil_r, <- app_assoc in Hf.
  assert (B2 : bytes (data ++ [0])) by (apply Forall_app; split; [exact B|constructor; [unfold is_byte; lia|constructor]]).
  assert (MN : method_num (e_method e) = Some 1) by (rewrite HM; reflexivity).
  destruct (after_entry _ _ A) as (D & PC & AS).
  destruct (lh1_sixty (w_glob w) D PC AS ts d data [0] pad OK Hd B2 EB HP) as (g2 & out & X & Y). rewrite <- EO, <- EP in X.
  destruct (stream_any E e dir base 1 header w a (data ++ [0]) g2 _ _ _ _ FE ND MN ltac:(discriminate) Hf R Hh X) as [k Z0].
  assert (NE : lz_expand (ts ++ [LzCopy 60 d]) <> []).
  { unfold lz_expand. rewrite fold_left_app. cbn [fold_left lz_step]. intros Q. apply (f_equal zlen) in Q. rewrite lz_copy_zlen in Q. change (zlen (@nil Z)) with 0 in Q. pose proof (zlen_nonneg (fold_left lz_step ts [])). lia. }
  rewrite Z0. destruct (Z.eqb_spec (calcCrc 0 out) (e_crc e)); cbn [negb].
  - rewrite Z.eqb_refl, loop_end. eexists _, _, _. split; [reflexivity|]. intros ->. lia.
  - eexists _, _, _. split; [reflexivity|]. congruence.
Qed.

(** Bytes and copies, one of which overlaps itself and one of which reaches back before
    the start of the data; and a byte copied 60 times. *)
Definition ex_lh1_items : list lztok := [LzByte 97; LzByte 98; LzByte 99; LzCopy 3 3; LzCopy 59 6; LzCopy 20 4096; LzByte 97].
Definition ex_lh1_data : list Z := [246; 251; 189; 241; 128; 47; 112; 22; 119; 255; 252; 80].
Definition ex_lh1 : entry0 := E0 [45; 108; 104; 49; 45] 12 86 0 32 [122] 51676 0 1000000 33188 0 0.
Definition ex_lh1_60 : entry0 := E0 [45; 108; 104; 49; 45] 4 61 0 32 [122] 271 0 1000000 33188 0 0.
Lemma ex_lh1_ok : lh1_entry 59 ex_lh1 ex_lh1_data (lz_expand ex_lh1_items).
Proof.
  exists ex_lh1_items, (repeat false 4). split; [reflexivity|]. split; [repeat constructor; cbn; lia|]. split; [vm_compute; reflexivity|]. split; [cbn; lia|]. repeat split; vm_compute; reflexivity.
Qed.
Example C64_example :
  file_entry ex_lh1 /\ named ex_lh1 [] [122] /\ lh1_entry 59 ex_lh1 ex_lh1_data (lz_expand ex_lh1_items) /\
  file_entry ex_lh1_60 /\ named ex_lh1_60 [] [122] /\ byte_string_bits [246; 251; 64; 64] = lh1_stream ([LzByte 97] ++ [LzCopy 60 3]) ++ repeat false 5 /\
  e_crc ex_lh1_60 = calcCrc 0 (lz_expand ([LzByte 97] ++ [LzCopy 60 3])).
Proof.
  split. { constructor; [constructor; cbn; try lia; split; auto; repeat constructor; lia|cbn; lia|reflexivity]. }
  split. { constructor; [reflexivity|now left|split; [discriminate|cbn; lia]]. }
  split; [exact ex_lh1_ok|].
  split. { constructor; [constructor; cbn; try lia; split; auto; repeat constructor; lia|cbn; lia|reflexivity]. }
  split. { constructor; [reflexivity|now left|split; [discriminate|cbn; lia]]. }
  split; vm_compute; reflexivity.
Qed.

(** ** C65: any -lh1- data *)

(** Decompression of any bytes as -lh1- returns, whatever the entry announces: at least
    as many bytes as announced and fewer than 315 more.  It reads nothing behind the
    packed data. *)
Theorem C65_lh1_malformed :
  forall cs g size packed inp,
    after cs g -> 0 <= size -> 0 <= packed -> bytes inp ->
    exists g2 crc out n rest, DecodeLzhuf 1 false size packed inp g = Ok (g2, crc, out, n, rest) /\
      size <= zlen out < size + 315 /\ bytes out /\ 0 <= n <= packed /\ rest = drop n inp /\ crc = calcCrc 0 out.
Proof.
  intros cs g size packed inp A Hs Hp B. destruct (after_entry _ _ A) as (D & PC & AS).
  exact (lh1_any g D PC AS size packed inp Hs Hp B).
Qed.

(** So reading such an entry always returns. *)
Theorem C65_lh1_malformed_entry :
  forall E w cs a e dir base header data,
    reader E a w -> after cs (w_glob w) -> w_fs w a = Some (NFile (archive_bytes [(e, data)])) ->
    file_entry e -> named e dir base -> asks_for header (dir ++ base) -> bytes data ->
    e_method e = [45; 108; 104; 49; 45] -> e_packed e = zlen data ->
    exists got err w', DecompresBytes E header w = Done (got, err) w' /\ w_fs w' = w_fs w /\ (err = false -> calcCrc 0 got = e_crc e).
Proof.
  intros E w cs a e dir base header data R A Hf FE ND Hh B HM EP.
  unfold archive_bytes in Hf. cbn [flat_map fst snd] in Hf. rewrite app_nil_r, <- app_assoc in Hf.
  assert (B2 : bytes (data ++ [0])) by (apply Forall_app; split; [exact B|constructor; [unfold is_byte; lia|constructor]]).
  assert (MN : method_num (e_method e) = Some 1) by (rewrite HM; reflexivity).
  destruct (l0_original _ (fe_legal _ FE)) as [O1 _]. destruct (l0_packed _ (fe_legal _ FE)) as [O2 _].
  destruct (C65_lh1_malformed cs (w_glob w) (e_original e) (e_packed e) (data ++ [0]) A O1 O2 B2) as (g2 & crc & out & n & rest & D & L & BO & N & ER & CR).
  destruct (stream_any E e dir base 1 header w a (data ++ [0]) g2 _ _ _ _ FE ND MN ltac:(discriminate) Hf R Hh D) as [k Z0]. rewrite Z0. clear Z0.
  destruct (Z.eqb_spec crc (e_crc e)) as [EC|EC]; cbn [negb]; [|eexists _, _, _; split; [reflexivity|]; split; [reflexivity|discriminate]].
  assert (ZL : zlen (data ++ [0]) = e_packed e + 1) by (rewrite zlen_app, EP; reflexivity).
  destruct (Z.eqb_spec n (e_packed e)) as [En|En].
  - rewrite ER, En, EP, drop_app by reflexivity. rewrite loop_end. eexists _, _, _. split; [reflexivity|]. split; [reflexivity|]. intros _. congruence.
  - unfold skipToNextpos. destruct (Z.eqb_spec (e_packed e) 0); [lia|]. destruct rest as [|b rest'] eqn:Er.
    + eexists _, _, _. split; [reflexivity|]. split; [reflexivity|discriminate].
    + rewrite ER, P_Bitio.drop_drop by lia. destruct (Z.eq_dec n 0) as [->|].
      * rewrite Z.add_0_l, EP, drop_app by reflexivity. rewrite loop_end. eexists _, _, _. split; [reflexivity|]. split; [reflexivity|]. intros _. congruence.
      * rewrite drop_past by lia. rewrite loop_eof. eexists _, _, _. split; [reflexivity|]. split; [reflexivity|]. intros _. congruence.
Qed.

(** Four arbitrary bytes, announced as 50. *)
Definition ex_lh1_bad : entry0 := E0 [45; 108; 104; 49; 45] 4 50 0 32 [122] 0 0 1000000 33188 0 0.
Example C65_example :
  file_entry ex_lh1_bad /\ named ex_lh1_bad [] [122] /\
  match DecodeLzhuf 1 false 50 4 [255; 0; 170; 3; 0] glob0 with Ok (_, _, out, n, rest) => zlen out = 61 /\ n = 4 /\ rest = [0] | _ => False end.
Proof.
  split. { constructor; [constructor; cbn; try lia; split; auto; repeat constructor; lia|cbn; lia|reflexivity]. }
  split. { constructor; [reflexivity|now left|split; [discriminate|cbn; lia]]. }
  vm_compute. repeat split; reflexivity.
Qed.

(** ** C66: archives with entries of different methods *)

(** An entry of [body] in the format -lh5- or -lh6-, -lh7- if [body] is shorter than
    65536 bytes, -lzs-, or -lh1- without copies of 60 bytes. *)
Definition holds (e : entry0) (data body : list Z) : Prop :=
  lh_entry 5 e data body \/ lh_entry 6 e data body \/ lh_entry 7 e data body /\ zlen body < 65536 \/
  lzs_entry e data body \/ lh1_entry 59 e data body.

(** What this library compresses with -lh5-, -lh6- or -lh7- is such an entry. *)
Lemma packs_holds e data body : packs e data body -> holds e data body.
Proof.
  intros (m & cs & g & eo & Hm & B & NE & A & EN & LT & -> & M1 & M2 & M3 & M4).
  assert (L : lh_entry m e (eo_out eo) body); [|destruct Hm as [-> | [-> | [-> Lt]]]; [now left|right; now left|right; right; left; now split]].
  destruct (C68_output_conforms cs g m body eo A ltac:(tauto) B NE EN LT) as (ts & bits & j & X1 & X2 & X3 & X4).
  exists ts, bits, (repeat false j). rewrite repeat_length. repeat (split; [auto; lia|]). exact M4.
Qed.

Lemma holds_decodable e data body : holds e data body -> decodable e data body.
Proof.
  intros [H|[H|[[H L]|[H|H]]]]; [| | |now apply lzs_decodable|now apply lh1_decodable].
  - apply (lh_decodable 5); auto; lia.
  - apply (lh_decodable 6); auto; lia.
  - apply (lh_decodable 7); auto.
Qed.

Lemma choose_in nm body : forall fs acc, NoDup (map fst fs) -> In (nm, body) fs -> fold_left (choose nm) fs acc = body.
Proof.
  assert (K : forall fs acc, ~ In nm (map fst fs) -> fold_left (choose nm) fs acc = acc).
  { induction fs as [|[x y] fs IH]; intros acc N; [reflexivity|]. cbn [fold_left fst snd map In] in *. unfold choose at 2. cbn [fst snd]. destruct (list_eqb x nm) eqn:X; [apply list_eqb_eq in X; subst; tauto|]. apply IH. tauto. }
  induction fs as [|[x y] fs IH]; intros acc N I; [destruct I|]. cbn [fold_left fst snd map In] in *. unfold choose at 2. cbn [fst snd]. inversion N as [|? ? N1 N2]; subst. destruct I as [I|I].
  - injection I as -> ->. rewrite list_eqb_refl. now apply K.
  - destruct (list_eqb x nm) eqn:X; [|now apply IH]. apply list_eqb_eq in X. subst. exfalso. apply N1. change nm with (fst (nm, body)). now apply in_map.
Qed.

(** Whatever the order of the entries, each is listed, extracted to a file and
    extracted to memory as if it were alone.  The last two are proved when no name is
    longer than the one before it (see C56 and C60). *)
Theorem C66_mixed_methods_partial :
  forall E w cs a es files,
    reader E a w -> after cs (w_glob w) -> w_fs w a = Some (NFile (archive_bytes es)) -> bytes (archive_bytes es) ->
    Forall2 (fun x f => file_entry (fst x) /\ (exists dir, named (fst x) dir (fst f)) /\ holds (fst x) (snd x) (snd f)) es files ->
    (exists headers w', Headers E w = Done (headers, false) w' /\ Forall2 describes (map fst es) headers) /\
    (names_shrink 221 es -> NoDup (map fst files) -> (forall f, In f files -> w_fs w (fst f) = None) ->
      exists w', CommandExtract E a w = Done false w' /\ (forall f, In f files -> w_fs w' (fst f) = Some (NFile (snd f))) /\
        (forall q, ~ In q (map fst files) -> w_fs w' q = w_fs w q)) /\
    (names_shrink 221 es -> NoDup (map (fun x => slashes (e_name (fst x))) es) ->
      forall e data base body header, In (e, data, (base, body)) (combine es files) -> asks_for header (slashes (e_name e)) ->
      exists w', DecompresBytes E header w = Done (body, false) w' /\ w_fs w' = w_fs w).
Proof.
  intros E w cs a es files R A Hf B F0.
  assert (F : Forall2 (fun x f => file_entry (fst x) /\ (exists dir, named (fst x) dir (fst f)) /\ decodable (fst x) (snd x) (snd f)) es files).
  { clear -F0. induction F0 as [|x f es files (X1 & X2 & X3) F IH]; constructor; auto using holds_decodable. }
  clear F0. pose proof R as [Hl Hv Ha Hr Hs]. split; [|split].
  - assert (F' : Forall (fun x => file_entry (fst x) /\ (exists dir base, named (fst x) dir base) /\ exists body, decodable (fst x) (snd x) body) es).
    { clear -F. induction F as [|x f es files (X1 & [dir X2] & X3) F IH]; constructor; [|exact IH]. split; [exact X1|]. split; [exists dir, (fst f); exact X2|exists (snd f); exact X3]. }
    destruct Ha as [Ha Hn]. apply has_nul_notin in Hn.
    destruct (headers_decodable E es (set_wverify true w) [] cs (S (length (archive_bytes es))) F') as [w' W]; try (cbn [w_lha set_wverify]; rewrite Hl; reflexivity); auto.
    { apply entries_length. }
    exists (map (fun x => read0 NewLzHeader (fst x)) es), (set_wverify false w'). split.
    + unfold Headers, with_verify. istep. istep. cbn [w_fs w_lha set_wverify]. rewrite Hl. cbn [l_archive NewLha]. rewrite (open_file E _ a _ Ha Hn Hf Hr). rewrite W. reflexivity.
    + clear -F'. induction F' as [|[e d] es (FE & (dir & base & ND) & _) F IH]; cbn [map fst]; constructor; [exact (describes_read0 e dir base NewLzHeader FE ND)|exact IH].
  - intros NS ND NF. rewrite (CommandExtract_open E w a _ Hf Ha Hr Hs). rewrite Hl. set (w1 := set_wlha (set_archive a (NewLha a)) w).
    destruct (extract_decodable E es files NewLzHeader 221 w1 cs (S (length (archive_bytes es)))) as (w' & X1 & X2 & X3); auto; try reflexivity.
    { apply entries_length. }
    exists w'. split; [|split; [exact X2|exact X3]]. unfold everything in X1. rewrite (bindIO_done _ _ _ _ _ X1). reflexivity.
  - intros NS ND e data base body header I Hh. rewrite (DecompresBytes_open E header w a _ Hf R). set (w1 := set_wlha (set_level 2 (NewLha a)) w).
    set (fs := map (fun p => (slashes (e_name (fst (fst p))), snd (snd p))) (combine es files)).
    destruct (stream_decodable E header (slashes (e_name e)) Hh es fs NewLzHeader 221 w1 [] cs (S (length (archive_bytes es)))) as (w' & X1 & X2); auto; try reflexivity.
    { unfold fs. clear -F. induction F as [|x f es files (X1 & [dir X2] & X3) F IH]; cbn [combine map]; constructor; [|exact IH]. split; [exact X1|]. split; [|exact X3].
      exists dir, (fst f). split; [exact X2|]. exact (nd_name _ _ _ X2). }
    { apply entries_length. }
    exists w'. split; [|exact X2]. rewrite X1. rewrite (choose_in _ body); [reflexivity| |].
    + assert (EQ : map fst fs = map (fun x => slashes (e_name (fst x))) es); [|now rewrite EQ].
      unfold fs. clear -F. induction F as [|x f es files X F IH]; [reflexivity|]. cbn [combine map fst]. now rewrite IH.
    + unfold fs. exact (in_map (fun p : entry0 * list Z * (list Z * list Z) => (slashes (e_name (fst (fst p))), snd (snd p))) _ _ I).
Qed.

(** Four entries: -lh1-, -lzs-, -lh1- again and -lh5-. *)
Definition ex_mix_es : list (entry0 * list Z) :=
  [(E0 [45; 108; 104; 49; 45] 12 86 0 32 [97; 97] 51676 0 1000000 33188 0 0, ex_lh1_data);
   (E0 [45; 108; 122; 115; 45] 10 25 0 32 [98; 98] 16602 0 1000000 33188 0 0, ex_lzs_data);
   (E0 [45; 108; 104; 49; 45] 12 86 0 32 [99] 51676 0 1000000 33188 0 0, ex_lh1_data);
   (E0 [45; 108; 104; 53; 45] 18 24 0 32 [100] 47244 0 1000000 33188 0 0, ex_lh_data)].
Definition ex_mix_files : list (path * list Z) := [([97; 97], lz_expand ex_lh1_items); ([98; 98], lzs_data ex_lzs_items); ([99], lz_expand ex_lh1_items); ([100], lz_expand ex_items)].
Example C66_example :
  Forall2 (fun x f => file_entry (fst x) /\ (exists dir, named (fst x) dir (fst f)) /\ holds (fst x) (snd x) (snd f)) ex_mix_es ex_mix_files /\
  names_shrink 221 ex_mix_es /\ NoDup (map fst ex_mix_files) /\ NoDup (map (fun x => slashes (e_name (fst x))) ex_mix_es).
Proof.
  split.
  { unfold ex_mix_es, ex_mix_files. repeat (apply Forall2_cons; [split; [|split]|]); try apply Forall2_nil; cbn [fst snd].
    all: try (constructor; [constructor; cbn; try lia; split; auto; repeat constructor; lia|cbn; lia|reflexivity]).
    all: try (exists []; constructor; [reflexivity|now left|split; [discriminate|cbn; lia]]).
    - right. right. right. right. exact ex_lh1_ok.
    - right. right. right. left. exists ex_lzs_items, (repeat false 5). split; [reflexivity|]. split; [repeat constructor; cbn; lia|]. split; [reflexivity|]. split; [cbn; lia|]. repeat split; vm_compute; reflexivity.
    - right. right. right. right. exact ex_lh1_ok.
    - left. exact ex_lh5_ok. }
  split; [cbn; lia|]. split; repeat constructor; cbn; intuition discriminate.
Qed.

Print Assumptions C64_lh1_extracted_partial.
Print Assumptions C64_lh1_extracted_refuted.
Print Assumptions C65_lh1_malformed.
Print Assumptions C65_lh1_malformed_entry.
Print Assumptions C66_mixed_methods_partial.
