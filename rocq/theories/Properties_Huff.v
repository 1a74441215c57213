(** Properties C07 .. C12 and C42: Huffman codes and blocks.

    [kraft], [lengths_ok], [codeword] and [prefix_free] are defined in S_Huff.v
    without reference to the model.  [Rd packed rest r B s] (P_Bitio.v) says that
    the bit reader [r] works inside an area of [packed] bytes followed by [rest],
    has consumed [B] bits of it and has the bits [s] ahead. *)
From Verif Require Import Go GoLemmas M_Bitio M_Maketree M_Maketbl M_Huf S_Bits P_Bits P_Bitio S_Huff P_Huff P_Maketree P_Maketbl
  P_HufCode P_HufTables P_HufLens P_HufBlock P_HufSend P_HufEnc P_HufOut P_HufStream.

(** ** C07 *)

Lemma used_two nchar freq c d : 0 <= c < nchar -> 0 <= d < nchar -> c <> d -> at_ freq c <> 0 -> at_ freq d <> 0 ->
  2 <= zlen (used nchar freq).
Proof.
  intros Hc Hd N Fc Fd.
  assert (I1 : In c (used nchar freq)) by (apply used_In; auto).
  assert (I2 : In d (used nchar freq)) by (apply used_In; auto).
  destruct (used nchar freq) as [|a [|b l]]; [destruct I1| |unfold zlen; cbn [length]; lia].
  destruct I1 as [<-|[]], I2 as [<-|[]]. congruence.
Qed.

(** For every frequency table in which at least two symbols occur: every symbol
    that occurs gets a length from 1 to 16, the others none, and the lengths
    exactly fill the code space.  The arrays passed in may contain anything. *)
Theorem C07_code_lengths_complete :
  forall nchar freq bitlen code left right,
    1 <= nchar <= 510 -> nchar <= alen bitlen -> nchar <= alen code ->
    2 * nchar - 1 <= alen freq <= 32767 ->
    2 * nchar - 1 <= alen left -> 2 * nchar - 1 <= alen right ->
    (forall c, 0 <= c < nchar -> 0 <= at_ freq c < 65536) ->
    (exists c d, 0 <= c < nchar /\ 0 <= d < nchar /\ c <> d /\ at_ freq c <> 0 /\ at_ freq d <> 0) ->
    exists r, makeTree nchar freq bitlen code left right = Ok r /\
      (forall c, 0 <= c < nchar -> at_ freq c <> 0 -> 1 <= at_ (r_bitlen r) c <= 16) /\
      (forall c, 0 <= c < nchar -> at_ freq c = 0 -> at_ (r_bitlen r) c = 0) /\
      kraft nchar (at_ (r_bitlen r)) = 65536.
Proof.
  intros nchar freq bitlen code left right H1 H2 H3 H4 H5 H6 H7 (c & d & Hc & Hd & N & Fc & Fd).
  destruct (makeTree_ok nchar freq bitlen code left right H1 H2 H3 H4 H5 H6 H7) as [r [E T]].
  destruct (ts_big _ _ _ _ _ _ _ T (used_two nchar freq c d Hc Hd N Fc Fd)) as [_ [_ [L [K _]]]].
  exists r. split; [exact E|]. split; [intros; now apply L|]. split; [intros; now apply L|exact K].
Qed.

(** With one symbol (or none) no code is needed: all lengths are 0 and the symbol
    itself is returned. *)
Theorem C07_single_symbol :
  forall nchar freq bitlen code left right s,
    1 <= nchar <= 510 -> nchar <= alen bitlen -> nchar <= alen code ->
    2 * nchar - 1 <= alen freq <= 32767 ->
    2 * nchar - 1 <= alen left -> 2 * nchar - 1 <= alen right ->
    0 <= s < nchar -> 0 < at_ freq s < 65536 ->
    (forall c, 0 <= c < nchar -> c <> s -> at_ freq c = 0) ->
    exists r, makeTree nchar freq bitlen code left right = Ok r /\ r_root r = s /\
      forall c, 0 <= c < nchar -> at_ (r_bitlen r) c = 0.
Proof.
  intros nchar freq bitlen code left right s H1 H2 H3 H4 H5 H6 Hs Fs F0.
  destruct (makeTree_ok nchar freq bitlen code left right H1 H2 H3 H4 H5 H6) as [r [E T]].
  { intros c Hc. destruct (Z.eq_dec c s) as [->|N]; [lia|]. rewrite F0 by auto. lia. }
  assert (U : used nchar freq = [s]).
  { pose proof (NoDup_used nchar freq) as ND.
    assert (I : forall x, In x (used nchar freq) -> x = s).
    { intros x Hx. apply used_In in Hx. destruct Hx as [Hx Fx]. destruct (Z.eq_dec x s); auto. rewrite F0 in Fx by auto. congruence. }
    assert (Is : In s (used nchar freq)) by (apply used_In; lia).
    destruct (used nchar freq) as [|a [|b l]].
    - destruct Is.
    - f_equal. apply I. now left.
    - exfalso. inversion ND as [|? ? N1 _]; subst. apply N1. rewrite (I a (or_introl eq_refl)), <- (I b (or_intror (or_introl eq_refl))). now left. }
  assert (SM : zlen (used nchar freq) < 2) by (rewrite U; unfold zlen; cbn; lia).
  destruct (ts_small _ _ _ _ _ _ _ T SM) as [_ [Z0 [R1 _]]].
  exists r. split; [exact E|]. split; [now apply R1|exact Z0].
Qed.

(** 20 symbols with Fibonacci frequencies: the unrestricted tree would be 19 deep,
    so the repair is needed. *)
Definition fib20 : list Z := [1;1;2;3;5;8;13;21;34;55;89;144;233;377;610;987;1597;2584;4181;6765].
Definition fib_freq : arr := match blit (amake 39) 0 fib20 with Ok a => a | _ => amake 39 end.

Example C07_example :
  (forall c, 0 <= c < 20 -> 0 <= at_ fib_freq c < 65536) /\
  exists r, makeTree 20 fib_freq (amake 20) (amake 20) (amake 39) (amake 39) = Ok r /\
    slice_list (r_bitlen r) 0 20 = [16;16;16;16;16;16;15;13;12;11;10;9;8;7;6;5;4;3;2;1].
Proof.
  split.
  - intros c Hc. assert (In (at_ fib_freq c) fib20).
    { replace c with (Z.of_nat (Z.to_nat c)) by lia. assert (K : (Z.to_nat c < 20)%nat) by lia. revert K. generalize (Z.to_nat c). intros k K.
      do 20 (destruct k as [|k]; [vm_compute; tauto|]). lia. }
    cbn [fib20 In] in H. lia.
  - eexists. split; vm_compute; reflexivity.
Qed.

(** ** C08 *)

(** [ln j] must be the number of symbols of length [j], as the caller provides.
    The word of a symbol is what [putcode(len, code)] writes: the [len] upper bits
    of its 16-bit code. *)
Theorem C08_codewords_prefix_free :
  forall nchar bitlen code ln,
    0 <= nchar <= alen bitlen -> nchar <= alen code -> alen ln = 17 ->
    (forall c, 0 <= c < nchar -> 0 <= at_ bitlen c <= 16) ->
    kraft nchar (at_ bitlen) <= 65536 ->
    (forall j, 1 <= j <= 16 -> at_ ln j = sumn (Z.to_nat nchar) (fun c => if at_ bitlen c =? j then 1 else 0)) ->
    exists code', makeCode nchar bitlen code ln = Ok code' /\
      prefix_free nchar (at_ bitlen)
        (fun c => to_bits (Z.to_nat (at_ bitlen c)) (at_ code' c / 2 ^ (16 - at_ bitlen c))).
Proof.
  intros nchar bitlen code ln H1 H2 H3 H4 H5 H6.
  destruct (makeCode_ok nchar bitlen code ln H1 H2 H3 H4 H5) as [code' [E [_ [_ V]]]].
  { intros j Hj. symmetry. now apply H6. }
  exists code'. split; [exact E|].
  assert (W : forall c, 0 <= c < nchar -> at_ bitlen c <> 0 ->
    to_bits (Z.to_nat (at_ bitlen c)) (at_ code' c / 2 ^ (16 - at_ bitlen c)) = codeword nchar (at_ bitlen) c).
  { intros c Hc N. rewrite V by exact Hc. destruct (Z.eqb_spec (at_ bitlen c) 0); [contradiction|]. reflexivity. }
  intros c d Hc Hd Lc Ld N t. rewrite !W by assumption.
  apply (canon_prefix_free nchar (at_ bitlen) (proj1 H1) H4 H5 c d Hc Hd Lc Ld N t).
Qed.

(** The same for the codes makeTree returns, which is what the compressor uses. *)
Theorem C08_tree_codewords_prefix_free :
  forall nchar freq bitlen code left right r,
    1 <= nchar <= 510 -> nchar <= alen bitlen -> nchar <= alen code ->
    2 * nchar - 1 <= alen freq <= 32767 ->
    2 * nchar - 1 <= alen left -> 2 * nchar - 1 <= alen right ->
    (forall c, 0 <= c < nchar -> 0 <= at_ freq c < 65536) ->
    makeTree nchar freq bitlen code left right = Ok r ->
    prefix_free nchar (at_ (r_bitlen r))
        (fun c => to_bits (Z.to_nat (at_ (r_bitlen r) c)) (at_ (r_code r) c / 2 ^ (16 - at_ (r_bitlen r) c))).
Proof.
  intros nchar freq bitlen code left right r H1 H2 H3 H4 H5 H6 H7 E.
  destruct (makeTree_ok nchar freq bitlen code left right H1 H2 H3 H4 H5 H6 H7) as [r' [E' T]].
  assert (r' = r) by congruence. subst r'.
  intros c d Hc Hd Lc Ld N t.
  destruct (Z_lt_ge_dec (zlen (used nchar freq)) 2) as [S|B].
  - destruct (ts_small _ _ _ _ _ _ _ T S) as [_ [Z0 _]]. rewrite Z0 in Lc by auto. congruence.
  - destruct (ts_big _ _ _ _ _ _ _ T ltac:(lia)) as [_ [_ [L [K C]]]].
    assert (LO : lengths_ok nchar (at_ (r_bitlen r))).
    { intros k Hk. destruct (L k Hk) as [A1 A2]. destruct (Z.eq_dec (at_ freq k) 0) as [Z|Z]; [rewrite A2 by auto; lia|specialize (A1 Z); lia]. }
    assert (F : forall k, 0 <= k < nchar -> at_ (r_bitlen r) k <> 0 -> at_ freq k <> 0).
    { intros k Hk X Y. destruct (L k Hk) as [_ A2]. apply X, A2, Y. }
    rewrite !C by auto.
    apply (canon_prefix_free nchar (at_ (r_bitlen r)) ltac:(lia) LO ltac:(lia) c d Hc Hd Lc Ld N t).
Qed.

Definition arr_of (n : Z) (l : list Z) : arr := match blit (amake n) 0 l with Ok a => a | _ => amake 0 end.

(** Lengths 2,0,1,3,3: codes 10, -, 0, 110, 111. *)
Example C08_example :
  kraft 5 (at_ (arr_of 5 [2; 0; 1; 3; 3])) = 65536 /\
  exists code', makeCode 5 (arr_of 5 [2; 0; 1; 3; 3]) (amake 5) (arr_of 17 [0; 1; 1; 2]) = Ok code' /\
    map (fun c => to_bits (Z.to_nat (at_ (arr_of 5 [2; 0; 1; 3; 3]) c)) (at_ code' c / 2 ^ (16 - at_ (arr_of 5 [2; 0; 1; 3; 3]) c))) [0; 2; 3; 4]
    = [[true; false]; [false]; [true; true; false]; [true; true; true]].
Proof. split; [vm_compute; reflexivity|]. eexists. split; vm_compute; reflexivity. Qed.

(** ** C09 *)

(** The decoding table of the character code: for every complete set of lengths
    and whatever the arrays contained before, building succeeds, and decoding a
    stream that starts with the codeword of a symbol gives that symbol and
    consumes exactly the codeword. *)
Theorem C09_character_table_inverts_code :
  forall h, dsz h -> lengths_ok Nc (at_ (cLen h)) -> kraft Nc (at_ (cLen h)) = 65536 ->
    1 <= blocksize h < 65536 ->
    exists s, makeTable Nc (cLen h) 12 (cTable h) (left h) (right h) = Ok (true, s) /\
      forall c packed rest r B t,
        0 <= c < Nc -> at_ (cLen h) c <> 0 ->
        Rd packed rest r B (codeword Nc (at_ (cLen h)) c ++ t) ->
        exists h' r', decodeCSt1 (set_cTable (t_table s) (set_left (t_left s) (set_right (t_right s) h))) r = Ok (c, h', r') /\
          Rd packed rest r' (B + at_ (cLen h) c) t.
Proof.
  intros h D L K Hb.
  destruct (makeTable_ok Nc (cLen h) 12 (cTable h) (left h) (right h)) as [s [E [A T]]]; auto.
  { unfold Nc; lia. } { rewrite (dz_cl _ D); lia. } { lia. } { unfold Nc. cbn. lia. } { rewrite (dz_ct _ D). reflexivity. }
  { rewrite (dz_left _ D). unfold Nc; lia. } { rewrite (dz_right _ D). unfold Nc; lia. }
  exists s. split; [exact E|]. intros c packed rest r B t Hc Lc R.
  set (h1 := set_cTable _ _).
  assert (DC : dcode Nc 12 (at_ (cLen h)) (fun c => 0 <= c < Nc /\ at_ (cLen h) c <> 0) (cTable h1) (left h1) (right h1) (cLen h1)).
  { constructor; cbn [cTable left right cLen set_cTable set_left set_right h1].
    - unfold Nc; lia. - lia. - rewrite (dz_cl _ D); lia. - auto. - rewrite A, (dz_ct _ D). reflexivity. - exact L.
    - intros k [Hk _]. exact Hk.
    - rewrite (tbs_ll _ _ _ _ _ _ T), (dz_left _ D). unfold Nc; lia.
    - rewrite (tbs_rl _ _ _ _ _ _ T), (dz_right _ D). unfold Nc; lia.
    - left. split; [exact K|]. split; [intros k [_ Hk]; exact Hk|]. exists s, (left h), (right h).
      split; [exact T|]. split; [reflexivity|]. rewrite (dz_left _ D), (dz_right _ D). unfold Nc. split; [lia|]. split; [lia|]. auto. }
  destruct (decodeC_dcode _ _ h1 c packed rest r B t DC Hb (conj Hc Lc) R) as [r' [E' R']]. eauto.
Qed.

(** The same for the position code: the codeword of the number of significant
    bits of [p] is followed by the lower bits of [p]. *)
Theorem C09_position_table_inverts_code :
  forall h, dsz h -> 1 <= np h <= 17 -> lengths_ok (np h) (at_ (ptLen h)) -> kraft (np h) (at_ (ptLen h)) = 65536 ->
    exists s, makeTable (np h) (ptLen h) 8 (ptTable h) (left h) (right h) = Ok (true, s) /\
      forall p packed rest r B t,
        let k := if p =? 0 then 0 else Z.log2 p + 1 in
        0 <= p < 65536 -> k < np h -> at_ (ptLen h) k <> 0 ->
        Rd packed rest r B ((codeword (np h) (at_ (ptLen h)) k ++ to_bits (Z.to_nat (k - 1)) p) ++ t) ->
        exists r', decodePSt1 (set_ptTable (t_table s) (set_left (t_left s) (set_right (t_right s) h))) r = Ok (p, r') /\
          Rd packed rest r' (B + (at_ (ptLen h) k + Z.max 0 (k - 1))) t.
Proof.
  intros h D Hn L K.
  destruct (makeTable_ok (np h) (ptLen h) 8 (ptTable h) (left h) (right h)) as [s [E [A T]]]; auto.
  { lia. } { rewrite (dz_pl _ D); unfold Npt; lia. } { lia. } { change (2 ^ (15 - 8)) with 128. lia. } { rewrite (dz_pt _ D). reflexivity. }
  { rewrite (dz_left _ D). lia. } { rewrite (dz_right _ D). lia. }
  exists s. split; [exact E|]. intros p packed rest r B t k Hp Hk Lk R.
  set (h1 := set_ptTable _ _).
  assert (DC : dcode (np h) 8 (at_ (ptLen h)) (fun c => 0 <= c < np h /\ at_ (ptLen h) c <> 0) (ptTable h1) (left h1) (right h1) (ptLen h1)).
  { constructor; cbn [ptTable left right ptLen set_ptTable set_left set_right h1].
    - lia. - lia. - rewrite (dz_pl _ D); unfold Npt; lia. - auto. - rewrite A, (dz_pt _ D). reflexivity. - exact L.
    - intros j [Hj _]. exact Hj.
    - rewrite (tbs_ll _ _ _ _ _ _ T), (dz_left _ D). lia.
    - rewrite (tbs_rl _ _ _ _ _ _ T), (dz_right _ D). lia.
    - left. split; [exact K|]. split; [intros j [_ Hj]; exact Hj|]. exists s, (left h), (right h).
      split; [exact T|]. split; [reflexivity|]. rewrite (dz_left _ D), (dz_right _ D). split; [lia|]. split; [lia|]. auto. }
  assert (NR : 0 <= nb p <= 16) by (apply (nb_range p 16); [change (2 ^ 16) with 65536; lia|lia]).
  change k with (nb p) in *.
  destruct (decodeP_dcode (np h) _ _ h1 p packed rest r B t ltac:(lia) eq_refl DC (conj (conj (proj1 NR) Hk) Lk) ltac:(lia) ltac:(lia) R) as [r' [E' R']].
  exists r'. split; [exact E'|].
  unfold posbits in R'. rewrite app_length, Nat2Z.inj_add, cw_length, to_bits_length in R' by (apply L; lia).
  replace (Z.max 0 (nb p - 1)) with (Z.of_nat (Z.to_nat (nb p - 1))) by lia. exact R'.
Qed.

(** A complete character code with a codeword of 13 bits (longer than the table
    is wide), and a reader that has that codeword ahead. *)
Definition ex_lens : arr := arr_of 510 [1; 2; 3; 4; 5; 6; 7; 8; 9; 10; 11; 12; 13; 13].
Definition ex_huf : huf := set_blocksize 7 (set_cLen ex_lens huf0).

Example C09_example :
  dsz ex_huf /\ kraft Nc (at_ (cLen ex_huf)) = 65536 /\
  codeword Nc (at_ (cLen ex_huf)) 12 = repeat true 12 ++ [false] /\
  (exists r, initGetbits 3 [255; 246; 1] = Ok r /\
     Rd 3 [] r 0 (codeword Nc (at_ (cLen ex_huf)) 12 ++ [true; true; false; false; false; false; false; false; false; false; true])).
Proof.
  split; [constructor; reflexivity|]. split; [vm_compute; reflexivity|]. split; [vm_compute; reflexivity|].
  destruct (initGetbits_bits [255; 246; 1] []) as [r [E R]].
  { repeat constructor; unfold is_byte; lia. }
  exists r. split; [exact E|]. eapply Rd_seq; [exact R|].
  intros k. do 24 (destruct k as [|k]; [vm_compute; reflexivity|]). vm_compute. destruct k; reflexivity.
Qed.

(** ** C10 and C42 *)

(** C10.  A length above 16, or a Kraft sum that is not a multiple of the code
    space, is always reported and nothing is changed; a complete set of lengths
    is always accepted. *)
Theorem C10_bad_tables_rejected :
  forall nchar bitlen tablebits table left right,
    0 <= nchar <= 65535 -> nchar <= alen bitlen -> tablebits <= 16 ->
    (forall c, 0 <= c < nchar -> 0 <= at_ bitlen c) ->
    (exists c, 0 <= c < nchar /\ 16 < at_ bitlen c) \/
      ((forall c, 0 <= c < nchar -> at_ bitlen c <= 16) /\ kraft nchar (at_ bitlen) mod 65536 <> 0) ->
    makeTable nchar bitlen tablebits table left right = Ok (false, TB table left right nchar).
Proof.
  intros nchar bitlen tb table lf rg H1 H2 H3 H4 H. apply makeTable_reject; auto. destruct H as [(c & Hc & L)|[_ K]].
  - left. intros X. specialize (X c Hc). lia.
  - now right.
Qed.

Theorem C10_complete_tables_accepted :
  forall nchar bitlen tablebits table left right,
    1 <= nchar <= 510 -> nchar <= alen bitlen -> tablebits = 8 /\ nchar <= 510 \/ tablebits = 12 ->
    lengths_ok nchar (at_ bitlen) -> kraft nchar (at_ bitlen) = 65536 ->
    alen table = 2 ^ tablebits -> 2 * nchar - 1 <= alen left -> 2 * nchar - 1 <= alen right ->
    exists s, makeTable nchar bitlen tablebits table left right = Ok (true, s).
Proof.
  intros nchar bitlen tb table lf rg H1 H2 H3 H4 H5 H6 H7 H8.
  destruct (makeTable_ok nchar bitlen tb table lf rg) as [s [E _]]; auto; try lia.
  - destruct H3 as [[-> H3]| ->]; [change (2 ^ (15 - 8)) with 128|change (2 ^ (15 - 12)) with 8]; lia.
  - eauto.
Qed.

Example C10_example :
  kraft 19 (at_ (arr_of 19 [1; 1; 1])) mod 65536 <> 0 /\ kraft 19 (at_ (arr_of 19 [1; 2; 2])) = 65536.
Proof. split; vm_compute; [discriminate|reflexivity]. Qed.

(** C42 (refuted).  Lengths that claim the code space more than once pass the
    16-bit test and run past the end of the table: four codes of length 1. *)
Theorem C42_oversubscribed_table_rejected_refuted :
  exists bitlen, alen bitlen = 19 /\ lengths_ok 19 (at_ bitlen) /\ kraft 19 (at_ bitlen) = 2 * 65536 /\
    makeTable 19 bitlen 8 (amake 256) (amake 1019) (amake 1019) = Panic.
Proof.
  exists (arr_of 19 [1; 1; 1; 1]). split; [reflexivity|]. split; [|split; vm_compute; reflexivity].
  intros k Hk. replace k with (Z.of_nat (Z.to_nat k)) by lia. assert (K : (Z.to_nat k < 19)%nat) by lia. revert K. generalize (Z.to_nat k). intros j K.
  do 19 (destruct j as [|j]; [vm_compute; split; discriminate|]). lia.
Qed.

(** What holds: an oversubscription that is not a multiple of the code space is
    rejected (a case of C10). *)
Theorem C42_oversubscribed_table_rejected_partial :
  forall nchar bitlen tablebits table left right,
    0 <= nchar <= 65535 -> nchar <= alen bitlen -> tablebits <= 16 -> lengths_ok nchar (at_ bitlen) ->
    65536 < kraft nchar (at_ bitlen) -> kraft nchar (at_ bitlen) mod 65536 <> 0 ->
    makeTable nchar bitlen tablebits table left right = Ok (false, TB table left right nchar).
Proof.
  intros nchar bitlen tb table lf rg H1 H2 H3 H4 H5 H6. apply makeTable_reject; auto. intros c Hc. apply H4. exact Hc.
Qed.

Example C42_example : 65536 < kraft 19 (at_ (arr_of 19 [1; 1; 1])) /\ kraft 19 (at_ (arr_of 19 [1; 1; 1])) mod 65536 <> 0 /\
  65536 < kraft 19 (at_ (arr_of 19 [1; 1; 1; 1; 1; 2])) /\ kraft 19 (at_ (arr_of 19 [1; 1; 1; 1; 1; 2])) mod 65536 <> 0.
Proof. vm_compute. repeat split; discriminate. Qed.

(** ** C11 *)

(** The head of a block (number of symbols and the three length tables), for any
    frequencies: the decoder gets the same number and the same lengths.  [hsz] and
    [dsz] only fix the sizes of the arrays, as allocated by the package. *)
Theorem C11_length_tables_survive :
  forall h original rest hd,
    hsz h -> 6 <= np h <= 17 -> 1 <= pbit h <= 16 -> np h < 2 ^ pbit h ->
    (forall c, 0 <= c < Nc -> 0 <= at_ (cFreq h) c < 65536) ->
    (forall k, 0 <= k < np h -> 0 <= at_ (pFreq h) k < 65536) ->
    0 <= original -> bytes rest -> dsz hd -> np hd = np h -> pbit hd = pbit h ->
    exists h1 w1 size w2, sendHead h (initPutbits original) = Ok (h1, w1, size) /\ putbits 7 0 w1 = Ok w2 /\
      (unpackable w2 = false ->
       exists r hd' r', initGetbits (wcompsize w2) (rev (wout w2) ++ rest) = Ok r /\
         readBlockHead hd r = Ok (hd', r') /\
         blocksize hd' = size /\
         (forall c, 0 <= c < Nc -> at_ (cLen hd') c = at_ (cLen h1) c) /\
         (forall k, 0 <= k < np h -> at_ (ptLen hd') k = at_ (ptLen h1) k)).
Proof.
  intros h o rest hd HZ N1 N2 N3 FC FP Ho Hrest D ND PD.
  destruct (initPutbits_Wr o Ho) as [W0 L0].
  assert (NP : npok (np h) (pbit h)) by (split; auto).
  destruct (sendHead_ok (np h) (pbit h) h (initPutbits o) NP HZ eq_refl eq_refl FC FP W0) as
    (h1 & w1 & size & r & pl & pc & lf & rg & rp & hb & E & _ & _ & _ & _ & _ & _ & _ & _ & _ & _ & _ & _ & _ & _ & _ & M & HH).
  destruct (putbits_emits 7 0 w1 (em_wf _ _ _ M) ltac:(lia)) as [w2 [E2 M2]].
  exists h1, w1, size, w2. split; [exact E|]. split; [exact E2|]. intros U.
  pose proof (emits_app _ _ _ _ _ M M2) as M3. pose proof (em_bits _ _ _ M3 [] L0 U) as Wr1. cbn [app] in Wr1.
  change (to_bits (Z.to_nat 7) 0) with (repeat false 7) in Wr1.
  destruct (Wr_flush _ _ Wr1) as [S [Le _]]. pose proof (em_wf _ _ _ M3) as W.
  assert (Hz : wcompsize w2 = zlen (wbytes w2)) by (rewrite (wwf_size _ W); unfold wbytes, zlen; now rewrite rev_length).
  change (rev (wout w2)) with (wbytes w2). rewrite Hz.
  destruct (initGetbits_bits (wbytes w2) rest) as [rd [Er Rr]].
  { unfold bytes. apply Forall_app. split; auto. apply Forall_rev. apply (wwf_bytes _ W). }
  eapply Rd_seq in Rr; [|exact S]. rewrite <- (app_nil_r hb) in Rr.
  destruct (readBlockHead_ok _ _ _ _ _ _ _ _ hd _ _ _ _ _ NP HH D ND PD Rr) as (hd' & r' & E3 & B3 & Sz & _).
  exists rd, hd', r'. split; [exact Er|]. split; [exact E3|]. split; [exact Sz|]. split.
  - exact (dc_len _ _ _ _ _ _ _ _ (bs_c _ _ _ _ _ _ _ B3)).
  - exact (dc_len _ _ _ _ _ _ _ _ (bs_p _ _ _ _ _ _ _ B3)).
Qed.

(** Frequencies with gaps of 1, 2, 19 and more unused characters; the position
    code has a single symbol. *)
Definition ex_head : huf :=
  set_np 14 (set_pbit 4 (set_buf (amake 65535) (set_cFreq
    (arr_of 1019 (([5; 0; 9; 0; 0; 7] ++ repeat 0 19 ++ [3; 3] ++ repeat 0 200) ++ [40; 1])) (set_pFreq (arr_of 33 [0; 0; 6]) huf0)))).

Example C11_example :
  hsz ex_head /\
  exists h1 w1 w2, sendHead ex_head (initPutbits 100) = Ok (h1, w1, 68) /\ putbits 7 0 w1 = Ok w2 /\ unpackable w2 = false /\
    slice_list (cLen h1) 0 8 = [3; 0; 3; 0; 0; 3; 0; 0] /\ wcompsize w2 = 14.
Proof.
  split; [constructor; reflexivity|]. eexists _, _, _.
  split; [vm_compute; reflexivity|]. split; [vm_compute; reflexivity|]. split; [vm_compute; reflexivity|]. split; vm_compute; reflexivity.
Qed.

(** ** C12 *)

(** Handing tokens to the block coder as slide.go does: stop when the output is
    marked unpackable. *)
Fixpoint put_tokens (l : list tok) (h : huf) (w : wst) : res (huf * wst) :=
  match l with
  | [] => Ok (h, w)
  | t :: l' =>
      '(h, w) <- (match t with Lit b => outputSt1 b 0 h w | Mat c p => outputSt1 c p h w end) ;;
      if unpackable w then Ok (h, w) else put_tokens l' h w
  end.

(** Reading [n] tokens as slide.go does. *)
Fixpoint get_tokens (n : nat) (h : huf) (r : rst) : res (list tok * huf * rst) :=
  match n with
  | O => Ok ([], h, r)
  | S n' =>
      '(c, h, r) <- decodeCSt1 h r ;;
      '(t, r) <- (if c <? 256 then Ok (Lit c, r) else '(p, r) <- decodePSt1 h r ;; Ok (Mat c p, r)) ;;
      '(l, h, r) <- get_tokens n' h r ;;
      Ok (t :: l, h, r)
  end.

Lemma put_tokens_ok dicbit n pb w0 : 0 <= dicbit <= 16 -> dicbit < n -> npok n pb -> forall l h w toks,
  strm dicbit n pb w0 h w toks -> Forall (tok_ok dicbit) l ->
  exists h' w', put_tokens l h w = Ok (h', w') /\ hst n pb h' /\ wwf w' /\ wrel w w' /\
    (unpackable w' = true \/ strm dicbit n pb w0 h' w' (toks ++ l)).
Proof.
  intros Hd Hdn NP. induction l as [|t l IH]; intros h w toks H Hl.
  - exists h, w. destruct H as (td & k & b & H1 & H2 & H3 & H4 & H5).
    split; [reflexivity|]. split; [eapply hcur_hst; eauto|]. split; [apply (em_wf _ _ _ H4)|]. split; [apply wrel_refl|].
    right. rewrite app_nil_r. exists td, k, b. auto.
  - inversion Hl as [|? ? Ht Hl']; subst.
    destruct (strm_step dicbit n pb w0 h w toks t Hd Hdn NP H Ht) as (h1 & w1 & E1 & S1 & W1 & R1 & G1).
    cbn [put_tokens]. replace (match t with Lit b => outputSt1 b 0 h w | Mat c p => outputSt1 c p h w end) with (outputSt1 (tokc t) (tokp t) h w) by (destruct t; reflexivity).
    rewrite E1. cbn [bind]. destruct (unpackable w1) eqn:U.
    + exists h1, w1. split; [reflexivity|]. auto.
    + destruct (IH h1 w1 (toks ++ [t]) (G1 eq_refl) Hl') as (h' & w' & E & S & W & R & G).
      exists h', w'. split; [exact E|]. split; [exact S|]. split; [exact W|]. split; [eapply wrel_trans; eauto|].
      rewrite <- app_assoc in G. exact G.
Qed.

Lemma get_tokens_run h r l h' r' : dec_run h r l h' r' -> get_tokens (length l) h r = Ok (l, h', r').
Proof.
  induction 1 as [|h r b h1 r1 l h' r' E Hb R IH|h r c p h1 r1 r2 l h' r' E Hc E2 Hp R IH]; cbn [length get_tokens]; [reflexivity| |].
  - rewrite E. cbn [bind]. destruct (Z.ltb_spec b 256); [|lia]. cbn [bind]. rewrite IH. reflexivity.
  - rewrite E. cbn [bind]. destruct (Z.ltb_spec c 256); [lia|]. rewrite E2. cbn [bind]. rewrite IH. reflexivity.
Qed.

(** C12.  Every non-empty sequence of literals and references (length code
    256 .. 509, offset below the dictionary size) goes through any number of
    blocks unchanged, from any earlier state of the tables on both sides. *)
Theorem C12_block_round_trip :
  forall dicbit h hd l original rest,
    dicbit = 13 \/ dicbit = 15 \/ dicbit = 16 ->
    hsz h -> (forall i, 0 <= i < alen (buf h) -> 0 <= at_ (buf h) i < 256) -> dsz hd ->
    l <> [] ->
    Forall (fun t => match t with Lit b => 0 <= b < 256 | Mat c p => 256 <= c < 510 /\ 0 <= p < 2 ^ dicbit end) l ->
    0 <= original -> bytes rest ->
    exists h0 h1 w1 h2 w2, encodeStartSt1 dicbit h = Ok h0 /\ put_tokens l h0 (initPutbits original) = Ok (h1, w1) /\
      encodeEndSt1 h1 w1 = Ok (h2, w2) /\
      (unpackable w2 = false ->
       exists r hd' r', initGetbits (wcompsize w2) (rev (wout w2) ++ rest) = Ok r /\
         get_tokens (length l) (decodeStartSt1 dicbit hd) r = Ok (l, hd', r') /\
         compsize r' = 0 /\ infile r' = rest).
Proof.
  intros dicbit h hd l o rest Hdb HZ HB D Ne Hl Ho Hrest.
  assert (X : exists n pb, dicbit < n /\ npok n pb /\ 12 < n <= 17 /\ 0 <= dicbit <= 16 /\
     (forall k, np (set_np_pbit dicbit k) = n /\ pbit (set_np_pbit dicbit k) = pb)).
  { destruct Hdb as [-> |[-> | ->]]; [exists 14, 4|exists 16, 5|exists 17, 5]; unfold npok; (split; [lia|]; split; [cbn; lia|]; split; [lia|]; split; [lia|]; intros k; split; reflexivity). }
  destruct X as (n & pb & Hdn & NP & Hn & Hd & SN).
  destruct (encodeStartSt1_ok dicbit n pb h HZ (lay_nil _ HB) Hn (proj1 (SN h)) (proj2 (SN h))) as [h0 [E0 C0]].
  destruct (initPutbits_Wr o Ho) as [W0 L0].
  destruct (put_tokens_ok dicbit n pb (initPutbits o) Hd Hdn NP l h0 (initPutbits o) [] (strm_start _ _ _ _ _ W0 C0) Hl)
    as (h1 & w1 & E1 & S1 & W1 & R1 & G1).
  destruct G1 as [U1|G1].
  { exists h0, h1, w1, h1, w1. split; [exact E0|]. split; [exact E1|]. unfold encodeEndSt1. rewrite U1. split; [reflexivity|discriminate]. }
  destruct (strm_end dicbit n pb _ h1 w1 ([] ++ l) Hd Hdn NP G1 Ne) as (h2 & w2 & E2 & S2 & W2 & R2 & G2).
  exists h0, h1, w1, h2, w2. split; [exact E0|]. split; [exact E1|]. split; [exact E2|]. intros U2.
  destruct (G2 U2) as (bits & BK & EM). cbn [app] in BK.
  assert (DD : dsz (decodeStartSt1 dicbit hd)).
  { destruct D. unfold decodeStartSt1, set_np_pbit. destruct (dicbit =? 12), (dicbit =? 13), (dicbit =? 15), (dicbit =? 16); constructor; auto. }
  destruct (stream_decode dicbit n pb o w2 l bits rest (decodeStartSt1 dicbit hd) NP Hd Ho Hrest BK EM U2 DD (proj1 (SN hd)) (proj2 (SN hd)) eq_refl)
    as (r & hd' & r' & E3 & DR & _ & C3 & I3).
  exists r, hd', r'. split; [exact E3|]. split; [now apply get_tokens_run|]. auto.
Qed.

(** Three tokens with a previously used coder. *)
Example C12_example :
  exists h0 h1 w1 h2 w2, hsz ex_head /\ encodeStartSt1 13 ex_head = Ok h0 /\
    put_tokens [Lit 65; Mat 300 5000; Lit 66] h0 (initPutbits 40) = Ok (h1, w1) /\
    encodeEndSt1 h1 w1 = Ok (h2, w2) /\ unpackable w2 = false.
Proof.
  eexists _, _, _, _, _. split; [constructor; reflexivity|].
  split; [vm_compute; reflexivity|]. split; [vm_compute; reflexivity|]. split; vm_compute; reflexivity.
Qed.

Print Assumptions C07_code_lengths_complete.
Print Assumptions C07_single_symbol.
Print Assumptions C08_codewords_prefix_free.
Print Assumptions C08_tree_codewords_prefix_free.
Print Assumptions C09_character_table_inverts_code.
Print Assumptions C09_position_table_inverts_code.
Print Assumptions C10_bad_tables_rejected.
Print Assumptions C10_complete_tables_accepted.
Print Assumptions C42_oversubscribed_table_rejected_refuted.
Print Assumptions C42_oversubscribed_table_rejected_partial.
Print Assumptions C11_length_tables_survive.
Print Assumptions C12_block_round_trip.
