(** Property C126: what decoding -lh2- data changes for later entries. *)
From Verif Require Import Go GoLemmas M_Crc M_Bitio M_Maketree M_Maketbl M_Huf M_Dhuf M_Shuf M_Larc M_Pm2 M_Slide M_Decode M_Lzhuf P_Writer P_KeepN1 S_Lz Properties_Lh2.

(** What the caller of DecodeLzhuf gets: the checksum, the data, the number of bytes read
    and the rest of the input; or a panic. *)
Definition decoded (r : res (glob * Z * list Z * Z * list Z)) : res (Z * list Z * Z * list Z) :=
  match r with Ok (_, crc, out, n, rest) => Ok (crc, out, n, rest) | Panic => Panic | NoFuel => NoFuel end.

Section Apart.
  Variable phi : dh -> dh.
  Definition other_dh (x : ext) : ext := EXT (phi (x_dh x)) (x_pm x) (x_cnt x) (x_flag x) (x_pos x).
  Definition other_st (st : dst * ext) : dst * ext := (fst st, other_dh (snd st)).
  Definition other_y (y : Z * dst * ext) : Z * dst * ext := (fst y, other_dh (snd y)).
  (** For -pm2-, which keeps a counter in the same variables. *)
  Definition keeps_next : Prop := forall d n, k_next (phi d) = k_next d /\ set_next n (phi d) = phi (set_next n d).

  Lemma methodC_apart m s x : m <> 1 -> m <> 2 -> m <> 3 -> (m = 13 -> keeps_next) -> decodeMethodC m s (other_dh x) = rmap other_y (decodeMethodC m s x).
  Proof.
    intros N1 N2 N3 K. unfold decodeMethodC. apply Z.eqb_neq in N1, N2, N3. rewrite N1, N2, N3. cbn [orb].
    destruct (m =? 8). { cbn [other_dh x_pos]. destruct (decodeCLzs (x_pos x) (d_r s)) as [[[c p] r]| |]; reflexivity. }
    destruct (m =? 9). { cbn [other_dh x_cnt x_flag x_pos]. destruct (decodeCLz5 _) as [c z]. reflexivity. }
    destruct (Z.eqb_spec m 13) as [E|_]; [|reflexivity]. specialize (K E). cbn [other_dh x_dh x_pm x_cnt x_flag x_pos]. rewrite (proj1 (K (x_dh x) 0)).
    destruct (decodeCPm2 _ _ _ _ _ _) as [[[[c n] p] r]| |]; cbn [bind rmap]; [|reflexivity|reflexivity]. rewrite (proj2 (K (x_dh x) n)). reflexivity.
  Qed.
  Lemma methodP_apart m s x : m <> 1 -> m <> 2 -> m <> 3 -> decodeMethodP m s (other_dh x) = rmap other_y (decodeMethodP m s x).
  Proof.
    intros N1 N2 N3. unfold decodeMethodP. apply Z.eqb_neq in N1, N2, N3. rewrite N1, N2, N3. cbn [orb].
    destruct (m =? 8); [reflexivity|]. destruct (m =? 9); [reflexivity|]. destruct (m =? 13); [|reflexivity].
    cbn [other_dh x_pm]. destruct (decodePPm2 (x_pm x) (d_r s)) as [[p r]| |]; reflexivity.
  Qed.
  Lemma step_apart m k o st : m <> 1 -> m <> 2 -> m <> 3 -> (m = 13 -> keeps_next) -> old_step m k o (other_st st) = rmap (cmap other_st other_st) (old_step m k o st).
  Proof.
    intros N1 N2 N3 K. destruct st as [s x]. unfold old_step. unfold other_st at 1. cbn [fst snd]. destruct (d_count s <? o); [|reflexivity].
    rewrite methodC_apart by assumption. destruct (decodeMethodC m s x) as [[[c s1] x1]| |]; cbn [bind rmap other_y fst snd]; [|reflexivity|reflexivity].
    destruct (c <? 256). { destruct (dput k c s1); reflexivity. }
    rewrite methodP_apart by assumption. destruct (decodeMethodP m s1 x1) as [[[p s2] x2]| |]; cbn [bind rmap other_y fst snd]; [|reflexivity|reflexivity].
    cbv zeta. destruct (dcopy _ _ _ _); reflexivity.
  Qed.

  Lemma old_apart m k b o p inp g1 g2 : m <> 1 -> m <> 2 -> m <> 3 -> (m = 13 -> keeps_next) -> g_huf g2 = g_huf g1 -> g_pm g2 = g_pm g1 -> g_dh g2 = phi (g_dh g1) ->
    rmap snd (decode_old m k b o p inp g2) = rmap snd (decode_old m k b o p inp g1).
  Proof.
    intros N1 N2 N3 K HH HP HD. unfold decode_old. cbv zeta. rewrite HH, HP, HD.
    set (t := if b then _ else _). set (x1 := EXT (g_dh g1) (g_pm g1) 0 0 0). change (EXT (phi (g_dh g1)) (g_pm g1) 0 0 0) with (other_dh x1).
    assert (ST : decodeMethodStart m p inp t (g_huf g1) (other_dh x1) = rmap (fun y => (fst y, other_dh (snd y))) (decodeMethodStart m p inp t (g_huf g1) x1)).
    { unfold decodeMethodStart. apply Z.eqb_neq in N1, N2, N3. rewrite N1, N2, N3.
      destruct (m =? 8). { destruct (initGetbits p inp); reflexivity. }
      destruct (m =? 9). { destruct (decodeStartLz5 t); reflexivity. }
      destruct (Z.eqb_spec m 13) as [E|_]; [|reflexivity]. specialize (K E). destruct (initGetbits p inp) as [r| |]; cbn [bind rmap]; [|reflexivity|reflexivity].
      cbn [other_dh x_pm]. destruct (decodeStartPm2 (x_pm x1) r) as [[q r1]| |]; cbn [bind rmap]; [|reflexivity|reflexivity].
      cbn [other_dh x_dh x_cnt x_flag x_pos fst snd]. rewrite (proj2 (K (x_dh x1) 0)). reflexivity. }
    rewrite ST. destruct (decodeMethodStart m p inp t (g_huf g1) x1) as [[[[h r] t1] x]| |]; cbn [bind rmap fst snd]; [|reflexivity|reflexivity].
    set (s0 := DST h r t1 0 0 [] 0). change (s0, other_dh x) with (other_st (s0, x)).
    rewrite (loop_map other_st (old_step m (Z.shiftl 1 k) o) (old_step m (Z.shiftl 1 k) o)) by (intros; apply step_apart; assumption).
    destruct (loop (o + 2) (old_step m (Z.shiftl 1 k) o) (s0, x)) as [[s y]| |]; reflexivity.
  Qed.
End Apart.

(** After any -lh2- data, in any process, data of all methods but -lh1-, -lh2- and -lh3-
    are decoded as they would have been without them; malformed data too. *)
Theorem C126_after_lh2_partial :
  forall broken2 size2 packed2 inp2 g g2 crc out n rest method broken size packed inp,
    DecodeLzhuf 2 broken2 size2 packed2 inp2 g = Ok (g2, crc, out, n, rest) ->
    method <> 1 -> method <> 2 -> method <> 3 ->
    decoded (DecodeLzhuf method broken size packed inp g2) = decoded (DecodeLzhuf method broken size packed inp g).
Proof.
  intros broken2 size2 packed2 inp2 g g2 crc out n rest method broken size packed inp E N1 N2 N3.
  destruct (lh2_leaves _ _ _ _ _ _ _ _ _ _ E) as (_ & H & P). unfold DecodeLzhuf. destruct (dec_dicbit method) as [k|].
  - destruct (k =? 0). { destruct (copyfile size inp) as [[[? ?] ?]| |]; reflexivity. } rewrite H. destruct (decode k broken size packed inp (g_huf g)); reflexivity.
  - assert (X : rmap snd (decode_old method (old_dicbit method) broken size packed inp g2) = rmap snd (decode_old method (old_dicbit method) broken size packed inp g)).
    { destruct (Z.eq_dec method 13) as [->|N].
      - (* the counter is cleared at the start *)
        assert (Y : forall g0, decode_old 13 (old_dicbit 13) broken size packed inp g0 = decode_old 13 (old_dicbit 13) broken size packed inp (GLOB (g_huf g0) (g_hpos g0) (g_hflag g0) (g_prevs g0) (g_text g0) (set_next 0 (g_dh g0)) (g_pm g0))) by reflexivity.
        rewrite (Y g2), (Y g). apply old_apart with (phi := fun d => set_next (k_next d) (g_dh g2)); auto; try lia. intros _ d m. split; reflexivity.
      - apply old_apart with (phi := fun _ => g_dh g2); auto. intros; contradiction. }
    destruct (decode_old method (old_dicbit method) broken size packed inp g2) as [[ga ra]| |], (decode_old method (old_dicbit method) broken size packed inp g) as [[gb rb]| |]; cbn [rmap snd] in X; try discriminate X; cbn [bind decoded]; [|reflexivity|reflexivity].
    injection X as ->. reflexivity.
Qed.

(** The hypothesis is met: -lh2- data are decoded by a new process; and what is said of
    later data is not empty: three bytes packed by the method -lz5-. *)
Example C126_example :
  decoded (DecodeLzhuf 2 false 35 6 (ex_lh2_data ++ [0]) glob0) = Ok (6624, [97; 98] ++ repeat 99 33, 6, [0]) /\
  (exists g2 crc out n rest, DecodeLzhuf 2 false 35 6 (ex_lh2_data ++ [0]) glob0 = Ok (g2, crc, out, n, rest)) /\
  decoded (DecodeLzhuf 9 false 3 4 [255; 97; 98; 99; 0] glob0) = Ok (38712, [97; 98; 99], 0, [0]).
Proof.
  assert (X : decoded (DecodeLzhuf 2 false 35 6 (ex_lh2_data ++ [0]) glob0) = Ok (6624, [97; 98] ++ repeat 99 33, 6, [0])) by (vm_compute; reflexivity).
  split; [exact X|]. split; [|vm_compute; reflexivity].
  destruct (DecodeLzhuf 2 false 35 6 (ex_lh2_data ++ [0]) glob0) as [[[[[g2 c] o] n] r]| |]; try discriminate X. exists g2, c, o, n, r. reflexivity.
Qed.

Print Assumptions C126_after_lh2_partial.
Print Assumptions C126_example.
