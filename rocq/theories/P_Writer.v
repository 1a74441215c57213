(** The decoders on an output that can fail: every write is made, whatever the earlier
    ones have returned. *)
From Verif Require Import Go GoLemmas M_Crc M_Bitio M_Maketree M_Maketbl M_Huf M_Dhuf M_Shuf M_Larc M_Pm2 M_Slide M_Decode M_Lzhuf M_Writer S_Writer.

Definition rmap {A B} (f : A -> B) (r : res A) : res B := match r with Ok a => Ok (f a) | Panic => Panic | NoFuel => NoFuel end.
Definition cmap {A B C D} (f : A -> C) (k : B -> D) (c : ctl A B) : ctl C D := match c with Go a => Go (f a) | Stop b => Stop (k b) end.

Lemma forZ_map {A B} (f : A -> B) (b1 : Z -> A -> res A) (b2 : Z -> B -> res B) lo hi s :
  (forall i s, b2 i (f s) = rmap f (b1 i s)) -> forZ lo hi b2 (f s) = rmap f (forZ lo hi b1 s).
Proof.
  intros H. unfold forZ. generalize (Z.to_nat (hi - lo)) as n. intros n. revert lo s.
  induction n as [|n IH]; intros lo s; [reflexivity|]. cbn [for_up]. rewrite H.
  destruct (b1 lo s); cbn [rmap bind]; [apply IH|reflexivity|reflexivity].
Qed.

Lemma loopN_map {A B} (f : A -> B) (s1 : A -> res (ctl A A)) (s2 : B -> res (ctl B B)) n s :
  (forall s, s2 (f s) = rmap (cmap f f) (s1 s)) -> loopN n s2 (f s) = rmap (cmap f f) (loopN n s1 s).
Proof.
  intros H. revert s. induction n as [|n IH]; intros s; [reflexivity|]. cbn [loopN]. rewrite H.
  destruct (s1 s) as [[a|a]| |]; cbn [rmap cmap bind]; [apply IH|reflexivity|reflexivity|reflexivity].
Qed.

Lemma loop_map {A B} (f : A -> B) (s1 : A -> res (ctl A A)) (s2 : B -> res (ctl B B)) n s :
  (forall s, s2 (f s) = rmap (cmap f f) (s1 s)) -> loop n s2 (f s) = rmap f (loop n s1 s).
Proof.
  intros H. destruct (Z_lt_le_dec 0 n) as [L|L].
  - rewrite !loop_loopN by lia. rewrite (loopN_map f s1 s2) by exact H.
    destruct (loopN (Z.to_nat n) s1 s) as [[a|a]| |]; reflexivity.
  - destruct n; try lia; reflexivity.
Qed.

Section Sim.
Context {A : Type} (write : A -> list Z -> bool * A) (w0 : A).

(** The writer after some writes *)
Definition written (l : list (list Z)) : A := fold_left (fun w c => snd (write w c)) l w0.
Definition with_w (s : dst) : dst * A := (s, written (rev (d_out s))).

Lemma written_snoc l c : written (l ++ [c]) = snd (write (written l) c).
Proof. unfold written. rewrite fold_left_app. reflexivity. Qed.

Lemma fwriteCrcW_sim n s : snd (fwriteCrcW write n (with_w s)) = with_w (fwriteCrc n s).
Proof.
  unfold fwriteCrcW, with_w, fwriteCrc. cbn [d_out hd rev]. rewrite written_snoc.
  destruct (write (written (rev (d_out s))) _) as [b w]. reflexivity.
Qed.

Lemma dputW_sim d c s : dputW write d c (with_w s) = rmap with_w (dput d c s).
Proof.
  unfold dputW, dput. unfold with_w at 1. destruct (aset (d_text s) (d_loc s) (u8 c)) as [t| |]; cbn [bind rmap]; try reflexivity.
  destruct (u16 (d_loc s + 1) =? d) eqn:E; [|reflexivity].
  set (s1 := DST (d_huf s) (d_r s) t (u16 (d_loc s + 1)) (d_crc s) (d_out s) (d_count s)).
  pose proof (fwriteCrcW_sim d s1) as X. unfold with_w at 1 in X. change (d_out s1) with (d_out s) in X.
  destruct (fwriteCrcW write d (s1, written (rev (d_out s)))) as [b [s2 w2]]. cbn [snd] in X. injection X as -> ->. reflexivity.
Qed.

Lemma dcopyW_sim d len m s : dcopyW write d len m (with_w s) = rmap with_w (dcopy d len m s).
Proof.
  unfold dcopyW, dcopy. apply forZ_map. intros i s1. change (d_text (fst (with_w s1))) with (d_text s1).
  destruct (aget (d_text s1) (Z.land (m + i) (d - 1))); cbn [bind rmap]; try reflexivity. apply dputW_sim.
Qed.

Lemma decode_stepW_sim d o s : decode_stepW write d o (with_w s) = rmap (cmap with_w with_w) (decode_step d o s).
Proof.
  unfold decode_stepW, decode_step. unfold with_w at 1. destruct (d_count s <? o); [|reflexivity].
  destruct (decodeCSt1 (d_huf s) (d_r s)) as [[[c h] r]| |]; cbn [bind rmap]; try reflexivity.
  destruct (c <? 256).
  - set (s1 := DST h r (d_text s) (d_loc s) (d_crc s) (d_out s) (d_count s)).
    change (s1, written (rev (d_out s))) with (with_w s1). rewrite dputW_sim.
    destruct (dput d c s1) as [s2| |]; reflexivity.
  - destruct (decodePSt1 h r) as [[p r2]| |]; cbn [bind rmap d_text d_loc d_crc d_out d_count]; try reflexivity.
    set (s1 := DST h r2 (d_text s) (d_loc s) (d_crc s) (d_out s) (d_count s + (c - (256 - threshold)))).
    change (s1, written (rev (d_out s))) with (with_w s1). rewrite dcopyW_sim.
    destruct (dcopy d _ _ s1) as [s2| |]; reflexivity.
Qed.

Lemma finishW_sim s : finishW write (with_w s) = with_w (if d_loc s =? 0 then s else fwriteCrc (d_loc s) s).
Proof.
  unfold finishW. change (d_loc (fst (with_w s))) with (d_loc s). destruct (d_loc s =? 0); [reflexivity|]. apply fwriteCrcW_sim.
Qed.

Lemma decodeMethodC_out m s x c s2 x2 : decodeMethodC m s x = Ok (c, s2, x2) -> d_out s2 = d_out s.
Proof.
  unfold decodeMethodC. intros E.
  repeat match type of E with
    | (if ?b then _ else _) = _ => destruct b
    | bind ?r _ = _ => destruct r as [?| |] eqn:?; cbn [bind] in E; [|discriminate|discriminate]
    | (let '(_, _) := ?p in _) = _ => destruct p
    end; injection E as <- <- <-; reflexivity.
Qed.

Lemma decodeMethodP_out m s x c s2 x2 : decodeMethodP m s x = Ok (c, s2, x2) -> d_out s2 = d_out s.
Proof.
  unfold decodeMethodP. intros E.
  repeat match type of E with
    | (if ?b then _ else _) = _ => destruct b
    | bind ?r _ = _ => destruct r as [?| |] eqn:?; cbn [bind] in E; [|discriminate|discriminate]
    | (let '(_, _) := ?p in _) = _ => destruct p
    end; injection E as <- <- <-; reflexivity.
Qed.

Definition with_wx (st : dst * ext) : dst * A * ext := (with_w (fst st), snd st).

Lemma old_stepW_sim m d o st : old_stepW write m d o (with_wx st) = rmap (cmap with_wx with_wx) (old_step m d o st).
Proof.
  destruct st as [s x]. unfold old_stepW, old_step. unfold with_wx at 1. unfold with_w at 1. cbn [fst snd].
  destruct (d_count s <? o); [|reflexivity].
  destruct (decodeMethodC m s x) as [[[c s1] x1]| |] eqn:E1; cbn [bind rmap]; try reflexivity.
  apply decodeMethodC_out in E1. rewrite <- E1. destruct (c <? 256).
  - change (s1, written (rev (d_out s1))) with (with_w s1). rewrite dputW_sim.
    destruct (dput d c s1) as [s2| |]; reflexivity.
  - destruct (decodeMethodP m s1 x1) as [[[p s2] x2]| |] eqn:E2; cbn [bind rmap]; try reflexivity.
    apply decodeMethodP_out in E2. rewrite <- E2.
    set (s3 := DST (d_huf s2) (d_r s2) (d_text s2) (d_loc s2) (d_crc s2) (d_out s2) (d_count s2 + (c - adjust m))).
    change (s3, written (rev (d_out s2))) with (with_w s3). rewrite dcopyW_sim.
    destruct (dcopy d _ _ s3) as [s4| |]; reflexivity.
Qed.

Lemma decodeW_sim k b o p inp h r : decode k b o p inp h = Ok r ->
  exists chunks, concat chunks = dr_out r /\ decodeW write k b o p inp h w0 = Ok (r, written chunks).
Proof.
  unfold decode, decodeW. destruct (initGetbits p inp) as [r0| |]; cbn [bind]; try discriminate.
  set (s0 := DST (decodeStartSt1 k h) r0 (if b then amake (Z.shiftl 1 k) else afill (Z.shiftl 1 k) 32) 0 0 [] 0).
  change (s0, w0) with (with_w s0). rewrite (loop_map with_w _ _ _ _ (decode_stepW_sim (Z.shiftl 1 k) o)).
  destruct (loop (o + 2) (decode_step (Z.shiftl 1 k) o) s0) as [s| |]; cbn [bind rmap]; try discriminate.
  rewrite finishW_sim. set (s2 := if d_loc s =? 0 then s else fwriteCrc (d_loc s) s). intros X. injection X as <-.
  exists (rev (d_out s2)). split; reflexivity.
Qed.

Lemma decode_oldW_sim m k b o p inp g g2 r : decode_old m k b o p inp g = Ok (g2, r) ->
  exists chunks, concat chunks = dr_out r /\ decode_oldW write m k b o p inp g w0 = Ok (g2, r, written chunks).
Proof.
  unfold decode_old, decode_oldW.
  destruct (decodeMethodStart m p inp (if b then amake (Z.shiftl 1 k) else afill (Z.shiftl 1 k) 32) (g_huf g) (EXT (g_dh g) (g_pm g) 0 0 0)) as [[[[h0 r0] t0] x0]| |]; cbn [bind]; try discriminate.
  set (s0 := DST h0 r0 t0 0 0 [] 0).
  change (s0, w0, x0) with (with_wx (s0, x0)). rewrite (loop_map with_wx _ _ _ _ (old_stepW_sim m (Z.shiftl 1 k) o)).
  destruct (loop (o + 2) (old_step m (Z.shiftl 1 k) o) (s0, x0)) as [[s x]| |]; cbn [bind rmap]; try discriminate.
  unfold with_wx. cbn [fst snd].
  rewrite finishW_sim. set (s2 := if d_loc s =? 0 then s else fwriteCrc (d_loc s) s). intros X. injection X as <- <-.
  exists (rev (d_out s2)). split; reflexivity.
Qed.

(** The formats with a decoder *)
Lemma packed_sim m b o p inp g g2 crc out n rest : dec_dicbit m <> Some 0 -> DecodeLzhuf m b o p inp g = Ok (g2, crc, out, n, rest) ->
  exists chunks, concat chunks = out /\ DecodeLzhufW write m b o p inp g w0 = Ok (g2, crc, n, rest, written chunks).
Proof.
  intros H. unfold DecodeLzhuf, DecodeLzhufW. destruct (dec_dicbit m) as [k|].
  - destruct (Z.eqb_spec k 0) as [->|]; [exfalso; apply H; reflexivity|].
    destruct (decode k b o p inp (g_huf g)) as [r| |] eqn:E; cbn [bind]; try discriminate. intros X. injection X as <- <- <- <- <-.
    destruct (decodeW_sim _ _ _ _ _ _ _ E) as (ch & E1 & E2). exists ch. split; [exact E1|]. rewrite E2. reflexivity.
  - destruct (decode_old m (old_dicbit m) b o p inp g) as [[g3 r]| |] eqn:E; cbn [bind]; try discriminate. intros X. injection X as <- <- <- <- <-.
    destruct (decode_oldW_sim _ _ _ _ _ _ _ _ _ E) as (ch & E1 & E2). exists ch. split; [exact E1|]. rewrite E2. reflexivity.
Qed.
End Sim.

(** ** A disk with little room *)

Lemma disk_keeps room f l : zlen f <= room -> snd (disk room f l) = f ++ take (room - zlen f) l /\ zlen (snd (disk room f l)) <= room.
Proof.
  intros H. unfold disk. destruct (Z.leb_spec (zlen f + zlen l) room) as [L|L]; cbn [snd].
  - split; [|rewrite zlen_app; lia]. f_equal. unfold take. rewrite firstn_all2; [reflexivity|unfold zlen in *; lia].
  - split; [reflexivity|]. rewrite zlen_app. unfold take, zlen in *. rewrite firstn_length. lia.
Qed.

Lemma disk_written room chunks : forall f, zlen f <= room -> written (disk room) f chunks = f ++ take (room - zlen f) (concat chunks).
Proof.
  induction chunks as [|c chunks IH]; intros f H; cbn [concat].
  - unfold written, take. cbn [fold_left]. rewrite firstn_nil, app_nil_r. reflexivity.
  - destruct (disk_keeps room f c H) as [E1 E2]. unfold written. cbn [fold_left].
    change (written (disk room) (snd (disk room f c)) chunks = f ++ take (room - zlen f) (c ++ concat chunks)).
    rewrite IH by exact E2. rewrite E1. rewrite <- app_assoc. f_equal. unfold take. rewrite firstn_app. f_equal.
    f_equal. unfold zlen in *. rewrite app_length, firstn_length. lia.
Qed.

Lemma disk_written0 room chunks : 0 <= room -> written (disk room) [] chunks = take room (concat chunks).
Proof. intros H. rewrite disk_written by exact H. change (zlen []) with 0. rewrite Z.sub_0_r. reflexivity. Qed.

Lemma copy_loop_disk room fuel : forall buf inp r f out n, zlen f <= room -> 0 <= r -> copy_loop fuel buf inp r = Ok (out, n) ->
  (zlen f + zlen out <= room -> copy_loopW (disk room) fuel buf inp r f = Ok (false, n, [], f ++ out)) /\
  (room < zlen f + zlen out -> exists rest, copy_loopW (disk room) fuel buf inp r f = Ok (true, 0, rest, f ++ take (room - zlen f) out)).
Proof.
  induction fuel as [|fuel IH]; intros buf inp r f out n Hf Hr E; [discriminate|].
  cbn [copy_loop copy_loopW] in *. destruct (Z.eqb_spec (zlen (take buffersize inp)) 0) as [Z0|Z0].
  - injection E as <- <-. assert (inp = []) as ->.
    { destruct inp; [reflexivity|]. unfold take in Z0. change (Z.to_nat buffersize) with (S 2047) in Z0. cbn [firstn] in Z0. unfold zlen in Z0. cbn [length] in Z0. lia. }
    change (zlen []) with 0. split; intros L; [rewrite app_nil_r; reflexivity|lia].
  - set (buf2 := take buffersize inp ++ drop (zlen (take buffersize inp)) buf) in *. cbv zeta in *.
    set (ch := zlen (take buffersize inp)) in *.
    assert (0 <= ch) by (unfold ch, zlen; lia).
    destruct (copy_loop fuel buf2 (drop buffersize inp) (r + ch)) as [[o2 n2]| |] eqn:E2; cbn [bind] in E; try discriminate.
    injection E as <- <-. rewrite zlen_app. assert (0 <= zlen o2) by (unfold zlen; lia). unfold disk at 1 3.
    destruct (Z.leb_spec (zlen f + zlen buf2) room) as [L|L].
    + specialize (IH buf2 (drop buffersize inp) (r + ch) (f ++ buf2) o2 n2). rewrite zlen_app in IH.
      destruct IH as [I1 I2]; [exact L|lia|exact E2|]. split; intros K.
      * rewrite I1 by lia. rewrite app_assoc. reflexivity.
      * destruct I2 as [rest I2]; [lia|]. exists rest. rewrite I2, <- app_assoc.
        assert (T : take (room - zlen f) (buf2 ++ o2) = buf2 ++ take (room - (zlen f + zlen buf2)) o2); [|rewrite T; reflexivity].
        unfold take. rewrite firstn_app.
        f_equal; [rewrite firstn_all2; [reflexivity|unfold zlen in *; lia]|]. f_equal. unfold zlen in *. lia.
    + split; intros K; [lia|]. eexists.
      assert (T : take (room - zlen f) (buf2 ++ o2) = take (room - zlen f) buf2); [|rewrite T; reflexivity].
      unfold take. rewrite firstn_app.
      replace (Z.to_nat (room - zlen f) - length buf2)%nat with 0%nat by (unfold zlen in *; lia). cbn [firstn]. rewrite app_nil_r. reflexivity.
Qed.

Lemma copyfile_disk room size inp out n rest : 0 <= room -> copyfile size inp = Ok (out, n, rest) ->
  (zlen out <= room -> copyfileW (disk room) size inp [] = Ok (false, n, rest, out)) /\
  (room < zlen out -> exists rest2, copyfileW (disk room) size inp [] = Ok (true, 0, rest2, take room out)).
Proof.
  intros H. unfold copyfile, copyfileW. destruct (0 <? size).
  - destruct (copy_loop (S (length inp)) (repeat 0 (Z.to_nat buffersize)) inp 0) as [[o r]| |] eqn:E; cbn [bind]; try discriminate.
    intros X. injection X as <- <- <-. destruct (copy_loop_disk room _ _ _ _ [] _ _ H (Z.le_refl 0) E) as [I1 I2].
    change (zlen []) with 0 in I1, I2. rewrite Z.sub_0_r in I2. cbn [app] in I1, I2. split; [exact I1|exact I2].
  - intros X. injection X as <- <- <-. change (zlen []) with 0. split; [reflexivity|lia].
Qed.
