(** The arrays of the history of -pm2- keep their sizes, whatever is decoded. *)
From Verif Require Import Go GoLemmas M_Crc M_Bitio M_Maketree M_Maketbl M_Huf M_Dhuf M_Shuf M_Larc M_Pm2hist M_Pm2 M_Slide M_Decode M_Lzhuf P_DecAny P_DhKeep S_History S_Mtf P_Pm2hist Properties_Pm2.

Definition SH (m : pm) : Prop := sized_hist (pm_hist m).

Lemma kp_aset n a i v : alen a = n -> kp (fun b => alen b = n) (aset a i v).
Proof. intros H b E. unfold aset in E. destruct (inb a i); [|discriminate E]. injection E as <-. now rewrite alen_upd. Qed.

Ltac hset := match goal with |- kp _ (bind (aset _ _ _) _) => eapply kp_bind; [apply (kp_aset 256); assumption|]; let a := fresh "a" in let H := fresh "H" in intros a H; cbv beta in H end.
Ltac skip := apply (kp_bind (fun _ => True)); [apply kp_true|].

Lemma kp_hinit h : sized_hist h -> kp sized_hist (histInit h).
Proof.
  intros [H1 H2]. unfold histInit. eapply kp_bind; [apply (kp_for (fun s => alen (fst s) = 256 /\ alen (snd s) = 256)); [|split; assumption]|].
  - intros i [p n] [J1 J2]. cbn [fst snd] in *. unfold histInit_step. cbn [fst snd]. repeat hset. apply kp_ret. now split.
  - intros [p n] [J1 J2]. cbn [fst snd] in *. repeat hset. apply kp_ret. now split.
Qed.

Lemma kp_hupdate b h : sized_hist h -> kp sized_hist (histUpdate b h).
Proof.
  intros [H1 H2]. unfold histUpdate. destruct (b =? hlast h); [apply kp_ret; now split|]. skip. intros o1 _. skip. intros o2 _. repeat hset. skip. intros o3 _. repeat hset. apply kp_ret. now split.
Qed.

Lemma kp_maketree1 m r : SH m -> kp (fun s => SH (fst s)) (maketree1 m r).
Proof.
  intros H. unfold maketree1. skip. intros [a r1] _. skip. intros [b r2] _. cbv zeta. destruct (b =? 0); [now apply kp_ret|]. skip. intros [c r3] _. skip. intros [d r4] _. skip. intros t _. now apply kp_ret.
Qed.
Lemma kp_maketree2 n m r : SH m -> kp (fun s => SH (fst s)) (maketree2 n m r).
Proof.
  intros H. unfold maketree2. destruct (pm_bound m <? 10); [now apply kp_ret|]. destruct (_ && _); [now apply kp_ret|]. skip. intros [d r4] _. cbv zeta. destruct (filter _ _) as [|i [|j l]]; [now apply kp_ret|now apply kp_ret|]. skip. intros t _. now apply kp_ret.
Qed.

Lemma kp_renew c n m r : SH m -> kp (fun s => SH (snd (fst s))) (renew c n m r).
Proof.
  intros H. unfold renew. apply (kp_loop (fun s => SH (snd (fst s)))); [|exact H]. intros [[n1 m1] r1] H1. cbn [fst snd] in H1. destruct (n1 <=? c); [|now apply kp_ret].
  destruct (n1 =? 0); [|destruct (n1 =? 1024); [|destruct (n1 =? 2048); [|destruct (n1 =? 4096)]]].
  - eapply kp_bind; [apply kp_maketree1; exact H1|]. intros [m2 r2] H2. eapply kp_bind; [apply kp_maketree2; exact H2|]. intros [m3 r3] H3. now apply kp_ret.
  - eapply kp_bind; [apply kp_maketree2; exact H1|]. intros [m3 r3] H3. now apply kp_ret.
  - eapply kp_bind; [apply kp_maketree2; exact H1|]. intros [m3 r3] H3. now apply kp_ret.
  - skip. intros [b r2] _. apply (kp_bind (fun s => SH (fst s))); [destruct (b =? 0); [now apply kp_ret|now apply kp_maketree1]|]. intros [m2 r3] H2. eapply kp_bind; [apply kp_maketree2; exact H2|]. intros [m3 r4] H3. now apply kp_ret.
  - skip. intros [b r2] _. apply (kp_bind (fun s => SH (fst s))).
    + destruct (b =? 0); [now apply kp_ret|]. eapply kp_bind; [apply kp_maketree1; exact H1|]. intros [m2 r3] H2. now apply kp_maketree2.
    + intros [m3 r4] H3. now apply kp_ret.
Qed.

Lemma kp_decodeCPm2 t l c n m r : SH m -> kp (fun s => SH (snd (fst s))) (decodeCPm2 t l c n m r).
Proof.
  intros H. unfold decodeCPm2. apply (kp_bind SH).
  { unfold catch_up. apply (kp_loop SH); [|exact H]. intros m1 H1. destruct (pm_last m1 =? l); [now apply kp_ret|]. skip. intros b _. eapply kp_bind; [apply kp_hupdate; exact H1|]. intros h Hh. now apply kp_ret. }
  intros m1 H1. eapply kp_bind; [apply kp_renew; exact H1|]. intros [[n2 m2] r2] H2. cbn [fst snd] in H2. skip. intros [g r3] _. cbv zeta. destruct (29 <=? g); [now apply kp_ret|]. destruct (g <? 8); [skip; intros [x r4] _; skip; intros b _; now apply kp_ret|].
  destruct (g <? 23); [now apply kp_ret|]. skip. intros [x r4] _. now apply kp_ret.
Qed.

Definition shx (s : dst * ext) : Prop := SH (x_pm (snd s)).

Lemma kp_start_pm m packed inp text h x : SH (x_pm x) -> kp (fun s => SH (x_pm (snd s))) (decodeMethodStart m packed inp text h x).
Proof.
  intros H. unfold decodeMethodStart. destruct (m =? 1); [|destruct (m =? 2); [|destruct (m =? 3); [|destruct (m =? 8); [|destruct (m =? 9); [|destruct (m =? 13)]]]]].
  - skip. intros r _. skip. intros [h1 d1] _. now apply kp_ret.
  - skip. intros r _. skip. intros d1 _. now apply kp_ret.
  - skip. intros r _. destruct (decodeStartSt0 h (x_dh x)) as [h1 d1]. now apply kp_ret.
  - skip. intros r _. now apply kp_ret.
  - skip. intros r _. now apply kp_ret.
  - skip. intros r _. apply (kp_bind (fun s => SH (fst s))); [|intros [m1 r1] H1; now apply kp_ret]. unfold decodeStartPm2. eapply kp_bind; [apply kp_hinit; exact H|]. intros h1 Hh. skip. intros [b r1] _. now apply kp_ret.
  - now apply kp_ret.
Qed.

Lemma kp_methodC_pm m s x : SH (x_pm x) -> kp (fun s => SH (x_pm (snd s))) (decodeMethodC m s x).
Proof.
  intros H. unfold decodeMethodC. destruct ((m =? 1) || (m =? 2)); [|destruct (m =? 3); [|destruct (m =? 8); [|destruct (m =? 9); [|destruct (m =? 13)]]]].
  - skip. intros [[c d] r] _. now apply kp_ret.
  - skip. intros [[c h] r] _. now apply kp_ret.
  - skip. intros [[c h] r] _. now apply kp_ret.
  - cbv zeta. destruct (decodeCLz5 _) as [c z]. now apply kp_ret.
  - eapply kp_bind; [apply kp_decodeCPm2; exact H|]. intros [[[c n] m1] r] H1. now apply kp_ret.
  - now apply kp_ret.
Qed.

Lemma kp_methodP_pm m s x : SH (x_pm x) -> kp (fun s => SH (x_pm (snd s))) (decodeMethodP m s x).
Proof.
  intros H. unfold decodeMethodP. destruct ((m =? 1) || (m =? 3)); [|destruct (m =? 2); [|destruct (m =? 8); [|destruct (m =? 9); [|destruct (m =? 13)]]]].
  - skip. intros [p r] _. now apply kp_ret.
  - skip. intros [[c d] r] _. now apply kp_ret.
  - now apply kp_ret.
  - now apply kp_ret.
  - skip. intros [p r] _. now apply kp_ret.
  - now apply kp_ret.
Qed.

Lemma kp_decode_old_pm m k broken o p inp g : SH (g_pm g) -> kp (fun s => SH (g_pm (fst s))) (decode_old m k broken o p inp g).
Proof.
  intros H. unfold decode_old. cbv zeta. eapply kp_bind; [apply kp_start_pm; exact H|]. intros [[[h r] t] x] H1. cbn [snd] in H1.
  eapply kp_bind; [apply (kp_loop shx shx); [|exact H1]|].
  { intros [s y] HS. unfold shx in HS. cbn [snd] in HS. unfold old_step. destruct (d_count s <? o); [|now apply kp_ret].
    eapply kp_bind; [apply kp_methodC_pm; exact HS|]. intros [[c s1] x1] HS1. cbn [snd] in HS1. destruct (c <? 256).
    - skip. intros s2 _. now apply kp_ret.
    - cbv zeta. eapply kp_bind; [apply kp_methodP_pm; exact HS1|]. intros [[p2 s2] x2] HS2. cbn [snd] in HS2. skip. intros s3 _. now apply kp_ret. }
  intros [s y] HS. apply kp_ret. exact HS.
Qed.

Lemma encode_pm k mx size inp g : kp (fun er => g_pm (er_glob er) = g_pm g) (encode k mx size inp g).
Proof.
  unfold encode. cbv zeta. skip. intros [hp hf] _. skip. intros h _. skip. intros t _. destruct inp as [|b inp]; [now apply kp_ret|].
  skip. intros [[[t1 crc] v] i] _. do 3 (skip; intros ? _). skip. intros [h2 w] _. now apply kp_ret.
Qed.

Lemma run_call_sh c g g' : SH (g_pm g) -> run_call c g = Some g' -> SH (g_pm g').
Proof.
  intros H E. destruct c as [m size inp|m broken o p inp]; cbn [run_call] in E.
  - destruct (EncodeLzhuf m size inp g) as [eo| |] eqn:X; try discriminate. injection E as <-. revert eo X.
    change (kp (fun eo => SH (g_pm (eo_glob eo))) (EncodeLzhuf m size inp g)). unfold EncodeLzhuf.
    destruct (if 0 <? m then method_params m else None) as [[k mx]|].
    + cbv zeta. eapply kp_bind; [apply encode_pm|]. intros er HE. cbv beta in HE. destruct (er_original er =? 0); [intros ? Z; discriminate Z|]. apply kp_ret. cbn [eo_glob]. rewrite HE.
      unfold encodeAlloc. destruct (alen (g_hpos g) =? 0); exact H.
    + cbv zeta. skip. intros [[out r] rest] _. destruct (r =? 0); [intros ? Z; discriminate Z|]. now apply kp_ret.
  - destruct (DecodeLzhuf m broken o p inp g) as [[[[[g1 a] b] c] d]| |] eqn:X; try discriminate. injection E as <-.
    assert (Y : kp (fun s => SH (g_pm (fst (fst (fst (fst s)))))) (DecodeLzhuf m broken o p inp g)); [|exact (Y _ X)]. clear X.
    unfold DecodeLzhuf. destruct (dec_dicbit m) as [k|].
    + destruct (k =? 0); [skip; intros [[out r] rest] _; now apply kp_ret|]. skip. intros x _. now apply kp_ret.
    + eapply kp_bind; [apply kp_decode_old_pm; exact H|]. intros [g2 x] H2. now apply kp_ret.
Qed.

Theorem after_hist cs g : after cs g -> sized_hist (pm_hist (g_pm g)).
Proof.
  intros [_ R]. assert (Z0 : SH (g_pm glob0)) by (split; reflexivity). revert Z0 R. generalize glob0. induction cs as [|c cs IH]; intros g0 Z0 R; cbn [run_calls] in R.
  - injection R as <-. exact Z0.
  - destruct (run_call c g0) as [g1|] eqn:E; [|discriminate]. apply (IH g1); [|exact R]. eapply run_call_sh; eauto.
Qed.
