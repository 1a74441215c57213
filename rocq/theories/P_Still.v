(** Functions that change no file. *)
From Verif Require Import Go GoLemmas M_Crc M_Bitio M_Maketree M_Maketbl M_Huf M_Slide M_Lzhuf M_Header M_Os M_Archive P_Os P_Single.

Definition still {A} (v : bool) (m : IO A) : Prop :=
  forall w, w_verify w = v -> match m w with Done _ w' | Crash w' => w_verify w' = v /\ w_fs w' = w_fs w /\ w_ops w' = w_ops w | Unknown => True end.

Lemma still_bind {A B} v (m : IO A) (k : A -> IO B) : still v m -> (forall a, still v (k a)) -> still v (bindIO m k).
Proof.
  intros Hm Hk w Hv. specialize (Hm w Hv). unfold bindIO. destruct (m w) as [a w'|w'|]; auto. destruct Hm as [V' [F' O']].
  specialize (Hk a w' V'). destruct (k a w') as [b w''|w''|]; auto; destruct Hk as [V'' [F'' O'']]; (split; [exact V''|split; congruence]).
Qed.

Lemma still_verify {B} v (k : bool -> IO B) : still v (k v) -> still v (bindIO (get w_verify) k).
Proof. intros H w Hv. rewrite bind_get, Hv. now apply H. Qed.

Lemma still_lift {A B} v (r : res A) (k : A -> IO B) : (forall a, r = Ok a -> still v (k a)) -> still v (bindIO (lift r) k).
Proof.
  intros H. destruct r as [a| |].
  - intros w. rewrite bind_lift. now apply H.
  - intros w Hv. cbn. auto.
  - intros w Hv. exact I.
Qed.

Ltac ss := intros ? ?; cbn; auto.
Ltac sbind := apply still_bind; [|intros ?].

Section Still.
  Variable E : env.

  Lemma s_decode v m h inp : still v (run_decode m h inp).
  Proof.
    unfold run_decode. sbind; [ss|]. sbind; [ss|]. sbind; [ss|]. set (r := DecodeLzhuf m a0 _ _ inp a).
    apply still_lift. intros [[[[g c] o] n] rest] _. sbind; [ss|ss].
  Qed.

  Lemma s_print v l : still v (print l).
  Proof. destruct l; ss. Qed.

  Lemma s_stream v h inp : still v (extractOneStream h inp).
  Proof.
    unfold extractOneStream. destruct (method_num (Method h)); [|ss]. destruct (isRegular h && _); [|ss]. sbind; [ss|]. destruct a; [ss|].
    sbind; [apply s_decode|]. destruct a as [[[c o] n] rest]. destruct (HasCrc h && _); ss.
  Qed.

  (** With VerifyMode set, extracting an entry touches no file. *)
  Lemma s_one h inp : still true (extractOne E h inp).
  Proof.
    unfold extractOne. sbind; [ss|]. sbind; [ss|]. apply still_verify. apply still_lift. intros st _. destruct st as [[h' p]|]; [|ss].
    apply still_lift. intros nm _. destruct nm as [name|]; [|ss]. destruct (method_num (Method h')) as [method|]; [|ss].
    destruct (isRegular h' && negb (method =? LzhdirsMethodNum)).
    - rewrite orb_true_r.
      destruct ((ExtendType h' =? ExtendMacos) && l_macbin a && list_eqb (Base name) [73; 99; 111; 110; 13]); [ss|]. destruct (l_noexec a); [ss|].
      sbind; [apply s_print|]. sbind; [apply s_decode|]. destruct a2 as [[[c o] n] rest]. sbind; [apply s_print|]. destruct (HasCrc h' && negb (c =? Crc h')); ss.
    - rewrite orb_true_r. cbn [orb negb andb]. rewrite andb_false_r. cbn [andb].
      destruct (isDirectory h' || isSymlink h' || (method =? LzhdirsMethodNum)); [ss|]. destruct (l_force a); ss.
  Qed.

  Lemma s_headers : forall fuel inp acc, still true (headers_loop E fuel inp acc).
  Proof.
    induction fuel as [|fuel IH]; intros inp acc; cbn [headers_loop]; [intros w S; exact I|].
    apply still_lift. intros [[[e ok] h] rest] _. destruct e; [|ss|ss]. destruct ok; [|ss]. sbind; [ss|]. destruct (needFile a (Name h)).
    - sbind; [apply s_one|]. destruct a0 as [[[err n] h'] rest']. destruct err; [ss|]. destruct (n =? PackedSize h'); [apply IH|].
      destruct (skipToNextpos (PackedSize h') rest') as [ok2 rest3]. destruct ok2; [apply IH|ss].
    - destruct (skipToNextpos (PackedSize h) rest) as [ok2 rest3]. destruct ok2; [ss|apply IH].
  Qed.

  Lemma s_loop {A} v sel (one : hdr -> list Z -> A -> IO (bool * Z * A * hdr * list Z)) : (forall h, still v (sel h)) -> (forall h i a, still v (one h i a)) ->
    forall fuel h inp acc, still v (extract_loop E fuel sel one h inp acc).
  Proof.
    intros Hs Ho. induction fuel as [|fuel IH]; intros h inp acc; cbn [extract_loop]; [intros w S; exact I|].
    apply still_lift. intros [[[e ok] h'] rest] _. destruct e; [|ss|ss]. destruct (negb ok); [ss|]. sbind; [apply Hs|]. destruct a.
    - sbind; [apply Ho|]. destruct a as [[[[err n] acc'] h2] rest2]. destruct err; [ss|]. destruct (n =? PackedSize h2); [apply IH|].
      destruct (skipToNextpos (PackedSize h2) rest2) as [ok2 rest3]. destruct ok2; [apply IH|ss].
    - destruct (skipToNextpos (PackedSize h') rest) as [ok2 rest3]. apply IH.
  Qed.

  Lemma s_open v : still v (open_archive E).
  Proof. unfold open_archive. sbind; [ss|]. sbind; [ss|]. destruct (os_open E a a0); [|ss]. destruct (archiveIsMsdosSfx1 a0); [|ss]. apply still_lift. intros; ss. Qed.

  Lemma s_DecompresBytes v header : still v (DecompresBytes E header).
  Proof.
    unfold DecompresBytes. sbind; [ss|]. sbind; [apply s_open|]. destruct a0; [|ss]. apply s_loop; [intros; unfold by_name; ss|].
    intros h i a0. unfold one_stream. sbind; [apply s_stream|]. destruct a1 as [[[e n] o] rest]. ss.
  Qed.

  Lemma s_CommandList v archive : still v (CommandList E archive).
  Proof. unfold CommandList. sbind; [ss|]. sbind; [ss|]. sbind; [ss|]. destruct (os_open E a0 archive); [|ss]. destruct (list_loop E a1 _ _ _ _) as [x| |]; ss. Qed.

  (** Listing, whatever VerifyMode was; afterwards it is off. *)
  Lemma s_Headers w : match Headers E w with Done _ w' | Crash w' => w_verify w' = false /\ w_fs w' = w_fs w /\ w_ops w' = w_ops w | Unknown => True end.
  Proof.
    unfold Headers, with_verify.
    assert (S : still true (f <~ get w_fs ;;; a <~ getl l_archive ;;; match os_open E f a with None => ret ([], true) | Some c => headers_loop E (S (length c)) c [] end)).
    { sbind; [ss|]. sbind; [ss|]. destruct (os_open E a a0); [apply s_headers|ss]. }
    specialize (S (set_wverify true w) eq_refl).
    match goal with |- context [match ?m with Done _ _ => _ | Crash _ => _ | Unknown => _ end] => destruct m as [x w'|w'|]; auto; destruct S as [_ [S1 S2]]; cbn; auto end.
  Qed.
End Still.
