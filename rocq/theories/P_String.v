(** What the text that describes a header tells. *)
From Coq Require Import String.
From Coq Require DecimalZ HexadecimalN HexadecimalPos.
From Verif Require Import Go S_Text M_Header M_List M_String P_Text.

Lemma until_newline (a b r s : list Z) : ~ In 10 a -> ~ In 10 b -> a ++ newline ++ r = b ++ newline ++ s -> a = b /\ r = s.
Proof.
  unfold newline. cbn [app]. revert b. induction a as [|x a IH]; intros [|y b] A B E; cbn [app] in E.
  - injection E. auto.
  - injection E as <- _. exfalso. apply B. left. reflexivity.
  - injection E as -> _. exfalso. apply A. left. reflexivity.
  - injection E as -> E. destruct (IH b) as [-> ->]; [intros H; apply A; right; exact H|intros H; apply B; right; exact H|exact E|auto].
Qed.

Lemma text_inj s t : text s = text t -> s = t.
Proof.
  revert t. induction s as [|c s IH]; intros [|d t] E; try discriminate E; [reflexivity|].
  rewrite !text_string in E. injection E as E1 E2. f_equal; [|apply IH; exact E2].
  apply Znat.Nat2Z.inj in E1. rewrite <- (Ascii.ascii_nat_embedding c), <- (Ascii.ascii_nat_embedding d). f_equal. exact E1.
Qed.

Lemma uint_oneline u : ~ In 10 (text (DecimalString.NilEmpty.string_of_uint u)).
Proof. induction u; cbn [DecimalString.NilEmpty.string_of_uint]; [intros []|..]; rewrite text_string; intros [E|E]; try discriminate E; exact (IHu E). Qed.
Lemma huint_oneline u : ~ In 10 (text (HexadecimalString.NilEmpty.string_of_uint u)).
Proof. induction u; cbn [HexadecimalString.NilEmpty.string_of_uint]; [intros []|..]; rewrite text_string; intros [E|E]; try discriminate E; exact (IHu E). Qed.

Lemma decimal_oneline n : ~ In 10 (decimal n).
Proof.
  unfold decimal. destruct (Z.to_int n) as [u|u]; cbn [DecimalString.NilZero.string_of_int].
  - unfold DecimalString.NilZero.string_of_uint. destruct u; try apply uint_oneline. intros [E|[]]; discriminate E.
  - rewrite text_string. intros [E|E]; [discriminate E|]. revert E. unfold DecimalString.NilZero.string_of_uint. destruct u; try apply uint_oneline. intros [E|[]]; discriminate E.
Qed.

Lemma to_int_nonnil n : Z.to_int n <> Decimal.Pos Decimal.Nil /\ Z.to_int n <> Decimal.Neg Decimal.Nil.
Proof.
  rewrite <- (DecimalZ.of_to n), DecimalZ.to_of. destruct (Z.to_int n) as [u|u]; cbn [Decimal.norm].
  - pose proof (DecimalFacts.unorm_nonnil u). split; congruence.
  - destruct (Decimal.nzhead u) eqn:E; split; congruence.
Qed.

Lemma decimal_inj m n : decimal m = decimal n -> m = n.
Proof.
  unfold decimal. intros E. apply text_inj in E. apply (f_equal DecimalString.NilZero.int_of_string) in E.
  destruct (to_int_nonnil m), (to_int_nonnil n). rewrite !DecimalString.NilZero.isi in E by assumption. injection E as E. apply DecimalZ.to_int_inj. exact E.
Qed.

(** A numeral with zeros in front. *)
Fixpoint zeroed (k : nat) (u : Hexadecimal.uint) : Hexadecimal.uint := match k with O => u | Datatypes.S k => Hexadecimal.D0 (zeroed k u) end.

Lemma to_hex_nonnil n : N.to_hex_uint n <> Hexadecimal.Nil.
Proof. destruct n; [discriminate|]. apply HexadecimalPos.Unsigned.to_uint_nonnil. Qed.

Lemma fmt_04x_uint v : exists k, fmt_04x v = text (HexadecimalString.NilEmpty.string_of_uint (zeroed k (N.to_hex_uint (Z.to_N v)))).
Proof.
  exists (4 - List.length (hexadecimal v))%nat. unfold fmt_04x. generalize (4 - List.length (hexadecimal v))%nat as k.
  intros k. unfold hexadecimal. induction k as [|k IH].
  - cbn [repeat app zeroed]. pose proof (to_hex_nonnil (Z.to_N v)) as H. unfold HexadecimalString.NilZero.string_of_uint. destruct (N.to_hex_uint (Z.to_N v)); [contradiction|reflexivity..].
  - cbn [repeat app zeroed HexadecimalString.NilEmpty.string_of_uint]. rewrite text_string, IH. reflexivity.
Qed.

Lemma of_zeroed k u : N.of_hex_uint (zeroed k u) = N.of_hex_uint u.
Proof. induction k as [|k IH]; [reflexivity|]. rewrite <- IH. reflexivity. Qed.

Lemma fmt_04x_oneline v : ~ In 10 (fmt_04x v).
Proof. destruct (fmt_04x_uint v) as [k ->]. apply huint_oneline. Qed.

Lemma fmt_04x_inj m n : 0 <= m -> 0 <= n -> fmt_04x m = fmt_04x n -> m = n.
Proof.
  intros M N E. destruct (fmt_04x_uint m) as [j Em], (fmt_04x_uint n) as [k En]. rewrite Em, En in E. apply text_inj in E.
  apply (f_equal HexadecimalString.NilEmpty.uint_of_string) in E. rewrite !HexadecimalString.NilEmpty.usu in E. injection E as E.
  apply (f_equal N.of_hex_uint) in E. rewrite !of_zeroed, !HexadecimalN.Unsigned.of_to in E. lia.
Qed.

Lemma fmt_d0 v : fmt_d 0 v = decimal v.
Proof. reflexivity. Qed.

Lemma fmt_bool_oneline b : ~ In 10 (fmt_bool b).
Proof. destruct b; cbn; intros H; repeat (destruct H as [H|H]; [discriminate H|]); exact H. Qed.

Lemma fmt_bool_inj a b : fmt_bool a = fmt_bool b -> a = b.
Proof. destruct a, b; [reflexivity|discriminate..|reflexivity]. Qed.
