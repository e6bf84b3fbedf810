(** Lemmas about the primitive value model. *)
From Coq Require Import String Ascii List Bool ZArith NArith Lia.
From Coq Require Import Floats.SpecFloat.
From Coq Require Decimal DecimalZ DecimalString Hexadecimal HexadecimalString.
From Verif Require Import PyBase PyBaseFacts Primitives SpecNum FloatFacts.
Import ListNotations.
Open Scope string_scope.

(** ** span *)

Definition head_not (p : ascii -> bool) (s : string) : Prop :=
  match s with EmptyString => True | String c _ => p c = false end.

Lemma span_spec : forall p s a b, span p s = (a, b) ->
  s = a ++ b /\ all_chars p a = true /\ head_not p b.
Proof.
  induction s as [|c s IH]; simpl; intros a b H.
  - inversion H; subst. simpl. auto.
  - destruct (p c) eqn:E.
    + destruct (span p s) as [a' b'] eqn:Es. inversion H; subst.
      destruct (IH _ _ eq_refl) as [H1 [H2 H3]]. subst. simpl. rewrite E. auto.
    + inversion H; subst. simpl. auto.
Qed.

Lemma span_app : forall p a b, all_chars p a = true -> head_not p b -> span p (a ++ b) = (a, b).
Proof.
  induction a as [|c a IH]; simpl; intros b Ha Hb.
  - destruct b; simpl in *; auto. rewrite Hb. reflexivity.
  - apply andb_prop in Ha as [H1 H2]. rewrite H1, IH; auto.
Qed.

Lemma span_all : forall p a, all_chars p a = true -> span p a = (a, "").
Proof. intros. rewrite <- (append_nil_r a) at 1. apply span_app; simpl; auto. Qed.

Lemma all_chars_app : forall p a b, all_chars p (a ++ b) = (all_chars p a && all_chars p b)%bool.
Proof. induction a; simpl; intros; auto. rewrite IHa. apply andb_assoc. Qed.

Lemma all_chars_impl : forall (p q : ascii -> bool) s,
  (forall c, p c = true -> q c = true) -> all_chars p s = true -> all_chars q s = true.
Proof.
  induction s; simpl; intros Hpq H; auto. apply andb_prop in H as [H1 H2].
  rewrite Hpq by assumption. simpl. auto.
Qed.

Lemma is_empty_false : forall s, is_empty s = false <-> nonempty s.
Proof. unfold nonempty. destruct s; simpl; split; intro H; auto; try discriminate; congruence. Qed.

Lemma is_empty_true : forall s, is_empty s = true -> s = "".
Proof. destruct s; simpl; auto; discriminate. Qed.

(** Facts about one character are decided by enumerating the 256 code points. *)
Definition all_ascii : list ascii :=
  map ascii_of_nat (seq 0 256).

Lemma all_ascii_complete : forall c, In c all_ascii.
Proof.
  intro c. unfold all_ascii. rewrite <- (ascii_nat_embedding c).
  apply in_map. apply in_seq. pose proof (nat_ascii_bounded c). lia.
Qed.

Lemma ascii_forall : forall (P : ascii -> bool), forallb P all_ascii = true -> forall c, P c = true.
Proof. intros P H c. rewrite forallb_forall in H. apply H, all_ascii_complete. Qed.

Ltac char_case c :=
  clear - c; revert c;
  match goal with |- forall c, @?P c = true => apply (ascii_forall P); vm_compute; reflexivity end.

Lemma digit_not_space : forall c, is_digit c = true -> is_space c = false.
Proof.
  intros c H. assert (X : implb (is_digit c) (negb (is_space c)) = true) by char_case c.
  rewrite H in X. simpl in X. now apply negb_true_iff in X.
Qed.

Lemma digit_hex : forall c, is_digit c = true -> is_hex c = true.
Proof. intros c H. unfold is_hex. now rewrite H. Qed.

Lemma bit_digit : forall c, is_bit c = true -> is_digit c = true.
Proof.
  intros c H. assert (X : implb (is_bit c) (is_digit c) = true) by char_case c.
  now rewrite H in X.
Qed.

Lemma digit_lower_char : forall c, is_digit c = true -> lower_char c = c.
Proof.
  intros c H. assert (X : implb (is_digit c) (Ascii.eqb (lower_char c) c) = true) by char_case c.
  rewrite H in X. simpl in X. now apply Ascii.eqb_eq.
Qed.

(** ** strip *)

Lemma rstrip_spaces : forall w, all_chars is_space w = true -> rstrip w = "".
Proof.
  induction w; simpl; auto. intro H. apply andb_prop in H as [H1 H2].
  rewrite IHw, H1 by assumption. reflexivity.
Qed.

(** The last character is not a blank. *)
Fixpoint last_ok (s : string) : bool :=
  match s with
  | EmptyString => true
  | String c EmptyString => negb (is_space c)
  | String _ s' => last_ok s'
  end.

Lemma last_ok_cons : forall c s, s <> "" -> last_ok (String c s) = last_ok s.
Proof. intros c s H. destruct s; [congruence|reflexivity]. Qed.

Lemma rstrip_app : forall t w, last_ok t = true -> all_chars is_space w = true -> rstrip (t ++ w) = t.
Proof.
  induction t as [|c t IH]; intros w Ht Hw.
  - now apply rstrip_spaces.
  - simpl. destruct t as [|c' t'].
    + rewrite rstrip_spaces by assumption. simpl in *. apply negb_true_iff in Ht. now rewrite Ht.
    + rewrite IH; auto. rewrite andb_false_r. reflexivity.
Qed.

Lemma strip_app : forall w1 t w2, all_chars is_space w1 = true -> all_chars is_space w2 = true ->
  t <> "" -> head_not is_space t -> last_ok t = true -> strip (w1 ++ t ++ w2) = t.
Proof.
  intros w1 t w2 H1 H2 Hne Hh Hl. unfold strip, lstrip.
  rewrite span_app; auto.
  - simpl. now apply rstrip_app.
  - destruct t; [congruence|]. exact Hh.
Qed.

Lemma rstrip_decomp : forall s, exists w, s = rstrip s ++ w /\ all_chars is_space w = true
  /\ last_ok (rstrip s) = true.
Proof.
  induction s as [|c s [w [H1 [H2 H3]]]]; simpl.
  - exists "". auto.
  - destruct (rstrip s) eqn:Er; simpl.
    + destruct (is_space c) eqn:Ec; simpl.
      * exists (String c w). simpl. rewrite Ec, H2. split; auto. simpl in H1. now subst.
      * exists w. simpl in H1. subst. simpl. rewrite Ec. auto.
    + rewrite andb_false_r. exists w. split; [|split; auto]. now rewrite H1 at 1.
Qed.

Lemma strip_decomp : forall s, exists w1 w2, s = w1 ++ strip s ++ w2 /\
  all_chars is_space w1 = true /\ all_chars is_space w2 = true /\ last_ok (strip s) = true.
Proof.
  intro s. unfold strip, lstrip. destruct (span is_space s) as [a b] eqn:E. simpl.
  apply span_spec in E as [H1 [H2 H3]].
  destruct (rstrip_decomp b) as [w [H4 [H5 H6]]].
  exists a, w. rewrite H1. repeat split; auto. now rewrite <- H4.
Qed.

(** ** int() syntax *)

Lemma int_digits_plain : forall d b acc rest, all_chars is_digit d = true ->
  int_digits (d ++ rest) b acc =
  int_digits rest (if is_empty d then b else true) (base_val 10 acc d).
Proof.
  induction d as [|c d IH]; simpl; intros b acc rest H; auto.
  apply andb_prop in H as [H1 H2]. rewrite H1, IH by assumption.
  destruct d; reflexivity.
Qed.

Lemma grouped_digits_int : forall d, GroupedDigits d -> forall acc,
  exists z, int_digits d false acc = Some z.
Proof.
  intros d Hg. induction Hg as [d Hne Hd|d r Hne Hd Hg IH]; intro acc.
  - rewrite <- (append_nil_r d), int_digits_plain by assumption.
    apply is_empty_false in Hne. rewrite Hne. simpl. eauto.
  - rewrite int_digits_plain by assumption. apply is_empty_false in Hne. rewrite Hne.
    change ("_" ++ r) with (String "_" r). simpl. apply IH.
Qed.

Lemma int_digits_inv : forall s b acc z, int_digits s b acc = Some z ->
  (b = true -> s = "" \/ GroupedDigits s \/ exists r, s = String "_" r /\ GroupedDigits r) /\
  (b = false -> GroupedDigits s) .
Proof.
  induction s as [|c s IH]; simpl; intros b acc z H.
  - destruct b; [|discriminate]. split; [auto|discriminate].
  - destruct (is_digit c) eqn:Ec.
    + specialize (IH _ _ _ H) as [IH _]. specialize (IH eq_refl).
      assert (Hg : GroupedDigits (String c s)).
      { destruct IH as [IH|[IH|[r [Hr IH]]]].
        - subst. apply GD_one; [discriminate|]. simpl. now rewrite Ec.
        - inversion IH; subst.
          + apply GD_one; [discriminate|]. simpl. now rewrite Ec.
          + change (String c (d ++ "_" ++ r)) with (String c d ++ "_" ++ r).
            apply GD_more; auto. discriminate. simpl. now rewrite Ec.
        - subst. change (String c (String "_" r)) with (String c "" ++ "_" ++ r).
          apply GD_more; auto. discriminate. simpl. now rewrite Ec. }
      split; auto.
    + destruct (Ascii.eqb c "_" && b)%bool eqn:E; [|discriminate].
      apply andb_prop in E as [E1 E2]. apply Ascii.eqb_eq in E1. subst.
      split; [|discriminate]. intros _. right. right. exists s. split; auto.
      apply (IH _ _ _ H); auto.
Qed.

Lemma grouped_nonempty : forall d, GroupedDigits d -> d <> "".
Proof. intros d H. inversion H; subst; auto. destruct d0; [congruence|discriminate]. Qed.

Lemma grouped_head : forall d, GroupedDigits d -> exists c r, d = String c r /\ is_digit c = true.
Proof.
  intros d H. inversion H; subst.
  - destruct d; [now elim H0|]. simpl in H1. apply andb_prop in H1 as [H1 _]. eauto.
  - destruct d0; [now elim H0|]. simpl in H1. apply andb_prop in H1 as [H1 _]. simpl. eauto.
Qed.

Lemma last_ok_app : forall a b, b <> "" -> last_ok (a ++ b) = last_ok b.
Proof.
  induction a as [|c a IH]; intros b Hb; auto.
  change (String c a ++ b) with (String c (a ++ b)).
  rewrite last_ok_cons; auto. destruct a; auto. discriminate.
Qed.

Lemma digits_last_ok : forall d, all_chars is_digit d = true -> last_ok d = true.
Proof.
  induction d as [|c d IH]; intro H; auto. simpl in H. apply andb_prop in H as [H1 H2].
  destruct d.
  - simpl. now rewrite digit_not_space.
  - rewrite last_ok_cons by discriminate. auto.
Qed.

Lemma grouped_last_ok : forall d, GroupedDigits d -> last_ok d = true.
Proof.
  intros d H. induction H as [d Hne Hd|d r Hne Hd Hg IH].
  - now apply digits_last_ok.
  - rewrite last_ok_app by discriminate. change ("_" ++ r) with (String "_" r).
    rewrite last_ok_cons; auto. now apply grouped_nonempty.
Qed.

Lemma take_sign_text : forall sg d, (exists c r, d = String c r /\ is_digit c = true) ->
  take_sign (sign_text sg ++ d) = (match sg with Minus => true | _ => false end, d).
Proof.
  intros sg d [c [r [Hd Hc]]]. subst. destruct sg; simpl; auto.
  assert (X : implb (is_digit c) (negb (Ascii.eqb c "-") && negb (Ascii.eqb c "+"))%bool = true) by char_case c.
  rewrite Hc in X. simpl in X. apply andb_prop in X as [X1 X2].
  apply negb_true_iff in X1, X2.
  destruct c as [[] [] [] [] [] [] [] []]; try reflexivity; vm_compute in X1, X2; discriminate.
Qed.

Lemma intlit_parses : forall s, IntLit s -> exists z, py_int s = Some z.
Proof.
  intros s H. inversion H as [w1 sg d w2 H1 H2 Hg]; subst. unfold py_int.
  replace (w1 ++ sign_text sg ++ d ++ w2) with (w1 ++ (sign_text sg ++ d) ++ w2)
    by now rewrite append_assoc.
  rewrite strip_app; auto.
  - rewrite take_sign_text by now apply grouped_head.
    destruct (grouped_digits_int d Hg 0) as [z Hz]. rewrite Hz. simpl. eauto.
  - destruct (grouped_head d Hg) as [c [r [E _]]]. subst. destruct sg; discriminate.
  - destruct (grouped_head d Hg) as [c [r [E Hc]]]. subst. destruct sg; simpl; auto.
    now apply digit_not_space.
  - rewrite last_ok_app. now apply grouped_last_ok. now apply grouped_nonempty.
Qed.

Lemma take_sign_inv : forall s neg r, take_sign s = (neg, r) ->
  exists sg, s = sign_text sg ++ r /\ neg = match sg with Minus => true | _ => false end.
Proof.
  intros s neg r H. destruct s as [|c s].
  - inversion H; subst. exists NoSign. auto.
  - unfold take_sign in H.
    destruct (Ascii.eqb c "-") eqn:E1.
    { apply Ascii.eqb_eq in E1. subst. inversion H; subst. exists Minus. auto. }
    destruct (Ascii.eqb c "+") eqn:E2.
    { apply Ascii.eqb_eq in E2. subst. inversion H; subst. exists Plus. auto. }
    exists NoSign.
    destruct c as [[] [] [] [] [] [] [] []]; try (inversion H; subst; simpl; auto; fail);
      vm_compute in E1, E2; discriminate.
Qed.

Lemma py_int_inv : forall s z, py_int s = Some z -> IntLit s.
Proof.
  intros s z H. unfold py_int in H. destruct (take_sign (strip s)) as [neg r] eqn:E.
  destruct (int_digits r false 0) eqn:Ed; [|discriminate].
  apply int_digits_inv in Ed as [_ Hg]. specialize (Hg eq_refl).
  apply take_sign_inv in E as [sg [E _]].
  destruct (strip_decomp s) as [w1 [w2 [H1 [H2 [H3 _]]]]].
  rewrite H1, E. rewrite append_assoc. constructor; auto.
Qed.

(** ** Decimal texts *)

Lemma uint_digits : forall u, all_chars is_digit (DecimalString.NilEmpty.string_of_uint u) = true.
Proof. induction u; simpl; auto. Qed.

Lemma base_val_uint_acc : forall u acc,
  base_val 10 (Zpos acc) (DecimalString.NilEmpty.string_of_uint u) = Zpos (Pos.of_uint_acc u acc).
Proof.
  induction u; intro acc; auto; cbn [DecimalString.NilEmpty.string_of_uint base_val Pos.of_uint_acc];
    rewrite <- IHu; f_equal; vm_compute digit_val; lia.
Qed.

Lemma base_val_uint : forall u,
  base_val 10 0 (DecimalString.NilEmpty.string_of_uint u) = Z.of_uint u.
Proof.
  induction u; auto; unfold Z.of_uint in *; cbn [DecimalString.NilEmpty.string_of_uint base_val];
    first [ exact IHu | apply base_val_uint_acc ].
Qed.

Lemma eqb_head : forall c s t, match t with String d _ => Ascii.eqb c d = false | _ => True end ->
  String.eqb (String c s) t = false.
Proof. intros c s [|d t] H; simpl; auto. now rewrite H. Qed.

Definition digit_or_sign (c : ascii) : bool :=
  (is_digit c || Ascii.eqb c "+" || Ascii.eqb c "-")%bool.

(** second character is a digit or there is none: no hex and no binary match *)
Lemma no_prefix_match : forall c s,
  match s with String d _ => is_digit d = true | _ => True end ->
  match_hex (String c s) = None /\ match_bin (String c s) = None.
Proof.
  intros c s H. unfold match_hex, match_bin.
  destruct s as [|d s].
  - destruct c as [[] [] [] [] [] [] [] []]; auto.
  - assert (X : implb (is_digit d) (negb (Ascii.eqb d "x") && negb (Ascii.eqb d "X") &&
        negb (Ascii.eqb d "b") && negb (Ascii.eqb d "B"))%bool = true) by char_case d.
    rewrite H in X. simpl in X.
    apply andb_prop in X as [X X4]. apply andb_prop in X as [X X3]. apply andb_prop in X as [X1 X2].
    apply negb_true_iff in X1, X2, X3, X4. rewrite X1, X2, X3, X4.
    destruct c as [[] [] [] [] [] [] [] []]; auto.
Qed.

Lemma no_prefix_match_sign : forall c s, Ascii.eqb c "0" = false ->
  match_hex (String c s) = None /\ match_bin (String c s) = None.
Proof.
  intros c s H. unfold match_hex, match_bin.
  destruct c as [[] [] [] [] [] [] [] []]; auto. vm_compute in H. discriminate.
Qed.

(** A decimal text reaches the decimal branch of the conversion. *)
Lemma dec_text_branch : forall sg d, nonempty d -> all_chars is_digit d = true ->
  let s := sign_text sg ++ d in
  String.eqb s "true" = false /\ String.eqb s "false" = false /\
  match_hex s = None /\ match_bin s = None.
Proof.
  intros sg d Hne Hd. destruct d as [|c d]; [now elim Hne|].
  simpl in Hd. apply andb_prop in Hd as [Hc Hd].
  assert (X : implb (is_digit c) (negb (Ascii.eqb c "t") && negb (Ascii.eqb c "f"))%bool = true) by char_case c.
  rewrite Hc in X. simpl in X. apply andb_prop in X as [X1 X2]. apply negb_true_iff in X1, X2.
  destruct sg; simpl sign_text; cbv zeta.
  - change ("" ++ String c d) with (String c d).
    rewrite !eqb_head by assumption. repeat split; auto;
      apply no_prefix_match; destruct d; auto; simpl in Hd; apply andb_prop in Hd as [Hd _]; auto.
  - repeat split; auto; apply (no_prefix_match_sign "+" (String c d)); auto.
  - repeat split; auto; apply (no_prefix_match_sign "-" (String c d)); auto.
Qed.

Lemma match_decimal_int : forall sg d, nonempty d -> all_chars is_digit d = true ->
  match_decimal (sign_text sg ++ d) = Some (match sg with Minus => true | _ => false end, d, "", 0%Z).
Proof.
  intros sg d Hne Hd. unfold match_decimal.
  rewrite take_sign_text.
  - rewrite span_all by assumption. apply is_empty_false in Hne. rewrite Hne. reflexivity.
  - destruct d; [now elim Hne|]. simpl in Hd. apply andb_prop in Hd as [H _]. eauto.
Qed.

Lemma uint_text_nonempty : forall u, u <> Decimal.Nil -> nonempty (DecimalString.NilEmpty.string_of_uint u).
Proof. intros u H. unfold nonempty. destruct u; try discriminate. congruence. Qed.

Lemma of_uint_nonneg : forall u, (0 <= Z.of_uint u)%Z.
Proof. intro u. unfold Z.of_uint. lia. Qed.

Lemma convert_dec_text : forall sg u, u <> Decimal.Nil ->
  convert (dec_text sg u) =
  Ok (NFloat (dec_to_float (match sg with Minus => true | _ => false end) (Z.of_uint u) 0)).
Proof.
  intros sg u Hu. unfold dec_text.
  pose proof (uint_text_nonempty u Hu) as Hne. pose proof (uint_digits u) as Hd.
  destruct (dec_text_branch sg _ Hne Hd) as [H1 [H2 [H3 H4]]].
  unfold convert. rewrite H1, H2, H3, H4, match_decimal_int by assumption.
  unfold decimal_float. rewrite append_nil_r, base_val_uint. reflexivity.
Qed.

Lemma convert_dec_exact : forall sg u, u <> Decimal.Nil -> (Z.of_uint u <= 2 ^ 53)%Z ->
  exists v, convert (dec_text sg u) = Ok v /\ numv_is v (dec_value sg u).
Proof.
  intros sg u Hu Hb. rewrite convert_dec_text by assumption. eexists. split; [reflexivity|].
  unfold numv_is, dec_to_float, dec_value.
  pose proof (of_uint_nonneg u). destruct (Z.of_uint u) as [|p|p] eqn:E; [| |lia].
  - destruct sg; reflexivity.
  - change (0 <=? 0)%Z with true. cbv iota. rewrite Z.pow_0_r, Z.mul_1_r.
    destruct sg; simpl apply_sign; simpl sign_apply;
      apply (normalize_exact _ _); lia.
Qed.

(** ** Hexadecimal texts *)

Lemma hex_char_lower : forall c, is_hex (lower_char c) = true -> is_hex c = true /\ digit_val c = digit_val (lower_char c).
Proof.
  intros c H.
  assert (X : implb (is_hex (lower_char c)) (is_hex c && Z.eqb (digit_val c) (digit_val (lower_char c)))%bool = true)
    by char_case c.
  rewrite H in X. simpl in X. apply andb_prop in X as [X1 X2]. apply Z.eqb_eq in X2. auto.
Qed.

Lemma hex_lower_val : forall s b acc, all_chars is_hex (lower s) = true ->
  all_chars is_hex s = true /\ base_val b acc s = base_val b acc (lower s).
Proof.
  induction s as [|c s IH]; simpl; intros b acc H; auto.
  apply andb_prop in H as [H1 H2]. apply hex_char_lower in H1 as [H1 H3].
  destruct (IH b (acc * b + digit_val c)%Z H2) as [H4 H5]. rewrite H1, H4, H5, H3. auto.
Qed.

Lemma hex_uint_digits : forall u, all_chars is_hex (HexadecimalString.NilEmpty.string_of_uint u) = true.
Proof. induction u; simpl; auto. Qed.

Lemma base_val_hex_acc : forall u acc,
  base_val 16 (Zpos acc) (HexadecimalString.NilEmpty.string_of_uint u) = Zpos (Pos.of_hex_uint_acc u acc).
Proof.
  induction u; intro acc; auto; cbn [HexadecimalString.NilEmpty.string_of_uint base_val Pos.of_hex_uint_acc];
    rewrite <- IHu; f_equal; vm_compute digit_val; lia.
Qed.

Lemma base_val_hex : forall u,
  base_val 16 0 (HexadecimalString.NilEmpty.string_of_uint u) = Z.of_hex_uint u.
Proof.
  induction u; auto; unfold Z.of_hex_uint in *; cbn [HexadecimalString.NilEmpty.string_of_uint base_val];
    first [ exact IHu | apply base_val_hex_acc ].
Qed.

Lemma lower_char_x : forall c, lower_char c = "x"%char -> (Ascii.eqb c "x" || Ascii.eqb c "X")%bool = true.
Proof.
  intros c H. assert (X : implb (Ascii.eqb (lower_char c) "x") (Ascii.eqb c "x" || Ascii.eqb c "X")%bool = true)
    by char_case c.
  rewrite H in X. exact X.
Qed.
Lemma lower_char_0 : forall c, lower_char c = "0"%char -> c = "0"%char.
Proof.
  intros c H. assert (X : implb (Ascii.eqb (lower_char c) "0") (Ascii.eqb c "0")%bool = true)
    by char_case c.
  rewrite H in X. now apply Ascii.eqb_eq.
Qed.

Lemma convert_hex : forall x d, (x = "x"%char \/ x = "X"%char) -> nonempty d -> all_chars is_hex d = true ->
  forall rest, head_not is_hex rest ->
  convert (String "0" (String x (d ++ rest))) = Ok (NInt (base_val 16 0 d)).
Proof.
  intros x d Hx Hne Hd rest Hr. unfold convert.
  change (String.eqb (String "0" (String x (d ++ rest))) "true") with false.
  change (String.eqb (String "0" (String x (d ++ rest))) "false") with false. cbv iota.
  unfold match_hex.
  replace (Ascii.eqb x "x" || Ascii.eqb x "X")%bool with true by (destruct Hx; subst; reflexivity).
  rewrite span_app by assumption. apply is_empty_false in Hne. now rewrite Hne.
Qed.

Lemma convert_hex_text : forall t u, hex_text t u -> u <> Hexadecimal.Nil ->
  convert t = Ok (NInt (Z.of_hex_uint u)).
Proof.
  intros t u H Hu. unfold hex_text in H.
  destruct t as [|c0 [|c1 d]]; try discriminate. simpl in H. injection H as H0 H1 H2.
  apply lower_char_0 in H0. apply lower_char_x in H1. subst c0.
  pose proof (hex_uint_digits u) as Hh. rewrite <- H2 in Hh.
  destruct (hex_lower_val d 16 0 Hh) as [H3 H4].
  rewrite <- (append_nil_r d).
  rewrite convert_hex; simpl; auto.
  - rewrite H4, H2, base_val_hex. reflexivity.
  - apply orb_prop in H1 as [H1|H1]; apply Ascii.eqb_eq in H1; auto.
  - intro E. subst. simpl in H2. destruct u; discriminate || congruence.
Qed.

(** ** Binary texts *)

Lemma bits_digits : forall bs, all_chars is_bit (bits_text bs) = true.
Proof. induction bs as [|[] bs IH]; simpl; auto. Qed.

Lemma base_val_bits : forall bs acc,
  base_val 2 acc (bits_text bs) =
  fold_left (fun acc (b : bool) => (2 * acc + (if b then 1 else 0))%Z) bs acc.
Proof.
  induction bs as [|b bs IH]; intro acc; auto. simpl bits_text. cbn [base_val fold_left].
  rewrite IH. f_equal. destruct b; vm_compute digit_val; lia.
Qed.

Lemma convert_bin : forall x d, (x = "b"%char \/ x = "B"%char) -> nonempty d -> all_chars is_digit d = true ->
  forall rest, head_not is_digit rest ->
  convert (String "0" (String x (d ++ rest))) =
  if all_chars is_bit d then Ok (NInt (base_val 2 0 d)) else Raise ValueError.
Proof.
  intros x d Hx Hne Hd rest Hr. unfold convert.
  change (String.eqb (String "0" (String x (d ++ rest))) "true") with false.
  change (String.eqb (String "0" (String x (d ++ rest))) "false") with false. cbv iota.
  replace (match_hex (String "0" (String x (d ++ rest)))) with (@None string)
    by (destruct Hx; subst; reflexivity).
  unfold match_bin.
  replace (Ascii.eqb x "b" || Ascii.eqb x "B")%bool with true by (destruct Hx; subst; reflexivity).
  rewrite span_app by assumption. apply is_empty_false in Hne. now rewrite Hne.
Qed.

Lemma convert_bits : forall x bs, x = "b"%char \/ x = "B"%char -> bs <> [] ->
  convert (String "0" (String x (bits_text bs))) = Ok (NInt (bits_value bs)).
Proof.
  intros x bs Hx Hbs. rewrite <- (append_nil_r (bits_text bs)).
  rewrite convert_bin; simpl; auto.
  - rewrite bits_digits, base_val_bits. reflexivity.
  - destruct bs; [congruence|]. discriminate.
  - eapply all_chars_impl; [|apply bits_digits]. apply bit_digit.
Qed.

(** ** Acceptance *)

Lemma at_end_nl : forall nl, nl = "" \/ nl = newline -> at_end nl = true.
Proof. intros nl [H|H]; subst; reflexivity. Qed.

Lemma nl_head_not_digit : forall nl, nl = "" \/ nl = newline -> head_not is_digit nl.
Proof. intros nl [H|H]; subst; simpl; auto. Qed.

Lemma take_sign_digits : forall sg d rest, nonempty d -> all_chars is_digit d = true ->
  take_sign (sign_text sg ++ d ++ rest) = (match sg with Minus => true | _ => false end, d ++ rest).
Proof.
  intros. apply take_sign_text. destruct d; [now elim H|].
  simpl in H0. apply andb_prop in H0 as [H0 _]. simpl. eauto.
Qed.

Lemma match_exp_ok : forall e nl, ExpPart e -> nl = "" \/ nl = newline ->
  exists z, match_exp (e ++ nl) = Some z.
Proof.
  intros e nl He Hnl. inversion He; subst.
  - simpl append. unfold match_exp. rewrite at_end_nl by assumption. eauto.
  - unfold match_exp.
    change (String e0 (sign_text sg ++ d) ++ nl) with (String e0 ((sign_text sg ++ d) ++ nl)).
    rewrite append_assoc. set (r := sign_text sg ++ d ++ nl).
    assert (Hend : at_end (String e0 r) = false).
    { unfold at_end. subst r. destruct d as [|c d]; [now elim H0|]. destruct sg; simpl; auto. }
    rewrite Hend.
    replace (Ascii.eqb e0 "e" || Ascii.eqb e0 "E")%bool with true by (destruct H; subst; reflexivity).
    subst r. rewrite take_sign_digits by assumption.
    rewrite span_app; auto using nl_head_not_digit.
    apply is_empty_false in H0. rewrite H0, at_end_nl by assumption. simpl. eauto.
Qed.

Lemma exp_head_not_digit : forall e nl, ExpPart e -> nl = "" \/ nl = newline ->
  head_not is_digit (e ++ nl).
Proof.
  intros e nl He Hnl. inversion He; subst.
  - simpl. now apply nl_head_not_digit.
  - simpl. destruct H; subst; reflexivity.
Qed.

Lemma exp_head_not_dot : forall e nl, ExpPart e -> nl = "" \/ nl = newline ->
  match e ++ nl with String "." _ => False | _ => True end.
Proof.
  intros e nl He Hnl. inversion He; subst.
  - simpl. destruct Hnl; subst; exact I.
  - simpl. destruct H; subst; exact I.
Qed.

Lemma floatlit_matches : forall s, FloatLit s -> exists d, match_decimal s = Some d.
Proof.
  intros s H. inversion H; subst.
  - unfold match_decimal. rewrite take_sign_digits by assumption.
    rewrite span_app; auto using exp_head_not_digit.
    apply is_empty_false in H0. rewrite H0.
    destruct (match_exp_ok e nl H2 H3) as [z Hz].
    pose proof (exp_head_not_dot e nl H2 H3) as Hdot.
    destruct (e ++ nl) as [|c r] eqn:E.
    + rewrite Hz. simpl. eauto.
    + destruct c as [[] [] [] [] [] [] [] []]; try (rewrite Hz; simpl; eauto; fail). contradiction.
  - unfold match_decimal.
    assert (Ht : take_sign (sign_text sg ++ i ++ "." ++ f ++ e ++ nl) =
      (match sg with Minus => true | _ => false end, i ++ "." ++ f ++ e ++ nl)).
    { destruct i as [|c i].
      - destruct sg; reflexivity.
      - apply take_sign_digits; auto. discriminate. }
    rewrite Ht. rewrite span_app; auto.
    change ("." ++ f ++ e ++ nl) with (String "." (f ++ e ++ nl)).
    cbv iota beta. rewrite span_app; auto using exp_head_not_digit.
    destruct (match_exp_ok e nl H3 H4) as [z Hz]. rewrite Hz.
    destruct (is_empty i) eqn:Ei; [|simpl; eauto].
    destruct (is_empty f) eqn:Ef; [|simpl; eauto].
    apply is_empty_true in Ei, Ef. subst. destruct H0 as [H0|H0]; now elim H0.
    simpl. reflexivity.
Qed.

Lemma match_bin_shape : forall s d, match_bin s = Some d -> 
  exists x r, s = String "0" (String x r) /\ (x = "b"%char \/ x = "B"%char) /\
   nonempty d /\ exists rest, r = d ++ rest /\ all_chars is_digit d = true /\ head_not is_digit rest.
Proof.
  intros s d H. unfold match_bin in H.
  destruct s as [|c [|x r]]; try (destruct c as [[] [] [] [] [] [] [] []]; discriminate); [discriminate|].
  destruct (Ascii.eqb c "0") eqn:Ec.
  2:{ destruct c as [[] [] [] [] [] [] [] []]; try discriminate; vm_compute in Ec; discriminate. }
  apply Ascii.eqb_eq in Ec. subst c.
  destruct (Ascii.eqb x "b" || Ascii.eqb x "B")%bool eqn:Ex; [|discriminate].
  destruct (span is_digit r) as [a b] eqn:Es. destruct (is_empty a) eqn:Ea; [discriminate|].
  inversion H; subst. apply span_spec in Es as [H1 [H2 H3]].
  exists x, r. repeat split; auto.
  - apply orb_prop in Ex as [Ex|Ex]; apply Ascii.eqb_eq in Ex; auto.
  - now apply is_empty_false.
  - exists b. auto.
Qed.

Lemma match_hex_shape : forall s d, match_hex s = Some d -> 
  exists x r, s = String "0" (String x r) /\ (x = "x"%char \/ x = "X"%char) /\
   nonempty d /\ exists rest, r = d ++ rest /\ all_chars is_hex d = true /\ head_not is_hex rest.
Proof.
  intros s d H. unfold match_hex in H.
  destruct s as [|c [|x r]]; try (destruct c as [[] [] [] [] [] [] [] []]; discriminate); [discriminate|].
  destruct (Ascii.eqb c "0") eqn:Ec.
  2:{ destruct c as [[] [] [] [] [] [] [] []]; try discriminate; vm_compute in Ec; discriminate. }
  apply Ascii.eqb_eq in Ec. subst c.
  destruct (Ascii.eqb x "x" || Ascii.eqb x "X")%bool eqn:Ex; [|discriminate].
  destruct (span is_hex r) as [a b] eqn:Es. destruct (is_empty a) eqn:Ea; [discriminate|].
  inversion H; subst. apply span_spec in Es as [H1 [H2 H3]].
  exists x, r. repeat split; auto.
  - apply orb_prop in Ex as [Ex|Ex]; apply Ascii.eqb_eq in Ex; auto.
  - now apply is_empty_false.
  - exists b. auto.
Qed.

(** A text "0b..." is neither a float literal nor an int literal. *)
Lemma bin_not_decimal : forall x r, x = "b"%char \/ x = "B"%char ->
  match_decimal (String "0" (String x r)) = None /\ py_int (String "0" (String x r)) = None.
Proof.
  intros x r Hx. split.
  - destruct Hx; subst; destruct r; reflexivity.
  - destruct (py_int (String "0" (String x r))) eqn:E; auto. exfalso.
    unfold py_int, strip, lstrip in E. destruct Hx; subst;
    simpl in E; destruct (rstrip r); simpl in E; discriminate.
Qed.

Lemma numlit_accepted : forall s, NumLit s -> exists v, convert s = Ok v.
Proof.
  intros s H. inversion H; subst; try (eexists; reflexivity).
  - inversion H0; subst. rewrite <- (append_nil_r d). rewrite convert_hex; simpl; eauto.
  - inversion H0; subst. rewrite <- (append_nil_r d). rewrite convert_bin; simpl; eauto.
    + rewrite H3. eauto.
    + eapply all_chars_impl; [|exact H3]. apply bit_digit.
  - destruct (floatlit_matches s H0) as [d Hd]. unfold convert.
    destruct (String.eqb s "true"); eauto. destruct (String.eqb s "false"); eauto.
    destruct (match_hex s); eauto.
    destruct (match_bin s) eqn:Eb.
    + exfalso. apply match_bin_shape in Eb as [x [r [E [Hx _]]]]. subst.
      destruct (bin_not_decimal x r Hx). congruence.
    + rewrite Hd. eauto.
  - destruct (intlit_parses s H0) as [z Hz]. unfold convert.
    destruct (String.eqb s "true"); eauto. destruct (String.eqb s "false"); eauto.
    destruct (match_hex s); eauto.
    destruct (match_bin s) eqn:Eb.
    + exfalso. apply match_bin_shape in Eb as [x [r [E [Hx _]]]]. subst.
      destruct (bin_not_decimal x r Hx). congruence.
    + destruct (match_decimal s); eauto. rewrite Hz. eauto.
Qed.

Lemma at_end_inv : forall s, at_end s = true -> s = "" \/ s = newline.
Proof.
  intros [|c [|]] H; auto; try discriminate. right. simpl in H. apply N.eqb_eq in H.
  unfold newline. f_equal. apply code_inj. rewrite H. reflexivity.
Qed.

Lemma match_exp_inv : forall s z, match_exp s = Some z ->
  exists e nl, s = e ++ nl /\ ExpPart e /\ (nl = "" \/ nl = newline).
Proof.
  intros s z H. unfold match_exp in H. destruct (at_end s) eqn:Ee.
  - apply at_end_inv in Ee. exists "", s. repeat split; auto. constructor.
  - destruct s as [|c r]; [discriminate|].
    destruct (Ascii.eqb c "e" || Ascii.eqb c "E")%bool eqn:Ec; [|discriminate].
    destruct (take_sign r) as [neg r1] eqn:Es. destruct (span is_digit r1) as [d r2] eqn:Ed.
    destruct (negb (is_empty d) && at_end r2)%bool eqn:Ex; [|discriminate].
    apply andb_prop in Ex as [Ex1 Ex2]. apply negb_true_iff, is_empty_false in Ex1.
    apply at_end_inv in Ex2. apply span_spec in Ed as [E1 [E2 _]].
    apply take_sign_inv in Es as [sg [Es _]]. subst.
    exists (String c (sign_text sg ++ d)), r2. simpl. rewrite append_assoc. repeat split; auto.
    constructor; auto. apply orb_prop in Ec as [Ec|Ec]; apply Ascii.eqb_eq in Ec; auto.
Qed.

Lemma match_decimal_inv : forall s d, match_decimal s = Some d -> FloatLit s.
Proof.
  intros s d H. unfold match_decimal in H.
  destruct (take_sign s) as [neg r] eqn:Es. destruct (span is_digit r) as [ip r1] eqn:Ei.
  apply take_sign_inv in Es as [sg [Es _]]. apply span_spec in Ei as [E1 [E2 _]]. subst.
  assert (Hdot : forall r2 fp r3, r1 = String "." r2 -> span is_digit r2 = (fp, r3) ->
     nonempty ip \/ nonempty fp -> forall z, match_exp r3 = Some z -> FloatLit (sign_text sg ++ ip ++ r1)).
  { intros r2 fp r3 Hr Hsp Hne z Hz. apply span_spec in Hsp as [E3 [E4 _]].
    apply match_exp_inv in Hz as [e [nl [E5 [E6 E7]]]]. subst.
    change (String "." (fp ++ e ++ nl)) with ("." ++ fp ++ e ++ nl). now apply FL_frac. }
  destruct (is_empty ip) eqn:Ee.
  - destruct r1 as [|c r2]; [discriminate|].
    destruct (Ascii.eqb c ".") eqn:Ec.
    2:{ destruct c as [[] [] [] [] [] [] [] []]; try discriminate; vm_compute in Ec; discriminate. }
    apply Ascii.eqb_eq in Ec. subst c.
    destruct (span is_digit r2) as [fp r3] eqn:Ef. destruct (is_empty fp) eqn:Efp; [discriminate|].
    destruct (match_exp r3) eqn:Em; [|discriminate].
    eapply Hdot; eauto. right. now apply is_empty_false.
  - apply is_empty_false in Ee.
    destruct r1 as [|c r2].
    + destruct (match_exp "") eqn:Em; [|discriminate].
      apply match_exp_inv in Em as [e [nl [E5 [E6 E7]]]]. rewrite E5. now apply FL_int.
    + destruct (Ascii.eqb c ".") eqn:Ec.
      * apply Ascii.eqb_eq in Ec. subst c.
        destruct (span is_digit r2) as [fp r3] eqn:Ef.
        destruct (match_exp r3) eqn:Em; [|discriminate].
        eapply Hdot; eauto.
      * assert (Hm : exists z, match_exp (String c r2) = Some z).
        { destruct c as [[] [] [] [] [] [] [] []];
            try (destruct (match_exp _) eqn:Em in H; [eauto|discriminate]).
          vm_compute in Ec. discriminate. }
        destruct Hm as [z Hz]. apply match_exp_inv in Hz as [e [nl [E5 [E6 E7]]]]. rewrite E5.
        now apply FL_int.
Qed.

Lemma convert_inv : forall s v, convert s = Ok v ->
  NumLit s \/ exists lit junk, (HexLit lit \/ BinLit lit) /\ junk <> "" /\ s = lit ++ junk.
Proof.
  intros s v H. unfold convert in H.
  destruct (String.eqb s "true") eqn:E1; [apply String.eqb_eq in E1; subst; left; constructor|].
  destruct (String.eqb s "false") eqn:E2; [apply String.eqb_eq in E2; subst; left; constructor|].
  destruct (match_hex s) eqn:Eh.
  { apply match_hex_shape in Eh as [x [r [E [Hx [Hne [rest [Er [Hd Hn]]]]]]]]. subst.
    destruct rest as [|c rest].
    - left. rewrite append_nil_r. apply NL_hex. now constructor.
    - right. exists (String "0" (String x s0)), (String c rest). repeat split; try discriminate.
      left. now constructor. }
  destruct (match_bin s) eqn:Eb.
  { destruct (all_chars is_bit s0) eqn:Ebits; [|discriminate].
    apply match_bin_shape in Eb as [x [r [E [Hx [Hne [rest [Er [Hd Hn]]]]]]]]. subst.
    destruct rest as [|c rest].
    - left. rewrite append_nil_r. apply NL_bin. now constructor.
    - right. exists (String "0" (String x s0)), (String c rest). repeat split; try discriminate.
      right. now constructor. }
  destruct (match_decimal s) eqn:Ed.
  { left. apply NL_float. eapply match_decimal_inv; eauto. }
  destruct (py_int s) eqn:Ei; [|discriminate].
  left. apply NL_int. eapply py_int_inv; eauto.
Qed.

(** ** Printing ints *)

Lemma uint_text_nonempty' : forall u, is_empty (DecimalString.NilZero.string_of_uint u) = false.
Proof. destruct u; reflexivity. Qed.

Lemma nilzero_digits : forall u, all_chars is_digit (DecimalString.NilZero.string_of_uint u) = true.
Proof. destruct u; try reflexivity; simpl; apply uint_digits. Qed.

Lemma nilzero_val : forall u, base_val 10 0 (DecimalString.NilZero.string_of_uint u) = Z.of_uint u.
Proof. intro u. destruct u; [reflexivity|..]; apply (base_val_uint). Qed.

Lemma strip_digits_sign : forall sg d, nonempty d -> all_chars is_digit d = true ->
  strip (sign_text sg ++ d) = sign_text sg ++ d.
Proof.
  intros sg d Hne Hd.
  pose proof (strip_app "" (sign_text sg ++ d) "" eq_refl eq_refl) as Hs.
  rewrite append_nil_r in Hs. simpl append in Hs at 1. apply Hs.
  - destruct d; [now elim Hne|]. destruct sg; discriminate.
  - destruct d; [now elim Hne|]. simpl in Hd. apply andb_prop in Hd as [Hd _].
    destruct sg; simpl; auto. now apply digit_not_space.
  - rewrite last_ok_app by assumption. now apply digits_last_ok.
Qed.

Lemma py_int_digits : forall sg d, nonempty d -> all_chars is_digit d = true ->
  py_int (sign_text sg ++ d) = Some (sign_apply sg (base_val 10 0 d)).
Proof.
  intros sg d Hne Hd. unfold py_int. rewrite strip_digits_sign by assumption.
  rewrite take_sign_text.
  - rewrite <- (append_nil_r d) at 1. rewrite int_digits_plain by assumption.
    apply is_empty_false in Hne. rewrite Hne. simpl. destruct sg; reflexivity.
  - destruct d; [now elim Hne|]. simpl in Hd. apply andb_prop in Hd as [H _]. eauto.
Qed.

Lemma py_str_int_text : forall z, exists sg d, py_str_int z = sign_text sg ++ d /\ nonempty d /\
  all_chars is_digit d = true /\ sign_apply sg (base_val 10 0 d) = z.
Proof.
  intro z. unfold py_str_int. pose proof (DecimalZ.of_to z) as Hz.
  destruct (Z.to_int z) as [u|u]; subst z.
  - exists NoSign, (DecimalString.NilZero.string_of_uint u). simpl sign_text. simpl append.
    repeat split; auto.
    + apply is_empty_false, uint_text_nonempty'.
    + apply nilzero_digits.
    + simpl. rewrite nilzero_val. reflexivity.
  - exists Minus, (DecimalString.NilZero.string_of_uint u).
    repeat split; auto.
    + apply is_empty_false, uint_text_nonempty'.
    + apply nilzero_digits.
    + simpl. rewrite nilzero_val. reflexivity.
Qed.

Lemma py_int_str : forall z, py_int (py_str_int z) = Some z.
Proof.
  intro z. destruct (py_str_int_text z) as [sg [d [H1 [H2 [H3 H4]]]]].
  rewrite H1, py_int_digits by assumption. now rewrite H4.
Qed.
