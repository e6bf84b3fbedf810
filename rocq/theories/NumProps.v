(** Proofs of the numeric/boolean/reference properties in the form stated in Prop_Num.v. *)
From Coq Require Import String Ascii List Bool ZArith NArith Lia.
From Coq Require Import Floats.SpecFloat.
From Coq Require Decimal DecimalString Hexadecimal HexadecimalString.
From Verif Require Import PyBase PyBaseFacts Primitives SpecNum FloatFacts PrimitivesFacts NumFacts.
Import ListNotations.
Open Scope string_scope.

Lemma dec_small_value : forall k n sg u, u <> Decimal.Nil -> (Z.of_uint u <= 2 ^ 53)%Z ->
  exists n' v, num_setValue k n (PStr (dec_text sg u)) = (n', None) /\
    n_value n' = Some v /\ numv_is v (dec_value sg u).
Proof.
  intros k n sg u Hu Hb. destruct (convert_dec_exact sg u Hu Hb) as [v [H1 H2]].
  destruct (set_str_value k n _ _ H1) as [n' [H3 H4]]. eauto.
Qed.

Lemma hex_value : forall k n t u, hex_text t u -> u <> Hexadecimal.Nil ->
  exists n', num_setValue k n (PStr t) = (n', None) /\ n_value n' = Some (NInt (Z.of_hex_uint u)).
Proof. intros. apply set_str_value. now apply convert_hex_text. Qed.

Lemma bin_value : forall k n x bs, x = "b"%char \/ x = "B"%char -> bs <> [] ->
  exists n', num_setValue k n (PStr (String "0" (String x (bits_text bs)))) = (n', None) /\
    n_value n' = Some (NInt (bits_value bs)).
Proof. intros. apply set_str_value. now apply convert_bits. Qed.

Lemma malformed_rejected : forall k n s, ~ NumLit s ->
  (forall lit junk, HexLit lit \/ BinLit lit -> s <> lit ++ junk) ->
  snd (num_setValue k n (PStr s)) = Some ValueError.
Proof.
  intros k n s H1 H2. rewrite setValue_str. unfold set_str.
  destruct (convert s) as [v|e] eqn:E; simpl.
  - apply convert_inv in E as [E|[lit [junk [A [_ B]]]]]; [contradiction|].
    elim (H2 lit junk A B).
  - now rewrite (convert_exn _ _ E).
Qed.

Lemma wellformed_accepted : forall k n s, NumLit s -> snd (num_setValue k n (PStr s)) = None.
Proof.
  intros k n s H. destruct (numlit_accepted s H) as [v Hv].
  destruct (set_str_value k n s v Hv) as [n' [E _]]. now rewrite E.
Qed.

Lemma string_assignment_independent : forall k n m s,
  snd (num_setValue k n (PStr s)) = snd (num_setValue k m (PStr s)) /\
  (snd (num_setValue k n (PStr s)) = None ->
   n_value (fst (num_setValue k n (PStr s))) = n_value (fst (num_setValue k m (PStr s)))).
Proof.
  intros k n m s. rewrite !setValue_str. unfold set_str.
  destruct (convert s); simpl; split; auto. discriminate.
Qed.

Lemma int_history : forall repr zs z,
  let n := num_run KNum num_new (map (fun x => OpSetValue (PInt x)) (zs ++ [z])) in
  n_value n = Some (NInt z) /\
  num_str repr n = DecimalString.NilZero.string_of_int (Z.to_int z).
Proof.
  intros repr zs z n.
  assert (Ht : n_text n = None).
  { unfold n. rewrite run_keeps_text; [reflexivity|]. apply Forall_forall. intros o Ho.
    apply in_map_iff in Ho as [x [<- _]]. simpl. auto. }
  assert (Hv : n_value n = Some (NInt z)).
  { unfold n, num_run. rewrite map_app, fold_left_app. reflexivity. }
  split; auto. unfold num_str. rewrite Ht, Hv. reflexivity.
Qed.

(** A positive integer set only from ints is never negative. *)
Lemma pos_ints_nonneg : forall os, Forall (fun o => forall s, o <> OpSetValue (PStr s)) os ->
  forall v, n_value (num_run KPos num_new os) = Some v -> ~ numv_negative v.
Proof.
  intros os Hos.
  assert (G : forall os n, Forall (fun o => forall s, o <> OpSetValue (PStr s)) os ->
    (forall v, n_value n = Some v -> ~ numv_negative v) ->
    forall v, n_value (num_run KPos n os) = Some v -> ~ numv_negative v).
  { clear. induction os as [|o os IH]; intros n H Hn; [exact Hn|].
    inversion H as [|? ? A B]; subst. apply (IH (num_step KPos n o) B).
    intros v. destruct o as [x|[l|]|t|u]; simpl; try apply Hn.
    destruct x; simpl; try apply Hn.
    - intro E. inversion E; subst. simpl. auto.
    - destruct (z <? 0)%Z eqn:Ez; simpl; [apply Hn|]. intro E. inversion E; subst. simpl.
      apply Z.ltb_ge in Ez. lia.
    - now elim (A s). }
  apply G; auto. simpl. discriminate.
Qed.

Lemma bool_text_denotes : forall vs, Forall (fun v => forall x, v <> PBool x) vs ->
  forall x, b_value (bool_run bool_new vs) = Some x -> BoolText (bool_str (bool_run bool_new vs)) x.
Proof. intros vs H. apply bool_agree_nobool; auto. intros x Hx. discriminate. Qed.

Lemma bool_text_denotes_bools : forall vs, Forall (fun v => forall s, v <> PStr s) vs ->
  Forall (fun v => forall z, v <> PInt z) vs ->
  forall x, b_value (bool_run bool_new vs) = Some x -> BoolText (bool_str (bool_run bool_new vs)) x.
Proof.
  intros vs H1 H2. apply bool_agree_onlybool; auto. intros x Hx. discriminate.
Qed.

Lemma short_value_unset : forall r, r_value r = None -> ref_getShortValue r = Raise ValueError.
Proof. intros r H. unfold ref_getShortValue. now rewrite H. Qed.

Lemma boolt_cases : BoolText (strip " TRUE ") true /\ BoolText "-0_0" false.
Proof.
  split; [now apply BT_true|].
  apply (BT_int Minus "0_0"). apply (GD_more "0" "0"); try discriminate; try reflexivity.
  apply GD_one; [discriminate|reflexivity].
Qed.

Lemma numlit_cases : NumLit "12.5e-3" /\ NumLit " +1_000 ".
Proof.
  split.
  - apply NL_float. apply (FL_frac NoSign "12" "5" "e-3" ""); auto.
    + left. discriminate.
    + apply (EP_some "e" Minus "3"); auto. discriminate.
  - apply NL_int. apply (IL_intro " " Plus "1_000" " "); auto.
    apply (GD_more "1" "000"); try discriminate; try reflexivity.
    apply GD_one; [discriminate|reflexivity].
Qed.

Lemma junk_accepted : exists s n', ~ NumLit s /\ num_setValue KNum num_new (PStr s) = (n', None).
Proof.
  exists "0x1G". eexists. split; [|reflexivity]. intro H. inversion H as [| |s HH|s HB|s HF|s HI]; subst.
  - inversion HH; subst. discriminate.
  - inversion HB; subst. destruct H3; discriminate.
  - apply floatlit_matches in HF as [d Hd]. discriminate.
  - apply intlit_parses in HI as [z Hz]. discriminate.
Qed.

Lemma last_segment_word_of : forall run b g, last_segment b run = Some g ->
  g <> "" /\ all_chars is_word g = true /\ exists p q, run = (p ++ "/" ++ g ++ q)%string.
Proof.
  induction run as [|c run IH]; cbn [last_segment]; intros b g H; [discriminate|].
  destruct (last_segment true run) as [g'|] eqn:E.
  - injection H as ->. destruct (IH _ _ E) as [A [B [p [q C]]]]. split; [exact A|split; [exact B|]].
    exists (String c p), q. cbn. now rewrite C at 1.
  - destruct (b && Ascii.eqb c "/")%bool eqn:D; [|discriminate].
    apply andb_true_iff in D. destruct D as [_ D]. apply Ascii.eqb_eq in D. subst c.
    destruct (span is_word run) as [w r] eqn:S. destruct (is_empty w) eqn:W; [discriminate|].
    injection H as ->. destruct (span_spec _ _ _ _ S) as [A [B _]].
    split; [intro; subst; discriminate|]. split; [exact B|].
    exists "", r. cbn. now rewrite A at 1.
Qed.
Lemma short_value_word : forall r v s, r_value r = Some v -> ref_getShortValue r = Ok s ->
  s = v \/ (s <> "" /\ all_chars is_word s = true /\
            exists a b, v = (a ++ "/" ++ s ++ b)%string).
Proof.
  intros r v s H E. unfold ref_getShortValue in E. rewrite H in E.
  destruct (match_short v) as [g|] eqn:M; injection E as <-; [right|left; reflexivity].
  unfold match_short in M. destruct v as [|c v']; [discriminate|].
  destruct c as [[] [] [] [] [] [] [] []]; try discriminate.
  destruct (span _ v') as [run rest] eqn:S. apply last_segment_word_of in M.
  destruct M as [A [B [p [q C]]]]. split; [exact A|]. split; [exact B|].
  destruct (span_spec _ _ _ _ S) as [D _]. exists (String "/" p), (q ++ rest)%string.
  rewrite D, C. cbn. rewrite !append_assoc. cbn. rewrite ?append_assoc. reflexivity.
Qed.
