(** Lemmas about the numerical, boolean and reference objects. *)
From Coq Require Import String Ascii List Bool ZArith NArith Lia.
From Coq Require Import Floats.SpecFloat.
From Coq Require Decimal DecimalZ DecimalString Hexadecimal HexadecimalString.
From Verif Require Import PyBase PyBaseFacts Primitives SpecNum FloatFacts PrimitivesFacts.
Import ListNotations.
Open Scope string_scope.

Lemma setValue_str : forall k n s, num_setValue k n (PStr s) = set_str n s.
Proof. destruct k; reflexivity. Qed.

Lemma convert_exn : forall s e, convert s = Raise e -> e = ValueError.
Proof.
  intros s e. unfold convert.
  repeat match goal with |- context [match ?x with _ => _ end] => destruct x end; congruence.
Qed.

Lemma set_str_ok : forall n s n', set_str n s = (n', None) <->
  exists v, convert s = Ok v /\ n' = mkNum (n_ts n) (n_uuid n) (Some v) (n_label n) (Some s).
Proof.
  intros n s n'. unfold set_str. destruct (convert s) as [v|e]; split; intro H.
  - inversion H; subst. exists v. split; reflexivity.
  - destruct H as [v' [H1 H2]]. inversion H1; subst. reflexivity.
  - inversion H.
  - destruct H as [v' [H1 H2]]. discriminate.
Qed.

Definition is_str_assign (o : num_op) : Prop :=
  match o with OpSetValue (PStr _) => True | _ => False end.

Lemma step_keeps_text : forall k n o, ~ is_str_assign o -> n_text (num_step k n o) = n_text n.
Proof.
  intros k n [v| [l|] |t|u] H; simpl in *; try reflexivity.
  destruct v; try (elim H; exact I); destruct k; simpl; try reflexivity.
  - unfold py_float_of_int. destruct (binary_normalize _ _ _ _ _); reflexivity.
  - destruct (z <? 0)%Z; reflexivity.
Qed.

Lemma run_keeps_text : forall k os n, Forall (fun o => ~ is_str_assign o) os ->
  n_text (num_run k n os) = n_text n.
Proof.
  induction os as [|o os IH]; intros n H; [reflexivity|].
  inversion H; subst. change (num_run k n (o :: os)) with (num_run k (num_step k n o) os).
  rewrite IH by assumption. now apply step_keeps_text.
Qed.

Lemma num_text_kept : forall repr k n s n' os,
  num_setValue k n (PStr s) = (n', None) ->
  Forall (fun o => match o with OpSetValue (PStr _) => False | _ => True end) os ->
  num_str repr (num_run k n' os) = s.
Proof.
  intros repr k n s n' os H Hos. rewrite setValue_str in H. apply set_str_ok in H as [v [_ H]].
  unfold num_str. rewrite run_keeps_text.
  - subst n'. reflexivity.
  - eapply Forall_impl; [|exact Hos]. intros [[]| | |]; simpl; auto.
Qed.

Lemma set_str_value : forall k n s v, convert s = Ok v ->
  exists n', num_setValue k n (PStr s) = (n', None) /\ n_value n' = Some v.
Proof.
  intros k n s v H. rewrite setValue_str. unfold set_str. rewrite H. eexists. split; reflexivity.
Qed.

(** Rejected assignments *)
Lemma rejected_value : forall k n v n' e, num_setValue k n v = (n', Some e) -> n_value n' = n_value n.
Proof.
  intros k n v n' e H. destruct v.
  - destruct k; simpl in H; inversion H; reflexivity.
  - destruct k; simpl in H; inversion H; reflexivity.
  - destruct k; simpl in H; try discriminate.
    + destruct (py_float_of_int z); inversion H; reflexivity.
    + destruct (z <? 0)%Z; inversion H; reflexivity.
  - destruct k; simpl in H; inversion H; reflexivity.
  - rewrite setValue_str in H. unfold set_str in H. destruct (convert s); inversion H; reflexivity.
  - destruct k; simpl in H; inversion H; reflexivity.
Qed.

Lemma rejected_nonstr : forall k n v n' e, num_setValue k n v = (n', Some e) ->
  (forall s, v <> PStr s) -> n' = n.
Proof.
  intros k n v n' e H Hs. destruct v.
  - destruct k; simpl in H; inversion H; reflexivity.
  - destruct k; simpl in H; inversion H; reflexivity.
  - destruct k; simpl in H; try discriminate.
    + destruct (py_float_of_int z); inversion H; reflexivity.
    + destruct (z <? 0)%Z; inversion H; reflexivity.
  - destruct k; simpl in H; inversion H; reflexivity.
  - now elim (Hs s).
  - destruct k; simpl in H; inversion H; reflexivity.
Qed.

Lemma bool_rejected : forall b v b' e, bool_set b v = (b', Some e) -> b' = b.
Proof.
  intros b v b' e H. destruct v; simpl in H; inversion H; auto.
  destruct (str_to_bool (strip s)); inversion H; reflexivity.
Qed.

(** Booleans *)
Lemma int_digits_zero : forall s b acc z, int_digits s b acc = Some z -> (0 <= acc)%Z ->
  (z = 0 <-> acc = 0 /\ all_chars (fun c => Ascii.eqb c "0" || Ascii.eqb c "_")%bool s = true)%Z
  /\ (0 <= z)%Z.
Proof.
  induction s as [|c s IH]; simpl; intros b acc z H Ha.
  - destruct b; inversion H; subst. split; [tauto|assumption].
  - destruct (is_digit c) eqn:Ed.
    + assert (Hr : (0 <= digit_val c <= 9)%Z).
      { unfold digit_val. rewrite Ed. unfold is_digit, in_range in Ed.
        apply andb_prop in Ed as [E1 E2]. apply N.leb_le in E1, E2. lia. }
      assert (Hz : digit_val c = 0%Z <-> (Ascii.eqb c "0" || Ascii.eqb c "_")%bool = true).
      { unfold digit_val. rewrite Ed. split; intro Hc.
        - assert (code c = 48%N) by (unfold is_digit, in_range in Ed;
            apply andb_prop in Ed as [E1 E2]; apply N.leb_le in E1; lia).
          assert (c = "0"%char) by (apply code_inj; rewrite H0; reflexivity). subst. reflexivity.
        - apply orb_prop in Hc as [Hc|Hc]; apply Ascii.eqb_eq in Hc; subst; [reflexivity|discriminate]. }
      apply IH in H; [|lia]. destruct H as [H H']. split; [|assumption].
      rewrite H, andb_true_iff, <- Hz. split.
      * intros [A B]. assert (acc = 0%Z) by lia. assert (digit_val c = 0%Z) by lia. auto.
      * intros [A [B C]]. split; [lia|assumption].
    + destruct (Ascii.eqb c "_" && b)%bool eqn:Eu; [|discriminate].
      apply andb_prop in Eu as [Eu _]. apply IH in H; auto. rewrite Eu, orb_true_r. exact H.
Qed.

Lemma lower_digitish : forall d, GroupedDigits d -> forall sg, lower (sign_text sg ++ d) = sign_text sg ++ d.
Proof.
  assert (HD : forall d, all_chars is_digit d = true -> lower d = d).
  { induction d; simpl; auto. intro H. apply andb_prop in H as [H1 H2].
    now rewrite digit_lower_char, IHd. }
  assert (HA : forall a b, lower (a ++ b) = lower a ++ lower b).
  { induction a; simpl; intros; auto. now rewrite IHa. }
  assert (HG : forall d, GroupedDigits d -> lower d = d).
  { induction 1; auto. rewrite !HA, IHGroupedDigits, (HD d) by assumption. reflexivity. }
  intros d H sg. rewrite HA, (HG d) by assumption. destruct sg; reflexivity.
Qed.

Lemma strip_grouped : forall sg d, GroupedDigits d -> strip (sign_text sg ++ d) = sign_text sg ++ d.
Proof.
  intros sg d Hg. pose proof (strip_app "" (sign_text sg ++ d) "" eq_refl eq_refl) as Hs.
  rewrite append_nil_r in Hs. simpl append in Hs at 1. apply Hs.
  - destruct (grouped_head d Hg) as [c [r [-> _]]]. destruct sg; discriminate.
  - destruct (grouped_head d Hg) as [c [r [-> H]]]. destruct sg; simpl; auto.
    now apply digit_not_space.
  - rewrite last_ok_app by now apply grouped_nonempty. now apply grouped_last_ok.
Qed.

Lemma py_int_grouped : forall sg d, GroupedDigits d -> exists z,
  int_digits d false 0 = Some z /\ py_int (sign_text sg ++ d) = Some (sign_apply sg z).
Proof.
  intros sg d Hg. unfold py_int. rewrite strip_grouped by assumption.
  rewrite take_sign_text by (now apply grouped_head).
  assert (H : exists z, int_digits d false 0 = Some z).
  { now apply grouped_digits_int. }
  destruct H as [z Hz]. exists z. split; auto. rewrite Hz. destruct sg; reflexivity.
Qed.

(** What str_to_bool accepts on a trimmed text. *)
Lemma str_to_bool_complete : forall t b, BoolText t b -> str_to_bool t = Ok b.
Proof.
  intros t b H. unfold str_to_bool. inversion H; subst.
  - rewrite H0. reflexivity.
  - rewrite H0. reflexivity.
  - rewrite lower_digitish by assumption.
    destruct (py_int_grouped sg d H0) as [z [Hz Hp]].
    pose proof (int_digits_zero _ _ _ _ Hz ltac:(lia)) as [Hiff Hpos].
    destruct (String.eqb (sign_text sg ++ d) "true" || String.eqb (sign_text sg ++ d) "1")%bool eqn:E1.
    { apply orb_prop in E1 as [E1|E1]; apply String.eqb_eq in E1.
      - rewrite E1 in Hp. discriminate.
      - destruct sg; simpl in E1; inversion E1; subst d. reflexivity. }
    destruct (String.eqb (sign_text sg ++ d) "false" || String.eqb (sign_text sg ++ d) "0")%bool eqn:E2.
    { apply orb_prop in E2 as [E2|E2]; apply String.eqb_eq in E2.
      - rewrite E2 in Hp. discriminate.
      - destruct sg; simpl in E2; inversion E2; subst d. reflexivity. }
    rewrite Hp. f_equal. unfold num_to_bool.
    destruct (all_chars _ d) eqn:Ea.
    + assert (z = 0)%Z by (apply Hiff; auto). subst. destruct sg; reflexivity.
    + assert (z <> 0)%Z by (intro; subst; destruct Hiff as [Hi _]; destruct (Hi eq_refl); congruence).
      destruct sg; simpl; destruct (_ =? 0)%Z eqn:E; auto; apply Z.eqb_eq in E; lia.
Qed.

Lemma rstrip_head : forall b, head_not is_space b -> head_not is_space (rstrip b).
Proof.
  intros [|c b] H; simpl in *; auto. rewrite H. simpl. assumption.
Qed.

Lemma strip_head : forall s, head_not is_space (strip s).
Proof.
  intro s. unfold strip, lstrip. destruct (span is_space s) as [a b] eqn:E. simpl.
  apply span_spec in E as [_ [_ H]]. now apply rstrip_head.
Qed.

Lemma lower_space : forall c, is_space (lower_char c) = is_space c.
Proof.
  intro c. assert (X : Bool.eqb (is_space (lower_char c)) (is_space c) = true) by char_case c.
  now apply Bool.eqb_prop.
Qed.

Lemma lower_last_ok : forall s, last_ok (lower s) = last_ok s.
Proof.
  induction s as [|c s IH]; auto. destruct s as [|c' s].
  - simpl. now rewrite lower_space.
  - change (lower (String c (String c' s))) with (String (lower_char c) (lower (String c' s))).
    rewrite !last_ok_cons by discriminate. exact IH.
Qed.

Definition numish (c : ascii) : bool :=
  (is_digit c || Ascii.eqb c "_" || Ascii.eqb c "+" || Ascii.eqb c "-")%bool.

Lemma lower_numish_inv : forall t, all_chars numish (lower t) = true -> lower t = t.
Proof.
  induction t as [|c t IH]; simpl; auto. intro H. apply andb_prop in H as [H1 H2].
  rewrite IH by assumption. f_equal.
  assert (X : implb (numish (lower_char c)) (Ascii.eqb (lower_char c) c) = true) by char_case c.
  rewrite H1 in X. now apply Ascii.eqb_eq.
Qed.

Lemma grouped_numish : forall d, GroupedDigits d -> all_chars numish d = true.
Proof.
  assert (HD : forall d, all_chars is_digit d = true -> all_chars numish d = true).
  { intro d. apply all_chars_impl. intros c H. unfold numish. now rewrite H. }
  induction 1; auto. rewrite !all_chars_app, (HD d), IHGroupedDigits by assumption. reflexivity.
Qed.

Lemma last_ok_spaces : forall w, all_chars is_space w = true -> last_ok w = true -> w = "".
Proof.
  induction w as [|c w IH]; auto. intros H1 H2. simpl in H1. apply andb_prop in H1 as [A B].
  destruct w.
  - simpl in H2. rewrite A in H2. discriminate.
  - rewrite last_ok_cons in H2 by discriminate. specialize (IH B H2). discriminate.
Qed.

(** A trimmed text that int() accepts is a sign and grouped digits. *)
Lemma py_int_trimmed : forall t z, py_int t = Some z -> head_not is_space t -> last_ok t = true ->
  exists sg d, GroupedDigits d /\ t = sign_text sg ++ d.
Proof.
  intros t z H Hh Hl. apply py_int_inv in H. inversion H as [w1 sg d w2 H1 H2 Hg Ht]. subst t.
  destruct w1 as [|c w1].
  2:{ simpl in H1, Hh. apply andb_prop in H1 as [H1 _]. congruence. }
  destruct w2 as [|c w2].
  - exists sg, d. split; auto. now rewrite append_nil_r.
  - exfalso. simpl append in Hl at 1. rewrite <- append_assoc in Hl.
    rewrite last_ok_app in Hl by discriminate. apply last_ok_spaces in Hl; [discriminate|assumption].
Qed.

Lemma str_to_bool_sound : forall s b, str_to_bool (strip s) = Ok b -> BoolText (strip s) b.
Proof.
  intros s b H.
  assert (Hh : head_not is_space (lower (strip s))).
  { pose proof (strip_head s) as X. destruct (strip s); simpl in *; auto. now rewrite lower_space. }
  assert (Hl : last_ok (lower (strip s)) = true).
  { rewrite lower_last_ok. now destruct (strip_decomp s) as [w1 [w2 [_ [_ [_ X]]]]]. }
  set (t := strip s) in *.
  assert (Hnum : forall sg d, GroupedDigits d -> lower t = sign_text sg ++ d -> t = sign_text sg ++ d).
  { intros sg d Hg E. rewrite <- E. symmetry. apply lower_numish_inv. rewrite E, all_chars_app.
    rewrite (grouped_numish d) by assumption. destruct sg; reflexivity. }
  assert (G1 : GroupedDigits "1") by (apply GD_one; [discriminate|reflexivity]).
  assert (G0 : GroupedDigits "0") by (apply GD_one; [discriminate|reflexivity]).
  unfold str_to_bool in H.
  destruct (String.eqb (lower t) "true" || String.eqb (lower t) "1")%bool eqn:E1.
  { inversion H; subst. apply orb_prop in E1 as [E1|E1]; apply String.eqb_eq in E1.
    - now constructor.
    - rewrite (Hnum NoSign "1" G1 E1). exact (BT_int NoSign "1" G1). }
  destruct (String.eqb (lower t) "false" || String.eqb (lower t) "0")%bool eqn:E2.
  { inversion H; subst. apply orb_prop in E2 as [E2|E2]; apply String.eqb_eq in E2.
    - now constructor.
    - rewrite (Hnum NoSign "0" G0 E2). exact (BT_int NoSign "0" G0). }
  destruct (py_int (lower t)) as [z|] eqn:Ei; [|discriminate]. inversion H; subst.
  destruct (py_int_trimmed _ _ Ei Hh Hl) as [sg [d [Hg Ed]]].
  pose proof (BT_int sg d Hg) as HB. rewrite <- (Hnum _ _ Hg Ed) in HB.
  pose proof (str_to_bool_complete _ _ HB) as HC. unfold str_to_bool in HC.
  rewrite E1, E2, Ei in HC. inversion HC as [HX]. rewrite HX in *. exact HB.
Qed.

(** What a boolean setter accepts, and the state after it. *)
Lemma bool_set_str_iff : forall b s b', bool_set b (PStr s) = (b', None) <->
  exists x, BoolText (strip s) x /\ b' = mkBool (b_ts b) (b_uuid b) (Some x) (Some (strip s)).
Proof.
  intros b s b'. simpl. split.
  - destruct (str_to_bool (strip s)) as [x|e] eqn:E; intro H; inversion H; subst.
    exists x. split; auto. now apply str_to_bool_sound.
  - intros [x [H ->]]. now rewrite (str_to_bool_complete _ _ H).
Qed.

Lemma bool_set_str_reject : forall b s b' e, bool_set b (PStr s) = (b', Some e) ->
  e = ValueError /\ b' = b /\ forall x, ~ BoolText (strip s) x.
Proof.
  intros b s b' e H. simpl in H. destruct (str_to_bool (strip s)) as [x|e'] eqn:E; inversion H; subst.
  repeat split.
  - unfold str_to_bool in E.
    repeat match type of E with context [match ?x with _ => _ end] => destruct x; try congruence end.
  - intros x Hx. apply str_to_bool_complete in Hx. congruence.
Qed.

Lemma py_str_int_bool : forall z, BoolText (py_str_int z) (negb (z =? 0)%Z).
Proof.
  intro z. destruct (py_str_int_text z) as [sg [d [H1 [H2 [H3 H4]]]]].
  assert (Hg : GroupedDigits d) by now apply GD_one.
  pose proof (BT_int sg d Hg) as HB. rewrite <- H1 in HB.
  pose proof (str_to_bool_complete _ _ HB) as HC. unfold str_to_bool in HC.
  clear H4.
  assert (HL : lower (py_str_int z) = py_str_int z) by (rewrite H1; now apply lower_digitish).
  rewrite HL, py_int_str in HC.
  destruct (String.eqb (py_str_int z) "true" || String.eqb (py_str_int z) "1")%bool eqn:E1.
  { apply orb_prop in E1 as [E1|E1]; apply String.eqb_eq in E1;
      pose proof (py_int_str z) as HP; rewrite E1 in HP; vm_compute in HP; inversion HP; subst.
    inversion HC as [HX]. rewrite <- HX in HB. exact HB. }
  destruct (String.eqb (py_str_int z) "false" || String.eqb (py_str_int z) "0")%bool eqn:E2.
  { apply orb_prop in E2 as [E2|E2]; apply String.eqb_eq in E2;
      pose proof (py_int_str z) as HP; rewrite E2 in HP; vm_compute in HP; inversion HP; subst.
    inversion HC as [HX]. rewrite <- HX in HB. exact HB. }
  inversion HC as [HX]. rewrite <- HX in HB. unfold num_to_bool in HB.
  destruct (z =? 0)%Z; exact HB.
Qed.

(** Histories without a bool assignment after the first text: text and value agree. *)
Definition bool_agree (b : boolean) : Prop :=
  forall x, b_value b = Some x -> BoolText (bool_str b) x.

Lemma bool_agree_nobool : forall vs b, bool_agree b ->
  Forall (fun v => forall x, v <> PBool x) vs -> bool_agree (bool_run b vs).
Proof.
  induction vs as [|v vs IH]; intros b Hb Hv; [exact Hb|].
  inversion Hv; subst. simpl. apply IH; [|assumption].
  destruct v; simpl; try exact Hb.
  - now elim (H1 b0).
  - intros x Hx. simpl in Hx. inversion Hx; subst. unfold bool_str. simpl.
    pose proof (py_str_int_bool z) as X. unfold num_to_bool. destruct (z =? 0)%Z; exact X.
  - destruct (str_to_bool (strip s)) as [x|e] eqn:E; simpl; [|exact Hb].
    intros y Hy. simpl in Hy. inversion Hy; subst. unfold bool_str. simpl. now apply str_to_bool_sound.
Qed.

Lemma bool_agree_onlybool : forall vs b, b_text b = None -> bool_agree b ->
  Forall (fun v => forall s, v <> PStr s) vs -> Forall (fun v => forall z, v <> PInt z) vs ->
  b_text (bool_run b vs) = None /\ bool_agree (bool_run b vs).
Proof.
  induction vs as [|v vs IH]; intros b Ht Hb H1 H2; [auto|].
  inversion H1 as [|? ? A1 A2]; subst. inversion H2 as [|? ? B1 B2]; subst. simpl.
  apply IH; try assumption; destruct v; simpl; try assumption.
  - now elim (B1 z).
  - now elim (A1 s).
  - intros x Hx. simpl in Hx. inversion Hx; subst. unfold bool_str. simpl. rewrite Ht.
    destruct x; [apply BT_true|apply BT_false]; reflexivity.
  - now elim (B1 z).
  - now elim (A1 s).
Qed.

(** References *)
Definition ident (w : string) : Prop := w <> "" /\ all_chars is_word w = true.

Fixpoint path (ws : list string) : string :=
  match ws with [] => "" | w :: ws' => "/" ++ w ++ path ws' end.

Lemma slash_not_word : is_word "/" = false.
Proof. reflexivity. Qed.

Definition runp (c : ascii) : bool := (is_word c || Ascii.eqb c "/")%bool.

Lemma path_run : forall ws, Forall ident ws -> all_chars runp (path ws) = true.
Proof.
  induction 1 as [|w ws [_ Hw] Hws IH]; [reflexivity|].
  change (path (w :: ws)) with (String "/" (w ++ path ws)). simpl.
  rewrite all_chars_app, IH, andb_true_r. eapply all_chars_impl; [|exact Hw].
  intros c H. unfold runp. now rewrite H.
Qed.

Lemma path_head : forall ws, head_not is_word (path ws).
Proof. destruct ws; simpl; auto. Qed.

Lemma last_segment_word : forall w rest b, all_chars is_word w = true ->
  last_segment b (w ++ rest) = match last_segment (b || negb (is_empty w))%bool rest with
    | Some g => Some g | None => None end.
Proof.
  induction w as [|c w IH]; intros rest b H.
  - simpl. rewrite orb_false_r. destruct (last_segment b rest); reflexivity.
  - simpl in H. apply andb_prop in H as [H1 H2]. simpl.
    rewrite IH by assumption. simpl. rewrite orb_true_r.
    destruct (last_segment true rest); auto.
    assert (E : Ascii.eqb c "/" = false).
    { destruct (Ascii.eqb c "/") eqn:E; auto. apply Ascii.eqb_eq in E. subst. discriminate. }
    now rewrite E, andb_false_r.
Qed.

Lemma last_segment_path : forall ws w, Forall ident ws -> ident w ->
  last_segment true (path (ws ++ [w])) = Some w.
Proof.
  induction ws as [|v ws IH]; intros w Hws Hw; cbn [app path].
  - cbn [append last_segment]. rewrite append_nil_r.
    destruct Hw as [Hne Hw].
    rewrite <- (append_nil_r w) at 1. rewrite last_segment_word by assumption. simpl.
    rewrite span_all by assumption. destruct w; [congruence|reflexivity].
  - inversion Hws; subst. cbn [append last_segment].
    destruct H1 as [Hne Hv]. rewrite last_segment_word by assumption.
    rewrite orb_true_l. now rewrite IH.
Qed.

Lemma short_value_path : forall r ws w, r_value r = Some (path (ws ++ [w])) -> ws <> [] ->
  Forall ident ws -> ident w -> ref_getShortValue r = Ok w.
Proof.
  intros r ws w H Hne Hws Hw. unfold ref_getShortValue. rewrite H.
  destruct ws as [|v ws]; [congruence|]. inversion Hws; subst.
  cbn [app path append]. unfold match_short.
  assert (Hrun : span (fun c => (is_word c || Ascii.eqb c "/")%bool) (v ++ path (ws ++ [w])) =
    (v ++ path (ws ++ [w]), "")).
  { apply (span_all runp). rewrite all_chars_app, path_run.
    - rewrite andb_true_r. destruct H2 as [_ H2]. eapply all_chars_impl; [|exact H2].
      intros c Hc. unfold runp. now rewrite Hc.
    - apply Forall_app. auto. }
  rewrite Hrun. destruct H2 as [Hv1 Hv2]. rewrite last_segment_word by assumption.
  destruct v; [congruence|]. cbn [is_empty negb orb]. now rewrite last_segment_path.
Qed.
