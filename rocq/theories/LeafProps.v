(** Proofs about leaf readers and writers. *)
From Coq Require Import String Ascii List Bool ZArith Lia.
From Coq Require Import Floats.SpecFloat.
From Coq Require Decimal DecimalString.
From Verif Require Import PyBase Primitives SpecNum PrimitivesFacts NumFacts Xml Leaf SpecLeaf XmlFacts.
Import ListNotations.
Open Scope string_scope.
Open Scope list_scope.

Lemma leaf_read_written : forall k t d p pa pt ks1 e ks2, plain t -> absent t ks1 -> xtag e = t ->
  leaf_read k t (reload d (El p pa pt (ks1 ++ e :: ks2))) = leaf_of k (reload (S d) e).
Proof. intros. unfold leaf_read. now rewrite find_written. Qed.

Lemma leaf_absent : forall repr wk rk t d p pa pt ks, plain t -> absent t ks ->
  leaf_write repr wk t None = Ok [] /\ leaf_read rk t (reload d (El p pa pt ks)) = Ok None.
Proof. intros. split; [reflexivity|]. unfold leaf_read. now rewrite find_absent. Qed.

Lemma xattr_ts : forall t ts uuid rest tx ks,
  xattr "T" (El t (ar_attrs ts uuid ++ rest) tx ks) = match ts with Some _ => ts | None =>
    xattr "T" (El t rest tx ks) end.
Proof. intros t [ts|] [u|] rest tx ks; reflexivity. Qed.
Lemma xattr_uuid : forall t ts uuid rest tx ks,
  xattr "UUID" (El t (ar_attrs ts uuid ++ rest) tx ks) = match uuid with Some _ => uuid | None =>
    xattr "UUID" (El t rest tx ks) end.
Proof. intros t [ts|] [u|] rest tx ks; reflexivity. Qed.

Lemma ar_attrs_T : forall t ts uuid tx ks, xattr "T" (El t (ar_attrs ts uuid) tx ks) = ts.
Proof. intros t [ts|] [u|] tx ks; reflexivity. Qed.
Lemma ar_attrs_UUID : forall t ts uuid tx ks, xattr "UUID" (El t (ar_attrs ts uuid) tx ks) = uuid.
Proof. intros t [ts|] [u|] tx ks; reflexivity. Qed.
Lemma ar_opt_T : forall t ts uuid k v tx ks, k <> "T" ->
  xattr "T" (El t (ar_attrs ts uuid ++ opt_attr k v) tx ks) = ts.
Proof.
  intros t ts uuid k v tx ks H.
  assert (E : String.eqb "T" k = false) by (apply String.eqb_neq; congruence).
  assert (E' : String.eqb k "T" = false) by (apply String.eqb_neq; congruence).
  destruct ts, uuid, v; unfold xattr; cbn [xattrs ar_attrs opt_attr app dget];
  rewrite ?E, ?E'; reflexivity.
Qed.
Lemma ar_opt_UUID : forall t ts uuid k v tx ks, k <> "UUID" ->
  xattr "UUID" (El t (ar_attrs ts uuid ++ opt_attr k v) tx ks) = uuid.
Proof.
  intros t ts uuid k v tx ks H.
  assert (E : String.eqb "UUID" k = false) by (apply String.eqb_neq; congruence).
  assert (E' : String.eqb k "UUID" = false) by (apply String.eqb_neq; congruence).
  destruct ts, uuid, v; unfold xattr; cbn [xattrs ar_attrs opt_attr app dget];
  rewrite ?E, ?E'; reflexivity.
Qed.
Lemma ar_opt_key : forall t ts uuid k v tx ks, k <> "T" -> k <> "UUID" ->
  xattr k (El t (ar_attrs ts uuid ++ opt_attr k v) tx ks) = v.
Proof.
  intros t ts uuid k v tx ks H1 H2.
  assert (E : forall a b, a <> b -> String.eqb a b = false)
    by (intros; now apply String.eqb_neq).
  destruct ts, uuid, v; unfold xattr; cbn [xattrs ar_attrs opt_attr app dget];
  rewrite ?(E _ _ (not_eq_sym H1)), ?(E _ _ (not_eq_sym H2)), ?(E _ _ H1), ?(E _ _ H2), ?String.eqb_refl; reflexivity.
Qed.

Lemma not_blank_text : forall t, not_blank t -> text_or_none t = t.
Proof. intros [[|c s]|] H; try reflexivity. now elim H. Qed.

Lemma text_empty_none : forall s, text_or_empty (text_or_none (Some s)) = s.
Proof. intros [|c s]; reflexivity. Qed.

(** literals *)
Definition lit_cls (k : rkind) : option string :=
  match k with RLiteral => Some "ARLiteral" | RVerbatim => Some "VerbatimString"
  | RIdentifier => Some "Identifier" | _ => None end.

Lemma literal_back : forall repr k cls c0 l t d p pa pt ks1 ks2,
  In (k, cls) [(RLiteral, "ARLiteral"); (RVerbatim, "VerbatimString"); (RIdentifier, "Identifier")] ->
  plain t -> absent t ks1 ->
  exists w l', leaf_write repr WText t (Some (LLit c0 l)) = Ok [w] /\
    leaf_read k t (reload d (El p pa pt (ks1 ++ w :: ks2))) = Ok (Some (LLit cls l')) /\ lit_eq l' l.
Proof.
  intros repr k cls c0 l t d p pa pt ks1 ks2 Hk Ht Ha.
  eexists. exists (mkLit (l_ts l) (l_uuid l) (Some (lit_str l))). split; [reflexivity|].
  rewrite leaf_read_written by (assumption || reflexivity). rewrite reload_leaf.
  destruct Hk as [E|[E|[E|[]]]]; inversion E; subst; cbn [leaf_of]; unfold lit_of;
    cbn [xtext]; rewrite ar_attrs_T, ar_attrs_UUID, text_empty_none; repeat split.
Qed.

(** revision labels *)
Lemma span_cat : forall p d c r, all_chars p d = true -> p c = false ->
  span p (d ++ String c r) = (d, String c r).
Proof. intros. apply span_app; [assumption|]. exact H0. Qed.

Lemma span_digits_head : forall d r, d <> "" -> all_chars is_digit d = true ->
  exists r', digits1 (d ++ r) = Some r'.
Proof.
  intros d r H1 H2. unfold digits1. destruct (span is_digit (d ++ r)) as [a b] eqn:E.
  destruct d as [|c d]; [now elim H1|]. cbn [append span] in E. cbn [all_chars] in H2.
  apply andb_true_iff in H2. destruct H2 as [H2 _]. rewrite H2 in E.
  destruct (span is_digit (d ++ r)). inversion E; subst. eexists; reflexivity.
Qed.

Lemma digits1_dot : forall d r, d <> "" -> all_chars is_digit d = true ->
  digits1 (d ++ String "." r) = Some (String "." r).
Proof.
  intros. unfold digits1. rewrite span_cat by (assumption || reflexivity).
  destruct d; [now elim H|]. reflexivity.
Qed.

Lemma revision_complete : forall s, RevText s -> revision_ok s = true.
Proof.
  intros s (a & b & c & r & -> & H). inversion H as [|? ? [Ha1 Ha2] H']; subst.
  inversion H' as [|? ? [Hb1 Hb2] H'']; subst. inversion H'' as [|? ? [Hc1 Hc2] _]; subst.
  unfold revision_ok. cbn [append]. rewrite digits1_dot by assumption. cbn [opt_bind dot].
  rewrite digits1_dot by assumption. cbn [opt_bind dot].
  destruct (span_digits_head c r Hc1 Hc2) as [r' ->]. reflexivity.
Qed.

Lemma digits1_inv : forall s r, digits1 s = Some r -> exists d, s = (d ++ r)%string /\ d <> "" /\ all_chars is_digit d = true.
Proof.
  intros s r H. unfold digits1 in H. destruct (span is_digit s) as [d b] eqn:E.
  destruct (is_empty d) eqn:Ed; [discriminate|]. inversion H; subst.
  apply span_spec in E. destruct E as [E1 [E2 E3]]. exists d. repeat split; auto.
  intro; subst; discriminate.
Qed.

Lemma dot_inv : forall s r, dot s = Some r -> s = String "." r.
Proof.
  intros [|c s] r H; [discriminate|]. cbn in H. 
  destruct c as [[] [] [] [] [] [] [] []]; try discriminate. now inversion H.
Qed.

Lemma opt_bind_inv : forall A B (o : option A) (f : A -> option B) b, opt_bind o f = Some b ->
  exists a, o = Some a /\ f a = Some b.
Proof. intros A B [a|] f b H; [|discriminate]. exists a. now split. Qed.

Lemma revision_sound : forall s, revision_ok s = true -> RevText s.
Proof.
  intros s H. unfold revision_ok in H.
  destruct (opt_bind _ digits1) as [r|] eqn:E; [|discriminate]. clear H.
  apply opt_bind_inv in E. destruct E as [s4 [E H5]].
  apply opt_bind_inv in E. destruct E as [s3 [E H4]].
  apply opt_bind_inv in E. destruct E as [s2 [E H3]].
  apply opt_bind_inv in E. destruct E as [s1 [H1 H2]].
  apply digits1_inv in H1. destruct H1 as (a & -> & Ha1 & Ha2).
  apply dot_inv in H2. subst s1.
  apply digits1_inv in H3. destruct H3 as (b & -> & Hb1 & Hb2).
  apply dot_inv in H4. subst s3.
  apply digits1_inv in H5. destruct H5 as (c & -> & Hc1 & Hc2).
  exists a, b, c, r. split; [reflexivity|]. repeat constructor; auto.
Qed.

Lemma RevText_nonempty : forall s, RevText s -> exists c r, s = String c r.
Proof.
  intros s (a & b & c & r & -> & H). inversion H as [|? ? [Ha _] _]; subst.
  destruct a; [now elim Ha|]. cbn. eauto.
Qed.

Lemma revision_back : forall repr c0 l t d p pa pt ks1 ks2, plain t -> absent t ks1 ->
  RevText (lit_str l) ->
  exists w l', leaf_write repr WText t (Some (LLit c0 l)) = Ok [w] /\
    leaf_read RRevision t (reload d (El p pa pt (ks1 ++ w :: ks2)))
      = Ok (Some (LLit "RevisionLabelString" l')) /\ lit_eq l' l.
Proof.
  intros repr c0 l t d p pa pt ks1 ks2 Ht Ha Hr.
  eexists. exists (mkLit (l_ts l) (l_uuid l) (Some (lit_str l))). split; [reflexivity|].
  rewrite leaf_read_written by (assumption || reflexivity). rewrite reload_leaf.
  destruct (RevText_nonempty _ Hr) as [c [r E]]. rewrite E. cbn [leaf_of xtext text_or_none].
  rewrite <- E. rewrite revision_complete by assumption. unfold lit_of.
  cbn [xtext text_or_empty]. rewrite ar_attrs_T, ar_attrs_UUID. repeat split.
Qed.

Lemma revision_bad : forall repr c0 l t d p pa pt ks1 ks2, plain t -> absent t ks1 ->
  lit_str l <> "" -> ~ RevText (lit_str l) ->
  exists w, leaf_write repr WText t (Some (LLit c0 l)) = Ok [w] /\
    leaf_read RRevision t (reload d (El p pa pt (ks1 ++ w :: ks2))) = Raise ValueError.
Proof.
  intros repr c0 l t d p pa pt ks1 ks2 Ht Ha Hne Hr. eexists. split; [reflexivity|].
  rewrite leaf_read_written by (assumption || reflexivity). rewrite reload_leaf.
  destruct (lit_str l) as [|c r] eqn:E; [now elim Hne|]. cbn [leaf_of xtext text_or_none].
  destruct (revision_ok (String c r)) eqn:E2; [|reflexivity].
  elim Hr. now apply revision_sound.
Qed.

(** references and limits *)
Lemma ref_back : forall repr r t d p pa pt ks1 ks2, plain t -> absent t ks1 -> not_blank (r_value r) ->
  exists w, leaf_write repr WRef t (Some (LRef r)) = Ok [w] /\
    leaf_read RRef t (reload d (El p pa pt (ks1 ++ w :: ks2))) = Ok (Some (LRef r)).
Proof.
  intros repr r t d p pa pt ks1 ks2 Ht Ha Hr. eexists. split; [reflexivity|].
  rewrite leaf_read_written by (assumption || reflexivity). rewrite reload_leaf.
  cbn [leaf_of xtext]. rewrite not_blank_text by assumption.
  destruct r as [[b|] [e|] v]; reflexivity.
Qed.

Lemma limit_back : forall repr l t d p pa pt ks1 ks2, plain t -> absent t ks1 -> not_blank (li_value l) ->
  (forall i, li_interval l = Some i -> l_ts i = None /\ l_uuid i = None) ->
  exists w l', leaf_write repr WLimit t (Some (LLimit l)) = Ok [w] /\
    leaf_read RLimit t (reload d (El p pa pt (ks1 ++ w :: ks2))) = Ok (Some (LLimit l')) /\
    li_ts l' = li_ts l /\ li_uuid l' = li_uuid l /\ li_value l' = li_value l /\
    match li_interval l', li_interval l with
    | Some a, Some b => lit_eq a b | None, None => True | _, _ => False end.
Proof.
  intros repr l t d p pa pt ks1 ks2 Ht Ha Hr Hi.
  eexists. exists (mkLimit (li_ts l) (li_uuid l)
    (option_map (fun s => mkLit None None (Some s)) (option_map lit_str (li_interval l))) (li_value l)).
  split; [reflexivity|].
  rewrite leaf_read_written by (assumption || reflexivity). rewrite reload_leaf.
  cbn [leaf_of xtext]. rewrite not_blank_text by assumption.
  rewrite ar_opt_T, ar_opt_UUID, ar_opt_key by discriminate. repeat split.
  destruct l as [? ? [[i1 i2 i3]|] ?]; cbn; [|exact I].
  destruct (Hi _ eq_refl) as [H1 H2]. cbn in H1, H2. subst. repeat split.
Qed.

(** numbers *)

(** an object whose value is what its text says *)
Definition from_text (n : numerical) : Prop :=
  exists s v, n_text n = Some s /\ convert s = Ok v /\ n_value n = Some v.

Lemma convert_nonempty : forall s v, convert s = Ok v -> s <> "".
Proof. intros s v H ->. vm_compute in H. discriminate. Qed.

Lemma text_some : forall s v, convert s = Ok v -> text_or_none (Some s) = Some s.
Proof. intros s v H. apply convert_nonempty in H. destruct s; [now elim H|reflexivity]. Qed.

Lemma set_str_ok : forall n s v, convert s = Ok v -> set_str n s = (with_value (with_text n s) v, None).
Proof. intros n s v H. unfold set_str. now rewrite H. Qed.

(** ARNumerical: everything comes back *)
Lemma numerical_text_back : forall repr cls n t d p pa pt ks1 ks2, plain t -> absent t ks1 -> from_text n ->
  exists w, leaf_write repr WNum t (Some (LNum cls n)) = Ok [w] /\
    leaf_read RNumerical t (reload d (El p pa pt (ks1 ++ w :: ks2))) = Ok (Some (LNum "ARNumerical" n)).
Proof.
  intros repr cls [ts uu vv lb tx] t d p pa pt ks1 ks2 Ht Ha (s & v & H1 & H2 & H3).
  cbn in H1, H3. subst. eexists. split; [reflexivity|].
  rewrite leaf_read_written by (assumption || reflexivity). rewrite reload_leaf.
  cbn [leaf_of xtext num_text n_text]. unfold num_blank.
  rewrite ar_opt_T, ar_opt_UUID, ar_opt_key by discriminate. cbn [n_ts n_uuid n_label].
  rewrite (text_some _ _ H2). cbn [opt_pstr]. unfold set_num. cbn [num_set].
  rewrite (set_str_ok _ _ _ H2). destruct lb; reflexivity.
Qed.

(** Integer *)
Lemma integer_text_back : forall repr cls n t d p pa pt ks1 ks2, plain t -> absent t ks1 -> from_text n ->
  n_label n = None ->
  exists w, leaf_write repr WNum t (Some (LNum cls n)) = Ok [w] /\
    leaf_read RInteger t (reload d (El p pa pt (ks1 ++ w :: ks2))) = Ok (Some (LNum "Integer" n)).
Proof.
  intros repr cls [ts uu vv lb tx] t d p pa pt ks1 ks2 Ht Ha (s & v & H1 & H2 & H3) H4.
  cbn in H1, H3, H4. subst. eexists. split; [reflexivity|].
  rewrite leaf_read_written by (assumption || reflexivity). rewrite reload_leaf.
  cbn [leaf_of xtext num_text n_text]. unfold num_blank.
  rewrite ar_opt_T, ar_opt_UUID by discriminate. cbn [n_ts n_uuid n_label].
  rewrite (text_some _ _ H2). cbn [opt_pstr]. unfold set_num. cbn [num_set].
  rewrite (set_str_ok _ _ _ H2). reflexivity.
Qed.

Lemma numv_neg_iff : forall v, numv_neg v = true <-> numv_negative v.
Proof.
  intros [z|f|b]; cbn.
  - apply Z.ltb_lt.
  - destruct f as [[]|[]| |[] m e]; cbn; split; intro H; try discriminate; try contradiction; auto.
  - split; [discriminate|contradiction].
Qed.

Lemma positive_text_back : forall repr cls n t d p pa pt ks1 ks2, plain t -> absent t ks1 -> from_text n ->
  n_label n = None -> (forall v, n_value n = Some v -> ~ numv_negative v) ->
  exists w, leaf_write repr WNum t (Some (LNum cls n)) = Ok [w] /\
    leaf_read RPositive t (reload d (El p pa pt (ks1 ++ w :: ks2))) = Ok (Some (LNum "PositiveInteger" n)).
Proof.
  intros repr cls [ts uu vv lb tx] t d p pa pt ks1 ks2 Ht Ha (s & v & H1 & H2 & H3) H4 H5.
  cbn in H1, H3, H4, H5. subst. eexists. split; [reflexivity|].
  rewrite leaf_read_written by (assumption || reflexivity). rewrite reload_leaf.
  cbn [leaf_of xtext num_text n_text]. unfold num_blank.
  rewrite ar_opt_T, ar_opt_UUID by discriminate. cbn [n_ts n_uuid n_label].
  rewrite (text_some _ _ H2). unfold set_num. cbn [pos_set].
  rewrite (set_str_ok _ _ _ H2). cbn.
  destruct (numv_neg v) eqn:E; [|reflexivity].
  apply numv_neg_iff in E. now elim (H5 v).
Qed.

Lemma float_text_back : forall repr cls n t d p pa pt ks1 ks2, plain t -> absent t ks1 -> from_text n ->
  n_label n = None ->
  exists w, leaf_write repr WText t (Some (LNum cls n)) = Ok [w] /\
    leaf_read RFloat t (reload d (El p pa pt (ks1 ++ w :: ks2))) = Ok (Some (LNum "ARFloat" n)).
Proof.
  intros repr cls [ts uu vv lb tx] t d p pa pt ks1 ks2 Ht Ha (s & v & H1 & H2 & H3) H4.
  cbn in H1, H3, H4. subst. eexists. split; [reflexivity|].
  rewrite leaf_read_written by (assumption || reflexivity). rewrite reload_leaf.
  cbn [leaf_of xtext num_str n_text]. unfold num_blank.
  rewrite (text_some _ _ H2). rewrite ar_attrs_T, ar_attrs_UUID. cbn [n_ts n_uuid n_label].
  unfold set_num. cbn [float_set].
  rewrite (set_str_ok _ _ _ H2). reflexivity.
Qed.

Lemma time_text_back : forall repr cls n t d p pa pt ks1 ks2, plain t -> absent t ks1 -> from_text n ->
  n_label n = None -> n_ts n = None -> n_uuid n = None ->
  exists w, leaf_write repr WText t (Some (LNum cls n)) = Ok [w] /\
    leaf_read RTime t (reload d (El p pa pt (ks1 ++ w :: ks2))) = Ok (Some (LNum "TimeValue" n)).
Proof.
  intros repr cls [ts uu vv lb tx] t d p pa pt ks1 ks2 Ht Ha (s & v & H1 & H2 & H3) H4 H5 H6.
  cbn in H1, H3, H4, H5, H6. subst. eexists. split; [reflexivity|].
  rewrite leaf_read_written by (assumption || reflexivity). rewrite reload_leaf.
  cbn [leaf_of xtext num_str n_text].
  rewrite (text_some _ _ H2). unfold set_num. cbn [float_set].
  rewrite (set_str_ok _ _ _ H2). reflexivity.
Qed.

(** values set as numbers: the number survives, it comes back as a float with a text *)

Lemma read_number_text : forall k wk cls repr c0 n s v t d p pa pt ks1 ks2,
  num_writer k = Some (wk, cls) -> plain t -> absent t ks1 ->
  n_text n = None -> n_value n <> None ->
  num_str repr n = s -> convert s = Ok v -> (k = RPositive -> ~ numv_negative v) ->
  exists w n', leaf_write repr wk t (Some (LNum c0 n)) = Ok [w] /\
    leaf_read k t (reload d (El p pa pt (ks1 ++ w :: ks2))) = Ok (Some (LNum cls n')) /\
    n_value n' = Some v.
Proof.
  intros k wk cls repr c0 [ts uu vv lb tx] s v t d p pa pt ks1 ks2 Hk Ht Ha H1 H2 H3 H4 H5.
  cbn in H1, H2. subst tx. destruct vv as [x|]; [|now elim H2]. cbn in H3. subst s.
  destruct k; inversion Hk; subst; clear Hk; eexists; eexists; (split; [reflexivity|]);
  rewrite leaf_read_written by (assumption || reflexivity); rewrite reload_leaf;
  cbn [leaf_of xtext num_text num_str n_text n_value]; rewrite (text_some _ _ H4);
  unfold set_num; cbn [opt_pstr float_set num_set pos_set]; rewrite (set_str_ok _ _ _ H4);
  try (split; reflexivity).
  cbn. destruct (numv_neg v) eqn:E; [|split; reflexivity].
  apply numv_neg_iff in E. now elim H5.
Qed.

Lemma nilzero_nilempty : forall u, u <> Decimal.Nil ->
  DecimalString.NilZero.string_of_uint u = DecimalString.NilEmpty.string_of_uint u.
Proof. intros [] H; try reflexivity. now elim H. Qed.

Lemma int_text_convert : forall z, (Z.abs z <= 2 ^ 53)%Z ->
  exists v, convert (py_str_int z) = Ok v /\ numv_is v z.
Proof.
  intros z H. unfold py_str_int. pose proof (DecimalZ.of_to z) as Hz.
  destruct z as [|q|q].
  - eexists. split; [vm_compute; reflexivity|]. reflexivity.
  - cbn [Z.to_int] in *. unfold DecimalString.NilZero.string_of_int.
    assert (N : Pos.to_uint q <> Decimal.Nil)
      by (intro E; rewrite E in Hz; discriminate).
    rewrite nilzero_nilempty by assumption.
    destruct (convert_dec_exact NoSign (Pos.to_uint q) N) as [v [H1 H2]].
    + change (Z.of_uint (Pos.to_uint q)) with (Z.of_int (Decimal.Pos (Pos.to_uint q))).
      rewrite Hz. lia.
    + exists v. split; [exact H1|].
      unfold dec_value, sign_apply in H2.
      change (Z.of_uint (Pos.to_uint q)) with (Z.of_int (Decimal.Pos (Pos.to_uint q))) in H2.
      now rewrite Hz in H2.
  - cbn [Z.to_int] in *. unfold DecimalString.NilZero.string_of_int.
    assert (N : Pos.to_uint q <> Decimal.Nil)
      by (intro E; rewrite E in Hz; discriminate).
    rewrite nilzero_nilempty by assumption.
    assert (Hz' : Z.of_uint (Pos.to_uint q) = Zpos q)
      by (cbn [Z.of_int] in Hz; apply (f_equal Z.opp) in Hz; rewrite Z.opp_involutive in Hz; exact Hz).
    destruct (convert_dec_exact Minus (Pos.to_uint q) N) as [v [H1 H2]].
    + rewrite Hz'. lia.
    + exists v. split; [exact H1|]. unfold dec_value, sign_apply in H2.
      now rewrite Hz' in H2.
Qed.

Lemma float_is_not_negative : forall v z, numv_is v z -> (0 <= z)%Z -> ~ numv_negative v.
Proof.
  intros [a|f|b] z H Hz N; cbn [numv_is numv_negative] in H, N.
  - lia.
  - destruct f as [|[]| |[] m e]; cbn [float_is] in H; try contradiction. cbv zeta in H.
    destruct (0 <=? e)%Z eqn:E.
    + apply Z.leb_le in E. assert (P : (0 < 2 ^ e)%Z) by (apply Z.pow_pos_nonneg; lia).
      pose proof (Pos2Z.neg_is_neg m). 
      assert (Z.neg m * 2 ^ e < 0)%Z by (apply Z.mul_neg_pos; assumption). lia.
    + apply Z.leb_gt in E. assert (P : (0 < 2 ^ (- e))%Z) by (apply Z.pow_pos_nonneg; lia).
      pose proof (Pos2Z.neg_is_neg m). 
      assert (0 <= z * 2 ^ (- e))%Z by (apply Z.mul_nonneg_nonneg; lia). lia.
  - contradiction.
Qed.

Lemma int_back : forall k wk cls repr c0 n z t d p pa pt ks1 ks2,
  num_writer k = Some (wk, cls) -> plain t -> absent t ks1 ->
  n_text n = None -> n_value n = Some (NInt z) -> (Z.abs z <= 2 ^ 53)%Z -> (k = RPositive -> (0 <= z)%Z) ->
  exists w n' v, leaf_write repr wk t (Some (LNum c0 n)) = Ok [w] /\
    leaf_read k t (reload d (El p pa pt (ks1 ++ w :: ks2))) = Ok (Some (LNum cls n')) /\
    n_value n' = Some v /\ numv_is v z.
Proof.
  intros k wk cls repr c0 n z t d p pa pt ks1 ks2 Hk Ht Ha H1 H2 H3 H4.
  destruct (int_text_convert z H3) as [v [E1 E2]].
  destruct (read_number_text k wk cls repr c0 n (py_str_int z) v t d p pa pt ks1 ks2) as (w & n' & A & B & C); auto.
  - rewrite H2. discriminate.
  - unfold num_str. rewrite H1, H2. reflexivity.
  - intro E. apply (float_is_not_negative v z); auto.
  - exists w, n', v. auto.
Qed.

Lemma float_back : forall k wk cls repr c0 n f t d p pa pt ks1 ks2,
  num_writer k = Some (wk, cls) -> plain t -> absent t ks1 ->
  n_text n = None -> n_value n = Some (NFloat f) -> convert (repr f) = Ok (NFloat f) ->
  (k = RPositive -> ~ numv_negative (NFloat f)) ->
  exists w n', leaf_write repr wk t (Some (LNum c0 n)) = Ok [w] /\
    leaf_read k t (reload d (El p pa pt (ks1 ++ w :: ks2))) = Ok (Some (LNum cls n')) /\
    n_value n' = Some (NFloat f).
Proof.
  intros k wk cls repr c0 n f t d p pa pt ks1 ks2 Hk Ht Ha H1 H2 H3 H4.
  apply (read_number_text k wk cls repr c0 n (repr f) (NFloat f)); auto.
  - rewrite H2. discriminate.
  - unfold num_str. rewrite H1, H2. reflexivity.
Qed.

Lemma unset_back : forall k cls repr c0 n t d p pa pt ks1 ks2,
  In (k, cls) [(RNumerical, "ARNumerical"); (RInteger, "Integer")] -> plain t -> absent t ks1 ->
  n_text n = None -> n_value n = None -> (k = RInteger -> n_label n = None) ->
  exists w, leaf_write repr WNum t (Some (LNum c0 n)) = Ok [w] /\
    leaf_read k t (reload d (El p pa pt (ks1 ++ w :: ks2))) = Ok (Some (LNum cls n)).
Proof.
  intros k cls repr c0 [ts uu vv lb tx] t d p pa pt ks1 ks2 Hk Ht Ha H1 H2 H3. cbn in H1, H2, H3. subst.
  eexists. split; [reflexivity|].
  rewrite leaf_read_written by (assumption || reflexivity); rewrite reload_leaf.
  destruct Hk as [E|[E|[]]]; inversion E; subst; cbn [leaf_of xtext num_text n_text n_value text_or_none];
  unfold num_blank, set_num; rewrite ar_opt_T, ar_opt_UUID by discriminate;
  cbn [opt_pstr num_set n_ts n_uuid n_label].
  - rewrite ar_opt_key by discriminate. destruct lb; reflexivity.
  - rewrite H3 by reflexivity. reflexivity.
Qed.

(** booleans *)
Lemma BoolText_nonempty : forall s x, BoolText (strip s) x -> is_empty s = false.
Proof.
  intros [|c s] x H; [|reflexivity].
  pose proof (str_to_bool_complete _ _ H) as E. vm_compute in E. discriminate.
Qed.

Lemma bool_back : forall repr b x t d p pa pt ks1 ks2, plain t -> absent t ks1 ->
  b_value b = Some x -> BoolText (strip (bool_str b)) x ->
  exists w b', leaf_write repr WText t (Some (LBool b)) = Ok [w] /\
    leaf_read RBool t (reload d (El p pa pt (ks1 ++ w :: ks2))) = Ok (Some (LBool b')) /\
    b_value b' = Some x /\ b_ts b' = b_ts b /\ bool_str b' = strip (bool_str b).
Proof.
  intros repr b x t d p pa pt ks1 ks2 Ht Ha H1 H2.
  eexists. exists (mkBool (b_ts b) None (Some x) (Some (strip (bool_str b)))).
  split; [reflexivity|].
  rewrite leaf_read_written by (assumption || reflexivity); rewrite reload_leaf.
  cbn [leaf_of xtext]. rewrite text_empty_none, (BoolText_nonempty _ _ H2), ar_attrs_T.
  cbn [bool_set]. rewrite (str_to_bool_complete _ _ H2). cbn. repeat split.
Qed.

(** ** C18 reader *)
Lemma positive_read : forall key e c n v, leaf_read RPositive key e = Ok (Some (LNum c n)) ->
  n_value n = Some v -> ~ numv_negative v.
Proof.
  intros key e c n v H Hv. unfold leaf_read in H. destruct (find key e) as [x|]; [|discriminate].
  cbn [leaf_of] in H. destruct (xtext x) as [s|]; [|discriminate].
  unfold set_num in H. destruct (pos_set _ _) as [n' [e'|]]; [discriminate|].
  destruct (n_value n') as [v'|] eqn:E2; [|discriminate].
  destruct (numv_neg v') eqn:E3; [discriminate|]. inversion H; subst.
  rewrite E2 in Hv. inversion Hv; subst. rewrite <- numv_neg_iff. congruence.
Qed.

Lemma negative_text_rejected : forall key e x n s n' v, find key e = Some x -> xtext x = Some s ->
  num_setValue KPos n (PStr s) = (n', None) -> n_value n' = Some v -> numv_negative v ->
  leaf_read RPositive key e = Raise ValueError.
Proof.
  intros key e x n s n' v H1 H2 H3 H4 H5. unfold leaf_read. rewrite H1. cbn [leaf_of]. rewrite H2.
  cbn [num_setValue pos_set] in H3. unfold set_num. cbn [pos_set]. unfold set_str in *.
  destruct (convert s) as [v'|]; [|discriminate]. inversion H3; subst. cbn in H4. inversion H4; subst.
  cbn. apply numv_neg_iff in H5. now rewrite H5.
Qed.

(** ** C43 *)
Lemma reorder_steps : forall s r p pa pt a b, s <> "*" -> s <> "." -> reorder a b ->
  steps (s :: r) (El p pa pt a) = steps (s :: r) (El p pa pt b).
Proof.
  intros s r p pa pt a b H1 H2 H. cbn [steps]. f_equal. unfold step.
  destruct (String.eqb_spec s "*"); [contradiction|].
  destruct (String.eqb_spec s "."); [contradiction|]. cbn [xkids]. now apply reorder_filter.
Qed.

Lemma reorder_findall : forall key p pa pt a b, head_step key <> "*" -> head_step key <> "." ->
  reorder a b -> findall key (El p pa pt a) = findall key (El p pa pt b).
Proof.
  intros key p pa pt a b H1 H2 H. unfold findall. unfold head_step in *.
  destruct (split_char "/" key) as [|s r] eqn:E; [|apply reorder_steps; auto].
  destruct key; cbn in E; [discriminate|]. destruct (Ascii.eqb _ _); [discriminate|].
  destruct (split_char _ _); discriminate.
Qed.

Lemma reorder_leaf : forall k key p pa pt a b, head_step key <> "*" -> head_step key <> "." ->
  reorder a b ->
  leaf_read k key (El p pa pt a) = leaf_read k key (El p pa pt b) /\
  leaf_list k key (El p pa pt a) = leaf_list k key (El p pa pt b).
Proof.
  intros k key p pa pt a b H1 H2 H. unfold leaf_read, leaf_list, find.
  now rewrite (reorder_findall key p pa pt a b) by assumption.
Qed.

Lemma assigned_from_text : forall n, text_assigned n -> from_text n.
Proof.
  intros n (k & n0 & s & H). assert (E : set_str n0 s = (n, None)) by (destruct k; exact H).
  unfold set_str in E. destruct (convert s) as [v|] eqn:C; [|discriminate].
  inversion E; subst. exists s, v. repeat split; auto.
Qed.

Lemma numerical_assigned_back : forall repr cls n t d p pa pt ks1 ks2, plain t -> absent t ks1 ->
  text_assigned n ->
  exists w, leaf_write repr WNum t (Some (LNum cls n)) = Ok [w] /\
    leaf_read RNumerical t (reload d (El p pa pt (ks1 ++ w :: ks2))) = Ok (Some (LNum "ARNumerical" n)).
Proof. intros. apply numerical_text_back; auto using assigned_from_text. Qed.

Lemma typed_assigned_back : forall repr k wk cls c0 n t d p pa pt ks1 ks2,
  In (k, wk, cls) [(RInteger, WNum, "Integer"); (RPositive, WNum, "PositiveInteger");
                   (RFloat, WText, "ARFloat"); (RTime, WText, "TimeValue")] ->
  plain t -> absent t ks1 -> text_assigned n -> n_label n = None ->
  (k = RTime -> n_ts n = None /\ n_uuid n = None) ->
  (k = RPositive -> forall v, n_value n = Some v -> ~ numv_negative v) ->
  exists w, leaf_write repr wk t (Some (LNum c0 n)) = Ok [w] /\
    leaf_read k t (reload d (El p pa pt (ks1 ++ w :: ks2))) = Ok (Some (LNum cls n)).
Proof.
  intros repr k wk cls c0 n t d p pa pt ks1 ks2 Hk Ht Ha Hn Hl Htime Hpos.
  apply assigned_from_text in Hn.
  destruct Hk as [E|[E|[E|[E|[]]]]]; inversion E; subst.
  - now apply integer_text_back.
  - apply positive_text_back; auto.
  - now apply float_text_back.
  - destruct Htime as [H1 H2]; [reflexivity|]. now apply time_text_back.
Qed.
