(** Leaf elements in the round trip: what a compatible writer writes the reader reads back. *)
From Coq Require Import String Ascii List Bool Arith ZArith Lia Floats.SpecFloat.
From Verif Require Import PyBase Primitives SpecNum NumFacts Xml Leaf SpecLeaf XmlFacts LeafProps
  ClassTable Ir IrSem Domain SpecDomain IrCheck.
Import ListNotations.
Open Scope string_scope.
Open Scope list_scope.

Local Opaque convert.

Lemma nb_opt : forall v : option string, v <> Some "" -> text_or_none v = v.
Proof. intros [[|c s]|] H; try reflexivity. now elim H. Qed.

Lemma leaf_rt : forall repr wk rk tag l, compat wk rk = true -> leaf_ok rk l ->
  exists ats tx, leaf_element repr wk tag l = Ok (El tag ats tx []) /\
    forall t', leaf_of rk (El t' ats (text_or_none tx) []) = Ok (Some l).
Proof.
  intros repr wk rk tag l C H.
  assert (NUM : forall cls P, number cls l P -> exists n s v, l = LNum cls n /\ n_text n = Some s /\
     convert s = Ok v /\ n_value n = Some v /\ text_or_none (Some s) = Some s /\ P n).
  { intros cls P (n & E & T & p). apply assigned_from_text in T. destruct T as (s & v & T1 & T2 & T3).
    exists n, s, v. repeat split; auto. eapply text_some; eassumption. }
  assert (STR : forall n s, n_text n = Some s -> num_str repr n = s).
  { intros n s E. unfold num_str. now rewrite E. }
  destruct wk, rk; try discriminate C; cbn [leaf_ok] in H;
  try (destruct (NUM _ _ H) as (n & s & v & -> & Hs & Hc & Hv & Ht & p); clear NUM; destruct n as [ts uu vv lb tx]; cbn in Hs, Hv, p; subst).
  - do 2 eexists. split; [reflexivity|]. intro t'. cbn [num_text n_text leaf_of xtext n_ts n_uuid n_label opt_pstr]. rewrite Ht. cbn [opt_pstr].
    unfold num_blank. rewrite ar_opt_T, ar_opt_UUID, ar_opt_key by discriminate. unfold set_num, num_set.
    rewrite (set_str_ok _ _ _ Hc). destruct lb; reflexivity.
  - unfold no_label in p. cbn in p. subst. do 2 eexists. split; [reflexivity|]. intro t'. cbn [num_text n_text leaf_of xtext n_ts n_uuid n_label opt_pstr]. rewrite Ht. cbn [opt_pstr].
    unfold num_blank. rewrite ar_opt_T, ar_opt_UUID by discriminate. unfold set_num, num_set.
    rewrite (set_str_ok _ _ _ Hc). reflexivity.
  - destruct p as [p1 p2]. unfold no_label, not_negative in *. cbn in p1, p2. subst. do 2 eexists. split; [reflexivity|]. intro t'. cbn [num_text n_text leaf_of xtext n_ts n_uuid n_label opt_pstr]. rewrite Ht. cbn [opt_pstr].
    unfold num_blank. rewrite ar_opt_T, ar_opt_UUID by discriminate. unfold set_num, pos_set.
    rewrite (set_str_ok _ _ _ Hc). cbn [with_value with_text n_value].
    destruct (numv_neg v) eqn:E; [|reflexivity]. elim (p2 v eq_refl). now apply numv_neg_iff.
  - destruct p as [p1 [p2 p3]]. unfold no_label in p1. cbn in p1, p2, p3. subst. do 2 eexists. split; [reflexivity|]. intro t'. cbn [num_text n_text leaf_of xtext n_ts n_uuid n_label opt_pstr]. rewrite Ht. cbn [opt_pstr].
    unfold set_num, num_set. rewrite (set_str_ok _ _ _ Hc). reflexivity.
  - destruct H as (t & u & s & ->). do 2 eexists. split; [reflexivity|]. intro t'. cbn [leaf_of l_ts l_uuid]. unfold lit_of.
    rewrite ar_attrs_T, ar_attrs_UUID. cbn [xtext]. rewrite text_empty_none. reflexivity.
  - destruct H as (t & u & s & ->). do 2 eexists. split; [reflexivity|]. intro t'. cbn [leaf_of l_ts l_uuid]. unfold lit_of.
    rewrite ar_attrs_T, ar_attrs_UUID. cbn [xtext]. rewrite text_empty_none. reflexivity.
  - destruct H as (t & u & s & ->). do 2 eexists. split; [reflexivity|]. intro t'. cbn [leaf_of l_ts l_uuid]. unfold lit_of.
    rewrite ar_attrs_T, ar_attrs_UUID. cbn [xtext]. rewrite text_empty_none. reflexivity.
  - destruct H as (t & u & s & -> & R). do 2 eexists. split; [reflexivity|]. intro t'. cbn [leaf_of l_ts l_uuid xtext].
    pose proof (revision_complete _ R) as R'. destruct (RevText_nonempty _ R) as (c & r & ->). cbn [lit_str l_value text_or_none].
    rewrite R'. unfold lit_of. rewrite ar_attrs_T, ar_attrs_UUID. reflexivity.
  - unfold no_label in p. cbn in p. subst. do 2 eexists. split; [reflexivity|]. intro t'. cbn [leaf_of xtext n_ts n_uuid]. rewrite (STR (mkNum ts uu (Some v) None (Some s)) s) by reflexivity. rewrite Ht.
    unfold num_blank. rewrite ar_attrs_T, ar_attrs_UUID. unfold set_num, float_set.
    rewrite (set_str_ok _ _ _ Hc). reflexivity.
  - destruct p as [p1 [p2 p3]]. unfold no_label in p1. cbn in p1, p2, p3. subst. do 2 eexists. split; [reflexivity|]. intro t'. cbn [leaf_of xtext n_ts n_uuid]. rewrite (STR (mkNum None None (Some v) None (Some s)) s) by reflexivity. rewrite Ht.
    unfold set_num, float_set. rewrite (set_str_ok _ _ _ Hc). reflexivity.
  - destruct H as (t & x & s & -> & Hs & B). do 2 eexists. split; [reflexivity|]. intro t'.
    cbn [leaf_of b_ts b_uuid xtext bool_str b_text b_value]. rewrite <- Hs in B. pose proof (BoolText_nonempty _ _ B) as NE.
    destruct s as [|c s]; [discriminate NE|]. cbn [text_or_none text_or_empty]. rewrite NE. cbn [bool_set].
    rewrite (str_to_bool_complete _ _ B), Hs. rewrite ar_attrs_T. reflexivity.
  - destruct H as (s & -> & Hs). do 2 eexists. split; [reflexivity|]. intro t'. cbn [leaf_of xtext lit_str l_value]. rewrite nb_opt by congruence. reflexivity.
  - destruct p as [p1 [p2 p3]]. unfold no_label in p1. cbn in p1, p2, p3. subst. do 2 eexists. split; [reflexivity|]. intro t'. cbn [leaf_of xtext n_ts n_uuid]. rewrite (STR (mkNum None None (Some v) None (Some s)) s) by reflexivity. rewrite Ht. cbn [opt_pstr].
    unfold set_num, float_set. rewrite (set_str_ok _ _ _ Hc). reflexivity.
  - destruct H as (r & -> & NB). do 2 eexists. split; [reflexivity|]. intro t'. cbn [leaf_of xtext]. rewrite not_blank_text by assumption.
    destruct r as [[b|] [e|] v]; reflexivity.
  - destruct H as (t & u & i & v & -> & NB). do 2 eexists. split; [reflexivity|]. intro t'. cbn [leaf_of xtext li_ts li_uuid li_interval li_value].
    rewrite not_blank_text by assumption. rewrite ar_opt_T, ar_opt_UUID, ar_opt_key by discriminate. destruct i; reflexivity.
Qed.

(** a literal of any class, read as a literal *)
Lemma wrap_rt : forall repr c s tag, exists ats tx,
  leaf_element repr WText tag (LLit c (mkLit None None (Some s))) = Ok (El tag ats tx []) /\
  forall t', leaf_of RLiteral (El t' ats (text_or_none tx) []) = Ok (Some (LLit "ARLiteral" (mkLit None None (Some s)))).
Proof.
  intros. do 2 eexists. split; [reflexivity|]. intro t'. cbn [leaf_of]. unfold lit_of. cbn [xtext lit_str l_value].
  rewrite text_empty_none. reflexivity.
Qed.
