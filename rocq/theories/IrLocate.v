(** Path lookup in the written elements: [locate] (IrCheck.v) is sound. *)
From Coq Require Import String Ascii List Bool Arith Lia Floats.SpecFloat.
From Verif Require Import PyBase PyBaseFacts Primitives Xml Leaf SpecLeaf XmlFacts ClassTable Ir Access WriterCode ReaderCode IrSem
  IrFacts IrGo Domain SpecDomain IrCheck IrLeaf IrWrite.
Import ListNotations.
Open Scope string_scope.
Open Scope list_scope.

Local Opaque access_of attrs_of init named_init wfuns rfuns domain ancestors access_table attr_table fuel.

(** ** Events *)
Definition ev_kids (evs : list ev) : list xml := flat_map (fun e => match e with EvK x => [x] | _ => [] end) evs.
Definition ev_attrs (evs : list ev) : list (string * string) := flat_map (fun e => match e with EvA k s => [(k, s)] | _ => [] end) evs.
Definition ev_texts (evs : list ev) : list string := flat_map (fun e => match e with EvT s => [s] | _ => [] end) evs.
Lemma ev_kids_app : forall a b, ev_kids (a ++ b) = ev_kids a ++ ev_kids b.
Proof. intros. apply flat_map_app. Qed.
Lemma ev_attrs_app : forall a b, ev_attrs (a ++ b) = ev_attrs a ++ ev_attrs b.
Proof. intros. apply flat_map_app. Qed.
Lemma ev_texts_app : forall a b, ev_texts (a ++ b) = ev_texts a ++ ev_texts b.
Proof. intros. apply flat_map_app. Qed.
Lemma ev_kids_map : forall xs, ev_kids (map EvK xs) = xs.
Proof. induction xs; cbn; [reflexivity|]. now f_equal. Qed.
Lemma ev_attrs_map : forall xs, ev_attrs (map EvK xs) = [].
Proof. induction xs; cbn; auto. Qed.
Lemma ev_texts_map : forall xs, ev_texts (map EvK xs) = [].
Proof. induction xs; cbn; auto. Qed.

Lemma apply_ev_kids : forall evs e, e_kids (apply evs e) = e_kids e ++ ev_kids evs.
Proof.
  induction evs as [|v evs IH]; intros e; [cbn; now rewrite app_nil_r|].
  change (apply (v :: evs) e) with (apply evs (apply1 e v)). rewrite IH. destruct v; cbn; try reflexivity.
  rewrite <- app_assoc. reflexivity.
Qed.
Definition last_str (l : list string) (d : option string) : option string := fold_left (fun _ s => Some s) l d.
Lemma apply_ev_text : forall evs e, e_text (apply evs e) = last_str (ev_texts evs) (e_text e).
Proof.
  induction evs as [|v evs IH]; intros e; [reflexivity|].
  change (apply (v :: evs) e) with (apply evs (apply1 e v)). rewrite IH. destruct v; reflexivity.
Qed.
Definition attr_vals (k : string) (l : list (string * string)) : list string :=
  flat_map (fun p => if String.eqb (fst p) k then [snd p] else []) l.
Lemma attr_vals_app : forall k a b, attr_vals k (a ++ b) = attr_vals k a ++ attr_vals k b.
Proof. intros. apply flat_map_app. Qed.
Lemma apply_ev_attr : forall k evs e, dget (e_attrs (apply evs e)) k = last_str (attr_vals k (ev_attrs evs)) (dget (e_attrs e) k).
Proof.
  intros k. induction evs as [|v evs IH]; intros e; [reflexivity|].
  change (apply (v :: evs) e) with (apply evs (apply1 e v)). rewrite IH. destruct v as [k' s|x|s]; try reflexivity.
  cbn [apply1 add_attr e_attrs ev_attrs flat_map app attr_vals fst snd].
  destruct (String.eqb_spec k' k) as [->|N]; cbn [app].
  - rewrite dget_dset_same. reflexivity.
  - rewrite dget_dset_other by congruence. reflexivity.
Qed.

Section Locate.
Context (repr : spec_float -> string) (warn : bool) (WE : list (string * (list wi * string))).
Notation wgo := (wgo repr warn).
Notation den := (den repr warn WE).
Notation dens := (dens repr warn WE).
Notation dens_ := dens_.
Notation leaf_xml := (leaf_xml repr).
Notation obj_xml := (obj_xml repr warn WE).
Context (HWE : WE_ok WE).

Lemma dens_cons : forall v i its evs, dens v (i :: its) evs -> exists a b, evs = a ++ b /\ den i v a /\ dens v its b.
Proof. intros. exact H. Qed.

Section ItemInd.
Context (P : item -> Prop).
Context (H1 : forall i, match i with IGroup _ _ _ _ | IInl _ _ _ => False | _ => True end -> P i).
Context (H2 : forall t its b k, Forall P its -> P (IGroup t its b k)).
Context (H3 : forall f c its, Forall P its -> P (IInl f c its)).
Fixpoint item_ind2 (i : item) : P i :=
  let go := fix go (l : list item) : Forall P l :=
    match l with [] => Forall_nil P | j :: r => Forall_cons j (item_ind2 j) (go r) end in
  match i with
  | IGroup t its b k => H2 t its b k (go its)
  | IInl f c its => H3 f c its (go its)
  | IAttrs => H1 IAttrs I
  | IName => H1 IName I
  | ILeaf f wr al lt s => H1 (ILeaf f wr al lt s) I
  | IObj f wr al alts => H1 (IObj f wr al alts) I
  | IXAttr n f => H1 (IXAttr n f) I
  | IText f => H1 (IText f) I
  | IForeign ts => H1 (IForeign ts) I
  end.
End ItemInd.

Lemma leaf_tag : forall wk tag l x, leaf_element repr wk tag l = Ok x -> exists a t, x = El tag a t [].
Proof.
  intros wk tag l x H. destruct wk, l; cbn in H; try discriminate; try (inversion H; eauto).
Qed.
Lemma leaf_xml_tag : forall lt s l x, leaf_xml lt s l x -> xtag x = ltag s.
Proof.
  intros lt [t s|t k] l x H; cbn in H.
  - destruct H as (y & _ & ->). reflexivity.
  - destruct H as (_ & H). apply leaf_tag in H. destruct H as (a & tx & ->). reflexivity.
Qed.
Lemma nest_tags : forall wr al xs x, In x (nest wr al xs) -> match wr with [] => In x xs | t :: _ => xtag x = t end.
Proof.
  intros [|t wr] al xs x H; [exact H|]. cbn [nest] in H. destruct xs; [destruct al|]; cbn in H;
    repeat (destruct H as [H|H]; [subst; reflexivity|]); contradiction.
Qed.
Lemma forall2_in : forall A B (R : A -> B -> Prop) l m b, Forall2 R l m -> In b m -> exists a, In a l /\ R a b.
Proof. induction 1; intros I; [contradiction|]. destruct I as [->|I]; [eexists; split; [left; reflexivity|assumption]|]. destruct IHForall2 as (a & X & Y); auto. exists a. split; [right|]; assumption. Qed.

(** the children an item adds have one of its tags *)
Lemma den_tags : forall i v evs, den i v evs -> forall x, In x (ev_kids evs) -> In (xtag x) (itags i).
Proof.
  induction i as [i Hi|t its b k _|f c its IH] using item_ind2; intros v evs D x I.
  - destruct i; try contradiction; cbn in D.
    + subst. unfold attr_evs in I. rewrite ev_kids_app in I.
      destruct (opt_str (field v "timestamp")), (opt_str (field v "uuid")); cbn in I; contradiction.
    + destruct D as (s & _ & ->). cbn in I. destruct I as [<-|[]]. left. reflexivity.
    + destruct D as (w & ls & xs & _ & _ & _ & F & ->). rewrite ev_kids_map in I. apply nest_tags in I.
      destruct wr as [|t wr]; cbn [itags]; [|left; auto]. destruct (forall2_in _ _ _ _ _ _ F I) as (l & _ & L).
      left. symmetry. eapply leaf_xml_tag. exact L.
    + destruct D as (w & xs & _ & F & -> & _). rewrite ev_kids_map in I. apply nest_tags in I.
      destruct wr as [|t wr]; cbn [itags]; [|left; auto]. destruct (forall2_in _ _ _ _ _ _ F I) as (u & _ & c & t & b & k & s & _ & A & _ & _ & _ & ->).
      apply assoc_In in A. apply (in_map (fun a => fst (snd a))) in A. exact A.
    + destruct D as (w & _ & [[_ ->]|(s & _ & ->)]); contradiction.
    + destruct D as (w & _ & [[_ ->]|(s & _ & ->)]); contradiction.
    + rewrite Forall_forall in D. unfold ev_kids in I. apply in_flat_map in I. destruct I as (e & Ie & Ix).
      specialize (D e Ie). destruct e; try contradiction. destruct Ix as [->|[]]. exact D.
  - cbn in D. destruct D as (evs' & _ & -> & _). destruct I as [<-|[]]. left. reflexivity.
  - destruct D as (w & _ & [[_ ->]|(_ & _ & D)]); [contradiction|]. cbn [itags].
    revert evs D I. induction IH as [|i its Hi IH IHl]; intros evs D I.
    + cbn in D. subst. contradiction.
    + destruct D as (a & b & -> & D1 & D2). rewrite ev_kids_app in I. apply in_app_or in I. cbn [flat_map]. apply in_or_app.
      destruct I as [I|I]; [left; eapply Hi; eassumption|right; eapply IHl; eassumption].
Qed.
(** attributes *)
Lemma den_attrs : forall i v evs, den i v evs -> is_foreign i = false -> forall k s, In (k, s) (ev_attrs evs) -> In k (iattrs i).
Proof.
  induction i as [i Hi|t its b k _|f c its IH] using item_ind2; intros v evs D NF k0 s0 I.
  - destruct i; try contradiction; cbn in D.
    + subst. unfold attr_evs in I. rewrite ev_attrs_app in I. cbn [iattrs].
      destruct (opt_str (field v "timestamp")), (opt_str (field v "uuid")); cbn in I;
        repeat (destruct I as [I|I]; [inversion I; subst; cbn; auto|]); contradiction.
    + destruct D as (s & _ & ->). contradiction.
    + destruct D as (w & ls & xs & _ & _ & _ & F & ->). rewrite ev_attrs_map in I. contradiction.
    + destruct D as (w & xs & _ & F & -> & _). rewrite ev_attrs_map in I. contradiction.
    + destruct D as (w & _ & [[_ ->]|(s & _ & ->)]); [contradiction|]. destruct I as [I|[]]. inversion I; subst. left. reflexivity.
    + destruct D as (w & _ & [[_ ->]|(s & _ & ->)]); contradiction.
    + discriminate.
  - cbn in D. destruct D as (evs' & _ & -> & _). contradiction.
  - destruct D as (w & _ & [[_ ->]|(_ & _ & D)]); [contradiction|]. cbn [iattrs]. cbn [is_foreign] in NF.
    revert evs D I. induction IH as [|i its Hi IH IHl]; intros evs D I.
    + cbn in D. subst. contradiction.
    + cbn [existsb] in NF. apply orb_false_iff in NF. destruct NF as [NF1 NF2].
      destruct D as (a & b & -> & D1 & D2). rewrite ev_attrs_app in I. apply in_app_or in I. cbn [flat_map]. apply in_or_app.
      destruct I as [I|I]; [left; eapply Hi; eassumption|right; eapply IHl; eassumption].
Qed.
(** texts *)
Lemma den_texts : forall i v evs, den i v evs -> itexts i = [] -> ev_texts evs = [].
Proof.
  induction i as [i Hi|t its b k _|f c its IH] using item_ind2; intros v evs D NT.
  - destruct i; try contradiction; cbn in D.
    + subst. unfold attr_evs. rewrite ev_texts_app.
      destruct (opt_str (field v "timestamp")), (opt_str (field v "uuid")); reflexivity.
    + destruct D as (s & _ & ->). reflexivity.
    + destruct D as (w & ls & xs & _ & _ & _ & F & ->). apply ev_texts_map.
    + destruct D as (w & xs & _ & F & -> & _). apply ev_texts_map.
    + destruct D as (w & _ & [[_ ->]|(s & _ & ->)]); reflexivity.
    + discriminate.
    + induction D as [|e evs He D IHD]; [reflexivity|]. destruct e; cbn; auto. contradiction.
  - cbn in D. destruct D as (evs' & _ & -> & _). reflexivity.
  - destruct D as (w & _ & [[_ ->]|(_ & _ & D)]); [reflexivity|]. cbn [itexts] in NT.
    revert evs D. induction IH as [|i its Hi IH IHl]; intros evs D.
    + cbn in D. subst. reflexivity.
    + cbn [flat_map] in NT. apply app_eq_nil in NT. destruct NT as [NT1 NT2].
      destruct D as (a & b & -> & D1 & D2). rewrite ev_texts_app. rewrite (Hi _ _ D1 NT1), (IHl NT2 _ D2). reflexivity.
Qed.
Lemma dens_texts : forall its v evs, dens v its evs -> flat_map itexts its = [] -> ev_texts evs = [].
Proof.
  induction its as [|i its IH]; intros v evs D NT; [cbn in D; subst; reflexivity|].
  cbn [flat_map] in NT. apply app_eq_nil in NT. destruct D as (a & b & -> & D1 & D2). rewrite ev_texts_app.
  rewrite (den_texts _ _ _ D1 (proj1 NT)), (IH _ _ D2 (proj2 NT)). reflexivity.
Qed.
Lemma dens_tags : forall its v evs, dens v its evs -> forall x, In x (ev_kids evs) -> In (xtag x) (flat_map itags its).
Proof.
  induction its as [|i its IH]; intros v evs D x I; [cbn in D; subst; contradiction|].
  destruct D as (a & b & -> & D1 & D2). rewrite ev_kids_app in I. apply in_app_or in I. cbn [flat_map]. apply in_or_app.
  destruct I as [I|I]; [left; eapply den_tags; eassumption|right; eapply IH; eassumption].
Qed.
Lemma dens_attrs : forall its v evs, dens v its evs -> no_foreign its = true -> forall k s, In (k, s) (ev_attrs evs) -> In k (flat_map iattrs its).
Proof.
  induction its as [|i its IH]; intros v evs D NF k s I; [cbn in D; subst; contradiction|].
  unfold no_foreign in NF. cbn [existsb] in NF. apply negb_true_iff, orb_false_iff in NF. destruct NF as [N1 N2].
  destruct D as (a & b & -> & D1 & D2). rewrite ev_attrs_app in I. apply in_app_or in I. cbn [flat_map]. apply in_or_app.
  destruct I as [I|I]; [left; eapply den_attrs; eassumption|right; eapply IH; try eassumption].
  unfold no_foreign. now rewrite N2.
Qed.
Lemma mem_in : forall s l, mem s l = true <-> In s l.
Proof.
  intros. unfold mem. rewrite existsb_exists. split.
  - intros (x & I & E). apply String.eqb_eq in E. subst. exact I.
  - intro. exists s. split; [assumption|apply String.eqb_refl].
Qed.
Lemma mem_out : forall s l, mem s l = false <-> ~ In s l.
Proof. intros. rewrite <- mem_in. destruct (mem s l); split; congruence. Qed.
Lemma attr_vals_none : forall k l, (forall s, ~ In (k, s) l) -> attr_vals k l = [].
Proof.
  induction l as [|[k' s'] l IH]; intros H; [reflexivity|]. cbn. destruct (String.eqb_spec k' k) as [->|N].
  - elim (H s'). left. reflexivity.
  - cbn. apply IH. intros s I. apply (H s). right. exact I.
Qed.
Lemma den_no_attr : forall i v evs k, den i v evs -> is_foreign i = false -> mem k (iattrs i) = false -> attr_vals k (ev_attrs evs) = [].
Proof. intros. apply attr_vals_none. intros s I. apply mem_out in H1. apply H1. eapply den_attrs; eassumption. Qed.
Lemma dens_no_attr : forall its v evs k, dens v its evs -> no_foreign its = true -> mem k (flat_map iattrs its) = false -> attr_vals k (ev_attrs evs) = [].
Proof. intros. apply attr_vals_none. intros s I. apply mem_out in H1. apply H1. eapply dens_attrs; eassumption. Qed.
(** only the items that may set an attribute matter for its value *)
Lemma dens_attr_filter : forall k its v evs, dens v its evs -> no_foreign its = true ->
  exists evs', dens v (filter (fun i => mem k (iattrs i)) its) evs' /\ attr_vals k (ev_attrs evs) = attr_vals k (ev_attrs evs').
Proof.
  intros k. induction its as [|i its IH]; intros v evs D NF; [cbn in D; subst; exists []; split; reflexivity|].
  unfold no_foreign in NF. cbn [existsb] in NF. apply negb_true_iff, orb_false_iff in NF. destruct NF as [N1 N2].
  destruct D as (a & b & -> & D1 & D2). destruct (IH _ _ D2) as (b' & D' & E); [unfold no_foreign; now rewrite N2|].
  cbn [filter]. rewrite ev_attrs_app, attr_vals_app, E. destruct (mem k (iattrs i)) eqn:M.
  - exists (a ++ b'). split; [exists a, b'; auto|]. now rewrite ev_attrs_app, attr_vals_app.
  - exists b'. split; [exact D'|]. now rewrite (den_no_attr _ _ _ _ D1 N1 M).
Qed.

(** only the items with a matching tag matter for the children with that tag *)
Definition hitk (h : string) (x : xml) : bool := hits h (xtag x).
Lemma hits_existsb : forall h t l, In t l -> hits h t = true -> existsb (hits h) l = true.
Proof. intros. apply existsb_exists. eauto. Qed.
Lemma filter_none : forall A (f : A -> bool) l, (forall x, In x l -> f x = false) -> filter f l = [].
Proof. induction l as [|a l IH]; intros H; [reflexivity|]. cbn. rewrite (H a (or_introl eq_refl)). apply IH. intros. apply H. now right. Qed.
Lemma filter_all : forall A (f : A -> bool) l, (forall x, In x l -> f x = true) -> filter f l = l.
Proof. induction l as [|a l IH]; intros H; [reflexivity|]. cbn. rewrite (H a (or_introl eq_refl)). f_equal. apply IH. intros. apply H. now right. Qed.
Lemma dens_hit : forall h its v evs, dens v its evs ->
  exists evs', dens v (filter (fun i => existsb (hits h) (itags i)) its) evs' /\ filter (hitk h) (ev_kids evs) = filter (hitk h) (ev_kids evs').
Proof.
  intros h. induction its as [|i its IH]; intros v evs D; [cbn in D; subst; exists []; split; reflexivity|].
  destruct D as (a & b & -> & D1 & D2). destruct (IH _ _ D2) as (b' & D' & E).
  cbn [filter]. rewrite ev_kids_app, filter_app, E. destruct (existsb (hits h) (itags i)) eqn:M.
  - exists (a ++ b'). split; [exists a, b'; auto|]. now rewrite ev_kids_app, filter_app.
  - exists b'. split; [exact D'|]. rewrite filter_none; [reflexivity|]. intros x I.
    unfold hitk. destruct (hits h (xtag x)) eqn:E1; [|reflexivity].
    rewrite (hits_existsb _ _ _ (den_tags _ _ _ D1 _ I) E1) in M. discriminate.
Qed.
Lemma dens_single : forall v i evs, dens v [i] evs -> den i v evs.
Proof. intros v i evs (a & b & -> & D & E). cbn in E. subst. now rewrite app_nil_r. Qed.

Lemma step_hit : forall h x, h <> "." -> step h x = filter (hitk h) (xkids x).
Proof.
  intros h x N. unfold step, hitk, hits. destruct (String.eqb_spec h "*").
  - subst. cbn. symmetry. apply filter_all. reflexivity.
  - destruct (String.eqb_spec h "."); [contradiction|]. apply filter_ext. intro a. unfold has_tag. apply String.eqb_sym.
Qed.
Lemma filter_reload_hit : forall h d ks, filter (hitk h) (map (reload d) ks) = map (reload d) (filter (hitk h) ks).
Proof.
  induction ks as [|k ks IH]; [reflexivity|]. cbn [map filter].
  assert (E : hitk h (reload d k) = hitk h k) by (unfold hitk; now rewrite reload_tag).
  rewrite E, IH. destruct (hitk h k); reflexivity.
Qed.

(** ** Elements of contexts *)
Definition is_group (i : item) : bool := match i with IGroup _ _ _ _ => true | _ => false end.
Definition at_ (cx : ctx) (v : val) (x : xml) : Prop :=
  match cx with
  | CxE ci tag its bk => exists evs d, dens v its evs /\ x = reload d (to_xml tag (apply evs elem0)) /\
      ((class_of v = Some (ci_cls ci) /\ ok v) \/ (bk = None /\ existsb is_group its = false)) /\
      forall b k, bk = Some (b, k) -> wgo b k v elem0 (apply evs elem0)
  | CxI c tag b k => class_of v = Some c /\ ok v /\ In (c, (b, k)) WE /\
      exists s d, wgo b k v elem0 s /\ x = reload d (to_xml tag s)
  | CxL lt s => exists l y d, v = VLeaf l /\ leaf_lt lt l /\ leaf_xml lt s l y /\ x = reload d y
  end.
Lemma at_tag : forall cx v x, at_ cx v x -> xtag x = cx_tag cx.
Proof.
  intros [ci tag its bk|c tag b k|lt s] v x H; cbn [at_] in H.
  - destruct H as (evs & d & _ & -> & _). rewrite reload_tag. reflexivity.
  - destruct H as (_ & _ & _ & s & d & _ & ->). rewrite reload_tag. reflexivity.
  - destruct H as (l & y & d & _ & _ & L & ->). rewrite reload_tag. eapply leaf_xml_tag. exact L.
Qed.
Lemma at_rtag : forall cx v x key t, at_ cx v x -> rtag key x t = ckey key cx t.
Proof. intros. destruct t as [[]|]; cbn; try reflexivity. eapply at_tag. exact H. Qed.

Lemma open_ok : forall cx v x ci t its, at_ cx v x -> cx_open cx = Some (ci, t, its) ->
  exists evs d, dens v its evs /\ x = reload d (to_xml t (apply evs elem0)) /\
    ((class_of v = Some (ci_cls ci) /\ ok v) \/ existsb is_group its = false).
Proof.
  intros [ci0 tag its0 bk|c tag b k|lt s] v x ci t its H O; cbn [at_] in H; cbn [cx_open] in O; unfold omap in O.
  - inversion O; subst. destruct H as (evs & d & D & X & G & _). exists evs, d. repeat split; auto. destruct G as [G|[_ G]]; auto.
  - destruct (wsim fuel (cinfo_of c) b k) as [its0|] eqn:E; [|discriminate]. inversion O; subst.
    destruct H as (C & OK & I & s & d & W & ->). destruct (write_ok repr warn WE HWE _ _ _ _ OK C I) as (its' & evs & S & D & R).
    rewrite E in S. inversion S; subst. exists evs, d. split; [exact D|]. split.
    + now rewrite (wgo_det _ _ _ _ _ _ _ _ W (R elem0)).
    + left. split; [exact C|exact OK].
  - discriminate.
Qed.

(** ** Lookup *)
Definition oeqb (a b : option string) : bool :=
  match a, b with Some x, Some y => String.eqb x y | None, None => true | _, _ => false end.
Lemma oeqb_spec : forall a b, reflect (a = b) (oeqb a b).
Proof.
  intros [a|] [b|]; cbn; try (constructor; congruence). destruct (String.eqb_spec a b); constructor; congruence.
Qed.
Lemma oeqb_refl : forall a, oeqb a a = true.
Proof. intro a. destruct (oeqb_spec a a); congruence. Qed.
Fixpoint alook (k : option string) (alts : list (option string * option ctx)) : option (option ctx) :=
  match alts with
  | [] => None
  | (c, a) :: r => if oeqb k c then Some a else alook k r
  end.
Definition alt_at (alts : list (option string * option ctx)) (u : val) (ys : list xml) : Prop :=
  exists a, alook (class_of u) alts = Some a /\ match a with None => ys = [] | Some cx => exists y, ys = [y] /\ at_ cx u y end.
Definition loc_ok (l : loc) (v : val) (ys : list xml) : Prop :=
  match l with
  | LNone => ys = []
  | LOne cx => exists y, ys = [y] /\ at_ cx v y
  | LWrap f cx => exists w, field v f = Some w /\
      ((units w = [] /\ ys = []) \/ (units w <> [] /\ exists y, ys = [y] /\ at_ cx v y))
  | LItems f alts => exists w yss, field v f = Some w /\ ys = concat yss /\ Forall2 (alt_at alts) (units w) yss /\ NoDup (map fst alts)
  end.

Lemma to_alt_ok : forall l a v ys, to_alt l = Some a -> (forall l', l = Some l' -> loc_ok l' v ys) ->
  match a with None => ys = [] | Some cx => exists y, ys = [y] /\ at_ cx v y end.
Proof.
  intros [[]|] a v ys H L; cbn in H; try discriminate; inversion H; subst; exact (L _ eq_refl).
Qed.

Lemma flat_map_concat : forall A B (f : A -> list B) l, flat_map f l = concat (map f l).
Proof. exact flat_map_concat_map. Qed.
Lemma flat_map_filter : forall A B (p : A -> bool) (f : A -> list B) l,
  flat_map f (filter p l) = concat (map (fun x => if p x then f x else []) l).
Proof. induction l as [|a l IH]; [reflexivity|]. cbn. destruct (p a); cbn; now rewrite IH. Qed.

(** a wrapper element *)
Lemma wrap_loc : forall (L : option loc) f c' ci t i (al : bool) v w (xs : list xml) kids ys l r n d,
  (forall l', L = Some l' -> forall y, at_ c' v y -> loc_ok l' v (steps r y)) ->
  field v f = Some w -> (units w = [] <-> xs = []) ->
  c' = CxE ci t [i] None ->
  (forall dd, at_ c' v (reload dd (El t [] None kids))) ->
  ys = flat_map (steps r) (map (reload d) (match xs with [] => if al then [El t [] None kids] else [] | _ => [El t [] None kids] end)) ->
  L = locate n c' r ->
  match L with
  | Some (LOne x) => if al then Some (LOne x) else match r with [] => Some (LWrap f c') | _ => None end
  | Some (LWrap g x) => if String.eqb f g then Some (LWrap g x) else None
  | Some (LItems g a) => if String.eqb f g then Some (LItems g a) else None
  | l => l
  end = Some l -> loc_ok l v ys.
Proof.
  intros L f c' ci t i al v w xs kids ys l r n d IH F U C A Y EL H.
  assert (PRES : (xs <> [] \/ al = true) -> ys = steps r (reload d (El t [] None kids))).
  { intros P. subst ys. destruct xs; [destruct al; [|destruct P as [P|P]; [now elim P|discriminate]]|];
      cbn [map flat_map]; now rewrite app_nil_r. }
  assert (DEC : (xs <> [] \/ al = true) \/ (xs = [] /\ al = false)) by (destruct xs, al; auto; left; left; discriminate).
  assert (ABS : xs = [] /\ al = false -> ys = []) by (intros [-> ->]; subst; reflexivity).
  destruct L as [l0|]; [|discriminate]. specialize (IH _ eq_refl _ (A d)).
  destruct l0 as [|x|g x|g a].
  - inversion H; subst l. destruct DEC as [P|P]; [rewrite (PRES P); exact IH|exact (ABS P)].
  - destruct al.
    + inversion H; subst l. rewrite PRES by auto. exact IH.
    + destruct r; [|discriminate]. inversion H; subst l. exists w. split; [exact F|].
      destruct xs as [|x0 xs].
      * left. split; [now apply U|]. apply ABS. auto.
      * right. split; [intro E; apply U in E; discriminate|]. rewrite PRES by (left; discriminate).
        eexists. split; [reflexivity|]. apply A.
  - destruct (String.eqb_spec f g); [subst g|discriminate]. inversion H; subst l.
    destruct DEC as [P|P]; [rewrite (PRES P); exact IH|]. rewrite (ABS P). exists w. split; [exact F|]. left. split; [apply U; apply P|reflexivity].
  - destruct (String.eqb_spec f g); [subst g|discriminate]. inversion H; subst l.
    destruct DEC as [P|P]; [rewrite (PRES P); exact IH|]. rewrite (ABS P).
    destruct IH as (w' & yss & F' & Y' & F2 & ND). assert (w' = w) by congruence. subst w'.
    exists w, []. split; [exact F|]. split; [reflexivity|]. split; [|exact ND]. assert (E : units w = []) by (apply U; apply P). rewrite E. constructor.
Qed.

Lemma nest_cons : forall t wr al xs, nest (t :: wr) al xs =
  match xs with [] => if al then [El t [] None (nest wr al xs)] else [] | _ => [El t [] None (nest wr al xs)] end.
Proof. reflexivity. Qed.

Lemma locate_ok : forall n cx path l, locate n cx path = Some l -> forall v x, at_ cx v x -> loc_ok l v (steps path x).
Proof.
  induction n as [|n IH]; intros cx path l H v x A; [discriminate|]. cbn [locate] in H.
  destruct path as [|h r].
  { inversion H; subst. exists x. split; [reflexivity|exact A]. }
  destruct (String.eqb_spec h ".") as [->|ND].
  { specialize (IH _ _ _ H _ _ A). cbn [steps]. change (step "." x) with [x]. cbn [flat_map]. rewrite app_nil_r. exact IH. }
  cbn [steps]. rewrite (step_hit _ _ ND).
  assert (OPEN : match cx_open cx with
        | None => None
        | Some (ci, _, its) =>
          match filter (fun i => existsb (hits h) (itags i)) its with
          | [] => Some LNone
          | [IGroup t its' b k] => locate n (CxE ci t its' (Some (b, k))) r
          | [ILeaf f (t :: wr) al lt s] =>
              let c' := CxE ci t [ILeaf f wr al lt s] None in
              match locate n c' r with
              | Some (LOne x) => if al then Some (LOne x) else match r with [] => Some (LWrap f c') | _ => None end
              | Some (LWrap g x) => if String.eqb f g then Some (LWrap g x) else None
              | Some (LItems g a) => if String.eqb f g then Some (LItems g a) else None
              | l => l
              end
          | [IObj f (t :: wr) al a] =>
              let c' := CxE ci t [IObj f wr al a] None in
              match locate n c' r with
              | Some (LOne x) => if al then Some (LOne x) else match r with [] => Some (LWrap f c') | _ => None end
              | Some (LWrap g x) => if String.eqb f g then Some (LWrap g x) else None
              | Some (LItems g a) => if String.eqb f g then Some (LItems g a) else None
              | l => l
              end
          | [ILeaf f [] _ lt s] => omap (fun a => LItems f [(None, a)]) (to_alt (locate n (CxL lt s) r))
          | [IObj f [] _ alts] =>
              omap (LItems f)
                ((fix go (l : list (string * (string * (list wi * string)))) :=
                    match l with
                    | [] => Some []
                    | (c, (t, (b, k))) :: l' =>
                        omap2 (fun x y => (Some c, x) :: y)
                          (if hits h t then to_alt (locate n (CxI c t b k) r) else Some None) (go l')
                    end) alts)
          | _ => None
          end
        end = Some l -> loc_ok l v (flat_map (steps r) (filter (hitk h) (xkids x)))).
  { clear H. intros H. destruct (cx_open cx) as [[[ci tg] its]|] eqn:O; [|discriminate].
    destruct (open_ok _ _ _ _ _ _ A O) as (evs & d & D & -> & G). clear A O.
    rewrite reload_kids. unfold to_xml at 1. cbn [xkids]. rewrite apply_ev_kids. cbn [elem0 e_kids app].
    rewrite filter_reload_hit. destruct (dens_hit h _ _ _ D) as (evs' & D' & E). rewrite E. clear E.
    assert (HIT : forall i, filter (fun i => existsb (hits h) (itags i)) its = [i] -> existsb (hits h) (itags i) = true /\ In i its).
    { intros i Ei. assert (In i (filter (fun i => existsb (hits h) (itags i)) its)) by (rewrite Ei; left; reflexivity).
      apply filter_In in H0. tauto. }
    destruct (filter (fun i => existsb (hits h) (itags i)) its) as [|i [|i2 r2]] eqn:EF; [| |destruct i; try discriminate; destruct wr; discriminate].
    { cbn in D'. subst evs'. inversion H; subst. reflexivity. }
    apply dens_single in D'. destruct (HIT _ eq_refl) as [HI HIN]. clear HIT EF.
    destruct i as [| |f [|t wr] al lt s|f [|t wr] al alts|t its' b k| | | |]; try discriminate.
    - (* leaves *)
      destruct D' as (w & ls & xs & F & U & L & X & ->). cbn [nest]. rewrite ev_kids_map.
      assert (HT : hits h (ltag s) = true) by (cbn [itags existsb] in HI; apply orb_true_iff in HI; destruct HI; [assumption|discriminate]).
      rewrite filter_all. 2: { intros x I. destruct (forall2_in _ _ _ _ _ _ X I) as (l0 & _ & LX). unfold hitk. now rewrite (leaf_xml_tag _ _ _ _ LX). }
      destruct (to_alt (locate n (CxL lt s) r)) as [a|] eqn:T; [|discriminate]. inversion H; subst l.
      exists w, (map (fun x => steps r (reload (S d) x)) xs). split; [exact F|].
      split; [rewrite flat_map_concat, map_map; reflexivity|]. split; [|cbn; constructor; [intros []|constructor]].
      rewrite U. clear - T X L IH. induction X as [|l0 x0 ls xs LX X IHX]; [constructor|]. inversion L; subst.
      cbn [map]. constructor; [|auto]. exists a. split; [reflexivity|].
      eapply to_alt_ok; [exact T|]. intros l' EL. eapply IH; [exact EL|]. exists l0, x0, (S d). repeat split; auto.
    - (* wrapped leaves *)
      destruct D' as (w & ls & xs & F & U & L & X & ->). cbv zeta in H. rewrite ev_kids_map in *.
      assert (HT : hits h t = true) by (cbn [itags existsb] in HI; apply orb_true_iff in HI; destruct HI; [assumption|discriminate]).
      rewrite filter_all by (intros x I; apply nest_tags in I; unfold hitk; now rewrite I).
      rewrite nest_cons. eapply (wrap_loc (locate n (CxE ci t [ILeaf f wr al lt s] None) r) f (CxE ci t [ILeaf f wr al lt s] None) ci t (ILeaf f wr al lt s) al v w xs (nest wr al xs) _ l r n (S d)); try reflexivity.
      + intros l' EL y AY. eapply IH; eassumption.
      + exact F.
      + pose proof (forall2_nil _ _ _ _ _ X) as N. rewrite <- N, U. split; intro Z; [destruct ls; [reflexivity|discriminate]|now subst].
      + intro dd. exists (map EvK (nest wr al xs)), dd. split; [|split; [now rewrite kids_xml|split; [right; split; reflexivity|intros; discriminate]]].
        apply dens_one. exists w, ls, xs. repeat split; auto.
      + destruct (locate n (CxE ci t [ILeaf f wr al lt s] None) r) as [[]|]; exact H.
    - (* objects *)
      destruct D' as (w & xs & F & X & -> & NDA). cbn [nest]. rewrite ev_kids_map.
      match type of H with omap _ (?g alts) = _ => set (go := g) in H end.
      destruct (go alts) as [al'|] eqn:T; [|discriminate]. inversion H; subst l.
      assert (GO : forall alts al', go alts = Some al' -> map fst al' = map (fun p => Some (fst p)) alts /\
         forall c t b k, assoc c alts = Some (t, (b, k)) -> exists a, alook (Some c) al' = Some a /\
            (if hits h t then to_alt (locate n (CxI c t b k) r) else Some None) = Some a).
      { clear. induction alts as [|[c [t [b k]]] alts IHa]; intros al' T; cbn in T.
        - inversion T; subst. split; [reflexivity|discriminate].
        - destruct (if hits h t then to_alt (locate n (CxI c t b k) r) else Some None) as [a|] eqn:E1; [|discriminate].
          destruct (go alts) as [y|] eqn:E2; [|discriminate]. inversion T; subst. destruct (IHa _ eq_refl) as [K1 K2]. split; [cbn; now f_equal|].
          intros c0 t0 b0 k0 As. cbn [assoc] in As. cbn [alook]. destruct (String.eqb_spec c0 c) as [->|N].
          + inversion As; subst. exists a. split; [now rewrite oeqb_refl|exact E1].
          + destruct (K2 _ _ _ _ As) as (a' & Q1 & Q2). exists a'. split; [|exact Q2].
            destruct (oeqb_spec (Some c0) (Some c)); [congruence|exact Q1]. }
      destruct (GO _ _ T) as [K1 K2].
      exists w, (map (fun x => if hitk h x then steps r (reload (S d) x) else []) xs). split; [exact F|].
      split; [|split].
      + rewrite flat_map_concat. rewrite map_map. rewrite <- (flat_map_filter _ _ (hitk h) (fun x => steps r (reload (S d) x))). now rewrite flat_map_concat.
      + clear - K2 X IH. induction X as [|u x0 us xs UX X IHX]; [constructor|]. cbn [map]. constructor; [|exact IHX].
        destruct UX as (c & t & b & k & s & C & As & I & OK & W & ->).
        destruct (K2 _ _ _ _ As) as (a & Q1 & Q2). exists a. split; [rewrite C; exact Q1|].
        unfold hitk. change (xtag (to_xml t s)) with t. destruct (hits h t).
        * eapply to_alt_ok; [exact Q2|]. intros l' EL. eapply IH; [exact EL|]. cbn. repeat split; auto. exists s, (S d). auto.
        * inversion Q2; subst. reflexivity.
      + rewrite K1. clear - NDA. induction alts as [|[c z] alts IHa]; cbn in *; [constructor|]. inversion NDA; subst. constructor; [|auto].
        intro I. apply in_map_iff in I. destruct I as (p & E & I). inversion E; subst. apply H1. now apply in_map.
    - (* wrapped objects *)
      destruct D' as (w & xs & F & X & -> & NDA). cbv zeta in H. rewrite ev_kids_map in *.
      assert (HT : hits h t = true) by (cbn [itags existsb] in HI; apply orb_true_iff in HI; destruct HI; [assumption|discriminate]).
      rewrite filter_all by (intros x I; apply nest_tags in I; unfold hitk; now rewrite I).
      rewrite nest_cons. eapply (wrap_loc (locate n (CxE ci t [IObj f wr al alts] None) r) f (CxE ci t [IObj f wr al alts] None) ci t (IObj f wr al alts) al v w xs (nest wr al xs) _ l r n (S d)); try reflexivity.
      + intros l' EL y AY. eapply IH; eassumption.
      + exact F.
      + exact (forall2_nil _ _ _ _ _ X).
      + intro dd. exists (map EvK (nest wr al xs)), dd. split; [|split; [now rewrite kids_xml|split; [right; split; reflexivity|intros; discriminate]]].
        apply dens_one. exists w, xs. repeat split; auto.
      + destruct (locate n (CxE ci t [IObj f wr al alts] None) r) as [[]|]; exact H.
    - (* group *)
      assert (CO : class_of v = Some (ci_cls ci) /\ ok v).
      { destruct G as [G|G]; [exact G|]. assert (existsb is_group its = true) by (apply existsb_exists; exists (IGroup t its' b k); auto). congruence. }
      destruct D' as (e2 & D2 & -> & W). cbn [ev_kids flat_map app filter]. unfold hitk. cbn [to_xml xtag].
      assert (HT : hits h t = true) by (cbn [itags existsb] in HI; apply orb_true_iff in HI; destruct HI; [assumption|discriminate]).
      rewrite HT. cbn [map flat_map]. rewrite app_nil_r. eapply IH; [exact H|].
      exists e2, (S d). split; [exact D2|]. split; [reflexivity|]. split; [left; exact CO|]. intros b0 k0 E. inversion E; subst. exact W. }
  destruct cx as [ci tag its bk|c tag b k|lt s]; [exact (OPEN H)|exact (OPEN H)|]. clear OPEN.
  destruct A as (l0 & y & d & -> & LT & LX & ->). rewrite reload_kids, filter_reload_hit. destruct s as [t s|t k].
  - destruct LX as (z & LZ & ->). cbn [xkids filter]. unfold hitk. rewrite (leaf_xml_tag _ _ _ _ LZ). destruct (hits h (ltag s)).
    + cbn [map flat_map]. rewrite app_nil_r. eapply IH; [exact H|]. exists l0, z, (S d). repeat split; auto.
    + inversion H; subst. reflexivity.
  - destruct LX as (_ & LX). apply leaf_tag in LX. destruct LX as (a & tx & ->). inversion H; subst. reflexivity.
Qed.
Strategy expand [find_at findall]. Strategy opaque [locate steps].
Lemma find_at_ok : forall cx key l v x, find_at cx key = Some l -> at_ cx v x -> loc_ok l v (findall key x).
Proof. intros cx key l v x H A. unfold find_at in H. exact (locate_ok 30 cx (split_char "/" key) l H v x A). Qed.
End Locate.
