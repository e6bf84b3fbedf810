(** Partially read objects: the attributes restored so far have their value, the others are
    as constructed. *)
From Coq Require Import String Ascii List Bool Arith Lia.
From Verif Require Import PyBase PyBaseFacts Primitives Xml Leaf SpecLeaf ClassTable Ir Access WriterCode ReaderCode IrSem
  IrFacts IrGo Domain SpecDomain IrCheck IrLeaf IrWrite IrLocate IrItems.
Import ListNotations.
Open Scope string_scope.
Open Scope list_scope.

Local Opaque access_of attrs_of init named_init wfuns rfuns domain ancestors access_table attr_table fuel.

(** ** Objects described by a class *)
Definition own (ci : cinfo) (v : val) : Prop :=
  exists fs, v = VObj (ci_cls ci) fs /\ ci = cinfo_of (ci_cls ci) /\
    map fst fs = map fst (ci_attrs ci) /\
    (forall f w t, assoc f fs = Some w -> dom ci f = Some t -> fok t w) /\
    (forall f w d, assoc f fs = Some w -> dom ci f = None -> dfl ci f = Some d -> w = init_val 1 d) /\
    NoDup (names_below v).
Lemma own_of : forall c v, class_of v = Some c -> ok v -> own (cinfo_of c) v.
Proof.
  intros c v C O. pose proof (owner_of _ _ C O) as W. destruct W as (fs & E1 & E2 & O'). exists fs. split; [exact E1|].
  split; [exact E2|]. subst v. split; [|split; [|split]].
  - inversion O'; subst. assumption.
  - intros f w t A D. eapply (owner_fok (cinfo_of c) (VObj (ci_cls (cinfo_of c)) fs)); [|exact D|exact A]. exists fs. auto.
  - intros f w d A D1 D2. eapply (owner_dflt (cinfo_of c) (VObj (ci_cls (cinfo_of c)) fs)); [|exact D1|exact D2|exact A]. exists fs. auto.
  - inversion O'; subst. assumption.
Qed.
Lemma own_field : forall ci v f d, own ci v -> dfl ci f = Some d -> exists w, field v f = Some w.
Proof.
  intros ci v f d (fs & -> & E & K & _) H. cbn [field]. apply assoc_in. rewrite K. eapply assoc_some_in. exact H.
Qed.
Lemma own_fok : forall ci v f t w, own ci v -> dom ci f = Some t -> field v f = Some w -> fok t w.
Proof. intros ci v f t w (fs & -> & E & K & F & _) D H. cbn [field] in H. eauto. Qed.
Lemma own_dflt : forall ci v f d w, own ci v -> dom ci f = None -> dfl ci f = Some d -> field v f = Some w -> w = init_val 1 d.
Proof. intros ci v f d w (fs & -> & E & K & _ & F & _) D D2 H. cbn [field] in H. eauto. Qed.
Lemma own_key : forall ci v f w, own ci v -> field v f = Some w -> exists d, dfl ci f = Some d.
Proof.
  intros ci v f w (fs & -> & E & K & _) H. unfold dfl. apply assoc_in. rewrite <- K. eapply assoc_some_in. exact H.
Qed.
Lemma own_ci : forall ci v, own ci v -> ci = cinfo_of (ci_cls ci).
Proof. intros ci v (fs & _ & E & _). exact E. Qed.

Record good (ci : cinfo) : Prop := {
  g_nodup : NoDup (map fst (ci_attrs ci));
  g_new : forall f d, dfl ci f = Some (DNew d) -> ~ In "short_name" (map fst (attrs_of d));
  g_dom : forall f t, dom ci f = Some t -> exists d, dfl ci f = Some d }.
Lemma cls_ok_good : forall ci, cls_ok ci = true -> good ci.
Proof.
  intros ci H. unfold cls_ok in H. destruct (nodupb (map fst (ci_attrs ci))) eqn:E1; [|discriminate].
  destruct (forallb _ (ci_attrs ci)) eqn:E2 in H; [|discriminate]. rewrite forallb_forall in E2, H. split.
  - now apply nodupb_ok.
  - intros f d D. apply assoc_In in D. specialize (E2 _ D). cbn in E2. apply negb_true_iff in E2. now apply mem_out.
  - intros f t D. apply assoc_In in D. specialize (H _ D). cbn in H. apply mem_in in H. unfold dfl. now apply assoc_in.
Qed.

(** ** Restored attributes *)
Lemma has_rest_cons : forall R f cs g c, has_rest ((f, cs) :: R) g c =
  ((if String.eqb f g then match cs with None => true | Some l => match c with Some c => mem c l | None => false end end else false) || has_rest R g c)%bool.
Proof. reflexivity. Qed.
Lemma has_rest_other : forall R f cs g c, f <> g -> has_rest ((f, cs) :: R) g c = has_rest R g c.
Proof. intros. rewrite has_rest_cons. destruct (String.eqb_spec f g); [contradiction|reflexivity]. Qed.
Lemma has_rest_same : forall R f c, has_rest ((f, None) :: R) f c = true.
Proof. intros. rewrite has_rest_cons, String.eqb_refl. reflexivity. Qed.
Lemma has_rest_any : forall R f c, has_rest R f None = true -> has_rest R f c = true.
Proof.
  induction R as [|[g cs] R IH]; intros f c H; [discriminate|]. rewrite has_rest_cons in *. apply orb_true_iff in H.
  apply orb_true_iff. destruct H as [H|H]; [left|right; now apply IH].
  destruct (String.eqb g f); [|discriminate]. destruct cs; [discriminate|reflexivity].
Qed.
Lemma in_rest_no : forall R f c, in_rest R f = false -> has_rest R f c = false.
Proof.
  induction R as [|[g cs] R IH]; intros f c H; [reflexivity|]. rewrite has_rest_cons. cbn in H. apply orb_false_iff in H.
  destruct H as [H1 H2]. cbn in H1. rewrite H1. cbn. now apply IH.
Qed.
Lemma rest_eqb_eq : forall a b, rest_eqb a b = true -> a = b.
Proof.
  induction a as [|[f x] a IH]; intros [|[g y] b] H; cbn in H; try discriminate; [reflexivity|].
  destruct (String.eqb_spec f g); [subst|discriminate].
  match type of H with (if ?c then _ else _) = _ => destruct c eqn:E; [|discriminate] end.
  assert (x = y). { destruct x, y; try discriminate; [|reflexivity]. destruct (list_eq_dec string_dec l l0); congruence. }
  subst. f_equal. apply IH. exact H.
Qed.
Lemma mode_eqb_eq : forall a b, mode_eqb a b = true -> a = b.
Proof.
  intros [x|[f|]|] [y|[g|]|] H; cbn in H; try discriminate; try reflexivity.
  - f_equal. now apply rest_eqb_eq.
  - apply String.eqb_eq in H. now subst.
Qed.

Definition mixf (R : rest) (v : val) (p : string * dflt) : val :=
  match field v (fst p) with
  | Some w => if has_rest R (fst p) (class_of w) then w else init_val 1 (snd p)
  | None => init_val 1 (snd p)
  end.
Definition mix (ci : cinfo) (R : rest) (v : val) : val :=
  VObj (ci_cls ci) (map (fun p => (fst p, mixf R v p)) (ci_attrs ci)).

Lemma assoc_map : forall (F : string * dflt -> val) l f d, assoc f l = Some d -> assoc f (map (fun p => (fst p, F p)) l) = Some (F (f, d)).
Proof.
  induction l as [|[g a] l IH]; intros f d H; [discriminate|]. cbn in *. destruct (String.eqb_spec f g); [|auto].
  inversion H; subst. reflexivity.
Qed.
Lemma mix_field : forall ci R v f d, dfl ci f = Some d -> field (mix ci R v) f = Some (mixf R v (f, d)).
Proof. intros. unfold mix, field. now apply assoc_map. Qed.
Lemma in_assoc : forall A (l : list (string * A)) f d, NoDup (map fst l) -> In (f, d) l -> assoc f l = Some d.
Proof.
  induction l as [|[g a] l IH]; intros f d ND I; [contradiction|]. inversion ND; subst. cbn. destruct I as [I|I].
  - inversion I; subst. now rewrite String.eqb_refl.
  - destruct (String.eqb_spec f g); [|auto]. subst. elim H1. apply (in_map fst) in I. exact I.
Qed.
Lemma mix_eq : forall ci R R' v, NoDup (map fst (ci_attrs ci)) ->
  (forall g d, dfl ci g = Some d -> mixf R v (g, d) = mixf R' v (g, d)) -> mix ci R v = mix ci R' v.
Proof.
  intros ci R R' v ND H. unfold mix. f_equal. apply map_ext_in. intros [g d] I. cbn. f_equal. apply H. unfold dfl. now apply in_assoc.
Qed.
Lemma set_map : forall (F G : string * dflt -> val) l f y, NoDup (map fst l) -> In f (map fst l) ->
  (forall d, In (f, d) l -> y = G (f, d)) -> (forall g d, g <> f -> In (g, d) l -> F (g, d) = G (g, d)) ->
  set_assoc (map (fun p => (fst p, F p)) l) f y = map (fun p => (fst p, G p)) l.
Proof.
  induction l as [|[g a] l IH]; intros f y ND I H1 H2; [contradiction|]. cbn [map set_assoc fst]. inversion ND; subst.
  destruct (String.eqb_spec f g) as [->|N].
  - rewrite (H1 a) by (left; reflexivity). f_equal. apply map_ext_in. intros [h d] Ih. cbn. f_equal. apply H2; [|right; exact Ih].
    intro E. subst. apply H3. apply (in_map fst) in Ih. exact Ih.
  - rewrite (H2 g a) by (auto; left; reflexivity). f_equal. apply IH; auto.
    + destruct I as [I|I]; [cbn in I; congruence|exact I].
    + intros d Id. apply H1. right. exact Id.
    + intros h d Nh Ih. apply H2; [exact Nh|right; exact Ih].
Qed.
Lemma set_mix : forall ci R R' v f d y, NoDup (map fst (ci_attrs ci)) -> dfl ci f = Some d -> y = mixf R' v (f, d) ->
  (forall g d', g <> f -> dfl ci g = Some d' -> mixf R v (g, d') = mixf R' v (g, d')) ->
  set_field (mix ci R v) f y = mix ci R' v.
Proof.
  intros ci R R' v f d y ND D Y H. unfold mix, set_field. f_equal. apply set_map; auto.
  - eapply assoc_some_in. exact D.
  - intros d' I. apply in_assoc in I; [|exact ND]. unfold dfl in D. rewrite D in I. inversion I; subst. reflexivity.
  - intros g d' N I. apply H; [exact N|]. unfold dfl. now apply in_assoc.
Qed.
Lemma mixf_other : forall R f cs v g d, f <> g -> mixf ((f, cs) :: R) v (g, d) = mixf R v (g, d).
Proof. intros. unfold mixf. cbn [fst snd]. destruct (field v g); [|reflexivity]. now rewrite has_rest_other. Qed.

(** the attribute gets its value *)
Lemma set_new : forall ci R v f cs w, good ci -> own ci v -> field v f = Some w ->
  match cs with None => True | Some l => exists c, class_of w = Some c /\ In c l end ->
  set_field (mix ci R v) f w = mix ci ((f, cs) :: R) v.
Proof.
  intros ci R v f cs w G O F C. destruct (own_key _ _ _ _ O F) as (d & D). eapply set_mix; [apply G|exact D| |].
  - unfold mixf. cbn [fst snd]. rewrite F, has_rest_cons, String.eqb_refl. destruct cs as [l|]; [|reflexivity].
    destruct C as (c & -> & I). apply mem_in in I. rewrite I. reflexivity.
  - intros. symmetry. apply mixf_other. congruence.
Qed.
(** nothing to restore *)
Lemma mix_same : forall ci R v f cs, good ci ->
  (forall d, dfl ci f = Some d -> mixf R v (f, d) = mixf ((f, cs) :: R) v (f, d)) -> mix ci R v = mix ci ((f, cs) :: R) v.
Proof.
  intros ci R v f cs G H. apply mix_eq; [apply G|]. intros g d D. destruct (String.eqb_spec f g) as [<-|N]; [auto|].
  symmetry. now apply mixf_other.
Qed.
Lemma skip_default : forall ci R v f cs d, good ci -> dfl ci f = Some d -> field v f = Some (init_val 1 d) ->
  mix ci R v = mix ci ((f, cs) :: R) v.
Proof.
  intros ci R v f cs d G D F. apply mix_same; [exact G|]. intros d' D'. assert (d' = d) by congruence. subst. unfold mixf. cbn [fst snd].
  rewrite F. destruct (has_rest _ f _), (has_rest _ f _); reflexivity.
Qed.
Lemma skip_class : forall ci R v f l w, good ci -> field v f = Some w ->
  match class_of w with Some c => ~ In c l | None => True end -> mix ci R v = mix ci ((f, Some l) :: R) v.
Proof.
  intros ci R v f l w G F C. apply mix_same; [exact G|]. intros d D. unfold mixf. cbn [fst snd]. rewrite F, has_rest_cons, String.eqb_refl.
  destruct (class_of w) as [c|]; [|reflexivity]. apply mem_out in C. rewrite C. reflexivity.
Qed.
Lemma mix_unset : forall ci R v f w d, field v f = Some w -> dfl ci f = Some d -> has_rest R f (class_of w) = false ->
  field (mix ci R v) f = Some (init_val 1 d).
Proof. intros. rewrite (mix_field _ _ _ _ _ H0). unfold mixf. cbn [fst snd]. now rewrite H, H1. Qed.
Lemma mix_set : forall ci R v f w d, field v f = Some w -> dfl ci f = Some d -> has_rest R f (class_of w) = true ->
  field (mix ci R v) f = Some w.
Proof. intros. rewrite (mix_field _ _ _ _ _ H0). unfold mixf. cbn [fst snd]. now rewrite H, H1. Qed.
(** setting an attribute to the value it has *)
Lemma set_same : forall ci R v f d y, good ci -> dfl ci f = Some d -> y = mixf R v (f, d) -> set_field (mix ci R v) f y = mix ci R v.
Proof. intros ci R v f d y G D Y. eapply set_mix; [apply G|exact D|exact Y|reflexivity]. Qed.

(** ** Kinds of attributes *)
Lemma single_val : forall ci v f, own ci v -> single ci f = true -> dfl ci f = Some DNone /\
  exists w, field v f = Some w /\ (w = VNone \/ units w = [w] /\ w <> VNone).
Proof.
  intros ci v f O S. unfold single in S.
  assert (D : dfl ci f = Some DNone) by (destruct (dom ci f) as [[]|]; try discriminate; now apply is_dnone_eq).
  split; [exact D|]. destruct (own_field _ _ _ _ O D) as (w & F). exists w. split; [exact F|].
  destruct (dom ci f) as [t|] eqn:T; [|discriminate]. pose proof (own_fok _ _ _ _ _ O T F) as K.
  destruct t; try discriminate; inversion K; subst; auto; try (right; split; [reflexivity|discriminate]).
  match goal with I : in_class _ _ |- _ => destruct I as (c0 & C0 & _) end. destruct w; try discriminate. right. split; [reflexivity|discriminate].
Qed.
Lemma many_val : forall ci v f, own ci v -> many ci f = true -> dfl ci f = Some DList /\
  exists us, field v f = Some (VList us) /\ forall u, In u us -> u <> VNone.
Proof.
  intros ci v f O S. unfold many in S.
  assert (D : dfl ci f = Some DList) by (destruct (dom ci f) as [[]|]; try discriminate; now apply is_dlist_eq).
  split; [exact D|]. destruct (own_field _ _ _ _ O D) as (w & F).
  destruct (dom ci f) as [t|] eqn:T; [|discriminate]. pose proof (own_fok _ _ _ _ _ O T F) as K.
  destruct t; try discriminate; inversion K; subst.
  - eexists. split; [exact F|]. intros u I. apply in_map_iff in I. destruct I as (l & <- & _). discriminate.
  - eexists. split; [exact F|]. intros u I. rewrite Forall_forall in *.
    match goal with H : forall x, In x vs -> in_class _ x |- _ => destruct (H u I) as (c0 & C0 & _) end. destruct u; try discriminate.
Qed.
Lemma must_val : forall ci v f w, own ci v -> must ci f = true -> field v f = Some w -> w <> VNone.
Proof.
  intros ci v f w O Mf F. unfold must in Mf. destruct (dom ci f) as [t|] eqn:T; [|discriminate].
  pose proof (own_fok _ _ _ _ _ O T F) as K. destruct t; try discriminate; subst; inversion K; subst; try discriminate.
  match goal with I : in_class _ _ |- _ => destruct I as (c0 & C0 & _) end. destruct w; discriminate.
Qed.
Lemma covered_val : forall ci v R f w, own ci v -> covered ci R f = true -> field v f = Some w ->
  has_rest R f (class_of w) = true \/ (w = VNone /\ dfl ci f = Some DNone).
Proof.
  intros ci v R f w O C F. unfold covered in C. destruct (has_rest R f None) eqn:H; [left; now apply has_rest_any|].
  destruct (dom ci f) as [t|] eqn:T; [|discriminate]. destruct t; try discriminate. destruct (is_dnone (dfl ci f)) eqn:D; [|discriminate].
  apply is_dnone_eq in D. pose proof (own_fok _ _ _ _ _ O T F) as K. inversion K; subst; [right; auto|left].
  match goal with I : in_class _ _ |- _ => destruct I as (c0 & C0 & I0) end. rewrite C0. rewrite forallb_forall in C. now apply C.
Qed.

(** ** Whole objects *)
Lemma fields_ext : forall (A : Type) (F : string -> A) fs (l : list (string * dflt)), map fst fs = map fst l -> NoDup (map fst l) ->
  (forall f w, assoc f fs = Some w -> w = F f) -> fs = map (fun p => (fst p, F (fst p))) l.
Proof.
  intros A F. induction fs as [|[f w] fs IH]; intros [|[g d] l] K ND H; try discriminate; [reflexivity|].
  cbn in K. inversion K; subst. cbn [map fst]. inversion ND; subst. f_equal.
  - f_equal. apply H. cbn. now rewrite String.eqb_refl.
  - apply IH; auto. intros f0 w0 A0. apply H. cbn. destruct (String.eqb_spec f0 g); [|exact A0]. subst.
    apply assoc_some_in in A0. rewrite H2 in A0. contradiction.
Qed.
Lemma mix_whole : forall ci R v, good ci -> own ci v -> covers ci R = true -> mix ci R v = v.
Proof.
  intros ci R v G O C. pose proof O as (fs & Ev & E & K & _). unfold covers in C. rewrite forallb_forall in C.
  transitivity (VObj (ci_cls ci) fs); [|symmetry; exact Ev]. unfold mix. f_equal. symmetry.
  rewrite (fields_ext _ (fun f => match field v f with Some w => w | None => VNone end) fs (ci_attrs ci) K (g_nodup _ G)).
  - apply map_ext_in. intros [f d] I. cbn [fst]. f_equal. assert (D : dfl ci f = Some d) by (apply in_assoc; [apply G|exact I]).
    destruct (own_field _ _ _ _ O D) as (w & F). unfold mixf. cbn [fst snd]. rewrite F.
    destruct (dom ci f) as [t|] eqn:T.
    + assert (CV : covered ci R f = true) by (apply (C (f, t)); apply assoc_In; exact T).
      destruct (covered_val _ _ _ _ _ O CV F) as [->|[-> D2]]; [reflexivity|]. rewrite D in D2. inversion D2; subst.
      destruct (has_rest R f (class_of VNone)); reflexivity.
    + rewrite (own_dflt _ _ _ _ _ O T D F). destruct (has_rest R f _); reflexivity.
  - intros f w A. subst v. cbn [field]. now rewrite A.
Qed.
Transparent init named_init.
Lemma mix_init : forall ci v, own ci v -> mix ci [] v = init (ci_cls ci).
Proof.
  intros ci v O. pose proof (own_ci _ _ O) as E. unfold mix, init. cbn [init_val]. f_equal.
  assert (A : ci_attrs ci = attrs_of (ci_cls ci)) by (rewrite E at 1; reflexivity). rewrite A. apply map_ext. intros [f d].
  unfold mixf. cbn [fst snd has_rest existsb]. destruct (field v f); reflexivity.
Qed.
Lemma mix_named : forall ci v nm, good ci -> own ci v -> field v "short_name" = Some (VStr nm) ->
  mix ci [("short_name", None)] v = named_init (ci_cls ci) (VStr nm).
Proof.
  intros ci v nm G O F. unfold named_init. rewrite <- (mix_init _ _ O). symmetry. eapply set_new; eauto.
Qed.
Opaque init named_init.

(** ** Values *)
Definition sel (v : val) (f : string) (cs : option (list string)) (w : val) : Prop :=
  exists w0, field v f = Some w0 /\
    w = match cs with None => w0 | Some l => match class_of w0 with Some c => if mem c l then w0 else VNone | None => VNone end end.
Definition aconc (a : aval) (v w : val) : Prop :=
  match a with
  | AVNone => w = VNone
  | AVNil => w = VList []
  | AVSel f cs => sel v f cs w
  | AVLit f => exists w0, field v f = Some w0 /\ (w0 = VNone /\ w = VNone \/
       exists c s, w0 = VLeaf (LLit c (mkLit None None (Some s))) /\ w = VLeaf (LLit "ARLiteral" (mkLit None None (Some s))))
  | AVStr f => exists c s, field v f = Some (VLeaf (LLit c (mkLit None None (Some s)))) /\ w = VStr s
  | AVText f => exists s, field v f = Some (VStr s) /\ w = of_opt_str (text_or_none (Some s))
  end.
Definition kn_ok (kn : rest) (v : val) : Prop := forall f cs w, In (f, cs) kn -> sel v f cs w -> w <> VNone.
Lemma known_ok : forall ci kn f cs v w, known ci kn f cs = true -> own ci v -> kn_ok kn v -> sel v f cs w -> w <> VNone.
Proof.
  intros ci kn f cs v w K O KO S. unfold known in K.
  match type of K with (if ?c then _ else _) = _ => destruct c eqn:E end.
  - destruct cs; [discriminate|]. destruct S as (w0 & F & ->). eapply must_val; eassumption.
  - apply existsb_exists in K. destruct K as ([g cs'] & I & K). cbn [fst snd] in K. destruct (String.eqb_spec g f); [subst g|discriminate].
    eapply KO; [|exact S]. destruct cs as [l|], cs' as [l'|]; try discriminate; [|exact I].
    destruct (list_eq_dec string_dec l' l); [subst; exact I|discriminate].
Qed.

Definition set_if (g : bool) (o : val) (f : string) (w : val) : val := if (g && is_none w)%bool then o else set_field o f w.
Lemma sel_set : forall ci R v f cs w (g : bool) kn, good ci -> own ci v -> single ci f = true -> kn_ok kn v ->
  (g = true \/ known ci kn f cs = true \/ in_rest R f = false) -> sel v f cs w ->
  set_if g (mix ci R v) f w = mix ci ((f, cs) :: R) v.
Proof.
  intros ci R v f cs w g kn G O S KO H SL. destruct (single_val _ _ _ O S) as (D & w0 & F & W0).
  destruct SL as (w1 & F1 & E). assert (w1 = w0) by congruence. subst w1. clear F1.
  assert (CASES : (w = VNone /\ mix ci R v = mix ci ((f, cs) :: R) v) \/
     (w <> VNone /\ w = w0 /\ match cs with None => True | Some l => exists c, class_of w = Some c /\ In c l end)).
  { destruct cs as [l|].
    - destruct (class_of w0) as [c|] eqn:C.
      + destruct (mem c l) eqn:Mc.
        * right. subst. split; [destruct w0; discriminate|]. split; [reflexivity|]. exists c. split; [exact C|now apply mem_in].
        * left. split; [exact E|]. eapply skip_class; [exact G|exact F|]. rewrite C. now apply mem_out.
      + left. split; [exact E|]. eapply skip_class; [exact G|exact F|]. rewrite C. exact I.
    - subst. destruct W0 as [->|[_ N]].
      + left. split; [reflexivity|]. eapply skip_default; [exact G|exact D|exact F].
      + right. auto. }
  unfold set_if. destruct CASES as [[-> SAME]|(N & -> & C)].
  - cbn [is_none]. rewrite andb_true_r. destruct g; [exact SAME|]. destruct H as [H|[H|H]]; [discriminate| |].
    + elim (known_ok _ _ _ _ _ VNone H O KO); [|reflexivity]. exists w0. auto.
    + rewrite <- SAME. eapply set_same; [exact G|exact D|]. unfold mixf. cbn [fst snd]. rewrite F, in_rest_no by exact H. reflexivity.
  - assert (X : is_none w0 = false) by (destruct w0; try reflexivity; now elim N). rewrite X, andb_false_r. now apply set_new.
Qed.
Lemma put_ok : forall ci R kn f g a R' v w, good ci -> own ci v -> kn_ok kn v -> put_av ci R kn f g a = Some R' -> aconc a v w ->
  set_if g (mix ci R v) f w = mix ci R' v.
Proof.
  intros ci R kn f g a R' v w G O KO H A. unfold put_av in H. destruct a as [| |f' cs|f'|f'|f']; try discriminate; cbn [aconc] in A.
  - subst w. unfold set_if. cbn [is_none]. rewrite andb_true_r. destruct g; [inversion H; reflexivity|].
    destruct (in_rest R f) eqn:I; [discriminate|]. destruct (is_dnone (dfl ci f)) eqn:D; [|discriminate]. inversion H; subst.
    apply is_dnone_eq in D. eapply set_same; [exact G|exact D|]. unfold mixf. cbn [fst snd].
    destruct (field v f); [rewrite in_rest_no by exact I|]; reflexivity.
  - subst w. unfold set_if. cbn [is_none]. rewrite andb_false_r.
    destruct (in_rest R f) eqn:I; [discriminate|]. destruct (is_dlist (dfl ci f)) eqn:D; [|discriminate]. inversion H; subst.
    apply is_dlist_eq in D. eapply set_same; [exact G|exact D|]. unfold mixf. cbn [fst snd].
    destruct (field v f); [rewrite in_rest_no by exact I|]; reflexivity.
  - destruct (String.eqb_spec f f'); [subst f'|discriminate]. destruct (single ci f) eqn:S.
    + match type of H with (if ?c then _ else _) = _ => destruct c eqn:C; [|discriminate] end. inversion H; subst.
      eapply sel_set; try eassumption. destruct g; [auto|]. destruct (known ci kn f cs); [auto|]. right; right. now apply negb_true_iff.
    + destruct (dom ci f) as [t|] eqn:T; [|discriminate]. destruct A as (w0 & F & ->). pose proof (own_fok _ _ _ _ _ O T F) as K.
      assert (SET : cs = None -> w0 <> VNone -> R' = (f, None) :: R -> set_if g (mix ci R v) f w0 = mix ci R' v).
      { intros -> N ->. unfold set_if. assert (X : is_none w0 = false) by (destruct w0; try reflexivity; now elim N).
        rewrite X, andb_false_r. apply set_new; auto. }
      destruct t; try discriminate; destruct cs; try discriminate; destruct (dfl ci f); try discriminate; inversion H; subst;
        apply SET; try reflexivity; inversion K; subst; try discriminate.
      destruct w0; discriminate.
  - destruct (dom ci f) as [[]|]; try discriminate. destruct (String.eqb_spec f f'); [subst f'|discriminate]. destruct g; [|discriminate].
    destruct (is_dempty (dfl ci f)) eqn:D; [|discriminate]. inversion H; subst. destruct A as (s & F & ->). unfold set_if.
    assert (DE : dfl ci f = Some DEmpty) by (destruct (dfl ci f) as [[]|]; try discriminate; reflexivity).
    destruct s as [|c s]; cbn.
    + eapply skip_default; [exact G|exact DE|exact F].
    + apply set_new; auto.
Qed.

(** ** Names *)
Definition names (w : val) : list string := flat_map name_of (items_of w).
Lemma flat_map_flat_map : forall A B C (f : B -> list C) (g : A -> list B) l, flat_map f (flat_map g l) = flat_map (fun x => flat_map f (g x)) l.
Proof. induction l as [|a l IH]; [reflexivity|]. cbn. now rewrite flat_map_app, IH. Qed.
Lemma names_below_eq : forall c fs, names_below (VObj c fs) = flat_map (fun p => names (snd p)) fs.
Proof. intros. unfold names_below, children. now rewrite flat_map_flat_map. Qed.
Lemma name_is_in : forall n u, name_is n u = true <-> In n (name_of u).
Proof.
  intros. unfold name_is, name_of. destruct (field u "short_name") as [[]|]; try (split; [discriminate|contradiction]).
  split; [intro H; apply String.eqb_eq in H; left; exact H|intros [H|[]]; subst; apply String.eqb_refl].
Qed.
Lemma nodup_app : forall A (a b : list A), NoDup (a ++ b) -> NoDup a /\ NoDup b /\ forall x, In x a -> In x b -> False.
Proof.
  induction a as [|x a IH]; intros b H; cbn in *; [repeat split; auto; constructor|]. inversion H; subst.
  destruct (IH _ H3) as (H4 & H5 & H6). repeat split; auto.
  - constructor; [|exact H4]. intro I. apply H2. apply in_or_app. auto.
  - intros y [->|I] J; [apply H2; apply in_or_app; auto|eauto].
Qed.
Lemma names_apart : forall fs f g w1 w2 n, NoDup (flat_map (fun p => names (snd p)) fs) -> assoc f fs = Some w1 -> assoc g fs = Some w2 ->
  f <> g -> In n (names w1) -> In n (names w2) -> False.
Proof.
  induction fs as [|[h w] fs IH]; intros f g w1 w2 n ND A1 A2 N I1 I2; [discriminate|]. cbn [flat_map snd] in ND.
  apply nodup_app in ND. destruct ND as (_ & ND & X). cbn [assoc] in A1, A2.
  assert (IN : forall k w0, assoc k fs = Some w0 -> In n (names w0) -> In n (flat_map (fun p => names (snd p)) fs)).
  { intros k w0 A I. apply in_flat_map. exists (k, w0). split; [now apply assoc_In|exact I]. }
  destruct (String.eqb_spec f h) as [->|N1]; destruct (String.eqb_spec g h) as [->|N2].
  - contradiction.
  - inversion A1; subst. eapply X; [exact I1|]. eapply IN; eassumption.
  - inversion A2; subst. eapply X; [exact I2|]. eapply IN; eassumption.
  - exact (IH f g w1 w2 n ND A1 A2 N I1 I2).
Qed.
Lemma names_nodup : forall fs f w, NoDup (flat_map (fun p => names (snd p)) fs) -> assoc f fs = Some w -> NoDup (names w).
Proof.
  induction fs as [|[h w0] fs IH]; intros f w ND A; [discriminate|]. cbn [flat_map snd] in ND. apply nodup_app in ND.
  cbn [assoc] in A. destruct (String.eqb f h); [inversion A; subst; apply ND|]. eapply IH; [apply ND|exact A].
Qed.
Lemma names_default : forall ci f d, good ci -> dfl ci f = Some d -> names (init_val 1 d) = [].
Proof.
  intros ci f d G D. destruct d; try reflexivity. unfold names. cbn [init_val items_of flat_map]. rewrite app_nil_r. unfold name_of. cbn [field].
  match goal with |- match ?a with _ => _ end = _ => destruct a eqn:E; [|reflexivity] end.
  apply assoc_some_in in E. rewrite map_map in E. cbn [fst] in E. elim (g_new _ G _ _ D). exact E.
Qed.
(** a new object below a partially read one: its name is not in use *)
Lemma fresh_any : forall ci v R f w a u b y, good ci -> own ci v -> field v f = Some w ->
  names w = a ++ name_of u ++ b -> names y = a ->
  fresh (set_field (mix ci R v) f y) u.
Proof.
  intros ci v R f w a u b y G O F NW NY. unfold fresh. destruct (field u "short_name") as [[|n| | |]|] eqn:U; try exact I.
  destruct (existsb (name_is n) (children (set_field (mix ci R v) f y))) eqn:X; [|reflexivity]. exfalso.
  apply existsb_exists in X. destruct X as (c & Ic & Nc). apply name_is_in in Nc.
  assert (NU : name_of u = [n]) by (unfold name_of; now rewrite U). rewrite NU in NW.
  destruct O as (fs & -> & E & K & _ & _ & ND). rewrite names_below_eq in ND. cbn [field] in F.
  assert (INW : In n (names w)) by (rewrite NW; apply in_or_app; right; left; reflexivity).
  cbn [set_field mix children] in Ic. apply in_flat_map in Ic. destruct Ic as ([g z] & Ig & Iz). cbn [snd] in Iz.
  assert (NZ : In n (names z)) by (unfold names; apply in_flat_map; exists c; auto).
  assert (Kg : exists d, dfl ci g = Some d /\ assoc g (set_assoc (map (fun p => (fst p, mixf R (VObj (ci_cls ci) fs) p)) (ci_attrs ci)) f y) = Some z).
  { assert (KS : map fst (set_assoc (map (fun p => (fst p, mixf R (VObj (ci_cls ci) fs) p)) (ci_attrs ci)) f y) = map fst (ci_attrs ci)).
    { assert (IF : In f (map fst (ci_attrs ci))) by (rewrite <- K; eapply assoc_some_in; exact F). clear - IF.
      induction (ci_attrs ci) as [|[h d] l IHl]; [contradiction|]. cbn [map fst set_assoc].
      destruct (String.eqb_spec f h); cbn [map fst]; [now rewrite map_map|]. f_equal. apply IHl. destruct IF as [IF|IF]; [cbn in IF; congruence|exact IF]. }
    assert (AG : assoc g (set_assoc (map (fun p => (fst p, mixf R (VObj (ci_cls ci) fs) p)) (ci_attrs ci)) f y) = Some z).
    { apply in_assoc; [rewrite KS; apply G|exact Ig]. }
    assert (IG : In g (map fst (ci_attrs ci))) by (rewrite <- KS; eapply assoc_some_in; exact AG).
    destruct (assoc_in _ _ _ IG) as (d & D). exists d. split; [exact D|exact AG]. }
  destruct Kg as (d & D & AG). destruct (String.eqb_spec f g) as [<-|N].
  - rewrite set_assoc_same in AG. inversion AG; subst z. rewrite NY in NZ.
    pose proof (names_nodup _ _ _ ND F) as NDW. rewrite NW in NDW. apply nodup_app in NDW. destruct NDW as (_ & _ & X).
    eapply X; [exact NZ|left; reflexivity].
  - rewrite set_assoc_other in AG by exact N. unfold dfl in D. rewrite (assoc_map _ _ _ _ D) in AG. inversion AG; subst z. unfold mixf in NZ. cbn [fst snd field] in NZ.
    destruct (assoc g fs) as [w'|] eqn:AW.
    + destruct (has_rest R g (class_of w')).
      * eapply names_apart; [exact ND|exact F|exact AW|exact N|exact INW|exact NZ].
      * rewrite (names_default ci g d G D) in NZ. contradiction.
    + rewrite (names_default ci g d G D) in NZ. contradiction.
Qed.
Lemma fresh_slot : forall ci v R f u d, good ci -> own ci v -> field v f = Some u -> units u = [u] -> dfl ci f = Some d ->
  has_rest R f (class_of u) = false -> fresh (mix ci R v) u.
Proof.
  intros ci v R f u d G O F U D H. rewrite <- (set_same ci R v f d (init_val 1 d) G D).
  - eapply (fresh_any ci v R f u [] u []); eauto.
    + rewrite app_nil_r. cbn [app]. unfold names. destruct u; try reflexivity; try discriminate; cbn [items_of flat_map].
      * now rewrite app_nil_r.
      * cbn [units] in U. exfalso. match type of U with ?l = _ => assert (L : vsize (VList l) < vsize (VList l)) by (apply vsize_list; rewrite U at 2; left; reflexivity) end. lia.
    + now apply (names_default ci f).
  - unfold mixf. cbn [fst snd]. now rewrite F, H.
Qed.
Lemma fresh_list : forall ci v R f a u b, good ci -> own ci v -> field v f = Some (VList (a ++ u :: b)) ->
  fresh (set_field (mix ci R v) f (VList a)) u.
Proof.
  intros ci v R f a u b G O F. eapply fresh_any; eauto. unfold names. cbn [items_of]. rewrite flat_map_app. cbn [flat_map]. reflexivity.
Qed.
