(** The summary computed by [wsim] (IrCheck.v) describes what the writer code writes. *)
From Coq Require Import String Ascii List Bool Arith Lia Floats.SpecFloat.
From Verif Require Import PyBase Primitives Xml Leaf SpecLeaf ClassTable Ir Access WriterCode ReaderCode IrSem
  IrFacts IrGo Domain SpecDomain IrCheck IrLeaf.
Import ListNotations.
Open Scope string_scope.
Open Scope list_scope.

Local Opaque access_of attrs_of init named_init wfuns rfuns domain ancestors access_table attr_table fuel.

(** ** What is added to an element *)
Inductive ev := EvA (k v : string) | EvK (x : xml) | EvT (s : string).
Definition apply1 (e : elem) (v : ev) : elem :=
  match v with EvA k s => add_attr e k s | EvK x => add_kid e x | EvT s => set_text e (Some s) end.
Definition apply (evs : list ev) (e : elem) : elem := fold_left apply1 evs e.
Lemma apply_app : forall a b e, apply (a ++ b) e = apply b (apply a e).
Proof. intros. apply fold_left_app. Qed.
Lemma apply_kids : forall xs e, apply (map EvK xs) e = mkElem (e_attrs e) (e_text e) (e_kids e ++ xs).
Proof.
  induction xs as [|x xs IH]; intros e; cbn [map].
  - rewrite app_nil_r. destruct e; reflexivity.
  - change (apply (EvK x :: map EvK xs) e) with (apply (map EvK xs) (add_kid e x)). rewrite IH. cbn.
    rewrite <- app_assoc. reflexivity.
Qed.
Lemma kids_xml : forall t xs, to_xml t (apply (map EvK xs) elem0) = El t [] None xs.
Proof. intros. rewrite apply_kids. reflexivity. Qed.

(** the objects in an attribute *)
Definition units (w : val) : list val := match w with VNone => [] | VList l => l | _ => [w] end.
Fixpoint nest (wr : list string) (al : bool) (xs : list xml) : list xml :=
  match wr with
  | [] => xs
  | t :: r => match xs with [] => if al then [El t [] None (nest r al xs)] else [] | _ => [El t [] None (nest r al xs)] end
  end.

Definition leaf_lt (lt : ltype) (l : lval) : Prop :=
  match lt with
  | LtKind k => leaf_ok k l
  | LtWrap c => exists s, l = LLit c (mkLit None None (Some s))
  end.

Definition attr_evs (v : val) : list ev :=
  match opt_str (field v "timestamp") with Some t => [EvA "T" t] | None => [] end ++
  match opt_str (field v "uuid") with Some u => [EvA "UUID" u] | None => [] end.
(** a string kept in an attribute, plainly or as a literal *)
Definition str_in (w : val) (s : string) : Prop :=
  w = VStr s \/ exists c, w = VLeaf (LLit c (mkLit None None (Some s))).

Fixpoint vsize (v : val) : nat :=
  match v with
  | VObj _ fs => S (fold_right (fun p n => vsize (snd p) + n) 0 fs)
  | VList l => S (fold_right (fun u n => vsize u + n) 0 l)
  | _ => 1
  end.
Lemma vsize_list : forall u l, In u l -> vsize u < vsize (VList l).
Proof.
  intros u l H. cbn. apply Nat.lt_succ_r. induction l as [|a l IH]; [contradiction|].
  destruct H as [->|H]; cbn; [lia|]. specialize (IH H). lia.
Qed.
Lemma vsize_field : forall c fs f w, assoc f fs = Some w -> vsize w < vsize (VObj c fs).
Proof.
  intros c fs f w H. cbn. apply Nat.lt_succ_r. induction fs as [|[g a] fs IH]; [discriminate|].
  cbn in H. cbn. destruct (String.eqb f g); [injection H as <-; lia|]. specialize (IH H). lia.
Qed.
Lemma vsize_units : forall u w, In u (units w) -> vsize u <= vsize w.
Proof.
  intros u w H. destruct w; cbn [units In] in H; try (destruct H as [<-|[]]; exact (Nat.le_refl _)); try contradiction.
  apply Nat.lt_le_incl, vsize_list. exact H.
Qed.

Section Write.
Context (repr : spec_float -> string) (warn : bool).
Notation wgo := (wgo repr warn).
Notation wrun := (wrun repr warn).
Context (WE : list (string * (list wi * string))).

Fixpoint leaf_xml (lt : ltype) (s : lshape) (l : lval) (x : xml) : Prop :=
  match s with
  | LEnd t wk => lcompat lt wk = true /\ leaf_element repr wk t l = Ok x
  | LSub t s' => exists y, leaf_xml lt s' l y /\ x = El t [] None [y]
  end.
Definition alts_t := list (string * (string * (list wi * string))).
Definition obj_xml (alts : alts_t) (u : val) (x : xml) : Prop :=
  exists c t b k s, class_of u = Some c /\ assoc c alts = Some (t, (b, k)) /\ In (c, (b, k)) WE /\
    ok u /\ wgo b k u elem0 s /\ x = to_xml t s.

Definition dens_ (den : item -> val -> list ev -> Prop) (v : val) :=
  fix go (its : list item) (evs : list ev) : Prop :=
    match its with
    | [] => evs = []
    | i :: r => exists a b, evs = a ++ b /\ den i v a /\ go r b
    end.
Fixpoint den (i : item) (v : val) (evs : list ev) {struct i} : Prop :=
  match i with
  | IAttrs => evs = attr_evs v
  | IName => exists s, field v "short_name" = Some (VStr s) /\ evs = [EvK (El "SHORT-NAME" [] (Some s) [])]
  | ILeaf f wr al lt s => exists w ls xs, field v f = Some w /\ units w = map VLeaf ls /\
      Forall (leaf_lt lt) ls /\ Forall2 (leaf_xml lt s) ls xs /\ evs = map EvK (nest wr al xs)
  | IObj f wr al alts => exists w xs, field v f = Some w /\ Forall2 (obj_xml alts) (units w) xs /\
      evs = map EvK (nest wr al xs) /\ NoDup (map fst alts)
  | IGroup t its b k => exists evs', dens_ den v its evs' /\ evs = [EvK (to_xml t (apply evs' elem0))] /\
      wgo b k v elem0 (apply evs' elem0)
  | IXAttr n f => exists w, field v f = Some w /\ (w = VNone /\ evs = [] \/ exists s, str_in w s /\ evs = [EvA n s])
  | IText f => exists w, field v f = Some w /\ (w = VNone /\ evs = [] \/ exists s, str_in w s /\ evs = [EvT s])
  | IInl f c its => exists w, field v f = Some w /\
      (w = VNone /\ evs = [] \/ class_of w = Some c /\ ok w /\ dens_ den w its evs)
  | IForeign tags => Forall (fun e => match e with EvK x => In (xtag x) tags | EvA _ _ => True | EvT _ => False end) evs
  end.
Definition dens (v : val) := dens_ den v.

Lemma dens_app : forall v a b ea eb, dens v a ea -> dens v b eb -> dens v (a ++ b) (ea ++ eb).
Proof.
  induction a as [|i a IH]; intros b ea eb H1 H2; cbn in *.
  - subst. exact H2.
  - destruct H1 as (x & y & -> & H & H1). exists x, (y ++ eb). split; [now rewrite app_assoc|]. split; [exact H|]. apply IH; assumption.
Qed.
Lemma dens_one : forall v i e, den i v e -> dens v [i] e.
Proof. intros. exists e, []. rewrite app_nil_r. repeat split; auto. Qed.

(** ** Classes *)
Lemma look_first : forall l m,
  look (map (fun d => match assoc d access_table with Some t => t | None => [] end) l) m = first_access l m.
Proof.
  induction l as [|c l IH]; intros m; [reflexivity|]. cbn [map look first_access].
  destruct (assoc c access_table) as [t|]; [|cbn [assoc]; apply IH].
  destruct (assoc m t); [reflexivity|apply IH].
Qed.
Transparent access_of.
Lemma acc_of : forall c m, acc (cinfo_of c) m = access_of c m.
Proof. intros. unfold acc, cinfo_of, access_of. cbn [ci_tabs]. apply look_first. Qed.
Opaque access_of.

Lemma assoc_in : forall A (f : string) (l : list (string * A)), In f (map fst l) -> exists a, assoc f l = Some a.
Proof.
  induction l as [|[g a] l IH]; intros H; [contradiction|]. cbn. destruct (String.eqb_spec f g); [eauto|].
  destruct H as [H|H]; [cbn in H; congruence|auto].
Qed.
Lemma assoc_some_in : forall A (f : string) (l : list (string * A)) a, assoc f l = Some a -> In f (map fst l).
Proof.
  induction l as [|[g b] l IH]; intros a H; [discriminate|]. cbn in *. destruct (String.eqb_spec f g); [auto|].
  right. eauto.
Qed.
Lemma assoc_In : forall A (f : string) (l : list (string * A)) a, assoc f l = Some a -> In (f, a) l.
Proof.
  induction l as [|[g b] l IH]; intros a H; [discriminate|]. cbn in *. destruct (String.eqb_spec f g).
  - inversion H; subst. auto.
  - right. eauto.
Qed.

(** an object described by [ci] *)
Definition owner (ci : cinfo) (v : val) : Prop :=
  exists fs, v = VObj (ci_cls ci) fs /\ ci = cinfo_of (ci_cls ci) /\ ok v.
Lemma owner_of : forall c v, class_of v = Some c -> ok v -> owner (cinfo_of c) v.
Proof. intros c [| | |d fs|] H O; try discriminate. cbn in H. inversion H; subst. exists fs. repeat split; auto. Qed.

Lemma owner_field : forall ci v f d, owner ci v -> dfl ci f = Some d -> exists w, field v f = Some w.
Proof.
  intros ci v f d (fs & -> & E & O) H. inversion O; subst. unfold dfl in H. rewrite E in H. cbn in H.
  cbn [field]. apply assoc_in. match goal with K : map fst fs = _ |- _ => rewrite K end. eapply assoc_some_in; eassumption.
Qed.
Lemma owner_fok : forall ci v f t w, owner ci v -> dom ci f = Some t -> field v f = Some w -> fok t w.
Proof.
  intros ci v f t w (fs & -> & E & O) H F. inversion O; subst. unfold dom in H. rewrite E in H. cbn in H.
  match goal with K : assoc (ci_cls ci) domain = _ |- _ => rewrite K in H end. eauto.
Qed.
Lemma default_eq : forall c f d, assoc f (attrs_of c) = Some d -> default c f = Some (init_val 1 d).
Proof.
  intros c f d H. unfold default. Transparent init. unfold init. cbn [init_val field]. Opaque init.
  revert H. generalize (attrs_of c) as l. induction l as [|[g x] l IH]; intros H; [discriminate|]. cbn [assoc map fst snd] in *. destruct (String.eqb f g); [injection H as ->; reflexivity|auto].
Qed.
Lemma owner_dflt : forall ci v f d w, owner ci v -> dom ci f = None -> dfl ci f = Some d -> field v f = Some w -> w = init_val 1 d.
Proof.
  intros ci v f d w (fs & -> & E & O) H D F. inversion O; subst. unfold dom, dfl in *. rewrite E in H, D. cbn in H, D.
  match goal with K : assoc (ci_cls ci) domain = _ |- _ => rewrite K in H end.
  apply default_eq in D. match goal with K : forall f v, _ -> _ -> default _ _ = Some v |- _ => specialize (K _ _ F H) end. congruence.
Qed.
Lemma owner_keys : forall ci v f w, owner ci v -> field v f = Some w -> exists d, dfl ci f = Some d.
Proof.
  intros ci v f w (fs & -> & E & O) F. inversion O; subst. unfold dfl. rewrite E. cbn [cinfo_of ci_attrs].
  apply assoc_in. match goal with K : map fst fs = _ |- _ => rewrite <- K end. eapply assoc_some_in. exact F.
Qed.

Lemma is_dlist_eq : forall d, is_dlist d = true -> d = Some DList.
Proof. intros [[]|]; cbn; congruence. Qed.
Lemma is_dnone_eq : forall d, is_dnone d = true -> d = Some DNone.
Proof. intros [[]|]; cbn; congruence. Qed.

Lemma getter_ok : forall ci m f v, getter ci m = Some f -> owner ci v ->
  exists w, field v f = Some w /\ get1 v m = Done w.
Proof.
  intros ci m f v H O. unfold getter in H. destruct m as [m|a].
  - assert (A : acc ci m = access_of (ci_cls ci) m) by (destruct O as (fs & _ & E & _); rewrite E; apply acc_of).
    destruct (acc ci m) as [ac|] eqn:EA; [|discriminate]. destruct ac as [g|g|g gd|g gd|c0 nm pl]; try discriminate.
    + destruct (dfl ci g) as [d|] eqn:D; [|discriminate]. inversion H; subst.
      destruct (owner_field _ _ _ _ O D) as [w W]. exists w. split; [exact W|].
      destruct O as (fs & -> & E & O). cbn [get1]. rewrite <- A. cbn [field] in W. now rewrite W.
    + destruct (dom ci g) as [t|] eqn:T.
      * destruct t as [| | | |[] cs| | | | | | |]; try discriminate. destruct (dfl ci g) as [d|] eqn:D; [|discriminate]. inversion H; subst.
        destruct (owner_field _ _ _ _ O D) as [w W]. exists w. split; [exact W|].
        pose proof (owner_fok _ _ _ _ _ O T W) as K. inversion K as [| | | | | | |s0 cs0 vs _ _ Hs| | | | | | | | | | |]; subst.
        destruct O as (fs & -> & E & O). cbn [get1]. rewrite <- A. cbn [field] in W. rewrite W. destruct (Hs eq_refl) as [HS1 HS2]. rewrite HS1, HS2. reflexivity.
      * destruct (is_dlist (dfl ci g)) eqn:D; [|discriminate]. inversion H; subst. apply is_dlist_eq in D.
        destruct (owner_field _ _ _ _ O D) as [w W]. exists w. split; [exact W|].
        pose proof (owner_dflt _ _ _ _ _ O T D W) as K. subst w.
        destruct O as (fs & -> & E & O). cbn [get1]. rewrite <- A. cbn [field] in W. rewrite W. reflexivity.
  - destruct (dfl ci a) as [d|] eqn:D; [|discriminate]. inversion H; subst.
    destruct (owner_field _ _ _ _ O D) as [w W]. exists w. split; [exact W|].
    destruct O as (fs & -> & E & O). cbn [get1]. cbn [field] in W. now rewrite W.
Qed.

(** ** Reductions of writer code *)
Definition knows (kn : know) (w : val) : Prop :=
  match kn with
  | KNone => w = VNone | KNil => w = VList [] | KCons => exists x l, w = VList (x :: l) | KSome => w <> VNone
  | KObj ci => exists fs, w = VObj (ci_cls ci) fs /\ ci = cinfo_of (ci_cls ci)
  end.
Lemma keval_ok : forall kn w c b, keval kn c = Some b -> knows kn w -> wcheck w c = Done b.
Proof.
  intros kn w c. induction c as [p|p|p cs|p c|p|c IH|a IHa c IHc]; intros b H K; cbn [keval] in H.
  - destruct p; [|discriminate]. inversion H; subst. cbn. destruct kn; cbn in K.
    + subst; reflexivity.
    + subst; reflexivity.
    + destruct K as (x & l & ->); reflexivity.
    + destruct w; try reflexivity. now elim K.
    + destruct K as (fs & -> & _); reflexivity.
  - destruct p; [|discriminate]. cbn. destruct kn; cbn in K; try discriminate; inversion H; subst.
    + reflexivity.
    + destruct K as (x & l & ->); reflexivity.
  - destruct p; [|discriminate]. cbn. destruct kn; cbn in K; try discriminate; inversion H; subst.
    + reflexivity.
    + destruct K as (fs & -> & E). assert (A : ci_anc ci = ancestors 20 (ci_cls ci)) by (rewrite E at 1; reflexivity). cbn. rewrite A. reflexivity.
  - destruct p; [|discriminate]. cbn. destruct kn; cbn in K; try discriminate; inversion H; subst.
    + reflexivity.
    + destruct K as (fs & -> & E). reflexivity.
  - destruct p; [|discriminate]. cbn. destruct kn; cbn in K; try discriminate; inversion H; subst.
    + reflexivity.
    + reflexivity.
    + destruct K as (x & l & ->); reflexivity.
    + destruct K as (fs & -> & E). reflexivity.
  - cbn. destruct (keval kn c) as [x|]; [|discriminate]. rewrite (IH _ eq_refl K). cbn in *. inversion H; reflexivity.
  - cbn. destruct (keval kn a) as [x|]; [|discriminate]. rewrite (IHa _ eq_refl K). cbn. destruct x.
    + apply IHc; assumption.
    + inversion H; reflexivity.
Qed.

Inductive runs (w : val) : list (wi * string) -> elem -> elem -> Prop :=
| runs_nil : forall e, runs w [] e e
| runs_cons : forall i k l e e1 e2, wgo [i] k w e e1 -> runs w l e1 e2 -> runs w ((i, k) :: l) e e2.
Lemma runs_app : forall w a b e e2, runs w (a ++ b) e e2 -> exists e1, runs w a e e1 /\ runs w b e1 e2.
Proof.
  induction a as [|[i k] a IH]; intros b e e2 H; cbn [app] in H.
  - exists e. split; [constructor|exact H].
  - inversion H; subst. destruct (IH _ _ _ H6) as (e1' & A & B). exists e1'. split; [econstructor; eassumption|exact B].
Qed.
Lemma runs_one : forall w i k e e1, runs w [(i, k)] e e1 -> wgo [i] k w e e1.
Proof. intros. inversion H; subst. inversion H6; subst. assumption. Qed.

Lemma wred_ok : forall n kn code key l w, wred n kn code key = Some l -> knows kn w ->
  forall e e', runs w l e e' -> wgo code key w e e'.
Proof.
  induction n as [|n IH]; intros kn code key l w H K e e' R; [discriminate|].
  destruct code as [|i rest]; cbn [wred] in H.
  - inversion H; subst. inversion R; subst. apply wgo_nil.
  - match type of H with match ?a with _ => _ end = _ => destruct a as [l1|] eqn:E1; [|discriminate] end.
    destruct (wred n kn rest key) as [l2|] eqn:E2; [|discriminate]. inversion H; subst l. clear H.
    apply runs_app in R. destruct R as (e1 & R1 & R2).
    eapply wgo_cons; [|eapply IH; eassumption].
    assert (KEEP : l1 = [(i, key)] -> wgo [i] key w e e1) by (intros ->; apply runs_one; exact R1).
    destruct i; try (inversion E1; subst; apply KEEP; reflexivity).
    + destruct p; [|inversion E1; subst; apply KEEP; reflexivity].
      destruct kn; try (inversion E1; subst; apply KEEP; reflexivity).
      inversion E1; subst. inversion R1; subst. cbn in K. subst. now apply wgo_leaf_none.
    + destruct p; [|inversion E1; subst; apply KEEP; reflexivity].
      destruct (assoc f wfuns) as [b|] eqn:EF; [|discriminate].
      eapply wgo_call; [reflexivity|exact EF|]. eapply IH; eassumption.
    + destruct (keval kn c) as [x|] eqn:EC; [|inversion E1; subst; apply KEEP; reflexivity].
      eapply wgo_if; [eapply keval_ok; eassumption|]. eapply IH; eassumption.
    + destruct p; [|inversion E1; subst; apply KEEP; reflexivity].
      destruct kn; try (inversion E1; subst; apply KEEP; reflexivity).
      inversion E1; subst. inversion R1; subst. cbn in K. subst. eapply wgo_for; [reflexivity|constructor].
Qed.
Lemma nothing_ok : forall kn code key w e, nothing kn code key = true -> knows kn w -> wgo code key w e e.
Proof.
  intros kn code key w e H K. unfold nothing in H. destruct (wred fuel kn code key) as [[|]|] eqn:E; try discriminate.
  eapply wred_ok; [exact E|exact K|constructor].
Qed.
Lemma wred_one : forall kn code key i k w, wred fuel kn code key = Some [(i, k)] -> knows kn w ->
  forall e e', wgo [i] k w e e' -> wgo code key w e e'.
Proof. intros. eapply wred_ok; [eassumption|eassumption|]. econstructor; [eassumption|constructor]. Qed.

(** ** Removing a getter *)
Lemma gstep_eqb_eq : forall a b, gstep_eqb a b = true -> a = b.
Proof. intros [] []; cbn; intros H; try discriminate; apply String.eqb_eq in H; congruence. Qed.
Lemma sp_ok : forall m p q o w, sp m p = Some q -> get1 o m = Done w -> gets o p = gets w q.
Proof.
  intros m [|g p] q o w H G; [discriminate|]. cbn in H. destruct (gstep_eqb g m) eqn:E; [|discriminate].
  apply gstep_eqb_eq in E. inversion H; subst. cbn. rewrite G. reflexivity.
Qed.
Ltac sp_tac G := match goal with
  | H : omap _ (sp ?m ?p) = Some _ |- _ =>
      let q := fresh "q" in let E := fresh "E" in
      destruct (sp m p) as [q|] eqn:E; [|discriminate]; cbn [omap] in H; inversion H; subst; clear H;
      rewrite (sp_ok _ _ _ _ _ E G) end.
Lemma strip_c_ok : forall m o w c c', strip_c m c = Some c' -> get1 o m = Done w -> wcheck o c = wcheck w c'.
Proof.
  intros m o w c. induction c; intros c' H G; cbn [strip_c] in H; cbn [wcheck];
    try (sp_tac G; reflexivity).
  - destruct (strip_c m c) as [x|]; [|discriminate]. inversion H; subst. cbn. rewrite (IHc _ eq_refl G). reflexivity.
  - destruct (strip_c m c1) as [x|]; [|discriminate]. destruct (strip_c m c2) as [y|]; [|discriminate].
    inversion H; subst. cbn. rewrite (IHc1 _ eq_refl G), (IHc2 _ eq_refl G). reflexivity.
Qed.
Lemma strip_ok : forall n m o w code code', strip n m code = Some code' -> get1 o m = Done w ->
  forall N key e, wrun N code key o e = wrun N code' key w e.
Proof.
  induction n as [|n IH]; intros m o w code code' H G N key e; [discriminate|].
  destruct code as [|i rest]; cbn [strip] in H.
  - inversion H; subst. destruct N; reflexivity.
  - match type of H with omap2 cons ?a ?b = _ => destruct a as [i'|] eqn:E1; [|discriminate]; destruct b as [rest'|] eqn:E2; [|discriminate] end.
    inversion H; subst code'. clear H. destruct N as [|N]; [reflexivity|].
    cbn [IrSem.wrun]. fold (IrSem.wrun repr warn).
    assert (R : forall e, wrun N rest key o e = wrun N rest' key w e) by (intro; eapply IH; eassumption).
    match goal with |- obind ?a _ = obind ?b _ => assert (Q : a = b) end.
    { destruct i; try (sp_tac G; reflexivity).
      - destruct (strip n m b) as [b'|] eqn:E; [|discriminate]. inversion E1; subst.
        rewrite (IH _ _ _ _ _ E G). reflexivity.
      - destruct (strip_c m c) as [c'|] eqn:Ec; [|discriminate].
        destruct (strip n m a) as [a'|] eqn:Ea; [|discriminate]. destruct (strip n m b) as [b'|] eqn:Eb; [|discriminate].
        inversion E1; subst. rewrite (strip_c_ok _ _ _ _ _ Ec G).
        destruct (wcheck w c') as [[]| | |]; cbn [obind]; try reflexivity; eapply IH; eassumption.
      - inversion E1; subst; reflexivity.
      - inversion E1; subst; reflexivity.
      - discriminate. }
    rewrite Q. match goal with |- obind ?a _ = _ => destruct a; cbn [obind]; try reflexivity end. apply R.
Qed.
Lemma strip_go : forall n m o w code code' key e e', strip n m code = Some code' -> get1 o m = Done w ->
  wgo code' key w e e' -> wgo code key o e e'.
Proof. intros n m o w code code' key e e' H G [N R]. exists N. rewrite (strip_ok _ _ _ _ _ _ H G). exact R. Qed.

(** ** Shapes *)
Lemma lshape_ok : forall n lt code key s l, lshape_of n lt code key = Some s -> leaf_lt lt l ->
  exists x, leaf_xml lt s l x /\ forall e, wgo code key (VLeaf l) e (add_kid e x).
Proof.
  induction n as [|n IH]; intros lt code key s l H L; [discriminate|]. cbn [lshape_of] in H.
  destruct (wred fuel KSome code key) as [[|[i k] [|i2 r2]]|] eqn:E; try discriminate.
  - destruct i; try discriminate.
    + destruct p; [|discriminate]. destruct (lcompat lt k0) eqn:C; [|discriminate]. inversion H; subst.
      assert (X : exists x, leaf_element repr k0 (wtag k t) l = Ok x).
      { destruct lt as [rk|c]; cbn in C, L.
        - destruct (leaf_rt repr k0 rk (wtag k t) l C L) as (a & tx & X & _). eauto.
        - destruct k0; try discriminate. destruct L as [s ->]. eexists. reflexivity. }
      destruct X as [x X]. exists x. split; [split; assumption|]. intro e.
      eapply wred_one; [exact E|discriminate|]. eapply wgo_leaf; [reflexivity|exact X].
    + destruct (lshape_of n lt b k) as [s'|] eqn:E'; [|discriminate]. inversion H; subst.
      destruct (IH _ _ _ _ _ E' L) as (x & X & R). exists (El (wtag k t) [] None [x]). split; [exists x; auto|]. intro e.
      eapply wred_one; [exact E|discriminate|]. exact (wgo_sub _ _ t b k (VLeaf l) e _ (R elem0)).
  - destruct i; try discriminate; destruct p; discriminate.
Qed.
Lemma oshape_ok : forall c code key t b k u s, oshape_of c code key = Some (c, (t, (b, k))) -> class_of u = Some c ->
  wgo b k u elem0 s -> forall e, wgo code key u e (add_kid e (to_xml t s)).
Proof.
  intros c code key t b k u s H C R e. unfold oshape_of in H.
  destruct (wred fuel (KObj (cinfo_of c)) code key) as [[|[i k'] [|]]|] eqn:E; try discriminate; destruct i; try discriminate.
  inversion H; subst. eapply wred_one; [exact E| |apply wgo_sub; exact R].
  destruct u; try discriminate. cbn in C. inversion C; subst. exists fields. split; reflexivity.
Qed.
Lemma oshape_cls : forall c code key a, oshape_of c code key = Some a -> fst a = c.
Proof.
  intros c code key a H. unfold oshape_of in H.
  destruct (wred fuel (KObj (cinfo_of c)) code key) as [[|[i k'] [|]]|] eqn:E; try discriminate; destruct i; try discriminate.
  inversion H; reflexivity.
Qed.
Lemma oshapes_ok : forall cs code key alts c, oshapes_ cs code key = Some alts -> In c cs ->
  exists t b k, assoc c alts = Some (t, (b, k)) /\ oshape_of c code key = Some (c, (t, (b, k))) /\
    In (c, (b, k)) (map (fun a => (fst a, snd (snd a))) alts).
Proof.
  induction cs as [|d cs IH]; intros code key alts c H I; [contradiction|]. cbn [oshapes_] in H.
  destruct (oshape_of d code key) as [a|] eqn:E; [|discriminate]. destruct (oshapes_ cs code key) as [r|] eqn:E'; [|discriminate].
  inversion H; subst. pose proof (oshape_cls _ _ _ _ E). destruct a as [d' [t [b k]]]. cbn in H0. subst d'. cbn [assoc].
  destruct (String.eqb_spec c d) as [->|N].
  - exists t, b, k. repeat split; [assumption|left; reflexivity].
  - destruct I as [I|I]; [congruence|]. destruct (IH _ _ _ _ E' I) as (t' & b' & k' & A & B & C').
    exists t', b', k'. repeat split; auto. right. exact C'.
Qed.
Lemma oshapes_keys : forall cs code key alts, oshapes_ cs code key = Some alts -> map fst alts = cs.
Proof.
  induction cs as [|d cs IH]; intros code key alts H; cbn [oshapes_] in H; [inversion H; reflexivity|].
  destruct (oshape_of d code key) as [a|] eqn:E; [|discriminate]. destruct (oshapes_ cs code key) as [r|] eqn:E'; [|discriminate].
  inversion H; subst. cbn. f_equal; [eapply oshape_cls; eassumption|eauto].
Qed.

Lemma nest_nonempty : forall wr al al' xs, xs <> [] -> nest wr al xs = nest wr al' xs.
Proof. induction wr as [|t wr IH]; intros al al' xs H; cbn [nest]; [reflexivity|]. destruct xs; [now elim H|]. rewrite (IH al al') by exact H. reflexivity. Qed.

Lemma lwrap_ok : forall n code key wr al b k', lwrap n code key = Some (wr, al, b, k') -> forall l xs,
  (forall e, wchain repr warn b k' l e (apply (map EvK xs) e)) -> (l = [] <-> xs = []) ->
  forall e, wgo code key (VList l) e (apply (map EvK (nest wr al xs)) e).
Proof.
  induction n as [|n IH]; intros code key wr al b k' H l xs C L e; [discriminate|]. cbn [lwrap] in H.
  destruct (wred fuel KCons code key) as [[|[i k] [|i2 r2]]|] eqn:E; try discriminate.
  2: { destruct i; try discriminate; destruct p; discriminate. }
  destruct i; try discriminate.
  - (* WSub *)
    destruct (lwrap n b0 k) as [[[[wr' al'] b'] k'']|] eqn:EL; [|discriminate].
    assert (CONS : l <> [] -> forall a2, wr = wtag k t :: wr' -> b' = b -> k'' = k' ->
       nest wr' al' xs = nest wr' a2 xs ->
       wgo code key (VList l) e (apply (map EvK (nest (wtag k t :: wr') a2 xs)) e)).
    { intros NE a2 -> -> -> N. eapply wred_one; [exact E|destruct l as [|y l]; [now elim NE|exists y, l; reflexivity]|].
      pose proof (wgo_sub _ _ t b0 k (VList l) e _ (IH _ _ _ _ _ _ EL l xs C L elem0)) as W. rewrite kids_xml in W.
      rewrite N in W. cbn [nest]. destruct xs; [elim NE; now apply L|]. exact W. }
    destruct (wred fuel KNil code key) as [[|[j k2] [|j2 r2]]|] eqn:EN; try discriminate.
    + destruct al'; [discriminate|]. inversion H; subst. destruct l as [|y l].
      * assert (X : xs = []) by (now apply L). subst. cbn. eapply wred_ok; [exact EN|reflexivity|constructor].
      * apply CONS; auto. discriminate.
    + destruct j; try discriminate.
      destruct (String.eqb (wtag k2 t0) (wtag k t) && (al' || match wr' with [] => true | _ => false end))%bool eqn:EB; [|discriminate].
      apply andb_true_iff in EB. destruct EB as [EB1 EB2]. apply String.eqb_eq in EB1.
      match type of H with (if ?c then _ else _) = _ => destruct c eqn:EC; [|discriminate] end. inversion H; subst. clear H.
      destruct l as [|y l].
      * assert (X : xs = []) by (now apply L). subst.
        eapply wred_one; [exact EN|reflexivity|].
        assert (IN : wgo b1 k2 (VList []) elem0 (apply (map EvK (nest wr' true [])) elem0)).
        { destruct al'.
          - destruct (lwrap n b1 k2) as [[[[wr2 [|]] b2] k2']|] eqn:E2; try discriminate.
            destruct (list_eq_dec string_dec wr' wr2); [subst wr2|discriminate].
            eapply IH; [exact E2| |split; reflexivity]. intro e'. constructor.
          - destruct wr'; [|discriminate]. cbn. eapply nothing_ok; [exact EC|reflexivity]. }
        pose proof (wgo_sub _ _ t0 b1 k2 (VList []) e _ IN) as W. rewrite kids_xml, EB1 in W. exact W.
      * apply CONS; auto; [discriminate|]. destruct al'; [reflexivity|]. apply nest_nonempty.
        intro X. apply L in X. discriminate.
    + destruct j; discriminate.
  - (* WFor *)
    destruct p; [|discriminate]. destruct (nothing KNil code key) eqn:EN; [|discriminate]. inversion H; subst. cbn [nest].
    destruct l as [|y l].
    + assert (X : xs = []) by (now apply L). subst. eapply nothing_ok; [exact EN|reflexivity].
    + eapply wred_one; [exact E|exists y, l; reflexivity|]. eapply wgo_for; [reflexivity|]. apply C.
Qed.

(** ** Attributes *)
Definition closed_in (its : list item) : Prop := forall p, In p (flat_map wkids its) -> In p WE.
(** objects below can be written *)
Definition below (v : val) : Prop := forall u, vsize u < vsize v -> ok u ->
  forall c b k, class_of u = Some c -> In (c, (b, k)) WE -> exists s, wgo b k u elem0 s.
Definition writes (its : list item) (code : list wi) (key : string) (v : val) : Prop :=
  exists evs, dens v its evs /\ forall e, wgo code key v e (apply evs e).
Definition W_ok (W : cinfo -> list wi -> string -> option (list item)) : Prop :=
  forall ci code key its v, W ci code key = Some its -> owner ci v -> below v -> closed_in its ->
    writes its code key v.

Lemma objs_written : forall cs alts code key us, oshapes_ cs code key = Some alts ->
  Forall (in_class cs) us -> Forall ok us ->
  (forall p, In p (map (fun a => (fst a, snd (snd a))) alts) -> In p WE) ->
  (forall u, In u us -> forall c b k, class_of u = Some c -> In (c, (b, k)) WE -> exists s, wgo b k u elem0 s) ->
  exists xs, Forall2 (obj_xml alts) us xs /\ forall e, wchain repr warn code key us e (apply (map EvK xs) e).
Proof.
  intros cs alts code key us S I O K B. induction us as [|u us IH].
  - exists []. split; [constructor|]. intro e. constructor.
  - inversion I as [|? ? (c & C & Hc) I']; subst. inversion O as [|? ? Ou O']; subst.
    destruct (IH I' O') as (xs & F & R); [intros; eapply B; [right; eassumption| |]; eassumption|].
    destruct (oshapes_ok _ _ _ _ _ S Hc) as (t & b & k & A & SH & IN).
    destruct (B u (or_introl eq_refl) c b k C (K _ IN)) as [s W].
    exists (to_xml t s :: xs). split.
    + constructor; [|exact F]. exists c, t, b, k, s. repeat split; auto.
    + intro e. econstructor; [eapply oshape_ok; eassumption|]. apply R.
Qed.
Lemma leaves_written : forall n lt code key s ls, lshape_of n lt code key = Some s -> Forall (leaf_lt lt) ls ->
  exists xs, Forall2 (leaf_xml lt s) ls xs /\ forall e, wchain repr warn code key (map VLeaf ls) e (apply (map EvK xs) e).
Proof.
  intros n lt code key s ls S L. induction L as [|l ls Hl L IH].
  - exists []. split; [constructor|]. intro e. constructor.
  - destruct IH as (xs & F & R). destruct (lshape_ok _ _ _ _ _ _ S Hl) as (x & X & W).
    exists (x :: xs). split; [constructor; assumption|]. intro e. cbn [map]. econstructor; [apply W|apply R].
Qed.
Lemma forall2_nil : forall A B (R : A -> B -> Prop) l m, Forall2 R l m -> (l = [] <-> m = []).
Proof. intros A B R l m []; split; intro; congruence. Qed.

Lemma nodupb_ok : forall l, nodupb l = true -> NoDup l.
Proof.
  induction l as [|a l IH]; intros H; [constructor|]. cbn in H. destruct (mem a l) eqn:E; [discriminate|].
  constructor; [|auto]. intro I. unfold mem in E.
  assert (existsb (String.eqb a) l = true) by (apply existsb_exists; exists a; split; [exact I|apply String.eqb_refl]). congruence.
Qed.
Lemma oshapes_nodup : forall cs code key alts, oshapes cs code key = Some alts ->
  oshapes_ cs code key = Some alts /\ NoDup (map fst alts).
Proof.
  intros cs code key alts H. unfold oshapes in H. destruct (nodupb cs) eqn:E; [|discriminate]. split; [exact H|].
  rewrite (oshapes_keys _ _ _ _ H). apply nodupb_ok. exact E.
Qed.

Lemma field_sound : forall W ci f code key its v w, W_ok W -> field_item W ci f code key = Some its ->
  owner ci v -> below v -> closed_in its -> field v f = Some w ->
  exists evs, dens v its evs /\ forall e, wgo code key w e (apply evs e).
Proof.
  intros W ci f code key its v w HW H O B C F. unfold field_item in H.
  assert (NONE : nothing KNone code key = true -> w = VNone -> forall e, wgo code key w e e)
    by (intros N -> e; eapply nothing_ok; [exact N|reflexivity]).
  destruct (dom ci f) as [t|] eqn:T.
  2: { destruct (dfl ci f) as [d|] eqn:D; [|discriminate]. pose proof (owner_dflt _ _ _ _ _ O T D F) as E. subst w.
       destruct d; try discriminate.
       - destruct (nothing KNone code key) eqn:N; [|discriminate]. inversion H; subst. exists []. split; [reflexivity|].
         intro e. eapply nothing_ok; [exact N|reflexivity].
       - destruct (nothing KNil code key) eqn:N; [|discriminate]. inversion H; subst. exists []. split; [reflexivity|].
         intro e. eapply nothing_ok; [exact N|reflexivity]. }
  pose proof (owner_fok _ _ _ _ _ O T F) as K.
  assert (SUB : forall u, In u (units w) -> vsize u < vsize v).
  { intros u Hu. apply vsize_units in Hu. destruct O as (fs & -> & _ & _). cbn [field] in F.
    eapply Nat.le_lt_trans; [exact Hu|]. eapply vsize_field; exact F. }
  assert (SB : forall u, In u (units w) -> ok u -> forall c b k, class_of u = Some c -> In (c, (b, k)) WE -> exists s, wgo b k u elem0 s).
  { intros u Hu Ou. apply B; auto. }
  assert (KIDS : forall wr al alts, its = [IObj f wr al alts] -> forall p, In p (map (fun a => (fst a, snd (snd a))) alts) -> In p WE).
  { intros wr al alts -> p Hp. apply C. cbn. rewrite app_nil_r. exact Hp. }
  destruct t as [m k|k|c|m cs|sd cs|m|c| |c|c|c|]; cbv zeta in H.
  - (* FLeaf *)
    destruct (if m then true else nothing KNone code key) eqn:N; [|discriminate].
    destruct (lshape_of 20 (LtKind k) code key) as [s|] eqn:S; [|discriminate]. inversion H; subst its.
    assert (X : forall evs, den (ILeaf f [] false (LtKind k) s) v evs -> dens v [ILeaf f [] false (LtKind k) s] evs) by (intros; now apply dens_one).
    inversion K; subst.
    + exists []. split; [|apply NONE; auto]. apply X. exists VNone, [], []. repeat split; auto.
    + destruct (lshape_ok _ _ _ _ _ l S) as (x & LX & R); [assumption|]. exists [EvK x]. split; [|exact R].
      apply X. exists (VLeaf l), [l], [x]. repeat split; auto.
  - (* FLeafs *)
    destruct (lwrap 20 code key) as [[[[wr al] b] k']|] eqn:L; [|discriminate].
    destruct (lshape_of 20 (LtKind k) b k') as [s|] eqn:S; [|discriminate]. inversion H; subst its. inversion K as [| |k0 ls FL| | | | | | | | | | | | | | | |]; subst.
    destruct (leaves_written _ (LtKind k) _ _ _ ls S FL) as (xs & FX & R).
    exists (map EvK (nest wr al xs)). split.
    + apply dens_one. exists (VList (map VLeaf ls)), ls, xs. repeat split; auto.
    + eapply lwrap_ok; [exact L|exact R|]. pose proof (forall2_nil _ _ _ _ _ FX) as E. split; intro Z.
      * apply E. destruct ls; [reflexivity|discriminate].
      * apply E in Z. subst. reflexivity.
  - (* FWrap *)
    destruct (nothing KNone code key) eqn:N; [|discriminate].
    destruct (lshape_of 20 (LtWrap c) code key) as [s|] eqn:S; [|discriminate]. inversion H; subst its.
    inversion K; subst.
    + exists []. split; [|apply NONE; auto]. apply dens_one. exists VNone, [], []. repeat split; auto.
    + destruct (lshape_ok _ _ _ _ _ (LLit c (mkLit None None (Some s0))) S) as (x & LX & R); [exists s0; reflexivity|]. exists [EvK x]. split; [|exact R].
      apply dens_one. exists (VLeaf (LLit c (mkLit None None (Some s0)))), [LLit c (mkLit None None (Some s0))], [x].
      repeat split; auto. constructor; [exists s0; reflexivity|constructor].
  - (* FObj *)
    destruct (if m then true else nothing KNone code key) eqn:N; [|discriminate].
    destruct (oshapes cs code key) as [alts|] eqn:S; [|discriminate]. apply oshapes_nodup in S. destruct S as [S ND].
    inversion H; subst its. inversion K; subst.
    + exists []. split; [|apply NONE; auto]. apply dens_one. exists VNone, []. repeat split; auto. constructor.
    + assert (U : units w = [w]) by (match goal with I : in_class _ w |- _ => destruct I as (c1 & C1 & _) end; destruct w; try discriminate; reflexivity).
      destruct (objs_written cs alts code key [w] S) as (xs & FX & R).
      * constructor; [assumption|constructor].
      * constructor; [assumption|constructor].
      * eapply KIDS; reflexivity.
      * intros u [<-|[]]. apply SB; [rewrite U; left; reflexivity|assumption].
      * inversion FX as [|? x ? ? X FX']; subst. inversion FX'; subst. exists [EvK x]. split.
        -- apply dens_one. exists w, [x]. rewrite U. repeat split; auto.
        -- intro e. specialize (R e). inversion R as [|? ? ? e1 ? R1 R2]; subst. inversion R2; subst. exact R1.
  - (* FObjs *)
    destruct (lwrap 20 code key) as [[[[wr al] b] k']|] eqn:L; [|discriminate].
    destruct (oshapes cs b k') as [alts|] eqn:S; [|discriminate]. apply oshapes_nodup in S. destruct S as [S ND].
    inversion H; subst its. inversion K as [| | | | | | |s0 cs0 vs IC OK _| | | | | | | | | | |]; subst.
    destruct (objs_written cs alts b k' vs S IC OK) as (xs & FX & R).
    + eapply KIDS; reflexivity.
    + intros u Hu. apply SB; [exact Hu|]. rewrite Forall_forall in OK. auto.
    + exists (map EvK (nest wr al xs)). split.
      * apply dens_one. exists (VList vs), xs. repeat split; auto.
      * eapply lwrap_ok; [exact L|exact R|]. exact (forall2_nil _ _ _ _ _ FX).
  - (* FAttr *)
    destruct (if m then true else nothing KNone code key) eqn:N; [|discriminate].
    destruct (wred fuel KSome code key) as [[|[i k2] [|i2 r2]]|] eqn:E; try discriminate.
    2: { destruct i; try discriminate. destruct p; discriminate. }
    destruct i; try discriminate. destruct p; try discriminate. inversion H; subst its. inversion K; subst.
    + exists []. split; [|apply NONE; auto]. apply dens_one. exists VNone. split; auto.
    + exists [EvA n s]. split.
      * apply dens_one. exists (VStr s). split; [exact F|right; exists s; split; [left|]; reflexivity].
      * intro e. eapply wred_one; [exact E|discriminate|]. apply wgo_xattr. reflexivity.
  - (* FAttrOf *)
    destruct (nothing KNone code key) eqn:N; [|discriminate].
    destruct (wred fuel KSome code key) as [[|[i k2] [|i2 r2]]|] eqn:E; try discriminate.
    2: { destruct i; try discriminate. destruct p as [|[] []]; discriminate. }
    destruct i; try discriminate. destruct p as [|[g|] [|]]; try discriminate.
    destruct (String.eqb_spec g "getValue"); [subst g|discriminate]. inversion H; subst its. inversion K; subst.
    + exists []. split; [|apply NONE; auto]. apply dens_one. exists VNone. split; auto.
    + exists [EvA n s]. split.
      * apply dens_one. exists (VLeaf (LLit c (mkLit None None (Some s)))). split; [exact F|right; exists s; split; [right; exists c|]; reflexivity].
      * intro e. eapply wred_one; [exact E|discriminate|]. apply wgo_xattr. reflexivity.
  - (* FText *)
    destruct (wred fuel KSome code key) as [[|[i k2] [|i2 r2]]|] eqn:E; try discriminate.
    2: { destruct i; try discriminate. destruct p; discriminate. }
    destruct i; try discriminate. destruct p; try discriminate. inversion H; subst its. inversion K; subst.
    exists [EvT s]. split.
    * apply dens_one. exists (VStr s). split; [exact F|right; exists s; split; [left|]; reflexivity].
    * intro e. eapply wred_one; [exact E|discriminate|]. apply wgo_settext. reflexivity.
  - (* FTextOf *)
    destruct (nothing KNone code key) eqn:N; [|discriminate].
    destruct (wred fuel KSome code key) as [[|[i k2] [|i2 r2]]|] eqn:E; try discriminate.
    2: { destruct i; try discriminate. destruct p as [|[] []]; discriminate. }
    destruct i; try discriminate. destruct p as [|[g|] [|]]; try discriminate.
    destruct (String.eqb_spec g "getValue"); [subst g|discriminate]. inversion H; subst its. inversion K; subst.
    + exists []. split; [|apply NONE; auto]. apply dens_one. exists VNone. split; auto.
    + exists [EvT s]. split.
      * apply dens_one. exists (VLeaf (LLit c (mkLit None None (Some s)))). split; [exact F|right; exists s; split; [right; exists c|]; reflexivity].
      * intro e. eapply wred_one; [exact E|discriminate|]. apply wgo_settext. reflexivity.
  - (* FPart *)
    destruct (W (cinfo_of c) code key) as [its'|] eqn:E; [|discriminate]. inversion H; subst its. inversion K; subst.
    destruct (HW _ _ _ _ w E) as (evs & D & R).
    + now apply owner_of.
    + intros u Hu. apply B. eapply Nat.lt_trans; [exact Hu|]. apply SUB. destruct w; try discriminate. left. reflexivity.
    + intros p Hp. apply C. cbn. rewrite app_nil_r. exact Hp.
    + exists evs. split; [|exact R]. apply dens_one. exists w. split; [exact F|]. right. repeat split; auto.
  - (* FPartAny *)
    destruct (nothing KNone code key) eqn:N; [|discriminate].
    destruct (W (cinfo_of c) code key) as [its'|] eqn:E; [|discriminate]. inversion H; subst its. inversion K; subst.
    + exists []. split; [|apply NONE; auto]. apply dens_one. exists VNone. split; auto.
    + destruct (HW _ _ _ _ (VObj c fs) E) as (evs & D & R).
      * apply owner_of; [reflexivity|assumption].
      * intros u Hu. apply B. eapply Nat.lt_trans; [exact Hu|]. apply SUB. left. reflexivity.
      * intros p Hp. apply C. cbn. rewrite app_nil_r. exact Hp.
      * exists evs. split; [|exact R]. apply dens_one. exists (VObj c fs). split; [exact F|]. right. repeat split; auto.
  - discriminate.
Qed.

Lemma wgroup_sound : forall W ci i key its v, W_ok W -> wgroup W ci i key = Some its -> owner ci v -> below v -> closed_in its ->
  writes its [i] key v.
Proof.
  intros W ci i key its v HW H O B C. destruct i; try discriminate. cbn [wgroup] in H.
  destruct (W ci b key) as [its'|] eqn:E; [|discriminate]. inversion H; subst.
  destruct (HW _ _ _ _ _ E O B) as (evs & D & R).
  - intros p Hp. apply C. cbn. rewrite app_nil_r. exact Hp.
  - exists [EvK (to_xml (wtag key t) (apply evs elem0))]. split.
    + apply dens_one. exists evs. repeat split; auto.
    + intro e. exact (wgo_sub _ _ t b key v e _ (R elem0)).
Qed.
Lemma wfield_sound : forall W ci i key its v, W_ok W -> wfield W ci i key = Some its -> owner ci v -> below v -> closed_in its ->
  writes its [i] key v.
Proof.
  intros W ci i key its v HW H O B C. unfold wfield in H.
  destruct (first 50 i) as [m|]; [|eapply wgroup_sound; eassumption].
  destruct (getter ci m) as [f|] eqn:G; [|discriminate].
  destruct (strip 50 m [i]) as [code'|] eqn:S; [|eapply wgroup_sound; eassumption].
  match type of H with (if ?b then _ else _) = _ => destruct b; [eapply wgroup_sound; eassumption|] end.
  destruct (getter_ok _ _ _ _ G O) as (w & F & G1).
  destruct (field_sound _ _ _ _ _ _ _ _ HW H O B C F) as (evs & D & R).
  exists evs. split; [exact D|]. intro e. eapply strip_go; [exact S|exact G1|apply R].
Qed.
Lemma wsim1_sound : forall W ci i key its v, W_ok W -> wsim1 W ci i key = Some its -> owner ci v -> below v -> closed_in its ->
  writes its [i] key v.
Proof.
  intros W ci i key its v HW H O B C.
  assert (OTHER : wfield W ci i key = Some its -> writes its [i] key v) by (intro; eapply wfield_sound; eassumption).
  destruct i; cbn [wsim1] in H; try (apply OTHER; exact H).
  - destruct p; [|apply OTHER; exact H]. inversion H; subst. exists (attr_evs v). split; [now apply dens_one|]. intro e.
    eapply wgo_attrs; [reflexivity|]. destruct O as (fs & -> & _ & _). cbn [write_attrs]. unfold attr_evs. rewrite apply_app.
    destruct (opt_str (field _ "timestamp")), (opt_str (field _ "uuid")); reflexivity.
  - destruct p as [|m [|]]; try (apply OTHER; exact H).
    destruct (getter ci m) as [f|] eqn:G; [|discriminate]. destruct (dom ci "short_name") as [t|] eqn:T; [|discriminate].
    destruct t; try discriminate. destruct (String.eqb_spec f "short_name"); [subst f|discriminate]. inversion H; subst.
    destruct (getter_ok _ _ _ _ G O) as (w & F & G1). pose proof (owner_fok _ _ _ _ _ O T F) as K. inversion K; subst.
    exists [EvK (El "SHORT-NAME" [] (Some s) [])]. split; [apply dens_one; exists s; auto|]. intro e.
    apply wgo_short. cbn [gets]. rewrite G1. reflexivity.
  - destruct p; [|apply OTHER; exact H]. destruct (assoc f wfuns) as [b|] eqn:EF; [|discriminate].
    destruct (HW _ _ _ _ _ H O B C) as (evs & D & R). exists evs. split; [exact D|]. intro e.
    eapply wgo_call; [reflexivity|exact EF|apply R].
  - destruct (keval (KObj ci) c) as [x|] eqn:EK.
    + destruct (HW _ _ _ _ _ H O B C) as (evs & D & R). exists evs. split; [exact D|]. intro e.
      eapply wgo_if; [eapply keval_ok; [exact EK|]|apply R]. destruct O as (fs & -> & E & _). exists fs. split; auto.
    + destruct (cond_must ci c) eqn:M; [|apply OTHER; exact H].
      destruct (HW _ _ _ _ _ H O B C) as (evs & D & R). exists evs. split; [exact D|]. intro e.
      eapply (wgo_if _ _ _ _ _ _ _ true); [|apply R].
      unfold cond_must in M. destruct c; try discriminate. destruct p as [|g [|]]; try discriminate.
      destruct (getter ci g) as [f|] eqn:G; [|discriminate]. destruct (getter_ok _ _ _ _ G O) as (w & F & G1).
      cbn [wcheck gets]. rewrite G1. cbn [obind]. unfold must in M.
      destruct (dom ci f) as [t|] eqn:T; [|discriminate]. pose proof (owner_fok _ _ _ _ _ O T F) as K.
      destruct t; try discriminate; subst; inversion K; subst; try reflexivity.
      match goal with K : in_class _ _ |- _ => destruct K as (c0 & C0 & _) end. destruct w; try discriminate. reflexivity.
Qed.
Lemma wsim_sound : forall n, W_ok (wsim n).
Proof.
  induction n as [|n IH]; intros ci code key its v H O B C; [discriminate|].
  destruct code as [|i rest]; cbn [wsim] in H.
  - inversion H; subst. exists []. split; [reflexivity|]. intro e. apply wgo_nil.
  - destruct (wsim1 (wsim n) ci i key) as [a|] eqn:E1; [|discriminate].
    destruct (wsim n ci rest key) as [b|] eqn:E2; [|discriminate]. inversion H; subst.
    assert (CA : closed_in a) by (intros p Hp; apply C; rewrite flat_map_app; apply in_or_app; auto).
    assert (CB : closed_in b) by (intros p Hp; apply C; rewrite flat_map_app; apply in_or_app; auto).
    destruct (wsim1_sound _ _ _ _ _ _ IH E1 O B CA) as (ea & DA & RA). destruct (IH _ _ _ _ _ E2 O B CB) as (eb & DB & RB).
    exists (ea ++ eb). split; [apply dens_app; assumption|]. intro e. rewrite apply_app.
    eapply wgo_cons; [apply RA|apply RB].
Qed.

(** every code of [WE] has a summary and refers to codes of [WE] only *)
Definition WE_ok : Prop := forall c b k, In (c, (b, k)) WE ->
  exists its, wsim fuel (cinfo_of c) b k = Some its /\ closed_in its.

Theorem write_ok : WE_ok -> forall u c b k, ok u -> class_of u = Some c -> In (c, (b, k)) WE ->
  exists its evs, wsim fuel (cinfo_of c) b k = Some its /\ dens u its evs /\ forall e, wgo b k u e (apply evs e).
Proof.
  intros HWE u. remember (vsize u) as n eqn:N. revert u N.
  induction n as [n IH] using lt_wf_ind. intros u N c b k O C I.
  destruct (HWE _ _ _ I) as (its & S & CL).
  destruct (wsim_sound fuel _ _ _ _ u S (owner_of _ _ C O)) as (evs & D & R); [|exact CL|exists its, evs; auto].
  intros u' Hu' O' c' b' k' C' I'. subst n. destruct (IH _ Hu' _ eq_refl _ _ _ O' C' I') as (its' & evs' & _ & _ & R').
  eexists. apply R'.
Qed.
End Write.
