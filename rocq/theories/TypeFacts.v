(** Values that conform to the types of TypeCheck.v, and what reading attributes gives. *)
From Coq Require Import String Ascii List Bool Permutation.
From Verif Require Import PyBase PyBaseFacts Primitives Xml Leaf ClassTable Ir Access IrSem TypeCheck.
Import ListNotations.
Open Scope string_scope.
Open Scope list_scope.

Definition okres {A} (allowed : exn -> Prop) (r : out A) (P : A -> Prop) : Prop :=
  match r with Done a => P a | Exc e => allowed e | Stuck => False | NoFuel => True end.
Lemma okres_bind : forall A B al (r : out A) (k : A -> out B) P Q,
  okres al r P -> (forall a, P a -> okres al (k a) Q) -> okres al (obind r k) Q.
Proof. intros A B al [a|e| |] k P Q H K; cbn in *; auto. Qed.
Lemma okres_weaken : forall A al (r : out A) (P Q : A -> Prop), okres al r P -> (forall a, P a -> Q a) -> okres al r Q.
Proof. intros A al [a|e| |] P Q H K; cbn in *; auto. Qed.
Lemma okres_fold : forall A S al (f : A -> S -> out S) (P : S -> Prop) l s,
  (forall a s, In a l -> P s -> okres al (f a s) P) -> P s -> okres al (fold_out f l s) P.
Proof.
  intros A S al f P. induction l as [|a l IH]; intros s F H; cbn [fold_out]; [exact H|].
  eapply okres_bind; [apply F; [now left|exact H]|]. intros s' H'. apply IH; [|exact H']. intros b t I. apply F. now right.
Qed.

(** *** set inclusion *)
Lemma base_eqb_ok : forall a b, base_eqb a b = true -> a = b.
Proof. intros [] []; cbn; try discriminate; auto. intros H. apply String.eqb_eq in H. now subst. Qed.
Lemma base_eqb_refl : forall a, base_eqb a a = true.
Proof. intros []; cbn; auto. apply String.eqb_refl. Qed.
Lemma bmem_ok : forall b l, bmem b l = true <-> In b l.
Proof.
  intros b l. unfold bmem. rewrite existsb_exists. split.
  - intros (x & I & E). apply base_eqb_ok in E. now subst.
  - intros I. exists b. split; [exact I|apply base_eqb_refl].
Qed.
Lemma bsub_ok : forall l m b, bsub l m = true -> In b l -> In b m.
Proof. intros l m b H I. unfold bsub in H. rewrite forallb_forall in H. apply bmem_ok. auto. Qed.
Lemma bunion_l : forall l m b, In b l -> In b (bunion l m).
Proof.
  intros l m b I. unfold bunion. apply in_or_app. destruct (bmem b m) eqn:E; [right; now apply bmem_ok|].
  left. apply filter_In. now rewrite E.
Qed.
Lemma bunion_r : forall l m b, In b m -> In b (bunion l m).
Proof. intros l m b I. unfold bunion. apply in_or_app. now right. Qed.
Lemma not_none_ok : forall l b, In b l -> b <> BNone -> In b (not_none l).
Proof.
  intros l b I N. apply filter_In. split; [exact I|]. destruct (base_eqb b BNone) eqn:E; [|reflexivity].
  apply base_eqb_ok in E. congruence.
Qed.

Section Conf.
Context (fty : string -> string -> ty).

Inductive hasb : val -> base -> Prop :=
| H_none : hasb VNone BNone
| H_str : forall s, hasb (VStr s) BStr
| H_lit : forall c l, hasb (VLeaf (LLit c l)) BLit
| H_num : forall c n, hasb (VLeaf (LNum c n)) BNum
| H_bool : forall b, hasb (VLeaf (LBool b)) BBool
| H_limit : forall l, hasb (VLeaf (LLimit l)) BLimit
| H_ref : forall r, hasb (VLeaf (LRef r)) BRef
| H_obj : forall c fs, (forall f, assoc f (attrs_of c) <> None -> assoc f fs <> None) ->
    Forall (fun p => hast (snd p) (fty c (fst p))) fs -> hasb (VObj c fs) (BObj c)
with hast : val -> ty -> Prop :=
| T_s : forall v b t, In b (ts t) -> hasb v b -> hast v t
| T_l : forall vs bs t, tl t = Some bs -> Forall (fun v => exists b, In b bs /\ hasb v b) vs -> hast (VList vs) t.

Lemma hast_base : forall v l, hast v (tbase l) <-> exists b, In b l /\ hasb v b.
Proof.
  intros v l. split.
  - intros H. inversion H as [? b ? I B|? ? ? E]; subst; [exists b; auto|discriminate].
  - intros (b & I & B). eapply T_s; eauto.
Qed.
Lemma hast_tsub : forall v s t, hast v s -> tsub s t = true -> hast v t.
Proof.
  intros v s t H E. apply andb_true_iff in E. destruct E as [E1 E2]. inversion H as [? b ? I B|vs bs ? EL F]; subst.
  - eapply T_s; [|exact B]. eapply bsub_ok; eauto.
  - rewrite EL in E2. destruct (tl t) as [cs|] eqn:ET; [|discriminate]. eapply T_l; [exact ET|].
    eapply Forall_impl; [|exact F]. cbn. intros w (b & I & B). exists b. split; [|exact B]. eapply bsub_ok; eauto.
Qed.
Lemma hast_union_l : forall v s t, hast v s -> hast v (tunion s t).
Proof.
  intros v s t H. inversion H as [? b ? I B|vs bs ? EL F]; subst.
  - eapply T_s; [|exact B]. cbn. now apply bunion_l.
  - destruct (tl t) as [cs|] eqn:ET.
    + eapply T_l with (bs := bunion bs cs); [cbn; now rewrite EL, ET|]. eapply Forall_impl; [|exact F]. cbn.
      intros w (b & I & B). exists b. split; [|exact B]. now apply bunion_l.
    + eapply T_l with (bs := bs); [cbn; now rewrite EL, ET|exact F].
Qed.
Lemma hast_union_r : forall v s t, hast v t -> hast v (tunion s t).
Proof.
  intros v s t H. inversion H as [? b ? I B|vs bs ? EL F]; subst.
  - eapply T_s; [|exact B]. cbn. now apply bunion_r.
  - destruct (tl s) as [cs|] eqn:ET.
    + eapply T_l with (bs := bunion cs bs); [cbn; now rewrite EL, ET|]. eapply Forall_impl; [|exact F]. cbn.
      intros w (b & I & B). exists b. split; [|exact B]. now apply bunion_r.
    + eapply T_l with (bs := bs); [cbn; now rewrite ET|exact F].
Qed.
Lemma hast_list_only : forall v bs, hast v (tlist bs) -> exists vs, v = VList vs /\ Forall (fun v => exists b, In b bs /\ hasb v b) vs.
Proof. intros v bs H. inversion H as [? b ? I|vs cs ? E F]; subst; [destruct I|]. inversion E; subst. eauto. Qed.
Lemma hasb_obj_inv : forall v c, hasb v (BObj c) -> exists fs, v = VObj c fs /\
  (forall f, assoc f (attrs_of c) <> None -> assoc f fs <> None) /\ Forall (fun p => hast (snd p) (fty c (fst p))) fs.
Proof. intros v c H. inversion H; subst. eauto. Qed.
Lemma assoc_in : forall A f (l : list (string * A)) v, assoc f l = Some v -> In (f, v) l.
Proof.
  intros A f. induction l as [|[k a] l IH]; cbn; intros v H; [discriminate|]. destruct (String.eqb_spec f k) as [Q|N].
  - subst. inversion H. now left.
  - right. auto.
Qed.
Lemma typed_field : forall c fs f v, Forall (fun p => hast (snd p) (fty c (fst p))) fs -> assoc f fs = Some v -> hast v (fty c f).
Proof. intros c fs f v F A. apply assoc_in in A. rewrite Forall_forall in F. exact (F (f, v) A). Qed.

Lemma assoc_set : forall fs f v g, assoc g (set_assoc fs f v) = if String.eqb g f then Some v else assoc g fs.
Proof.
  induction fs as [|[k w] fs IH]; intros f v g; cbn [set_assoc].
  - cbn. destruct (String.eqb g f); reflexivity.
  - destruct (String.eqb_spec f k) as [Q|N]; cbn [assoc].
    + subst. destruct (String.eqb g k); reflexivity.
    + rewrite IH. destruct (String.eqb_spec g k) as [Q|M]; [|reflexivity]. subst.
      destruct (String.eqb_spec k f) as [Q|_]; [congruence|reflexivity].
Qed.
Lemma set_typed : forall c fs f v, Forall (fun p => hast (snd p) (fty c (fst p))) fs -> hast v (fty c f) ->
  Forall (fun p => hast (snd p) (fty c (fst p))) (set_assoc fs f v).
Proof.
  intros c fs f v F H. induction F as [|[k w] fs P F IH]; cbn [set_assoc]; [repeat constructor; exact H|].
  destruct (String.eqb_spec f k) as [Q|N]; constructor; auto. subst. exact H.
Qed.
Lemma hasb_set : forall v c f w, hasb v (BObj c) -> hast w (fty c f) -> hasb (set_field v f w) (BObj c).
Proof.
  intros v c f w H W. apply hasb_obj_inv in H. destruct H as (fs & -> & A & F). cbn [set_field]. constructor.
  - intros g D. rewrite assoc_set. destruct (String.eqb g f); [discriminate|auto].
  - now apply set_typed.
Qed.

(** ** Requirements *)
Context (acc : string -> string -> option access) (acc_ok : forall c m, acc c m = access_of c m).
Context (rty : string -> ty) (warn : bool) (allowed : exn -> Prop) (called : string -> string -> Prop) (names : bool).

(** what a new object's short name may be *)
Definition name_ok (v : val) : Prop := match v with VStr _ => True | VNone => names = false | _ => False end.
Definition holds (q : req) : Prop :=
  match q with
  | QField c f t => tsub t (fty c f) = true
  | QItems c f => exists bs, fty c f = tlist bs
  | QHas c f => assoc f (attrs_of c) <> None
  | QGot c f => assoc f (attrs_of c) <> None \/ allowed AttributeError
  | QInit c named => if named then forall v, name_ok v -> hasb (named_init c v) (BObj c) else hasb (init c) (BObj c)
  | QInitBut c a => forall v, hast v (fty c a) -> hasb (set_field (init c) a v) (BObj c)
  | QCall f c => called f c
  | QRes f t => tsub t (rty f) = true
  | QExc e => allowed e
  | QExcW e => warn = true -> allowed e
  | QExcS e => warn = false -> allowed e
  | QBad _ => False
  end.
Definition all (l : list req) : Prop := Forall holds l.
Lemma all_app : forall l m, all (l ++ m) <-> all l /\ all m.
Proof. intros. unfold all. apply Forall_app. Qed.
Lemma all_cons : forall q l, all (q :: l) <-> holds q /\ all l.
Proof. intros. unfold all. split; [intros H; inversion H; auto|intros [A B]; now constructor]. Qed.
Lemma all_flat : forall A (f : A -> list req) l a, all (flat_map f l) -> In a l -> all (f a).
Proof.
  intros A f. induction l as [|b l IH]; intros a H I; [destruct I|]. cbn [flat_map] in H. apply all_app in H.
  destruct I as [Q|I]; [now subst|now apply IH].
Qed.

(** ** Attributes *)
Lemma str_name_obj : forall c, all (has_str_name fty (BObj c)) -> ~ allowed TypeError ->
  fty c "short_name" = tbase [BStr] /\ assoc "short_name" (attrs_of c) <> None.
Proof.
  intros c. unfold has_str_name. destruct (fty c "short_name") as [[|[] [|? ?]] [|]]; intros A N; apply all_cons in A; destruct A as [A _];
    try (now elim (N A)); split; auto.
Qed.
Lemma name_of_items : forall bs vs, all (flat_map (has_str_name fty) bs) -> ~ allowed TypeError ->
  Forall (fun v => exists b, In b bs /\ hasb v b) vs -> forallb has_name vs = true.
Proof.
  intros bs vs H N F. apply forallb_forall. intros v I. rewrite Forall_forall in F. destruct (F v I) as (b & Ib & B).
  pose proof (all_flat _ _ _ _ H Ib) as A. destruct B as [| | | | | | |c fs HA HF]; try (apply all_cons in A; destruct A as [A _]; now elim (N A)).
  destruct (str_name_obj c A N) as [E X]. specialize (HA _ X). destruct (assoc "short_name" fs) as [w|] eqn:EA; [|congruence].
  pose proof (typed_field _ _ _ _ HF EA) as W. rewrite E in W. apply hast_base in W. destruct W as (b & [Q|[]] & B). subst b.
  inversion B; subst. unfold has_name, field. now rewrite EA.
Qed.
Lemma sorted_ok : forall bs vs, all (flat_map (has_str_name fty) bs) -> (allowed TypeError \/ ~ allowed TypeError) ->
  Forall (fun v => exists b, In b bs /\ hasb v b) vs ->
  okres allowed (if sortable vs then Done (VList (py_sorted sort_key vs)) else Exc TypeError) (fun v => hast v (tlist bs)).
Proof.
  intros bs vs H D F. destruct (sortable vs) eqn:E.
  - cbn. eapply T_l; [reflexivity|]. rewrite Forall_forall in *. intros x I. apply py_sorted_In in I. auto.
  - cbn. destruct D as [D|D]; [exact D|]. pose proof (name_of_items _ _ H D F) as X. unfold sortable in E.
    destruct vs as [|a [|b vs]]; congruence.
Qed.

Context (type_error : allowed TypeError \/ ~ allowed TypeError).

Lemma got_ok : forall c fs f (k : val -> out val) P, holds (QGot c f) -> (forall f, assoc f (attrs_of c) <> None -> assoc f fs <> None) ->
  (forall v, assoc f fs = Some v -> okres allowed (k v) P) ->
  okres allowed (match assoc f fs with Some x => k x | None => Exc AttributeError end) P.
Proof.
  intros c fs f k P G A K. destruct (assoc f fs) as [v|] eqn:E; [now apply K|]. destruct G as [G|G]; [now elim (A f G)|exact G].
Qed.
Lemma get_base_ok : forall v b g, hasb v b -> all (fst (get_base acc fty g b)) ->
  okres allowed (get1 v g) (fun x => hast x (snd (get_base acc fty g b))).
Proof.
  intros v b g B H. destruct B as [|s|c l|c n|b|l|r|c fs HA HF]; cbn [get_base] in H |- *; try (apply all_cons in H; destruct H as [[] _]).
  - apply all_cons in H. exact (proj1 H).
  - destruct g as [m|a]; cbn [get1].
    + destruct (String.eqb m "getValue" || String.eqb m "getText"); cbn [fst snd] in *; [|apply all_cons in H; destruct H as [[] _]].
      apply hast_base. exists BStr. split; [now left|constructor].
    + destruct (String.eqb a "value"); cbn [fst snd] in *; [|apply all_cons in H; destruct H as [[] _]].
      apply hast_base. exists BStr. split; [now left|constructor].
  - destruct g as [m|a]; [|apply all_cons in H; destruct H as [[] _]]. cbn [get1].
    destruct (String.eqb m "getValue"); cbn [fst snd] in *; [|apply all_cons in H; destruct H as [[] _]].
    apply hast_base. destruct (r_value r); [exists BStr; split; [now left|constructor]|exists BNone; split; [right; now left|constructor]].
  - destruct g as [m|a].
    + cbn [get1]. rewrite <- acc_ok. destruct (acc c m) as [[f|f|f gd|f gd|c' nm p]|]; cbn [fst snd] in *;
        try (apply all_cons in H; destruct H as [H _]; exact (False_ind _ H)).
      * apply all_cons in H. destruct H as [H _]. refine (got_ok c fs f _ _ H HA _). intros w E. eapply typed_field; eauto.
      * apply all_cons in H. destruct H as [[bs Hb] H]. apply all_cons in H. destruct H as [H Hn].
        refine (got_ok c fs f (fun x => match x with VList l => _ | _ => Stuck end) _ H HA _). intros w E.
        pose proof (typed_field _ _ _ _ HF E) as W. rewrite Hb in W |- *.
        apply hast_list_only in W. destruct W as (vs & -> & F). rewrite Hb in Hn. cbn [tl tlist] in Hn. now apply sorted_ok.
    + cbn [get1]. apply all_cons in H. destruct H as [H _]. refine (got_ok c fs a _ _ H HA _). intros w E. eapply typed_field; eauto.
Qed.
Lemma join_in : forall l r, In r l -> (all (fst (join_all l)) -> all (fst r)) /\ (forall v, hast v (snd r) -> hast v (snd (join_all l))).
Proof.
  induction l as [|a l IH]; intros r I; [destruct I|]. unfold join_all. cbn [fold_right]. fold (join_all l). destruct I as [Q|I].
  - subst. split; intros H; [cbn [fst] in H; now apply all_app in H|]. intros W. cbn [snd]. now apply hast_union_l.
  - destruct (IH r I) as [A B]. split.
    + intros H. cbn [fst] in H. apply all_app in H. apply A. apply H.
    + intros v W. cbn [snd]. apply hast_union_r. auto.
Qed.
Lemma get_ty_ok : forall v t g, hast v t -> all (fst (get_ty acc fty t g)) ->
  okres allowed (get1 v g) (fun x => hast x (snd (get_ty acc fty t g))).
Proof.
  intros v t g W H. unfold get_ty in *. destruct (tl t) as [bs|] eqn:ET; [apply all_cons in H; destruct H as [[] _]|].
  inversion W as [? b ? I B|? ? ? E]; subst; [|congruence].
  destruct (join_in (map (get_base acc fty g) (ts t)) (get_base acc fty g b) (in_map _ _ _ I)) as [J1 J2].
  eapply okres_weaken; [apply get_base_ok; [exact B|now apply J1]|]. exact J2.
Qed.
Lemma gets_ty_ok : forall p v t, hast v t -> all (fst (gets_ty acc fty t p)) ->
  okres allowed (gets v p) (fun x => hast x (snd (gets_ty acc fty t p))).
Proof.
  induction p as [|g p IH]; intros v t W H; cbn [gets gets_ty fst snd] in *; [exact W|].
  apply all_app in H. destruct H as [H1 H2]. eapply okres_bind; [apply get_ty_ok; eassumption|]. intros x X. now apply IH.
Qed.
End Conf.
