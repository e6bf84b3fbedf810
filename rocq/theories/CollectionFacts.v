From Coq Require Import String List Bool Arith Lia.
From Verif Require Import PyBase PyBaseFacts ClassTable Collection SpecCollection.
Import ListNotations.
Open Scope string_scope.
Open Scope list_scope.

Lemma py_remove_None : forall x l, py_remove x l = None <-> ~ In x l.
Proof.
  induction l as [|y l IH]; simpl; split; intro H; auto.
  - destruct (Nat.eqb_spec x y); [discriminate|]. destruct (py_remove x l); [discriminate|].
    intros [E|E]; [congruence|]. now apply IH.
  - destruct (Nat.eqb_spec x y); [subst; tauto|]. destruct (py_remove x l); auto.
    exfalso. apply H. right. destruct IH as [_ IH]. destruct (in_dec Nat.eq_dec x l); auto.
    now specialize (IH n0).
Qed.

Lemma py_remove_Some : forall x l l', NoDup l -> py_remove x l = Some l' ->
  l' = filter (fun y => negb (Nat.eqb x y)) l.
Proof.
  induction l as [|y l IH]; simpl; intros l' Hn H; [discriminate|]. inversion Hn; subst.
  destruct (Nat.eqb_spec x y).
  - inversion H; subst. simpl. clear - H2. induction l' as [|z l' IH]; auto. simpl.
    destruct (Nat.eqb_spec y z); simpl.
    + subst. elim H2. now left.
    + f_equal. apply IH. intro. apply H2. now right.
  - destruct (py_remove x l) eqn:E; [|discriminate]. inversion H; subst. simpl. f_equal. auto.
Qed.

Lemma filter_comm : forall (A : Type) (p q : A -> bool) l, filter p (filter q l) = filter q (filter p l).
Proof.
  induction l as [|x l IH]; simpl; auto.
  destruct (q x) eqn:Eq, (p x) eqn:Ep; simpl; rewrite ?Eq, ?Ep, IH; auto.
Qed.

Lemma filter_and : forall (A : Type) (p q : A -> bool) l, filter p (filter q l) = filter (fun x => q x && p x)%bool l.
Proof.
  induction l as [|x l IH]; simpl; auto.
  destruct (q x) eqn:Eq; simpl; rewrite ?IH; auto; destruct (p x); auto.
Qed.

Lemma existsb_filter : forall (A : Type) (p q : A -> bool) l,
  existsb p (filter q l) = existsb (fun x => q x && p x)%bool l.
Proof.
  induction l as [|x l IH]; simpl; auto. destruct (q x); simpl; rewrite ?IH; auto.
Qed.

Lemma existsb_false : forall (A : Type) (p : A -> bool) l, existsb p l = false <-> forall x, In x l -> p x = false.
Proof.
  intros A p l. split.
  - intros H x Hx. destruct (p x) eqn:E; auto. assert (existsb p l = true) by (apply existsb_exists; eauto).
    congruence.
  - induction l; simpl; intro H; auto. rewrite H by now left. apply IHl. intros. apply H. now right.
Qed.

Lemma filter_true : forall (A : Type) (l : list A), filter (fun _ => true) l = l.
Proof. induction l; simpl; congruence. Qed.

Section Facts.
Variable nm : nat -> string.
Variable ty : nat -> string.

Local Notation named n := (fun e => String.eqb (nm e) n).
Local Notation answers := (answers nm ty).

(** The index mirrors the element list. *)
Record coll_inv (c : coll) : Prop := {
  ci_nodup : NoDup (elems c);
  ci_map : forall n l, dget (mapp c) n = Some l -> l = filter (named n) (elems c);
  ci_dom : forall e, In e (elems c) -> dget (mapp c) (nm e) <> None;
  ci_uniq : NoDup (map (fun e => (nm e, ty e)) (elems c)) }.

Lemma coll_inv_empty : coll_inv coll_empty.
Proof. constructor; simpl; try constructor; try discriminate; tauto. Qed.

Lemma no_key_no_elem : forall c n, coll_inv c -> dget (mapp c) n = None -> filter (named n) (elems c) = [].
Proof.
  intros c n Hi Hn. destruct (filter (named n) (elems c)) as [|e l] eqn:E; auto. exfalso.
  assert (In e (filter (named n) (elems c))) by (rewrite E; now left).
  apply filter_In in H as [H1 H2]. apply String.eqb_eq in H2. subst. now apply (ci_dom c Hi e).
Qed.

Lemma map_or_empty : forall c n, coll_inv c ->
  match dget (mapp c) n with Some l => l | None => [] end = filter (named n) (elems c).
Proof.
  intros c n Hi. destruct (dget (mapp c) n) eqn:E.
  - now apply (ci_map c Hi).
  - now rewrite no_key_no_elem.
Qed.

Lemma exists_typed : forall c n t, coll_inv c ->
  coll_exists ty c n (Some t) = existsb (answers n (Some t)) (elems c).
Proof.
  intros c n t Hi. unfold coll_exists.
  destruct (dget (mapp c) n) eqn:E.
  - rewrite (ci_map c Hi _ _ E), existsb_filter. reflexivity.
  - pose proof (no_key_no_elem c n Hi E) as H. symmetry. apply existsb_false. intros x Hx.
    unfold SpecCollection.answers. destruct (String.eqb (nm x) n) eqn:En; auto. exfalso.
    assert (In x (filter (named n) (elems c))) by (apply filter_In; auto). rewrite H in H0. destruct H0.
Qed.

Lemma find_filter : forall (A : Type) (p : A -> bool) l, find p l = match filter p l with [] => None | x :: _ => Some x end.
Proof. induction l; simpl; auto. destruct (p a); auto. Qed.

Lemma get_typed : forall c n t, coll_inv c ->
  coll_get ty c n (Some t) = Ok (find (answers n (Some t)) (elems c)).
Proof.
  intros c n t Hi. unfold coll_get. rewrite find_filter. destruct (dget (mapp c) n) eqn:E.
  - rewrite (ci_map c Hi _ _ E), filter_and. unfold SpecCollection.answers, inst.
    destruct (filter _ (elems c)); reflexivity.
  - replace (filter (answers n (Some t)) (elems c)) with (@nil nat); auto.
    pose proof (no_key_no_elem c n Hi E) as H.
    unfold SpecCollection.answers. rewrite <- filter_and. rewrite H. reflexivity.
Qed.

Lemma get_untyped : forall c n, coll_inv c ->
  coll_get ty c n None =
  match find (answers n None) (elems c) with
  | Some x => Ok (Some x)
  | None => if dmem (mapp c) n then Raise IndexError else Ok None
  end.
Proof.
  intros c n Hi. unfold coll_get, dmem. rewrite find_filter.
  assert (HF : filter (answers n None) (elems c) = filter (named n) (elems c)).
  { apply filter_ext. intro a. unfold SpecCollection.answers. now rewrite andb_true_r. }
  rewrite HF. destruct (dget (mapp c) n) eqn:E.
  - rewrite <- (ci_map c Hi _ _ E). destruct l; reflexivity.
  - now rewrite no_key_no_elem.
Qed.

Lemma NoDup_map_inj : forall (A B : Type) (f : A -> B) l, NoDup (map f l) -> NoDup l.
Proof. intros. eapply NoDup_map_inv; eauto. Qed.

Lemma coll_add_inv : forall c e, coll_inv c -> coll_inv (coll_add nm ty c e).
Proof.
  intros c e Hi. unfold coll_add. destruct (coll_exists ty c (nm e) (Some (ty e))) eqn:E; auto.
  rewrite exists_typed in E by assumption. rewrite existsb_false in E.
  assert (Hnew : forall x, In x (elems c) -> ~ (nm x = nm e /\ ty x = ty e)).
  { intros x Hx [H1 H2]. specialize (E x Hx). unfold SpecCollection.answers in E.
    rewrite H1, String.eqb_refl, H2, isinst_refl in E. discriminate. }
  assert (Hu : NoDup (map (fun e => (nm e, ty e)) (elems c ++ [e]))).
  { rewrite map_app. simpl. apply NoDup_app_single; [apply (ci_uniq c Hi)|].
    intro H. apply in_map_iff in H as [x [H1 H2]]. inversion H1. apply (Hnew x H2); auto. }
  constructor; cbn [elems mapp].
  - eapply NoDup_map_inv; exact Hu.
  - intros n l Hl. rewrite map_or_empty in Hl by assumption. rewrite filter_app. simpl.
    destruct (String.eqb_spec n (nm e)) as [Heq|Hne].
    + subst n. rewrite dget_dset_same in Hl. inversion Hl. now rewrite String.eqb_refl.
    + rewrite dget_dset_other in Hl by auto.
      assert (String.eqb (nm e) n = false) by (apply String.eqb_neq; auto).
      rewrite H, app_nil_r. now apply (ci_map c Hi).
  - intros x Hx. apply in_app_or in Hx as [Hx|[Hx|[]]].
    + destruct (String.eqb_spec (nm x) (nm e)) as [Heq|Hne].
      * rewrite Heq, dget_dset_same. discriminate.
      * rewrite dget_dset_other by auto. now apply (ci_dom c Hi).
    + subst. rewrite dget_dset_same. discriminate.
  - exact Hu.
Qed.

Lemma coll_add_spec : forall c e, coll_inv c ->
  elems (coll_add nm ty c e) = spec_add nm ty (elems c) e.
Proof.
  intros c e Hi. unfold coll_add, spec_add. rewrite exists_typed by assumption.
  destruct (existsb _ _); reflexivity.
Qed.

Lemma filter_filter_neq : forall x (p : nat -> bool) l, filter p (filter (fun y => negb (Nat.eqb x y)) l)
  = filter (fun y => negb (Nat.eqb x y)) (filter p l).
Proof. intros. apply filter_comm. Qed.

Lemma NoDup_map_filter : forall (A B : Type) (f : A -> B) p l, NoDup (map f l) -> NoDup (map f (filter p l)).
Proof.
  induction l as [|x l IH]; simpl; intro H; [constructor|]. inversion H; subst.
  destruct (p x); simpl; auto. constructor; auto. intro Hx. apply H2.
  apply in_map_iff in Hx as [y [H4 H5]]. apply filter_In in H5 as [H5 _]. apply in_map_iff. eauto.
Qed.

Lemma spec_remove_filter : forall l n t, NoDup l ->
  spec_remove nm ty l n t =
  match find (answers n t) l with
  | Some x => filter (fun y => negb (Nat.eqb x y)) l
  | None => l
  end.
Proof.
  induction l as [|e l IH]; simpl; intros n t Hn; auto. inversion Hn; subst.
  destruct (SpecCollection.answers nm ty n t e) eqn:E.
  - rewrite Nat.eqb_refl. simpl. symmetry. rewrite <- (filter_ext_in (fun _ => true)).
    + clear. induction l; simpl; congruence.
    + intros a Ha. destruct (Nat.eqb_spec e a); auto. subst. contradiction.
  - rewrite IH by assumption. destruct (find _ l) eqn:Ef; auto.
    destruct (Nat.eqb_spec n0 e); auto. subst. apply find_some in Ef as [_ Ef]. congruence.
Qed.

(** What removeElement does, case by case, on a coherent collection. *)
Lemma coll_remove_cases : forall c n t, coll_inv c ->
  match find (answers n t) (elems c) with
  | Some x => exists c', coll_remove ty c n t = (c', None) /\ coll_inv c' /\
      elems c' = filter (fun y => negb (Nat.eqb x y)) (elems c) /\
      (forall m, dmem (mapp c') m = dmem (mapp c) m)
  | None => exists e, coll_remove ty c n t = (c, Some e) /\
      e = (if dmem (mapp c) n then match t with None => IndexError | Some _ => StopIteration end else KeyError)
  end.
Proof.
  intros c n t Hi. unfold coll_remove, dmem. rewrite find_filter.
  assert (HF : filter (answers n t) (elems c) =
    filter (fun e => match t with Some t => inst ty t e | None => true end) (filter (named n) (elems c))).
  { rewrite filter_and. reflexivity. }
  rewrite HF. destruct (dget (mapp c) n) as [l|] eqn:E.
  - rewrite <- (ci_map c Hi _ _ E).
    assert (Hitem : match t with
                  | None => match l with [] => inr IndexError | x :: _ => inl x end
                  | Some t => match filter (inst ty t) l with [] => inr StopIteration | x :: _ => inl x end
                  end =
      match filter (fun e => match t with Some t => inst ty t e | None => true end) l with
      | [] => inr (match t with None => IndexError | Some _ => StopIteration end)
      | x :: _ => inl x end).
    { destruct t; [destruct (filter _ l); reflexivity|].
      replace (filter (fun _ => true) l) with l; [destruct l; reflexivity|].
      clear. induction l; simpl; congruence. }
    rewrite Hitem. clear Hitem.
    destruct (filter _ l) as [|x r] eqn:Ef.
    + eexists. split; reflexivity.
    + assert (Hx : In x l).
      { assert (In x (x :: r)) by now left. rewrite <- Ef in H. now apply filter_In in H as [H _]. }
      assert (Hxe : In x (elems c)).
      { rewrite (ci_map c Hi _ _ E) in Hx. now apply filter_In in Hx as [Hx _]. }
      assert (Hxn : nm x = n).
      { rewrite (ci_map c Hi _ _ E) in Hx. apply filter_In in Hx as [_ Hx]. now apply String.eqb_eq. }
      assert (Hnl : NoDup l).
      { rewrite (ci_map c Hi _ _ E). apply NoDup_filter, (ci_nodup c Hi). }
      destruct (py_remove x (elems c)) as [es|] eqn:E1; [|apply py_remove_None in E1; contradiction].
      destruct (py_remove x l) as [l'|] eqn:E2; [|apply py_remove_None in E2; contradiction].
      apply py_remove_Some in E1; [|apply (ci_nodup c Hi)].
      apply py_remove_Some in E2; [|assumption].
      eexists. split; [reflexivity|]. split; [|split].
      * constructor; cbn [elems mapp].
        -- subst es. apply NoDup_filter, (ci_nodup c Hi).
        -- intros m lm Hm. destruct (String.eqb_spec m n) as [->|Hne].
           ++ rewrite dget_dset_same in Hm. inversion Hm; subst lm. subst es.
              rewrite filter_filter_neq, <- (ci_map c Hi _ _ E). assumption.
           ++ rewrite dget_dset_other in Hm by auto. rewrite (ci_map c Hi _ _ Hm). subst es.
              rewrite filter_filter_neq. symmetry. transitivity (filter (fun _ => true) (filter (named m) (elems c))).
              ** apply filter_ext_in. intros a Ha. apply filter_In in Ha as [_ Ha]. apply String.eqb_eq in Ha.
                 destruct (Nat.eqb_spec x a); auto. subst. congruence.
              ** apply filter_true.
        -- intros y Hy. subst es. apply filter_In in Hy as [Hy _].
           destruct (String.eqb_spec (nm y) n) as [Heq|Hne].
           ++ rewrite Heq, dget_dset_same. discriminate.
           ++ rewrite dget_dset_other by auto. now apply (ci_dom c Hi).
        -- subst es. apply NoDup_map_filter, (ci_uniq c Hi).
      * assumption.
      * intro m. cbn [mapp]. unfold dmem. destruct (String.eqb_spec m n) as [->|Hne].
        -- now rewrite dget_dset_same, E.
        -- now rewrite dget_dset_other by auto.
  - rewrite no_key_no_elem by assumption. simpl. eexists. split; reflexivity.
Qed.

Lemma coll_remove_inv : forall c n t, coll_inv c -> coll_inv (fst (coll_remove ty c n t)).
Proof.
  intros c n t Hi. pose proof (coll_remove_cases c n t Hi) as H.
  destruct (find _ _).
  - destruct H as [c' [H1 [H2 _]]]. now rewrite H1.
  - destruct H as [e [H1 _]]. now rewrite H1.
Qed.

Lemma coll_remove_spec : forall c n t, coll_inv c ->
  elems (fst (coll_remove ty c n t)) = spec_remove nm ty (elems c) n t.
Proof.
  intros c n t Hi. pose proof (coll_remove_cases c n t Hi) as H.
  rewrite spec_remove_filter by apply (ci_nodup c Hi).
  destruct (find _ _).
  - destruct H as [c' [H1 [_ [H2 _]]]]. now rewrite H1.
  - destruct H as [e [H1 _]]. now rewrite H1.
Qed.

Lemma coll_run_inv : forall os c, coll_inv c -> coll_inv (coll_run nm ty c os).
Proof.
  induction os as [|o os IH]; intros c Hi; [exact Hi|]. simpl. apply IH.
  destruct o; simpl; [now apply coll_add_inv|now apply coll_remove_inv].
Qed.

Lemma coll_reach : forall os, coll_inv (coll_run nm ty coll_empty os).
Proof. intro os. apply coll_run_inv, coll_inv_empty. Qed.

Lemma coll_run_spec : forall os, elems (coll_run nm ty coll_empty os) = spec_run nm ty os.
Proof.
  intro os. unfold spec_run.
  assert (G : forall os c, coll_inv c -> elems (coll_run nm ty c os) = fold_left (spec_step nm ty) os (elems c)).
  { clear os. induction os as [|o os IH]; intros c Hi; [reflexivity|]. simpl. destruct o; simpl.
    - change (fold_left (coll_step nm ty) os (coll_add nm ty c e)) with (coll_run nm ty (coll_add nm ty c e) os).
      rewrite IH by now apply coll_add_inv. now rewrite coll_add_spec.
    - change (fold_left (coll_step nm ty) os (fst (coll_remove ty c n t))) with (coll_run nm ty (fst (coll_remove ty c n t)) os).
      rewrite IH by now apply coll_remove_inv. now rewrite coll_remove_spec. }
  apply G, coll_inv_empty.
Qed.

(** Names ever added stay keys of the index. *)
Lemma add_dom : forall c e m, coll_inv c -> dmem (mapp (coll_add nm ty c e)) m = (dmem (mapp c) m || String.eqb m (nm e))%bool.
Proof.
  intros c e m Hi. unfold coll_add. destruct (coll_exists ty c (nm e) (Some (ty e))) eqn:E.
  - destruct (String.eqb_spec m (nm e)); [|now rewrite orb_false_r]. subst.
    unfold coll_exists in E. unfold dmem. destruct (dget (mapp c) (nm e)); [reflexivity|discriminate].
  - cbn [mapp]. unfold dmem. destruct (String.eqb_spec m (nm e)).
    + subst. rewrite dget_dset_same. now rewrite orb_true_r.
    + rewrite dget_dset_other by auto. now rewrite orb_false_r.
Qed.

Definition ever_added (os : list coll_op) (n : string) : bool :=
  existsb (fun o => match o with CAdd e => String.eqb n (nm e) | _ => false end) os.

Lemma run_dom : forall os n, dmem (mapp (coll_run nm ty coll_empty os)) n = ever_added os n.
Proof.
  intros os n.
  assert (G : forall os c, coll_inv c -> dmem (mapp (coll_run nm ty c os)) n = (dmem (mapp c) n || ever_added os n)%bool).
  { clear os. induction os as [|o os IH]; intros c Hi; [simpl; now rewrite orb_false_r|].
    simpl. change (fold_left (coll_step nm ty) os (coll_step nm ty c o)) with (coll_run nm ty (coll_step nm ty c o) os).
    destruct o; simpl.
    - rewrite IH by now apply coll_add_inv. rewrite add_dom by assumption. now rewrite orb_assoc.
    - rewrite IH by now apply coll_remove_inv.
      pose proof (coll_remove_cases c n0 t Hi) as H. destruct (find _ _).
      + destruct H as [c' [H1 [_ [_ H2]]]]. rewrite H1. simpl. now rewrite H2.
      + destruct H as [e [H1 _]]. now rewrite H1. }
  rewrite G by apply coll_inv_empty. reflexivity.
Qed.
End Facts.
