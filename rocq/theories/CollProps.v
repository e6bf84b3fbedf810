From Coq Require Import String List Bool Arith.
From Verif Require Import PyBase PyBaseFacts ClassTable Collection SpecCollection CollectionFacts.
Import ListNotations.
Open Scope string_scope.
Open Scope list_scope.

Section P.
Variable nm : nat -> string.
Variable ty : nat -> string.
Notation run := (coll_run nm ty coll_empty).

Lemma c05_unique : forall os, NoDup (map (fun e => (nm e, ty e)) (elems (run os))).
Proof. intro os. apply (ci_uniq nm ty _ (coll_reach nm ty os)). Qed.

Lemma c05_refused : forall os e x, In x (elems (run os)) -> nm x = nm e -> isinst (ty x) (ty e) = true ->
  coll_add nm ty (run os) e = run os.
Proof.
  intros os e x Hx Hn Ht. unfold coll_add.
  rewrite (exists_typed nm ty) by apply coll_reach.
  assert (E : existsb (answers nm ty (nm e) (Some (ty e))) (elems (run os)) = true).
  { apply existsb_exists. exists x. split; auto. unfold answers. now rewrite Hn, String.eqb_refl, Ht. }
  now rewrite E.
Qed.

Lemma c05_accepted : forall os e,
  (forall x, In x (elems (run os)) -> nm x = nm e -> isinst (ty x) (ty e) = false) ->
  elems (coll_add nm ty (run os) e) = elems (run os) ++ [e].
Proof.
  intros os e H. rewrite coll_add_spec by apply coll_reach. unfold spec_add.
  destruct (existsb _ _) eqn:E; auto. apply existsb_exists in E as [x [E1 E2]].
  unfold answers in E2. apply andb_prop in E2 as [E2 E3]. apply String.eqb_eq in E2.
  rewrite H in E3 by auto. discriminate.
Qed.

Lemma c05_exists : forall os n t, coll_exists ty (run os) n (Some t) = true <->
  exists x, In x (elems (run os)) /\ nm x = n /\ isinst (ty x) t = true.
Proof.
  intros os n t. rewrite (exists_typed nm ty) by apply coll_reach. rewrite existsb_exists.
  unfold answers. split; intros [x [H1 H2]]; exists x.
  - apply andb_prop in H2 as [H2 H3]. apply String.eqb_eq in H2. auto.
  - destruct H2 as [H2 H3]. split; auto. now rewrite H2, String.eqb_refl, H3.
Qed.

Lemma find_first : forall (A : Type) (p : A -> bool) l x, find p l = Some x <->
  exists l1 l2, l = l1 ++ x :: l2 /\ p x = true /\ forall y, In y l1 -> p y = false.
Proof.
  intros A p l x. split.
  - induction l as [|a l IH]; simpl; [discriminate|]. destruct (p a) eqn:E.
    + intro H. inversion H; subst. exists [], l. repeat split; auto. intros y [].
    + intro H. destruct (IH H) as [l1 [l2 [H1 [H2 H3]]]]. exists (a :: l1), l2. subst.
      repeat split; auto. intros y [<-|Hy]; auto.
  - intros [l1 [l2 [-> [H2 H3]]]]. induction l1 as [|a l1 IH]; simpl; [now rewrite H2|].
    rewrite H3 by now left. apply IH. intros. apply H3. now right.
Qed.

Lemma c05_get : forall os n t x, coll_get ty (run os) n (Some t) = Ok (Some x) <->
  exists l1 l2, elems (run os) = l1 ++ x :: l2 /\ (nm x = n /\ isinst (ty x) t = true) /\
    forall y, In y l1 -> ~ (nm y = n /\ isinst (ty y) t = true).
Proof.
  intros os n t x. rewrite (get_typed nm ty) by apply coll_reach.
  assert (B : forall y, answers nm ty n (Some t) y = true <-> nm y = n /\ isinst (ty y) t = true).
  { intro y. unfold answers. now rewrite andb_true_iff, String.eqb_eq. }
  split.
  - intro H. inversion H as [H']. apply find_first in H' as [l1 [l2 [H1 [H2 H3]]]].
    exists l1, l2. rewrite <- B. repeat split; auto. intros y Hy. rewrite <- B. now rewrite H3.
  - intros [l1 [l2 [H1 [H2 H3]]]]. f_equal. apply find_first. exists l1, l2. rewrite B. repeat split; try tauto.
    intros y Hy. apply not_true_is_false. rewrite B. auto.
Qed.

Lemma c05_get_total : forall os n t, exists r, coll_get ty (run os) n (Some t) = Ok r.
Proof. intros. rewrite (get_typed nm ty) by apply coll_reach. eauto. Qed.

Lemma c05_get_untyped : forall os n, (exists x, In x (elems (run os)) /\ nm x = n) ->
  exists x l1 l2, coll_get ty (run os) n None = Ok (Some x) /\ elems (run os) = l1 ++ x :: l2 /\
    nm x = n /\ forall y, In y l1 -> nm y <> n.
Proof.
  intros os n [x [Hx Hn]]. rewrite (get_untyped nm ty) by apply coll_reach.
  destruct (find _ _) as [y|] eqn:E.
  - apply find_first in E as [l1 [l2 [H1 [H2 H3]]]]. exists y, l1, l2.
    unfold answers in *. rewrite andb_true_r in H2. apply String.eqb_eq in H2. repeat split; auto.
    intros z Hz C. specialize (H3 z Hz). rewrite C, String.eqb_refl in H3. discriminate.
  - pose proof (find_none _ _ E x Hx) as H. unfold answers in H. rewrite Hn, String.eqb_refl in H. discriminate.
Qed.

Lemma gone_find : forall os n t, (forall x, In x (elems (run os)) -> nm x <> n) ->
  find (answers nm ty n t) (elems (run os)) = None.
Proof.
  intros os n t H. destruct (find _ _) eqn:E; auto. apply find_some in E as [E1 E2].
  unfold answers in E2. apply andb_prop in E2 as [E2 _]. apply String.eqb_eq in E2.
  exfalso. eapply H; eauto.
Qed.

Lemma c07_typed : forall os n t, (forall x, In x (elems (run os)) -> nm x <> n) ->
  coll_exists ty (run os) n (Some t) = false /\ coll_get ty (run os) n (Some t) = Ok None.
Proof.
  intros os n t H. split.
  - apply not_true_is_false. rewrite c05_exists. intros [x [H1 [H2 _]]]. eapply H; eauto.
  - rewrite (get_typed nm ty) by apply coll_reach. now rewrite gone_find.
Qed.

Lemma c07_readd : forall os e, (forall x, In x (elems (run os)) -> nm x <> nm e) ->
  let c := coll_add nm ty (run os) e in
  elems c = elems (run os) ++ [e] /\ coll_get ty c (nm e) None = Ok (Some e) /\ coll_exists ty c (nm e) None = true.
Proof.
  intros os e H c.
  assert (E : elems c = elems (run os) ++ [e]).
  { unfold c. apply c05_accepted. intros x Hx Hn. now elim (H x Hx). }
  split; auto. assert (Hc : coll_inv nm ty c) by (apply coll_add_inv, coll_reach). split.
  - rewrite (get_untyped nm ty) by assumption. rewrite E.
    assert (F : find (answers nm ty (nm e) None) (elems (run os) ++ [e]) = Some e).
    { apply find_first. exists (elems (run os)), []. unfold answers. rewrite String.eqb_refl. repeat split; auto.
      intros y Hy. rewrite andb_true_r. apply String.eqb_neq. auto. }
    now rewrite F.
  - unfold coll_exists, c. rewrite add_dom by apply coll_reach. now rewrite String.eqb_refl, orb_true_r.
Qed.

Lemma c07_untyped : forall os n, coll_exists ty (run os) n None = true <->
  exists e, In (CAdd e) os /\ nm e = n.
Proof.
  intros os n. change (coll_exists ty (run os) n None) with (dmem (mapp (run os)) n).
  rewrite run_dom. unfold ever_added. rewrite existsb_exists. split.
  - intros [[e|m t] [H1 H2]]; [|discriminate]. apply String.eqb_eq in H2. eauto.
  - intros [e [H1 H2]]. exists (CAdd e). split; auto. apply String.eqb_eq. auto.
Qed.

Lemma c07_second_remove : forall os n t, (forall x, In x (elems (run os)) -> nm x <> n) ->
  exists e, coll_remove ty (run os) n t = (run os, Some e) /\
    (e = KeyError <-> forall x, In (CAdd x) os -> nm x <> n).
Proof.
  intros os n t H. pose proof (coll_remove_cases nm ty (run os) n t (coll_reach nm ty os)) as C.
  rewrite gone_find in C by assumption. destruct C as [e [C1 C2]]. exists e. split; auto.
  pose proof (c07_untyped os n) as U. unfold coll_exists in U. destruct (dmem (mapp (run os)) n).
  - split.
    + intro E. rewrite E in C2. destruct t; discriminate.
    + intro G. destruct U as [U _]. destruct (U eq_refl) as [x [U1 U2]]. now elim (G x U1).
  - split; auto. intros _ x Hx Hn. destruct U as [_ U]. assert (false = true) by (apply U; eauto). discriminate.
Qed.
End P.

(** One object 0 named "a", added and removed. *)
Lemma c07_refuted : exists nm ty os n,
  (forall x, In x (elems (coll_run nm ty coll_empty os)) -> nm x <> n) /\
  coll_exists ty (coll_run nm ty coll_empty os) n None = true /\
  coll_get ty (coll_run nm ty coll_empty os) n None = Raise IndexError /\
  snd (coll_remove ty (coll_run nm ty coll_empty os) n None) = Some IndexError.
Proof.
  exists (fun _ => "a"), (fun _ => "ARElement"), [CAdd 0; CRemove "a" None], "a".
  split; [intros x []|]. repeat split; reflexivity.
Qed.
