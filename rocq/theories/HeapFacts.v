From Coq Require Import String Ascii List Bool Arith Lia.
From Verif Require Import PyBase PyBaseFacts ClassTable Collection SpecCollection CollectionFacts ObjHeap SpecHeap.
Import ListNotations.
Open Scope string_scope.
Open Scope list_scope.

(** ** upd *)
Lemma upd_length : forall A (l : list A) i x, List.length (upd l i x) = List.length l.
Proof. induction l; destruct i; simpl; intros; auto. Qed.

Lemma upd_same : forall A (l : list A) i x, i < List.length l -> nth_error (upd l i x) i = Some x.
Proof. induction l; destruct i; simpl; intros; try lia; auto. apply IHl. lia. Qed.

Lemma upd_other : forall A (l : list A) i j x, i <> j -> nth_error (upd l i x) j = nth_error l j.
Proof. induction l; destruct i, j; simpl; intros; try lia; auto. Qed.

Lemma upd_id : forall A (l : list A) i x, nth_error l i = Some x -> upd l i x = l.
Proof. induction l; destruct i; simpl; intros; try discriminate; auto. now inversion H. f_equal. auto. Qed.

Lemma upd_upd : forall A (l : list A) i x y, upd (upd l i x) i y = upd l i y.
Proof. induction l; destruct i; simpl; intros; auto. f_equal. auto. Qed.

(** ** Names and classes under the two primitive heap changes *)
Definition same_id (a b : node) : Prop :=
  ncls a = ncls b /\ nname a = nname b /\ nparent a = nparent b.

Lemma nth_some_lt : forall A (l : list A) i x, nth_error l i = Some x -> i < List.length l.
Proof. intros. apply nth_error_Some. congruence. Qed.

Lemma name_of_upd : forall h i nd nd' j, nth_error h i = Some nd -> same_id nd nd' ->
  name_of (upd h i nd') j = name_of h j.
Proof.
  intros h i nd nd' j H [_ [H2 _]]. unfold name_of. destruct (Nat.eq_dec i j) as [->|Hne].
  - rewrite upd_same by (eapply nth_some_lt; eauto). rewrite H. auto.
  - now rewrite upd_other.
Qed.

Lemma cls_of_upd : forall h i nd nd' j, nth_error h i = Some nd -> same_id nd nd' ->
  cls_of (upd h i nd') j = cls_of h j.
Proof.
  intros h i nd nd' j H [H1 _]. unfold cls_of. destruct (Nat.eq_dec i j) as [->|Hne].
  - rewrite upd_same by (eapply nth_some_lt; eauto). rewrite H. auto.
  - now rewrite upd_other.
Qed.

Lemma name_of_app : forall h nd j, j < List.length h -> name_of (h ++ [nd]) j = name_of h j.
Proof. intros. unfold name_of. now rewrite nth_error_app1. Qed.
Lemma cls_of_app : forall h nd j, j < List.length h -> cls_of (h ++ [nd]) j = cls_of h j.
Proof. intros. unfold cls_of. now rewrite nth_error_app1. Qed.

Lemma name_of_new : forall h nd, name_of (h ++ [nd]) (List.length h) = nname nd.
Proof. intros. unfold name_of. rewrite nth_error_app2, Nat.sub_diag by lia. reflexivity. Qed.
Lemma cls_of_new : forall h nd, cls_of (h ++ [nd]) (List.length h) = ncls nd.
Proof. intros. unfold cls_of. rewrite nth_error_app2, Nat.sub_diag by lia. reflexivity. Qed.

(** ** Collections only look at the names and classes of their members *)
Lemma coll_inv_ext : forall nm ty nm' ty' c,
  (forall e, In e (elems c) -> nm e = nm' e /\ ty e = ty' e) ->
  coll_inv nm ty c -> coll_inv nm' ty' c.
Proof.
  intros nm ty nm' ty' c Hag [H1 H2 H3 H4]. constructor; auto.
  - intros n l Hl. rewrite (H2 _ _ Hl). apply filter_ext_in. intros e He.
    now destruct (Hag e He) as [-> _].
  - intros e He. destruct (Hag e He) as [<- _]. auto.
  - erewrite map_ext_in; [exact H4|]. intros e He. destruct (Hag e He) as [-> ->]. reflexivity.
Qed.

(** ** The invariant of reachable documents *)
Record heap_inv (h : heap) : Prop := {
  hi_root : 0 < List.length h;
  hi_parent : forall i nd, nth_error h i = Some nd -> i <> root -> nparent nd < i;
  hi_coll : forall i nd, nth_error h i = Some nd -> coll_inv (name_of h) (cls_of h) (ncoll nd);
  hi_elem : forall i nd e, nth_error h i = Some nd -> In e (elems (ncoll nd)) ->
    exists ed, nth_error h e = Some ed /\ nparent ed = i /\ e <> root /\ is_collectable i nd = true;
  hi_pkg : forall i nd n p, nth_error h i = Some nd -> dget (npkgs nd) n = Some p ->
    exists pd, nth_error h p = Some pd /\ nparent pd = i /\ nname pd = n /\ p <> root /\
      ncls pd = CPackage /\ is_pkg_holder i nd = true;
  hi_keys : forall i nd, nth_error h i = Some nd -> NoDup (dkeys (npkgs nd));
  hi_lists : forall i nd l e, nth_error h i = Some nd -> In e (node_list nd l) -> e < List.length h }.

Lemma heap_inv_fresh : heap_inv fresh_doc.
Proof.
  constructor; simpl.
  - lia.
  - intros [|[|i]] nd H Hne; try discriminate. now elim Hne.
  - intros [|[|i]] nd H; try discriminate. inversion H; subst. apply coll_inv_empty.
  - intros [|[|i]] nd e H He; try discriminate. inversion H; subst. destruct He.
  - intros [|[|i]] nd n p H Hp; try discriminate. inversion H; subst. discriminate.
  - intros [|[|i]] nd H; try discriminate. inversion H; subst. constructor.
  - intros [|[|i]] nd l e H He; try discriminate. inversion H; subst. destruct He.
Qed.

(** replacing node [i] by one with the same identity and coherent children *)
Lemma heap_inv_upd : forall h i nd nd', heap_inv h -> nth_error h i = Some nd -> same_id nd nd' ->
  coll_inv (name_of h) (cls_of h) (ncoll nd') ->
  (forall e, In e (elems (ncoll nd')) -> exists ed, nth_error h e = Some ed /\ nparent ed = i /\ e <> root
     /\ is_collectable i nd = true) ->
  (forall n p, dget (npkgs nd') n = Some p ->
     exists pd, nth_error h p = Some pd /\ nparent pd = i /\ nname pd = n /\ p <> root /\
      ncls pd = CPackage /\ is_pkg_holder i nd = true) ->
  NoDup (dkeys (npkgs nd')) ->
  (forall l e, In e (node_list nd' l) -> e < List.length h) ->
  heap_inv (upd h i nd').
Proof.
  intros h i nd nd' Hi Hnd Hs Hc He Hp Hk Hll.
  assert (Hlt : i < List.length h) by (eapply nth_some_lt; eauto).
  assert (Hlook : forall j x, nth_error (upd h i nd') j = Some x ->
    (j = i /\ x = nd') \/ (j <> i /\ nth_error h j = Some x)).
  { intros j x Hj. destruct (Nat.eq_dec i j) as [->|Hne].
    - rewrite upd_same in Hj by assumption. left. split; congruence.
    - rewrite upd_other in Hj by assumption. right. auto. }
  assert (Hfwd : forall j x, nth_error h j = Some x -> exists x', nth_error (upd h i nd') j = Some x' /\ same_id x x').
  { intros j x Hj. destruct (Nat.eq_dec i j) as [->|Hne].
    - rewrite upd_same by assumption. exists nd'. rewrite Hnd in Hj. inversion Hj; subst. auto.
    - rewrite upd_other by assumption. exists x. split; auto. repeat split. }
  constructor.
  - rewrite upd_length. apply (hi_root h Hi).
  - intros j x Hj Hne. destruct (Hlook j x Hj) as [[-> ->]|[_ Hj']].
    + destruct Hs as [_ [_ <-]]. eapply (hi_parent h Hi); eauto.
    + eapply (hi_parent h Hi); eauto.
  - intros j x Hj. eapply coll_inv_ext with (nm := name_of h) (ty := cls_of h).
    + intros e _. erewrite name_of_upd, cls_of_upd; eauto.
    + destruct (Hlook j x Hj) as [[-> ->]|[_ Hj']]; auto. eapply (hi_coll h Hi); eauto.
  - intros j x e Hj Hin.
    assert (G : exists ed, nth_error h e = Some ed /\ nparent ed = j /\ e <> root /\ is_collectable j x = true).
    { destruct (Hlook j x Hj) as [[-> ->]|[_ Hj']].
      - destruct (He e Hin) as [ed [A [B [C D]]]]. exists ed. repeat split; auto.
        unfold is_collectable, is_pkg_holder in *. destruct Hs as [<- _]. assumption.
      - eapply (hi_elem h Hi); eauto. }
    destruct G as [ed [A [B [C D]]]]. destruct (Hfwd e ed A) as [ed' [A' [_ [_ B']]]].
    exists ed'. repeat split; auto. congruence.
  - intros j x n p Hj Hin.
    assert (G : exists pd, nth_error h p = Some pd /\ nparent pd = j /\ nname pd = n /\ p <> root /\
      ncls pd = CPackage /\ is_pkg_holder j x = true).
    { destruct (Hlook j x Hj) as [[-> ->]|[_ Hj']].
      - destruct (Hp n p Hin) as [pd [A [B [C [D [E F]]]]]]. exists pd. repeat split; auto.
        unfold is_pkg_holder in *. destruct Hs as [<- _]. assumption.
      - eapply (hi_pkg h Hi); eauto. }
    destruct G as [pd [A [B [C [D [E F]]]]]]. destruct (Hfwd p pd A) as [pd' [A' [C' [B' D']]]].
    exists pd'. repeat split; auto; congruence.
  - intros j x Hj. destruct (Hlook j x Hj) as [[-> ->]|[_ Hj']]; auto. eapply (hi_keys h Hi); eauto.
  - intros j x l e Hj Hin. rewrite upd_length. destruct (Hlook j x Hj) as [[-> ->]|[_ Hj']]; eauto.
    eapply (hi_lists h Hi); eauto.
Qed.

Lemma heap_inv_alloc : forall h cls n i, heap_inv h -> i < List.length h -> heap_inv (h ++ [new_node cls n i]).
Proof.
  intros h cls n i Hi Hlt. set (new := new_node cls n i).
  assert (Hlook : forall j x, nth_error (h ++ [new]) j = Some x ->
    (j < List.length h /\ nth_error h j = Some x) \/ (j = List.length h /\ x = new)).
  { intros j x Hj. destruct (Nat.lt_ge_cases j (List.length h)) as [Hl|Hge].
    - rewrite nth_error_app1 in Hj by assumption. auto.
    - assert (j < List.length (h ++ [new])) by (eapply nth_some_lt; eauto).
      rewrite app_length in H. simpl in H. assert (j = List.length h) by lia. subst.
      rewrite nth_error_app2, Nat.sub_diag in Hj by lia. right. split; auto. simpl in Hj. congruence. }
  assert (Hfwd : forall j x, nth_error h j = Some x -> nth_error (h ++ [new]) j = Some x).
  { intros j x Hj. rewrite nth_error_app1; auto. eapply nth_some_lt; eauto. }
  constructor.
  - rewrite app_length. simpl. lia.
  - intros j x Hj Hne. destruct (Hlook j x Hj) as [[_ Hj']|[-> ->]].
    + eapply (hi_parent h Hi); eauto.
    + simpl. assumption.
  - intros j x Hj. destruct (Hlook j x Hj) as [[Hl Hj']|[-> ->]].
    + eapply coll_inv_ext with (nm := name_of h) (ty := cls_of h); [|eapply (hi_coll h Hi); eauto].
      intros e He. destruct (hi_elem h Hi _ _ _ Hj' He) as [ed [A _]].
      assert (e < List.length h) by (eapply nth_some_lt; eauto).
      now rewrite name_of_app, cls_of_app.
    + apply coll_inv_empty.
  - intros j x e Hj Hin. destruct (Hlook j x Hj) as [[Hl Hj']|[-> ->]].
    + destruct (hi_elem h Hi _ _ _ Hj' Hin) as [ed [A B]]. exists ed. split; auto.
    + destruct Hin.
  - intros j x m p Hj Hin. destruct (Hlook j x Hj) as [[Hl Hj']|[-> ->]].
    + destruct (hi_pkg h Hi _ _ _ _ Hj' Hin) as [pd [A B]]. exists pd. split; auto.
    + discriminate.
  - intros j x Hj. destruct (Hlook j x Hj) as [[Hl Hj']|[-> ->]].
    + eapply (hi_keys h Hi); eauto.
    + constructor.
  - intros j x l e Hj Hin. rewrite app_length. simpl. destruct (Hlook j x Hj) as [[Hl Hj']|[-> ->]].
    + pose proof (hi_lists h Hi _ _ _ _ Hj' Hin). lia.
    + destruct Hin.
Qed.

Lemma nth_error_alloc : forall (h : heap) nd, nth_error (h ++ [nd]) (List.length h) = Some nd.
Proof. intros. rewrite nth_error_app2, Nat.sub_diag by lia. reflexivity. Qed.

Lemma upd_app : forall A (l : list A) i x y, i < List.length l -> upd l i x ++ [y] = upd (l ++ [y]) i x.
Proof. induction l; destruct i; simpl; intros; try lia; auto. f_equal. apply IHl. lia. Qed.

Lemma create_package_inv : forall h i n, heap_inv h -> heap_inv (fst (create_package h i n)).
Proof.
  intros h i n Hi. unfold create_package. destruct (nth_error h i) as [nd|] eqn:E; auto.
  destruct (is_pkg_holder i nd) eqn:Eh; auto. destruct (dget (npkgs nd) n) eqn:Ed; auto.
  cbn [fst]. pose proof (nth_some_lt _ _ _ _ E) as Hlt. rewrite upd_app by assumption.
  pose proof (heap_inv_alloc h CPackage n i Hi Hlt) as Hi1.
  assert (E1 : nth_error (h ++ [new_node CPackage n i]) i = Some nd) by now rewrite nth_error_app1.
  eapply heap_inv_upd; eauto.
  - repeat split.
  - apply (hi_coll _ Hi1 i nd E1).
  - intros e He. apply (hi_elem _ Hi1 i nd e E1 He).
  - intros m p Hp. cbn [npkgs set_pkgs] in Hp. destruct (String.eqb_spec m n) as [->|Hne].
    + rewrite dget_dset_same in Hp. inversion Hp; subst p. eexists. rewrite nth_error_alloc.
      split; [reflexivity|]. repeat split; auto. unfold root. lia.
    + rewrite dget_dset_other in Hp by auto. apply (hi_pkg _ Hi1 i nd m p E1 Hp).
  - cbn [npkgs set_pkgs]. apply dset_NoDup. apply (hi_keys _ Hi1 i nd E1).
  - intros l e He. apply (hi_lists _ Hi1 i nd l e E1 He).
Qed.

Lemma register_id : forall h nd k e, same_id nd (register h nd k e).
Proof. intros. unfold register. destruct (k_add k), (k_list k), (k_attr k); repeat split. Qed.

Lemma register_coll : forall h nd k e, ncoll (register h nd k e) =
  if k_add k then coll_add (name_of h) (cls_of h) (ncoll nd) e else ncoll nd.
Proof. intros. unfold register. destruct (k_add k), (k_list k), (k_attr k); reflexivity. Qed.

Lemma register_pkgs : forall h nd k e, npkgs (register h nd k e) = npkgs nd.
Proof. intros. unfold register. destruct (k_add k), (k_list k), (k_attr k); reflexivity. Qed.

Lemma register_list : forall h nd k e l x, In x (node_list (register h nd k e) l) -> In x (node_list nd l) \/ x = e.
Proof.
  intros h nd k e l x. unfold register.
  assert (G : forall nd', nlists nd' = nlists nd -> In x (node_list nd' l) -> In x (node_list nd l) \/ x = e)
    by (intros nd' E; unfold node_list; rewrite E; auto).
  assert (G2 : forall nd' l', nlists nd' = dset (nlists nd) l' (node_list nd l' ++ [e]) ->
    In x (node_list nd' l) -> In x (node_list nd l) \/ x = e).
  { intros nd' l' E. unfold node_list at 1. rewrite E. destruct (String.eqb_spec l l') as [->|Hne].
    - rewrite dget_dset_same. intro H. apply in_app_or in H as [H|[H|[]]]; auto.
    - rewrite dget_dset_other by auto. unfold node_list. auto. }
  destruct (k_add k), (k_list k) as [l'|], (k_attr k); cbv zeta;
    solve [apply G; reflexivity | apply (G2 _ l'); reflexivity].
Qed.

Lemma coll_add_In : forall nm ty c e x, In x (elems (coll_add nm ty c e)) -> In x (elems c) \/ x = e.
Proof.
  intros nm ty c e x. unfold coll_add. destruct (coll_exists _ _ _ _); auto. cbn [elems].
  intro H. apply in_app_or in H as [H|[H|[]]]; auto.
Qed.

Lemma create_inv : forall h i k n, heap_inv h -> heap_inv (fst (create h i k n)).
Proof.
  intros h i k n Hi. unfold create. destruct (nth_error h i) as [nd|] eqn:E; auto.
  destruct (k_add k && negb (is_collectable i nd))%bool eqn:Ec; auto.
  destruct (guard_holds h nd k n); auto. cbn [fst].
  pose proof (nth_some_lt _ _ _ _ E) as Hlt.
  pose proof (heap_inv_alloc h (k_class k) n i Hi Hlt) as Hi1.
  set (h1 := h ++ [new_node (k_class k) n i]) in *.
  assert (E1 : nth_error h1 i = Some nd) by (unfold h1; now rewrite nth_error_app1).
  eapply heap_inv_upd; eauto.
  - apply register_id.
  - rewrite register_coll. destruct (k_add k).
    + apply coll_add_inv. apply (hi_coll _ Hi1 i nd E1).
    + apply (hi_coll _ Hi1 i nd E1).
  - rewrite register_coll. intros e He. destruct (k_add k).
    + apply coll_add_In in He as [He| ->].
      * apply (hi_elem _ Hi1 i nd e E1 He).
      * eexists. unfold h1. rewrite nth_error_alloc. split; [reflexivity|]. repeat split; auto.
        -- unfold root. lia.
        -- simpl in Ec. now apply negb_false_iff in Ec.
    + apply (hi_elem _ Hi1 i nd e E1 He).
  - rewrite register_pkgs. intros m p Hp. apply (hi_pkg _ Hi1 i nd m p E1 Hp).
  - rewrite register_pkgs. apply (hi_keys _ Hi1 i nd E1).
  - intros l x Hx. apply register_list in Hx as [Hx| ->].
    + apply (hi_lists _ Hi1 i nd l x E1 Hx).
    + unfold h1. rewrite app_length. simpl. lia.
Qed.

Lemma spec_remove_In : forall nm ty l n t x, In x (spec_remove nm ty l n t) -> In x l.
Proof.
  induction l as [|e l IH]; simpl; intros n t x H; auto.
  destruct (answers nm ty n t e); simpl in *; auto. destruct H; eauto.
Qed.

Lemma remove_inv : forall h i n t, heap_inv h -> heap_inv (fst (remove_element h i n t)).
Proof.
  intros h i n t Hi. unfold remove_element. destruct (nth_error h i) as [nd|] eqn:E; auto.
  destruct (is_collectable i nd) eqn:Ec; auto.
  destruct (coll_remove (cls_of h) (ncoll nd) n t) as [c e] eqn:Er. cbn [fst].
  pose proof (hi_coll _ Hi i nd E) as Hc.
  assert (Hcc : c = fst (coll_remove (cls_of h) (ncoll nd) n t)) by now rewrite Er.
  eapply heap_inv_upd; eauto.
  - repeat split.
  - cbn [ncoll set_coll]. rewrite Hcc. now apply coll_remove_inv.
  - cbn [ncoll set_coll]. intros x Hx. rewrite Hcc, (coll_remove_spec (name_of h)) in Hx by assumption.
    apply spec_remove_In in Hx. apply (hi_elem _ Hi i nd x E Hx).
  - intros m p Hp. apply (hi_pkg _ Hi i nd m p E Hp).
  - apply (hi_keys _ Hi i nd E).
  - intros l x Hx. apply (hi_lists _ Hi i nd l x E Hx).
Qed.

Lemma hstep_inv : forall h o, heap_inv h -> heap_inv (hstep h o).
Proof. intros h [] Hi; simpl; auto using create_package_inv, create_inv, remove_inv. Qed.

Lemma hrun_inv : forall os, heap_inv (hrun os).
Proof.
  intro os. unfold hrun. generalize heap_inv_fresh. generalize fresh_doc.
  induction os as [|o os IH]; intros h Hi; simpl; auto. apply IH, hstep_inv, Hi.
Qed.

(** ** Lookup *)
Lemma get_element_child : forall h i n x, heap_inv h -> get_element h i n None = Ok (Some x) ->
  child_of h i x /\ name_of h x = n.
Proof.
  intros h i n x Hi H. unfold get_element in H. destruct (nth_error h i) as [nd|] eqn:E; [|discriminate].
  destruct (is_collectable i nd) eqn:Ec; [|discriminate].
  assert (Hcoll : coll_get (cls_of h) (ncoll nd) n None = Ok (Some x) -> child_of h i x /\ name_of h x = n).
  { intro G. rewrite (get_untyped (name_of h)) in G by (eapply hi_coll; eauto).
    destruct (find _ _) eqn:Ef; [|destruct (dmem _ _); discriminate]. inversion G; subst.
    apply find_some in Ef as [F1 F2]. unfold answers in F2. apply andb_prop in F2 as [F2 _].
    apply String.eqb_eq in F2. split; auto. exists nd. auto. }
  destruct (is_pkg_holder i nd) eqn:Eh; [|auto].
  destruct (dget (npkgs nd) n) eqn:Ed; [|auto]. inversion H; subst.
  destruct (hi_pkg _ Hi _ _ _ _ E Ed) as [pd [A [B [C _]]]]. split.
  - exists nd. split; auto. right. apply dget_In in Ed. apply in_map_iff. exists (n, x). auto.
  - unfold name_of. now rewrite A.
Qed.

Lemma find_from_sound : forall names h i ws x, heap_inv h -> lives_at h ws i ->
  find_from h i names = Ok (Some x) -> lives_at h (ws ++ nonempty_names names) x.
Proof.
  induction names as [|n names IH]; intros h i ws x Hi Hl H; simpl in H.
  - inversion H; subst. simpl. now rewrite app_nil_r.
  - destruct (String.eqb_spec n "") as [->|Hne].
    + simpl. eapply IH; eauto.
    + destruct (get_element h i n None) as [[j|]|e] eqn:E; try discriminate.
      destruct (get_element_child _ _ _ _ Hi E) as [Hc Hn].
      assert (He : is_empty n = false) by (destruct n; [congruence|reflexivity]).
      unfold nonempty_names. simpl. rewrite He. simpl.
      replace (ws ++ n :: filter (fun w => negb (is_empty w)) names) with
        ((ws ++ [name_of h j]) ++ nonempty_names names) by (rewrite <- app_assoc; simpl; now rewrite Hn).
      eapply IH; eauto. now constructor 2 with (p := i).
Qed.

Lemma slash_free_cons : forall c s, slash_free (String c s) <-> c <> "/"%char /\ slash_free s.
Proof.
  intros c s. unfold slash_free. simpl. split.
  - intro H. split; intro; apply H; auto.
  - intros [H1 H2] [H|H]; auto.
Qed.

Lemma split_free : forall s, slash_free s -> split_char "/" s = [s].
Proof.
  intros s H. apply split_char_nosep. induction s as [|c s IH]; auto.
  apply slash_free_cons in H as [H1 H2]. simpl. rewrite IH by assumption.
  destruct (Ascii.eqb_spec c "/"); [contradiction|reflexivity].
Qed.

Lemma split_more : forall s r, slash_free s -> split_char "/" (s ++ String "/" r) = s :: split_char "/" r.
Proof.
  induction s as [|c s IH]; intros r H; simpl; auto.
  apply slash_free_cons in H as [H1 H2]. rewrite IH by assumption.
  destruct (Ascii.eqb_spec c "/"); [contradiction|reflexivity].
Qed.

Lemma components_split : forall p ws, components p ws -> split_char "/" p = ws.
Proof.
  induction 1; [now apply split_free|]. rewrite split_more by assumption. now rewrite IHcomponents.
Qed.

Lemma find_sound : forall h path ws x, heap_inv h -> components path ws ->
  find_path h path = Ok (Some x) -> lives_at h (nonempty_names ws) x.
Proof.
  intros h path ws x Hi Hc H. unfold find_path in H. rewrite (components_split _ _ Hc) in H.
  change (nonempty_names ws) with ([] ++ nonempty_names ws). eapply find_from_sound; eauto. constructor.
Qed.

Lemma child_collectable : forall h p x, heap_inv h -> child_of h p x ->
  exists nd xd, nth_error h p = Some nd /\ is_collectable p nd = true /\ nth_error h x = Some xd /\ nparent xd = p
    /\ x <> root.
Proof.
  intros h p x Hi [nd [H1 [H2|H2]]].
  - destruct (hi_elem _ Hi _ _ _ H1 H2) as [ed [A [B [C D]]]]. eauto 10.
  - apply in_map_iff in H2 as [[n y] [H3 H4]]. simpl in H3. subst y.
    apply In_dget in H4; [|eapply hi_keys; eauto].
    destruct (hi_pkg _ Hi _ _ _ _ H1 H4) as [pd [A [B [C [D [E F]]]]]].
    exists nd, pd. repeat split; auto. unfold is_collectable. now rewrite F.
Qed.

Lemma get_element_sole : forall h p x, heap_inv h -> child_of h p x -> sole_name h p x ->
  get_element h p (name_of h x) None = Ok (Some x).
Proof.
  intros h p x Hi Hc Hs. destruct (child_collectable _ _ _ Hi Hc) as [nd [xd [H1 [H2 _]]]].
  assert (G : exists y, get_element h p (name_of h x) None = Ok (Some y)).
  { unfold get_element. rewrite H1, H2.
    assert (HC : (exists y, coll_get (cls_of h) (ncoll nd) (name_of h x) None = Ok (Some y)) \/ 
       (is_pkg_holder p nd = true /\ exists y, dget (npkgs nd) (name_of h x) = Some y)).
    { destruct Hc as [nd' [E [Hin|Hin]]]; assert (nd' = nd) by congruence; subst nd'.
      - left. rewrite (get_untyped (name_of h)) by (eapply hi_coll; eauto).
        destruct (find (answers (name_of h) (cls_of h) (name_of h x) None) (elems (ncoll nd))) eqn:Ef; eauto.
        pose proof (find_none _ _ Ef x Hin) as G. unfold answers in G.
        rewrite String.eqb_refl in G. discriminate.
      - right. apply in_map_iff in Hin as [[n y] [H3 H4]]. simpl in H3. subst y.
        apply In_dget in H4; [|eapply hi_keys; eauto].
        destruct (hi_pkg _ Hi _ _ _ _ H1 H4) as [pd [A [B [C [D [E' F]]]]]].
        split; auto. exists x. unfold name_of. rewrite A, C. assumption. }
    destruct (is_pkg_holder p nd).
    - destruct (dget (npkgs nd) (name_of h x)) eqn:Ed; eauto. destruct HC as [HC|[_ [y HC]]]; [assumption|discriminate].
    - destruct HC as [HC|[HC _]]; [assumption|discriminate]. }
  destruct G as [y G]. destruct (get_element_child _ _ _ _ Hi G) as [G1 G2].
  rewrite (Hs y G1 G2) in G. exact G.
Qed.

Lemma find_from_clear : forall h ws x, heap_inv h -> lives_clear h ws x -> Forall (fun w => w <> "") ws ->
  forall rest, find_from h root (ws ++ rest) = find_from h x rest.
Proof.
  intros h ws x Hi H. induction H as [|ws p x Hp IH Hc Hs]; intros Hne rest; auto.
  apply Forall_app in Hne as [Hw Hx]. inversion Hx; subst.
  rewrite <- app_assoc. rewrite IH by assumption. simpl.
  destruct (String.eqb_spec (name_of h x) ""); [contradiction|].
  now rewrite get_element_sole.
Qed.

Lemma slash_path_app : forall ws w, slash_path (ws ++ [w]) = (slash_path ws ++ String "/" w)%string.
Proof.
  induction ws as [|v ws IH]; intro w; simpl; [now rewrite append_nil_r|].
  rewrite IH. now rewrite append_assoc.
Qed.

Lemma full_name_fuel_enough : forall h, heap_inv h -> forall f i, i < f -> i < List.length h ->
  full_name_fuel f h i = full_name_fuel (S i) h i.
Proof.
  intros h Hi f. induction f as [f IH] using lt_wf_ind. intros i Hf Hl.
  destruct f as [|f]; [lia|]. cbn [full_name_fuel]. destruct (Nat.eqb_spec i root) as [->|Hne]; auto.
  destruct (nth_error h i) as [nd|] eqn:E; auto. 
  pose proof (hi_parent _ Hi _ _ E Hne) as Hp.
  f_equal. rewrite (IH f) by lia.
  destruct i as [|i]; [now elim Hne|].
  symmetry. apply (IH (S i)); lia.
Qed.

Lemma full_name_child : forall h p x, heap_inv h -> child_of h p x ->
  full_name h x = (full_name h p ++ String "/" (name_of h x))%string.
Proof.
  intros h p x Hi Hc. destruct (child_collectable _ _ _ Hi Hc) as [nd [xd [H1 [H2 [H3 [H4 H5]]]]]].
  unfold full_name. cbn [full_name_fuel]. destruct (Nat.eqb_spec x root); [contradiction|].
  rewrite H3. rewrite H4. unfold name_of. rewrite H3.
  pose proof (hi_parent _ Hi _ _ H3 H5) as Hlt. rewrite H4 in Hlt.
  rewrite full_name_fuel_enough; auto. eapply nth_some_lt; eauto.
Qed.

Lemma full_name_lives : forall h ws x, heap_inv h -> lives_at h ws x -> full_name h x = slash_path ws.
Proof.
  intros h ws x Hi H. induction H as [|ws p x Hp IH Hc]; [reflexivity|].
  rewrite (full_name_child h p x Hi Hc), IH, slash_path_app. reflexivity.
Qed.

Lemma clear_lives : forall h ws x, lives_clear h ws x -> lives_at h ws x.
Proof. induction 1; [constructor|econstructor; eauto]. Qed.

Lemma split_slash_path : forall ws, Forall slash_free ws -> split_char "/" (slash_path ws) = "" :: ws.
Proof.
  induction 1 as [|w ws Hw Hws IH]; [reflexivity|].
  change (slash_path (w :: ws)) with (String "/" (w ++ slash_path ws)%string).
  simpl. f_equal. destruct ws as [|v ws].
  - simpl. rewrite append_nil_r. now apply split_free.
  - change (slash_path (v :: ws)) with (String "/" (v ++ slash_path ws)%string) in *.
    rewrite split_more by assumption. f_equal. simpl in IH. now inversion IH.
Qed.

Lemma find_full_name : forall h ws x, heap_inv h -> lives_clear h ws x ->
  Forall (fun w => w <> "" /\ slash_free w) ws ->
  full_name h x = slash_path ws /\ find_path h (full_name h x) = Ok (Some x).
Proof.
  intros h ws x Hi H Hw.
  assert (E : full_name h x = slash_path ws) by (apply full_name_lives; auto; now apply clear_lives).
  split; auto. rewrite E. unfold find_path.
  rewrite split_slash_path by (eapply Forall_impl; [|exact Hw]; simpl; intros ? [? ?]; assumption).
  simpl. rewrite <- (app_nil_r ws). rewrite (find_from_clear h ws x); auto.
  eapply Forall_impl; [|exact Hw]. simpl. intros ? [? ?]; assumption.
Qed.

Lemma lives_clear_unique : forall h ws x, lives_clear h ws x -> forall y, lives_clear h ws y -> x = y.
Proof.
  intros h ws x H. induction H as [|ws p x Hp IH Hc Hs]; intros y Hy.
  - inversion Hy; subst; auto. destruct ws; discriminate.
  - inversion Hy as [|ws' p' y' Hp' Hc' Hs' E]; subst.
    + destruct ws; discriminate.
    + apply app_inj_tail in E as [E1 E2]. subst ws'. rewrite (IH p' Hp') in *. symmetry. apply Hs; auto.
Qed.

Lemma slash_path_inj : forall ws vs, Forall slash_free ws -> Forall slash_free vs ->
  slash_path ws = slash_path vs -> ws = vs.
Proof.
  intros ws vs Hw Hv E. apply (f_equal (split_char "/")) in E.
  rewrite !split_slash_path in E by assumption. now inversion E.
Qed.

Lemma full_names_distinct : forall h ws vs x y, heap_inv h -> lives_clear h ws x -> lives_clear h vs y ->
  Forall slash_free ws -> Forall slash_free vs -> full_name h x = full_name h y -> x = y.
Proof.
  intros h ws vs x y Hi Hx Hy Hw Hv E.
  rewrite (full_name_lives h ws x), (full_name_lives h vs y) in E by (auto using clear_lives).
  apply slash_path_inj in E; auto. subst. eapply lives_clear_unique; eauto.
Qed.
