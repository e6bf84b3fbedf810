From Coq Require Import String Ascii List Bool Arith Lia.
From Verif Require Import PyBase PyBaseFacts ClassTable Collection SpecCollection CollectionFacts CollProps
  ObjHeap SpecHeap HeapFacts Creators.
Import ListNotations.
Open Scope string_scope.
Open Scope list_scope.
Local Opaque isinst.

(** ** Lookup only depends on the members *)
Lemma find_ext_in : forall (A : Type) (p q : A -> bool) l, (forall x, In x l -> p x = q x) -> find p l = find q l.
Proof.
  induction l as [|x l IH]; simpl; intro H; auto. rewrite <- H by now left.
  destruct (p x); auto.
Qed.

Lemma existsb_ext_in : forall (A : Type) (p q : A -> bool) l, (forall x, In x l -> p x = q x) -> existsb p l = existsb q l.
Proof. induction l as [|x l IH]; simpl; intro H; auto. rewrite <- H, IH; auto. Qed.

Lemma coll_get_ext : forall nm ty nm' ty' c n t,
  (forall e, In e (elems c) -> nm e = nm' e /\ ty e = ty' e) -> coll_inv nm ty c ->
  coll_get ty c n t = coll_get ty' c n t.
Proof.
  intros nm ty nm' ty' c n t H Hc. assert (Hc' := coll_inv_ext _ _ _ _ _ H Hc).
  assert (E : forall t, find (answers nm ty n t) (elems c) = find (answers nm' ty' n t) (elems c)).
  { intro t'. apply find_ext_in. intros x Hx. unfold answers. now destruct (H x Hx) as [-> ->]. }
  destruct t as [t|].
  - now rewrite (get_typed nm ty), (get_typed nm' ty'), E by assumption.
  - now rewrite (get_untyped nm ty), (get_untyped nm' ty'), E by assumption.
Qed.

Lemma get_element_alloc : forall h i n t cls m p, heap_inv h -> i < List.length h ->
  get_element (h ++ [new_node cls m p]) i n t = get_element h i n t.
Proof.
  intros h i n t cls m p Hi Hl. unfold get_element. rewrite nth_error_app1 by assumption.
  destruct (nth_error h i) as [nd|] eqn:E; [|reflexivity]. destruct (is_collectable i nd); [|reflexivity].
  assert (G : coll_get (cls_of (h ++ [new_node cls m p])) (ncoll nd) n t = coll_get (cls_of h) (ncoll nd) n t).
  { symmetry. apply coll_get_ext with (nm := name_of h) (nm' := name_of (h ++ [new_node cls m p])).
    - intros e He. destruct (hi_elem _ Hi _ _ _ E He) as [ed [A _]]. apply nth_some_lt in A.
      now rewrite name_of_app, cls_of_app.
    - eapply hi_coll; eauto. }
  rewrite G. reflexivity.
Qed.

(** ** Idempotence *)
Definition ret_lookup (r : ret) : bool := match r with RNew => false | _ => true end.
Definition idem_shape (k : creator) : bool :=
  match k_guard k with
  | GTyped | GUntyped => (k_add k && ret_lookup (k_ret k))%bool
  | GScan l => match k_list k, k_ret k with Some l', RNew => (negb (k_add k) && String.eqb l l')%bool | _, _ => false end
  | GUnset a => match k_attr k, k_ret k with Some a', RAttr _ => String.eqb a a' | _, _ => false end
  | GAlways => match k_list k, k_attr k, k_ret k with
               | None, None, (RGet | RGetTyped) => k_add k
               | _, _, _ => false end
  end.

Lemma is_collectable_id : forall i a b, same_id a b -> is_collectable i a = is_collectable i b.
Proof. intros i a b [H _]. unfold is_collectable, is_pkg_holder. now rewrite H. Qed.

Lemma register_node_list : forall h nd k e l, k_list k = Some l ->
  node_list (register h nd k e) l = node_list nd l ++ [e].
Proof.
  intros h nd k e l E. unfold register. rewrite E.
  destruct (k_add k), (k_attr k); unfold node_list; cbn [nlists set_lists set_attrs set_coll];
    now rewrite dget_dset_same.
Qed.

Lemma register_attr : forall h nd k e a, k_attr k = Some a -> dget (nattrs (register h nd k e)) a = Some e.
Proof.
  intros h nd k e a E. unfold register. rewrite E.
  destruct (k_add k), (k_list k); cbn [nattrs set_lists set_attrs set_coll]; now rewrite dget_dset_same.
Qed.

(** What create does, as one fact. *)
Lemma create_fresh : forall h i k n nd, heap_inv h -> nth_error h i = Some nd ->
  (k_add k && negb (is_collectable i nd))%bool = false -> guard_holds h nd k n = true ->
  exists h1 h2, h1 = h ++ [new_node (k_class k) n i] /\ h2 = upd h1 i (register h1 nd k (List.length h)) /\
    create h i k n = (h2, creator_result h2 i k n (Some (List.length h))) /\
    heap_inv h2 /\ List.length h2 = S (List.length h) /\ nth_error h2 i = Some (register h1 nd k (List.length h)) /\
    (forall j, name_of h2 j = name_of h1 j) /\ (forall j, cls_of h2 j = cls_of h1 j) /\
    (forall j, j < List.length h -> j <> i -> nth_error h2 j = nth_error h j) /\
    name_of h2 (List.length h) = n /\ cls_of h2 (List.length h) = k_class k.
Proof.
  intros h i k n nd Hi E Ec Eg. eexists. eexists. split; [reflexivity|]. split; [reflexivity|].
  pose proof (nth_some_lt _ _ _ _ E) as Hl.
  assert (E1 : nth_error (h ++ [new_node (k_class k) n i]) i = Some nd) by now rewrite nth_error_app1.
  assert (Hc : create h i k n = (upd (h ++ [new_node (k_class k) n i]) i (register (h ++ [new_node (k_class k) n i]) nd k (List.length h)),
      creator_result (upd (h ++ [new_node (k_class k) n i]) i (register (h ++ [new_node (k_class k) n i]) nd k (List.length h))) i k n (Some (List.length h)))).
  { unfold create. now rewrite E, Ec, Eg. }
  assert (Hn : forall j, name_of (upd (h ++ [new_node (k_class k) n i]) i (register (h ++ [new_node (k_class k) n i]) nd k (List.length h))) j
     = name_of (h ++ [new_node (k_class k) n i]) j) by (intro j; eapply name_of_upd; eauto; apply register_id).
  assert (Ht : forall j, cls_of (upd (h ++ [new_node (k_class k) n i]) i (register (h ++ [new_node (k_class k) n i]) nd k (List.length h))) j
     = cls_of (h ++ [new_node (k_class k) n i]) j) by (intro j; eapply cls_of_upd; eauto; apply register_id).
  split; [exact Hc|]. split; [|split; [|split; [|split; [|split; [|split; [|split]]]]]]; auto.
  - pose proof (create_inv h i k n Hi) as G. now rewrite Hc in G.
  - rewrite upd_length, app_length. simpl. lia.
  - apply upd_same. rewrite app_length. simpl. lia.
  - intros j Hj Hne. rewrite upd_other by auto. now rewrite nth_error_app1.
  - rewrite Hn. apply name_of_new.
  - rewrite Ht. apply cls_of_new.
Qed.

Lemma existsb_app_last : forall (A : Type) (p : A -> bool) l x, p x = true -> existsb p (l ++ [x]) = true.
Proof. intros. rewrite existsb_app. simpl. rewrite H. now rewrite orb_true_r. Qed.

(** after an accepted or refused addElement of [e], something of its name and class is there *)
Lemma add_exists : forall nm ty c e, coll_inv nm ty c ->
  coll_exists ty (coll_add nm ty c e) (nm e) (Some (ty e)) = true.
Proof.
  intros nm ty c e Hc. unfold coll_add. destruct (coll_exists ty c (nm e) (Some (ty e))) eqn:E; auto.
  cbn [coll_exists mapp]. rewrite dget_dset_same. apply existsb_app_last. apply isinst_refl.
Qed.

Lemma typed_untyped : forall ty c n t, coll_exists ty c n (Some t) = true -> coll_exists ty c n None = true.
Proof. intros ty c n t H. unfold coll_exists in *. unfold dmem. destruct (dget (mapp c) n); [reflexivity|discriminate]. Qed.

Lemma coll_exists_ext : forall (ty ty' : nat -> string) c n t, (forall e, ty e = ty' e) -> coll_exists ty c n t = coll_exists ty' c n t.
Proof.
  intros ty ty' c n [t|] H; auto. unfold coll_exists. destruct (dget (mapp c) n); auto.
  apply existsb_ext_in. intros x _. unfold inst. now rewrite H.
Qed.

Lemma find_last : forall (A : Type) (p : A -> bool) l x, existsb p l = false -> p x = true -> find p (l ++ [x]) = Some x.
Proof.
  intros A p l x. induction l as [|a l IH]; simpl; intros H Hx; [now rewrite Hx|].
  apply orb_false_elim in H as [H1 H2]. rewrite H1. auto.
Qed.

Lemma create_idem : forall h i k n h1 r, heap_inv h -> idem_shape k = true -> create h i k n = (h1, r) ->
  exists h2, create h1 i k n = (h2, r) /\ forall j, j < List.length h1 -> nth_error h2 j = nth_error h1 j.
Proof.
  intros h i k n h1 r Hi Hs H.
  destruct (nth_error h i) as [nd|] eqn:E.
  2:{ unfold create in *. rewrite E in H. inversion H; subst. rewrite E. eauto. }
  destruct (k_add k && negb (is_collectable i nd))%bool eqn:Ec.
  { unfold create in *. rewrite E, Ec in H. inversion H; subst. rewrite E, Ec. eauto. }
  destruct (guard_holds h nd k n) eqn:Eg.
  2:{ unfold create in *. rewrite E, Ec, Eg in H. inversion H; subst. rewrite E, Ec, Eg. eauto. }
  destruct (create_fresh h i k n nd Hi E Ec Eg) as [ha [hb [Ea [Eb [Hc [Hib [Hlen [Hnd [Hnm [Hty [Hoth [Hn1 Hc1]]]]]]]]]]]].
  rewrite Hc in H. inversion H; subst h1 r. clear H.
  set (e := List.length h) in *. set (nd1 := register ha nd k e) in *.
  assert (Ec1 : (k_add k && negb (is_collectable i nd1))%bool = false).
  { rewrite <- Ec. f_equal. f_equal. symmetry. apply is_collectable_id, register_id. }
  assert (Hex : k_add k = true -> coll_exists (cls_of hb) (ncoll nd1) n (Some (k_class k)) = true).
  { intro Ea'. unfold nd1. rewrite register_coll, Ea'.
    assert (Ca : coll_inv (name_of ha) (cls_of ha) (ncoll nd)).
    { rewrite Ea. eapply (hi_coll _ (heap_inv_alloc h (k_class k) n i Hi (nth_some_lt _ _ _ _ E))).
      rewrite nth_error_app1; eauto. eapply nth_some_lt; eauto. }
    pose proof (add_exists _ _ _ e Ca) as X. rewrite <- Hnm, <- Hty, Hn1, Hc1 in X.
    rewrite (coll_exists_ext (cls_of hb) (cls_of ha)); [exact X|]. intro; apply Hty. }
  (* a guard that now blocks *)
  assert (Block : guard_holds hb nd1 k n = false -> ret_lookup (k_ret k) = true ->
    exists h2, create hb i k n = (h2, creator_result hb i k n (Some e)) /\
      forall j, j < List.length hb -> nth_error h2 j = nth_error hb j).
  { intros Hg Hr. exists hb. split; auto. unfold create. rewrite Hnd, Ec1, Hg. f_equal.
    unfold creator_result. destruct (k_ret k); auto. discriminate. }
  unfold idem_shape in Hs. destruct (k_guard k) as [| | |a|l] eqn:Gk.
  - apply andb_prop in Hs as [Hs1 Hs2]. apply Block; auto.
    unfold guard_holds. now rewrite Gk, Hex.
  - apply andb_prop in Hs as [Hs1 Hs2]. apply Block; auto.
    unfold guard_holds. rewrite Gk. now rewrite (typed_untyped _ _ _ _ (Hex Hs1)).
  - destruct (k_list k) eqn:Lk; [discriminate|]. destruct (k_attr k) eqn:Ak; [discriminate|].
    assert (Hs1 : k_add k = true) by (destruct (k_ret k); auto; discriminate).
    assert (Eg1 : guard_holds hb nd1 k n = true) by (unfold guard_holds; now rewrite Gk).
    destruct (create_fresh hb i k n nd1 Hib Hnd Ec1 Eg1) as [hc [hd [Ec' [Ed' [Hc' [Hid [_ [Hnd' [Hnm' [Hty' _]]]]]]]]]].
    assert (Same : register hc nd1 k (List.length hb) = nd1).
    { unfold register. rewrite Hs1, Lk, Ak. cbv zeta. unfold coll_add.
      assert (X : coll_exists (cls_of hc) (ncoll nd1) (name_of hc (List.length hb)) (Some (cls_of hc (List.length hb))) = true).
      { rewrite Ec'. rewrite name_of_new, cls_of_new. cbn [nname ncls new_node].
        assert (Z : coll_inv (name_of hb) (cls_of hb) (ncoll nd1)) by (eapply hi_coll; eauto).
        assert (Z' : coll_inv (name_of (hb ++ [new_node (k_class k) n i])) (cls_of (hb ++ [new_node (k_class k) n i])) (ncoll nd1)).
        { eapply coll_inv_ext; [|exact Z]. intros x Hx. destruct (hi_elem _ Hib _ _ _ Hnd Hx) as [xd [A _]].
          apply nth_some_lt in A. now rewrite name_of_app, cls_of_app. }
        rewrite (exists_typed _ _ _ _ _ Z'). specialize (Hex Hs1). rewrite (exists_typed _ _ _ _ _ Z) in Hex.
        rewrite <- Hex. apply existsb_ext_in. intros x Hx. destruct (hi_elem _ Hib _ _ _ Hnd Hx) as [xd [A _]].
        apply nth_some_lt in A. unfold answers. now rewrite name_of_app, cls_of_app. }
      rewrite X. unfold set_coll. now destruct nd1. }
    assert (Ehd : hd = hb ++ [new_node (k_class k) n i]).
    { rewrite Ed', Same, Ec'. apply upd_id. rewrite nth_error_app1; auto. eapply nth_some_lt; eauto. }
    exists hd. split.
    + rewrite Hc'. f_equal. unfold creator_result. rewrite Ehd.
      destruct (k_ret k); try discriminate; apply get_element_alloc; auto; eapply nth_some_lt; eauto.
    + intros j Hj. rewrite Ehd. now apply nth_error_app1.
  - destruct (k_attr k) as [a'|] eqn:Ak; [|discriminate]. destruct (k_ret k) eqn:Rk; try discriminate.
    apply String.eqb_eq in Hs. subst a'. apply Block; auto.
    unfold guard_holds. rewrite Gk. unfold dmem, nd1. now rewrite register_attr.
  - destruct (k_list k) as [l'|] eqn:Lk; [|discriminate]. destruct (k_ret k) eqn:Rk; try discriminate.
    apply andb_prop in Hs as [Hs1 Hs2]. apply String.eqb_eq in Hs2. subst l'.
    assert (F : find (fun x => String.eqb (name_of hb x) n) (node_list nd1 l) = Some e).
    { unfold nd1. rewrite register_node_list by assumption. apply find_last.
      - unfold guard_holds in Eg. rewrite Gk in Eg. apply negb_true_iff in Eg. rewrite <- Eg.
        apply existsb_ext_in. intros x Hx. rewrite Hnm, Ea. rewrite name_of_app; auto.
        eapply hi_lists; eauto.
      - rewrite Hn1. apply String.eqb_refl. }
    exists hb. split; auto. unfold create. rewrite Hnd, Ec1.
    assert (Eg1 : guard_holds hb nd1 k n = false).
    { unfold guard_holds. rewrite Gk. apply negb_false_iff. apply existsb_exists. exists e.
      apply find_some in F. exact F. }
    rewrite Eg1. f_equal. unfold creator_result. rewrite Rk, Gk, Hnd. now rewrite F.
Qed.

Lemma create_package_idem : forall h i n h1 r, create_package h i n = (h1, r) ->
  create_package h1 i n = (h1, r).
Proof.
  intros h i n h1 r H. unfold create_package in *. destruct (nth_error h i) as [nd|] eqn:E.
  2:{ inversion H; subst. now rewrite E. }
  destruct (is_pkg_holder i nd) eqn:Eh.
  2:{ inversion H; subst. now rewrite E, Eh. }
  destruct (dget (npkgs nd) n) as [p|] eqn:Ed.
  { inversion H; subst. now rewrite E, Eh, Ed. }
  inversion H; subst. pose proof (nth_some_lt _ _ _ _ E) as Hl.
  rewrite nth_error_app1 by (now rewrite upd_length). rewrite upd_same by assumption.
  assert (Eh' : is_pkg_holder i (set_pkgs nd (dset (npkgs nd) n (List.length h))) = true) by exact Eh.
  rewrite Eh'. cbn [npkgs set_pkgs]. now rewrite dget_dset_same.
Qed.
