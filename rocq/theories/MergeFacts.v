From Coq Require Import String Ascii List Bool Arith Lia.
From Verif Require Import PyBase PyBaseFacts ClassTable Collection SpecCollection CollectionFacts CollProps
  ObjHeap SpecHeap HeapFacts Creators SpecCreators SpecCreate CreatorFacts CreatorProps Merge SpecMerge.
Import ListNotations.
Open Scope string_scope.
Open Scope list_scope.
Local Opaque isinst.

(** ** Growth: [G] lists the attributes that are never overwritten *)
Record node_grows (G : list string) (nd nd' : node) : Prop := {
  ng_id : same_id nd nd';
  ng_map : forall n l, dget (mapp (ncoll nd)) n = Some l -> exists more, dget (mapp (ncoll nd')) n = Some (l ++ more);
  ng_elems : exists more, elems (ncoll nd') = elems (ncoll nd) ++ more;
  ng_pkgs : forall n p, dget (npkgs nd) n = Some p -> dget (npkgs nd') n = Some p;
  ng_lists : forall l, exists more, node_list nd' l = node_list nd l ++ more;
  ng_attrs : forall a v, In a G -> dget (nattrs nd) a = Some v -> dget (nattrs nd') a = Some v }.
Definition grows (G : list string) (h h' : heap) : Prop :=
  forall i nd, nth_error h i = Some nd -> exists nd', nth_error h' i = Some nd' /\ node_grows G nd nd'.

Lemma node_grows_refl : forall G nd, node_grows G nd nd.
Proof.
  intros G nd. constructor; auto.
  - now repeat split.
  - intros n l E. exists []. now rewrite app_nil_r.
  - exists []. now rewrite app_nil_r.
  - intro l. exists []. now rewrite app_nil_r.
Qed.
Lemma node_grows_trans : forall G a b c, node_grows G a b -> node_grows G b c -> node_grows G a c.
Proof.
  intros G a b c [I1 M1 E1 P1 L1 A1] [I2 M2 E2 P2 L2 A2]. constructor; auto.
  - destruct I1 as [? [? ?]], I2 as [? [? ?]]. repeat split; congruence.
  - intros n l E. destruct (M1 _ _ E) as [x X]. destruct (M2 _ _ X) as [y Y]. exists (x ++ y). now rewrite app_assoc.
  - destruct E1 as [x X], E2 as [y Y]. exists (x ++ y). now rewrite Y, X, app_assoc.
  - intro l. destruct (L1 l) as [x X], (L2 l) as [y Y]. exists (x ++ y). now rewrite Y, X, app_assoc.
Qed.
Lemma grows_refl : forall G h, grows G h h.
Proof. intros G h i nd E. exists nd. split; auto. apply node_grows_refl. Qed.
Lemma grows_trans : forall G a b c, grows G a b -> grows G b c -> grows G a c.
Proof.
  intros G a b c H1 H2 i nd E. destruct (H1 _ _ E) as [nd1 [E1 X1]]. destruct (H2 _ _ E1) as [nd2 [E2 X2]].
  exists nd2. split; auto. eapply node_grows_trans; eauto.
Qed.
Lemma untouched_grows : forall G h h', untouched h h' -> grows G h h'.
Proof. intros G h h' H i nd E. exists nd. split; auto. apply node_grows_refl. Qed.
Lemma untouched_refl : forall h, untouched h h.
Proof. intros h i nd E. exact E. Qed.
Lemma untouched_trans : forall a b c, untouched a b -> untouched b c -> untouched a c.
Proof. intros a b c H1 H2 i nd E. auto. Qed.
Lemma grows_kept : forall G h h', grows G h h' -> kept h h'.
Proof.
  intros G h h' H i nd E. destruct (H _ _ E) as [nd' [E' [[I1 [I2 I3]] M L P K A]]].
  exists nd'. repeat split; auto.
Qed.

Lemma grows_upd : forall G h i nd nd' new, nth_error h i = Some nd -> node_grows G nd nd' ->
  grows G h (upd (h ++ [new]) i nd').
Proof.
  intros G h i nd nd' new E H j jd Ej. pose proof (nth_some_lt _ _ _ _ Ej) as Hj.
  destruct (Nat.eq_dec i j) as [<-|Hne].
  - rewrite E in Ej. inversion Ej; subst jd. exists nd'. split; auto. apply upd_same. rewrite app_length. simpl. lia.
  - exists jd. split; [|apply node_grows_refl]. rewrite upd_other by assumption. now rewrite nth_error_app1.
Qed.

Lemma create_package_grows : forall G h i n, grows G h (fst (create_package h i n)).
Proof.
  intros G h i n. unfold create_package. destruct (nth_error h i) as [nd|] eqn:E; [|apply grows_refl].
  destruct (is_pkg_holder i nd); [|apply grows_refl]. destruct (dget (npkgs nd) n) eqn:Ed; [apply grows_refl|].
  cbn [fst]. pose proof (nth_some_lt _ _ _ _ E) as Hlt. rewrite upd_app by assumption.
  apply grows_upd with nd; auto.
  constructor; cbn [ncoll npkgs nlists nattrs set_pkgs]; auto.
  - now repeat split.
  - intros m l Em. exists []. now rewrite app_nil_r.
  - exists []. now rewrite app_nil_r.
  - intros m p Em. rewrite dget_dset_other; auto. congruence.
  - intro l. exists []. now rewrite app_nil_r.
Qed.

Lemma register_attr_other : forall h nd k e a, k_attr k <> Some a ->
  dget (nattrs (register h nd k e)) a = dget (nattrs nd) a.
Proof.
  intros h nd k e a H. unfold register.
  destruct (k_attr k) as [b|] eqn:E; destruct (k_add k), (k_list k); cbn [nattrs set_lists set_attrs set_coll]; auto;
    rewrite dget_dset_other; auto; congruence.
Qed.
Lemma register_list_grows : forall h nd k e l, exists more, node_list (register h nd k e) l = node_list nd l ++ more.
Proof.
  intros h nd k e l. destruct (k_list k) as [l'|] eqn:Lk.
  - destruct (String.eqb_spec l' l) as [->|Hne].
    + exists [e]. now apply register_node_list.
    + exists []. rewrite app_nil_r. unfold register. rewrite Lk.
      destruct (k_add k), (k_attr k); unfold node_list; cbn [nlists set_lists set_attrs set_coll]; now rewrite dget_dset_other by auto.
  - exists []. rewrite app_nil_r. unfold register. rewrite Lk.
    destruct (k_add k), (k_attr k); reflexivity.
Qed.
Lemma register_grows : forall G h nd k e, 
  (forall a, k_attr k = Some a -> In a G -> dget (nattrs nd) a = None) ->
  node_grows G nd (register h nd k e).
Proof.
  intros G h nd k e HG. constructor.
  - apply register_id.
  - intros n l E. rewrite register_coll. destruct (k_add k); [|exists []; now rewrite app_nil_r].
    unfold coll_add. destruct (coll_exists (cls_of h) (ncoll nd) (name_of h e) (Some (cls_of h e))); [exists []; now rewrite app_nil_r|].
    cbn [mapp]. destruct (String.eqb_spec n (name_of h e)) as [->|Hne].
    + rewrite dget_dset_same, E. eauto.
    + rewrite dget_dset_other by auto. exists []. now rewrite app_nil_r.
  - rewrite register_coll. destruct (k_add k); [|exists []; now rewrite app_nil_r].
    unfold coll_add. destruct (coll_exists (cls_of h) (ncoll nd) (name_of h e) (Some (cls_of h e))); [exists []; now rewrite app_nil_r|].
    cbn [elems]. eauto.
  - intros n p E. now rewrite register_pkgs.
  - apply register_list_grows.
  - intros a v Ha E. rewrite register_attr_other; auto. intro K. rewrite (HG a K Ha) in E. discriminate.
Qed.

(** attributes kept by the method *)
Definition attr_safe (G : list string) (k : creator) : Prop :=
  forall a, k_attr k = Some a -> In a G -> k_guard k = GUnset a.

Lemma create_grows : forall G h i k n, attr_safe G k -> grows G h (fst (create h i k n)).
Proof.
  intros G h i k n HG. unfold create. destruct (nth_error h i) as [nd|] eqn:E; [|apply grows_refl].
  destruct (k_add k && negb (is_collectable i nd))%bool; [apply grows_refl|].
  destruct (guard_holds h nd k n) eqn:Eg; [|apply grows_refl]. cbn [fst].
  apply grows_upd with nd; auto. apply register_grows. intros a Ha Hin.
  unfold guard_holds in Eg. rewrite (HG a Ha Hin) in Eg. unfold dmem in Eg.
  destruct (dget (nattrs nd) a); [discriminate|auto].
Qed.

(** ** Lookups keep their answers when the document grows *)
Lemma grows_ids : forall G h h' e, grows G h h' -> e < List.length h ->
  name_of h' e = name_of h e /\ cls_of h' e = cls_of h e.
Proof.
  intros G h h' e H Hl. destruct (nth_error h e) as [nd|] eqn:E; [|apply nth_error_None in E; lia].
  destruct (H _ _ E) as [nd' [E' [[I1 [I2 I3]] _ _ _ _ _]]]. unfold name_of, cls_of. now rewrite E, E'.
Qed.

Lemma mapp_valid : forall h i nd n l x, heap_inv h -> nth_error h i = Some nd ->
  dget (mapp (ncoll nd)) n = Some l -> In x l -> x < List.length h.
Proof.
  intros h i nd n l x Hi E El Hx. pose proof (hi_coll _ Hi _ _ E) as Hc.
  rewrite (ci_map _ _ _ Hc _ _ El) in Hx. apply filter_In in Hx as [Hx _].
  destruct (hi_elem _ Hi _ _ _ E Hx) as [ed [A _]]. eapply nth_some_lt; eauto.
Qed.

Lemma coll_exists_grows : forall G h h' i nd nd' n t, heap_inv h -> grows G h h' -> nth_error h i = Some nd ->
  node_grows G nd nd' -> coll_exists (cls_of h) (ncoll nd) n t = true -> coll_exists (cls_of h') (ncoll nd') n t = true.
Proof.
  intros G h h' i nd nd' n t Hi Hg E Hn H. destruct t as [t|]; unfold coll_exists, dmem in *.
  - destruct (dget (mapp (ncoll nd)) n) as [l|] eqn:El; [|discriminate].
    destruct (ng_map _ _ _ Hn _ _ El) as [more ->]. rewrite existsb_app. apply orb_true_iff. left.
    rewrite <- H. apply existsb_ext_in. intros x Hx. unfold inst.
    now destruct (grows_ids _ _ _ x Hg (mapp_valid _ _ _ _ _ _ Hi E El Hx)) as [_ ->].
  - destruct (dget (mapp (ncoll nd)) n) as [l|] eqn:El; [|discriminate].
    now destruct (ng_map _ _ _ Hn _ _ El) as [more ->].
Qed.

Lemma filter_ext_in' : forall (A : Type) (p q : A -> bool) l, (forall x, In x l -> p x = q x) -> filter p l = filter q l.
Proof. intros A p q l H. now apply filter_ext_in. Qed.

Lemma coll_get_grows : forall G h h' i nd nd' n t x, heap_inv h -> grows G h h' -> nth_error h i = Some nd ->
  node_grows G nd nd' -> coll_get (cls_of h) (ncoll nd) n t = Ok (Some x) -> coll_get (cls_of h') (ncoll nd') n t = Ok (Some x).
Proof.
  intros G h h' i nd nd' n t x Hi Hg E Hn H. unfold coll_get in *.
  destruct (dget (mapp (ncoll nd)) n) as [l|] eqn:El; [|discriminate].
  destruct (ng_map _ _ _ Hn _ _ El) as [more ->].
  destruct t as [t|].
  - rewrite filter_app.
    assert (F : filter (inst (cls_of h') t) l = filter (inst (cls_of h) t) l).
    { apply filter_ext_in. intros y Hy. unfold inst.
      now destruct (grows_ids _ _ _ y Hg (mapp_valid _ _ _ _ _ _ Hi E El Hy)) as [_ ->]. }
    rewrite F. destruct (filter (inst (cls_of h) t) l); [discriminate|]. exact H.
  - destruct l; [discriminate|]. exact H.
Qed.

Lemma is_pkg_holder_id : forall i a b, same_id a b -> is_pkg_holder i a = is_pkg_holder i b.
Proof. intros i a b [H _]. unfold is_pkg_holder. now rewrite H. Qed.

(** a lookup by name only keeps its answer unless a sub-package of that name may appear *)
Lemma get_element_grows : forall G h h' i n t x, heap_inv h -> grows G h h' ->
  (match t with
   | None => forall nd, nth_error h i = Some nd -> is_pkg_holder i nd = false
   | Some t => t <> CPackage
   end) ->
  get_element h i n t = Ok (Some x) -> get_element h' i n t = Ok (Some x).
Proof.
  intros G h h' i n t x Hi Hg Ht H. unfold get_element in *.
  destruct (nth_error h i) as [nd|] eqn:E; [|discriminate].
  destruct (Hg _ _ E) as [nd' [E' Hn]]. rewrite E'.
  rewrite <- (is_collectable_id i nd nd' (ng_id _ _ _ Hn)), <- (is_pkg_holder_id i nd nd' (ng_id _ _ _ Hn)).
  destruct (is_collectable i nd); [|discriminate]. cbv zeta in *.
  destruct t as [t|].
  - apply String.eqb_neq in Ht. rewrite Ht in *.
    destruct (is_pkg_holder i nd); eapply coll_get_grows; eauto.
  - rewrite (Ht nd eq_refl) in *. eapply coll_get_grows; eauto.
Qed.

(** ** Methods that keep their result *)
Definition steady_shape (k : creator) : bool :=
  match k_guard k with
  | GTyped | GUntyped => (k_add k && match k_ret k with RGet | RGetTyped => true | _ => false end)%bool
  | GScan l => match k_list k, k_ret k with Some l', RNew => (negb (k_add k) && String.eqb l l')%bool | _, _ => false end
  | GUnset a => match k_attr k, k_ret k with Some a', RAttr b => (String.eqb a a' && String.eqb a b)%bool | _, _ => false end
  | GAlways => match k_list k, k_attr k, k_ret k with
               | None, None, (RGet | RGetTyped) => k_add k
               | _, _, _ => false end
  end.
(** the attributes set once *)
Definition once_attrs : list string :=
  Eval vm_compute in flat_map (fun r => match k_guard (snd r) with GUnset a => [a] | _ => [] end) creators.
Definition guard_eqb_unset (g : guard) (a : string) : bool :=
  match g with GUnset b => String.eqb a b | _ => false end.
Definition row_steady (r : row) : bool :=
  (pmem (fst r) non_idempotent ||
   (steady_shape (snd r) &&
    match k_attr (snd r) with
    | Some a => (negb (existsb (String.eqb a) once_attrs) || guard_eqb_unset (k_guard (snd r)) a)%bool
    | None => true end &&
    match k_ret (snd r) with
    | RGet => negb (isinst CPackage (fst (fst r)) || isinst CDocument (fst (fst r)))
    | RGetTyped => negb (String.eqb (k_class (snd r)) CPackage)
    | _ => true
    end))%bool.
Lemma rows_steady : forallb row_steady creators = true.
Proof. vm_compute. reflexivity. Qed.

(** the object [j] is what the method returns and will return *)
Record settled (h : heap) (i : nat) (k : creator) (n : string) (j : nat) (nd : node) : Prop := {
  st_node : nth_error h i = Some nd;
  st_coll : (k_add k && negb (is_collectable i nd))%bool = false;
  st_result : creator_result h i k n None = Ok (Some j);
  st_guard : match k_guard k with
             | GAlways => coll_exists (cls_of h) (ncoll nd) n (Some (k_class k)) = true
             | _ => guard_holds h nd k n = false
             end }.

Lemma create_settled : forall h i k n h1 j, heap_inv h -> steady_shape k = true ->
  create h i k n = (h1, Ok (Some j)) -> exists nd, settled h1 i k n j nd.
Proof.
  intros h i k n h1 j Hi Hs H.
  destruct (nth_error h i) as [nd|] eqn:E.
  2:{ unfold create in H. rewrite E in H. discriminate. }
  destruct (k_add k && negb (is_collectable i nd))%bool eqn:Ec.
  { unfold create in H. rewrite E, Ec in H. discriminate. }
  destruct (guard_holds h nd k n) eqn:Eg.
  2:{ unfold create in H. rewrite E, Ec, Eg in H. inversion H; subst. exists nd. constructor; auto.
      destruct (k_guard k) eqn:Gk; auto. unfold guard_holds in Eg. rewrite Gk in Eg. discriminate. }
  destruct (create_fresh h i k n nd Hi E Ec Eg) as [ha [hb [Ea [Eb [Hc [Hib [Hlen [Hnd [Hnm [Hty [Hoth [Hn1 Hc1]]]]]]]]]]]].
  rewrite Hc in H. inversion H as [[Hh Hr]]. subst h1. clear H.
  set (e := List.length h) in *. set (nd1 := register ha nd k e) in *.
  assert (Ec1 : (k_add k && negb (is_collectable i nd1))%bool = false).
  { rewrite <- Ec. f_equal. f_equal. symmetry. apply is_collectable_id, register_id. }
  assert (Hex : k_add k = true -> coll_exists (cls_of hb) (ncoll nd1) n (Some (k_class k)) = true).
  { intro Ea'. unfold nd1. rewrite register_coll, Ea'.
    assert (Ca : coll_inv (name_of ha) (cls_of ha) (ncoll nd)).
    { rewrite Ea. eapply (hi_coll _ (heap_inv_alloc h (k_class k) n i Hi (nth_some_lt _ _ _ _ E))).
      rewrite nth_error_app1; eauto. eapply nth_some_lt; eauto. }
    pose proof (add_exists _ _ _ e Ca) as X. rewrite <- Hnm, <- Hty, Hn1, Hc1 in X.
    rewrite (coll_exists_ext (cls_of hb) (cls_of ha)); [exact X|]. intro; apply Hty. }
  exists nd1. unfold steady_shape in Hs. destruct (k_guard k) as [| | |a|l] eqn:Gk.
  - apply andb_prop in Hs as [Hs1 Hs2]. constructor; auto.
    + rewrite <- Hr. unfold creator_result. destruct (k_ret k); auto; discriminate.
    + rewrite Gk. unfold guard_holds. now rewrite Gk, Hex.
  - apply andb_prop in Hs as [Hs1 Hs2]. constructor; auto.
    + rewrite <- Hr. unfold creator_result. destruct (k_ret k); auto; discriminate.
    + rewrite Gk. unfold guard_holds. rewrite Gk. now rewrite (typed_untyped _ _ _ _ (Hex Hs1)).
  - destruct (k_list k) eqn:Lk; [discriminate|]. destruct (k_attr k) eqn:Ak; [discriminate|].
    assert (Hs1 : k_add k = true) by (destruct (k_ret k); auto; discriminate).
    constructor; auto.
    + rewrite <- Hr. unfold creator_result. destruct (k_ret k); auto; discriminate.
    + rewrite Gk. auto.
  - destruct (k_attr k) as [a'|] eqn:Ak; [|discriminate]. destruct (k_ret k) eqn:Rk; try discriminate.
    apply andb_prop in Hs as [Hs1 Hs2]. apply String.eqb_eq in Hs1, Hs2. subst.
    constructor; auto.
    + rewrite <- Hr. unfold creator_result. now rewrite Rk.
    + rewrite Gk. unfold guard_holds. rewrite Gk. unfold dmem, nd1. now rewrite register_attr.
  - destruct (k_list k) as [l'|] eqn:Lk; [|discriminate]. destruct (k_ret k) eqn:Rk; try discriminate.
    apply andb_prop in Hs as [Hs1 Hs2]. apply String.eqb_eq in Hs2. subst l'.
    assert (F : List.find (fun x => String.eqb (name_of hb x) n) (node_list nd1 l) = Some e).
    { unfold nd1. rewrite register_node_list by assumption. apply find_last.
      - unfold guard_holds in Eg. rewrite Gk in Eg. apply negb_true_iff in Eg. rewrite <- Eg.
        apply existsb_ext_in. intros x Hx. rewrite Hnm, Ea. rewrite name_of_app; auto.
        eapply hi_lists; eauto.
      - rewrite Hn1. apply String.eqb_refl. }
    assert (Hj : Some e = Some j).
    { unfold creator_result in Hr. rewrite Rk in Hr. congruence. }
    constructor; auto.
    + unfold creator_result. rewrite Rk, Gk, Hnd, F. now rewrite Hj.
    + rewrite Gk. unfold guard_holds. rewrite Gk. apply negb_false_iff. apply existsb_exists. exists e.
      apply find_some in F. exact F.
Qed.

Lemma find_app_some : forall (A : Type) (p : A -> bool) l m x, List.find p l = Some x -> List.find p (l ++ m) = Some x.
Proof. intros A p l m x. induction l as [|a l IH]; simpl; [discriminate|]. destruct (p a); auto. Qed.

Lemma settled_grows : forall h h' i k n j nd, heap_inv h -> steady_shape k = true -> grows once_attrs h h' ->
  match k_ret k with
  | RGet => is_pkg_holder i nd = false
  | RGetTyped => k_class k <> CPackage
  | RAttr a => In a once_attrs
  | RNew => True
  end ->
  settled h i k n j nd -> exists nd', settled h' i k n j nd'.
Proof.
  intros h h' i k n j nd Hi Hs Hg Hr [E Ec R Gd]. destruct (Hg _ _ E) as [nd' [E' Hn]]. exists nd'.
  assert (Lists : forall l, k_guard k = GScan l ->
     forall x, List.find (fun e => String.eqb (name_of h e) n) (node_list nd l) = Some x ->
               List.find (fun e => String.eqb (name_of h' e) n) (node_list nd' l) = Some x).
  { intros l _ x F. destruct (ng_lists _ _ _ Hn l) as [more ->]. apply find_app_some. rewrite <- F.
    apply find_ext_in. intros y Hy. destruct (grows_ids _ _ _ y Hg (hi_lists _ Hi _ _ _ _ E Hy)) as [-> _]. reflexivity. }
  constructor; auto.
  - now rewrite <- (is_collectable_id i nd nd' (ng_id _ _ _ Hn)).
  - unfold creator_result in *. destruct (k_ret k) as [| | |a] eqn:Rk.
    + eapply get_element_grows; eauto. cbn. intros x Ex. rewrite E in Ex. now inversion Ex; subst.
    + eapply get_element_grows; eauto.
    + destruct (k_guard k) as [| | |a|l] eqn:Gk; try discriminate. rewrite E in R. rewrite E'.
      f_equal. inversion R as [F]. rewrite F. eapply Lists; eauto.
    + rewrite E in R. rewrite E'. f_equal. inversion R as [F]. rewrite F. eapply ng_attrs; eauto.
  - unfold guard_holds in *. destruct (k_guard k) as [| | |a|l] eqn:Gk.
    + apply negb_false_iff. apply negb_false_iff in Gd. eapply coll_exists_grows; eauto.
    + apply negb_false_iff. apply negb_false_iff in Gd. eapply coll_exists_grows; eauto.
    + eapply coll_exists_grows; eauto.
    + apply negb_false_iff. apply negb_false_iff in Gd. unfold dmem in *.
      unfold steady_shape in Hs. rewrite Gk in Hs. destruct (k_attr k); [|discriminate].
      destruct (k_ret k); try discriminate. apply andb_prop in Hs as [Hs1 Hs2]. apply String.eqb_eq in Hs1, Hs2. subst.
      destruct (dget (nattrs nd) a0) eqn:Ea; [|discriminate]. now rewrite (ng_attrs _ _ _ Hn _ _ Hr Ea).
    + unfold steady_shape in Hs. rewrite Gk in Hs. destruct (k_list k); [|discriminate].
      destruct (k_ret k) eqn:Rk; try discriminate. unfold creator_result in R. rewrite Rk, Gk, E in R.
      inversion R as [F]. apply negb_false_iff. apply existsb_exists. exists j.
      specialize (Lists l eq_refl j F). apply find_some in Lists. exact Lists.
Qed.

Lemma settled_create : forall h i k n j nd, heap_inv h -> steady_shape k = true -> settled h i k n j nd ->
  exists h2, create h i k n = (h2, Ok (Some j)) /\ untouched h h2.
Proof.
  intros h i k n j nd Hi Hs [E Ec R Gd]. destruct (guard_holds h nd k n) eqn:Eg.
  2:{ exists h. split; [|apply untouched_refl]. unfold create. now rewrite E, Ec, Eg, R. }
  assert (Gk : k_guard k = GAlways) by (destruct (k_guard k); auto; congruence).
  rewrite Gk in Gd.
  assert (S : k_add k = true /\ k_list k = None /\ k_attr k = None /\ (k_ret k = RGet \/ k_ret k = RGetTyped)).
  { unfold steady_shape in Hs. rewrite Gk in Hs. destruct (k_list k); [discriminate|]. destruct (k_attr k); [discriminate|].
    destruct (k_ret k); try discriminate; auto. }
  destruct S as [Ha [Lk [Ak Rk]]].
  destruct (create_fresh h i k n nd Hi E Ec Eg) as [hc [hd [Ec' [Ed' [Hc' [Hid [_ [Hnd' [Hnm' [Hty' _]]]]]]]]]].
  assert (Same : register hc nd k (List.length h) = nd).
  { unfold register. rewrite Ha, Lk, Ak. cbv zeta. unfold coll_add.
    assert (X : coll_exists (cls_of hc) (ncoll nd) (name_of hc (List.length h)) (Some (cls_of hc (List.length h))) = true).
    { rewrite Ec'. rewrite name_of_new, cls_of_new. cbn [nname ncls new_node].
      eapply coll_exists_grows with (G := []) (h := h) (i := i); eauto; [|apply node_grows_refl].
      apply untouched_grows. intros x xd Hx. rewrite nth_error_app1; auto. eapply nth_some_lt; eauto. }
    rewrite X. unfold set_coll. now destruct nd. }
  assert (Ehd : hd = h ++ [new_node (k_class k) n i]).
  { rewrite Ed', Same, Ec'. apply upd_id. rewrite nth_error_app1; auto. eapply nth_some_lt; eauto. }
  exists hd. split.
  - rewrite Hc'. f_equal. unfold creator_result in *. rewrite Ehd.
    destruct Rk as [Rk|Rk]; rewrite Rk in *; rewrite get_element_alloc; auto; eapply nth_some_lt; eauto.
  - intros x xd Hx. rewrite Ehd. rewrite nth_error_app1; auto. eapply nth_some_lt; eauto.
Qed.

(** ** The creation calls of the reader *)
Lemma method_In : forall c m k, method c m = Some k -> In (c, m, k) creators.
Proof.
  intros c m k H. unfold method in H.
  destruct (List.find _ creators) as [[[c' m'] k']|] eqn:F; [|discriminate]. inversion H; subst.
  apply find_some in F as [F1 F2]. cbn [fst snd] in F2. apply andb_prop in F2 as [A B].
  apply String.eqb_eq in A, B. now subst.
Qed.

Lemma steady_row : forall c m k, In (c, m, k) creators -> ~ In (c, m) non_idempotent ->
  steady_shape k = true /\ attr_safe once_attrs k /\
  match k_ret k with
  | RGet => isinst CPackage c = false /\ isinst CDocument c = false
  | RGetTyped => k_class k <> CPackage
  | _ => True end.
Proof.
  intros c m k Hin Hn. pose proof rows_steady as T. rewrite forallb_forall in T. specialize (T _ Hin).
  unfold row_steady in T. cbn [fst snd] in T. apply orb_prop in T as [T|T]; [apply pmem_In in T; contradiction|].
  apply andb_prop in T as [T T3]. apply andb_prop in T as [T1 T2]. split; auto. split.
  - intros a Ha Hi. rewrite Ha in T2. apply orb_prop in T2 as [T2|T2].
    + apply negb_true_iff in T2. assert (existsb (String.eqb a) once_attrs = true); [|congruence].
      apply existsb_exists. exists a. split; auto. apply String.eqb_refl.
    + unfold guard_eqb_unset in T2. destruct (k_guard k); try discriminate. apply String.eqb_eq in T2. now subst.
  - destruct (k_ret k); auto.
    + apply negb_true_iff in T3. now apply orb_false_elim in T3.
    + apply negb_true_iff, String.eqb_neq in T3. auto.
Qed.

Lemma unset_once : forall c m k a, In (c, m, k) creators -> k_guard k = GUnset a -> In a once_attrs.
Proof.
  intros c m k a Hin Hg.
  assert (X : once_attrs = flat_map (fun r => match k_guard (snd r) with GUnset a => [a] | _ => [] end) creators)
    by (vm_compute; reflexivity).
  rewrite X. apply in_flat_map. exists (c, m, k). split; auto. cbn [snd]. rewrite Hg. now left.
Qed.

(** documents whose root is the document object *)
Definition good (h : heap) : Prop := heap_inv h /\ cls_of h root = CDocument.

Lemma good_grows : forall G h h', good h -> heap_inv h' -> grows G h h' -> good h'.
Proof.
  intros G h h' [Hi Hr] Hi' Hg. split; auto.
  destruct (grows_ids _ _ _ root Hg (hi_root _ Hi)) as [_ ->]. exact Hr.
Qed.
Lemma built_good : forall h, built h -> good h.
Proof. intros h H. split; [now apply built_inv|]. apply (or_root _ (built_origin _ H)). Qed.

Lemma call_inv : forall h i w n, heap_inv h -> heap_inv (fst (call h i w n)).
Proof.
  intros h i [[c m]|] n H; cbn [call]; [|now apply create_package_inv].
  destruct (isinst (cls_of h i) c); auto. destruct (method c m); auto. now apply create_inv.
Qed.
Lemma call_kept : forall h i w n, grows [] h (fst (call h i w n)).
Proof.
  intros h i [[c m]|] n; cbn [call]; [|apply create_package_grows].
  destruct (isinst (cls_of h i) c); [|apply grows_refl]. destruct (method c m); [|apply grows_refl].
  apply create_grows. intros a _ [].
Qed.
Lemma call_grows : forall h i w n, (forall c m, w = Some (c, m) -> ~ In (c, m) non_idempotent) ->
  grows once_attrs h (fst (call h i w n)).
Proof.
  intros h i [[c m]|] n Hw; cbn [call]; [|apply create_package_grows].
  destruct (isinst (cls_of h i) c); [|apply grows_refl]. destruct (method c m) as [k|] eqn:M; [|apply grows_refl].
  apply create_grows. apply method_In in M. now destruct (steady_row _ _ _ M (Hw c m eq_refl)) as [_ [A _]].
Qed.

Lemma call_again : forall h i w n h1 j h', good h -> (forall c m, w = Some (c, m) -> ~ In (c, m) non_idempotent) ->
  call h i w n = (h1, Ok (Some j)) -> good h' -> grows once_attrs h1 h' ->
  exists h2, call h' i w n = (h2, Ok (Some j)) /\ untouched h' h2.
Proof.
  intros h i w n h1 j h' [Hi Hroot] Hw H [Hi' Hroot'] Hg.
  pose proof (call_inv h i w n Hi) as Hi1. rewrite H in Hi1. cbn [fst] in Hi1.
  pose proof (call_grows h i w n Hw) as Hg0. rewrite H in Hg0. cbn [fst] in Hg0.
  destruct w as [[c m]|]; cbn [call] in *.
  - destruct (isinst (cls_of h i) c) eqn:Ei; [|discriminate].
    destruct (method c m) as [k|] eqn:M; [|discriminate].
    pose proof (method_In _ _ _ M) as Hin.
    destruct (steady_row _ _ _ Hin (Hw c m eq_refl)) as [Hs [Hsafe Hret]].
    destruct (create_settled _ _ _ _ _ _ Hi Hs H) as [nd S].
    assert (Hil : i < List.length h).
    { destruct (nth_error h i) eqn:E; [eapply nth_some_lt; eauto|]. unfold create in H. rewrite E in H. discriminate. }
    destruct (grows_ids _ _ _ i Hg0 Hil) as [_ C1].
    pose proof (nth_some_lt _ _ _ _ (st_node _ _ _ _ _ _ S)) as Hil1.
    destruct (grows_ids _ _ _ i Hg Hil1) as [_ C2].
    rewrite C2, C1, Ei.
    destruct (settled_grows h1 h' i k n j nd Hi1 Hs Hg) as [nd' S']; auto.
    { destruct (k_ret k) as [| | |a] eqn:Rk; auto.
      - destruct Hret as [R1 R2]. unfold is_pkg_holder.
        apply orb_false_intro.
        + apply Nat.eqb_neq. intro Z. subst i. rewrite Hroot in Ei. congruence.
        + apply String.eqb_neq. intro Z. unfold cls_of in C1 at 1. rewrite (st_node _ _ _ _ _ _ S) in C1.
          rewrite <- C1, Z in Ei. congruence.
      - unfold steady_shape in Hs. destruct (k_guard k) as [| | |b|l] eqn:Gk; rewrite Rk in Hs;
          try (rewrite andb_false_r in Hs; discriminate);
          try (destruct (k_list k), (k_attr k); discriminate).
        + destruct (k_attr k); [|discriminate]. apply andb_prop in Hs as [A B]. apply String.eqb_eq in A, B. subst.
          eapply unset_once; eauto. }
    eapply settled_create; eauto.
  - exists h'. split; [|apply untouched_refl]. unfold create_package in *.
    destruct (nth_error h i) as [nd|] eqn:E; [|discriminate].
    destruct (is_pkg_holder i nd) eqn:Eh; [|discriminate].
    assert (X : exists nd1, nth_error h1 i = Some nd1 /\ dget (npkgs nd1) n = Some j /\ same_id nd nd1).
    { destruct (dget (npkgs nd) n) eqn:Ed.
      - inversion H; subst. exists nd. now repeat split.
      - pose proof (nth_some_lt _ _ _ _ E) as Hl. inversion H; subst. exists (set_pkgs nd (dset (npkgs nd) n (List.length h))).
        split; [|split; [cbn [npkgs set_pkgs]; apply dget_dset_same|now repeat split]].
        rewrite nth_error_app1 by now rewrite upd_length. now apply upd_same. }
    destruct X as [nd1 [E1 [D1 I1]]]. destruct (Hg _ _ E1) as [nd2 [E2 Hn]]. rewrite E2.
    rewrite <- (is_pkg_holder_id i nd1 nd2 (ng_id _ _ _ Hn)), <- (is_pkg_holder_id i nd nd1 I1), Eh.
    now rewrite (ng_pkgs _ _ _ Hn _ _ D1).
Qed.

(** ** Reading *)
Lemma load_part_eq : forall h i w n ps, load_part h i (Part w n ps) =
  match call h i w n with
  | (h1, Ok (Some j)) => load_parts h1 j ps
  | (h1, Ok None) => (h1, Raise AttributeError)
  | (h1, Raise e) => (h1, Raise e)
  end.
Proof.
  intros h i w n ps. cbn [load_part]. destruct (call h i w n) as [h1 [[j|]|e]]; auto.
  revert h1. induction ps as [|p ps IH]; intro h1; cbn [load_parts]; auto.
  destruct (load_part h1 j p) as [h' [u|e]]; auto.
Qed.

Section PartInd.
Variable P : part -> Prop.
Variable step : forall w n ps, Forall P ps -> P (Part w n ps).
Fixpoint part_ind' (p : part) : P p :=
  match p with
  | Part w n ps => step w n ps ((fix all (l : list part) : Forall P l :=
      match l with [] => Forall_nil P | x :: l' => Forall_cons x (part_ind' x) (all l') end) ps)
  end.
End PartInd.

(** a property of heaps preserved by each call is preserved by reading *)
Lemma load_keeps : forall (R : heap -> heap -> Prop), (forall h, R h h) -> (forall a b c, R a b -> R b c -> R a c) ->
  forall (Q : option (string * string) -> Prop), (forall h i w n, Q w -> R h (fst (call h i w n))) ->
  forall (D : part -> Prop), (forall w n ps, D (Part w n ps) -> Q w /\ Forall D ps) ->
  forall p h i, D p -> R h (fst (load_part h i p)).
Proof.
  intros R Rr Rt Q Hq D Hd. induction p as [w n ps IH] using part_ind'. intros h i HD.
  destruct (Hd _ _ _ HD) as [Hw Hps]. rewrite load_part_eq. specialize (Hq h i w n Hw).
  destruct (call h i w n) as [h1 [[j|]|e]]; cbn [fst] in *; auto.
  apply Rt with h1; auto. clear Hq HD h. revert h1. induction ps as [|p ps IHp]; intro h1; cbn [load_parts]; [apply Rr|].
  inversion IH; subst. inversion Hps; subst. specialize (H1 h1 j H3).
  destruct (load_part h1 j p) as [h' [u|e]]; cbn [fst] in *; auto. apply Rt with h'; auto.
Qed.
Lemma load_parts_keeps : forall (R : heap -> heap -> Prop), (forall h, R h h) -> (forall a b c, R a b -> R b c -> R a c) ->
  forall (D : part -> Prop), (forall p h i, D p -> R h (fst (load_part h i p))) ->
  forall ps h i, Forall D ps -> R h (fst (load_parts h i ps)).
Proof.
  intros R Rr Rt D Hd ps h i H. revert h. induction H as [|p ps Hp H IH]; intro h; cbn [load_parts]; [apply Rr|].
  specialize (Hd p h i Hp). destruct (load_part h i p) as [h' [u|e]]; cbn [fst] in *; auto. apply Rt with h'; auto.
Qed.

Lemma load_part_kept : forall p h i, grows [] h (fst (load_part h i p)).
Proof.
  intros p h i. apply load_keeps with (Q := fun _ => True) (D := fun _ => True); auto.
  - apply grows_refl.
  - apply grows_trans.
  - intros. apply call_kept.
  - intros w n ps _. split; auto. apply Forall_forall. auto.
Qed.
Lemma load_parts_kept : forall ps h i, grows [] h (fst (load_parts h i ps)).
Proof.
  intros ps h i. apply load_parts_keeps with (D := fun _ => True).
  - apply grows_refl.
  - apply grows_trans.
  - intros p h' i' _. apply load_part_kept.
  - apply Forall_forall. auto.
Qed.
Lemma load_part_inv : forall p h i, heap_inv h -> heap_inv (fst (load_part h i p)).
Proof.
  intros p h i H. 
  apply (load_keeps (fun a b => heap_inv a -> heap_inv b)) with (Q := fun _ => True) (D := fun _ => True); auto.
  - intros. now apply call_inv.
  - intros w n ps _. split; auto. apply Forall_forall. auto.
Qed.
Lemma load_parts_inv : forall ps h i, heap_inv h -> heap_inv (fst (load_parts h i ps)).
Proof.
  intros ps h i H. 
  apply (load_parts_keeps (fun a b => heap_inv a -> heap_inv b)) with (D := fun _ => True); auto.
  - intros. now apply load_part_inv.
  - apply Forall_forall. auto.
Qed.
Lemma repeatable_inv : forall w n ps, repeatable (Part w n ps) ->
  (forall c m, w = Some (c, m) -> ~ In (c, m) non_idempotent) /\ Forall repeatable ps.
Proof. intros w n ps H. inversion H; subst. split; auto. now apply Forall_forall. Qed.
Lemma load_part_grows : forall p h i, repeatable p -> grows once_attrs h (fst (load_part h i p)).
Proof.
  intros p h i H.
  apply load_keeps with (Q := fun w => forall c m, w = Some (c, m) -> ~ In (c, m) non_idempotent) (D := repeatable); auto.
  - apply grows_refl.
  - apply grows_trans.
  - intros. now apply call_grows.
  - apply repeatable_inv.
Qed.
Lemma load_parts_grows : forall ps h i, Forall repeatable ps -> grows once_attrs h (fst (load_parts h i ps)).
Proof.
  intros ps h i H. apply load_parts_keeps with (D := repeatable); auto.
  - apply grows_refl.
  - apply grows_trans.
  - intros. now apply load_part_grows.
Qed.

Definition again (p : part) : Prop := forall h i h1 u h', repeatable p -> good h ->
  load_part h i p = (h1, Ok u) -> good h' -> grows once_attrs h1 h' ->
  exists h2, load_part h' i p = (h2, Ok tt) /\ untouched h' h2.

Lemma again_parts : forall ps, Forall again ps -> forall h i h1 u h', Forall repeatable ps -> good h ->
  load_parts h i ps = (h1, Ok u) -> good h' -> grows once_attrs h1 h' ->
  exists h2, load_parts h' i ps = (h2, Ok tt) /\ untouched h' h2.
Proof.
  intros ps H. induction H as [|p ps Hp H IH]; intros h i h1 u h' Hr Hg Hl Hg' Hgr; cbn [load_parts] in *.
  - exists h'. split; auto. apply untouched_refl.
  - inversion Hr as [|? ? Hrp Hrps]; subst.
    pose proof (load_part_inv p h i (proj1 Hg)) as Hia. pose proof (load_part_grows p h i Hrp) as Hga.
    destruct (load_part h i p) as [ha [ua|e]] eqn:Ea; [|discriminate]. cbn [fst] in *.
    pose proof (good_grows _ _ _ Hg Hia Hga) as Gha.
    pose proof (load_parts_grows ps ha i Hrps) as Hgb. rewrite Hl in Hgb. cbn [fst] in Hgb.
    destruct (Hp h i ha ua h' Hrp Hg Ea Hg' (grows_trans _ _ _ _ Hgb Hgr)) as [h2 [L2 U2]].
    rewrite L2.
    pose proof (load_part_inv p h' i (proj1 Hg')) as Hi2. rewrite L2 in Hi2. cbn [fst] in Hi2.
    pose proof (untouched_grows once_attrs _ _ U2) as G2.
    destruct (IH ha i h1 u h2 Hrps Gha Hl (good_grows _ _ _ Hg' Hi2 G2) (grows_trans _ _ _ _ Hgr G2)) as [h3 [L3 U3]].
    exists h3. split; auto. eapply untouched_trans; eauto.
Qed.

Lemma again_part : forall p, again p.
Proof.
  induction p as [w n ps IH] using part_ind'. intros h i h1 u h' Hr Hg Hl Hg' Hgr.
  destruct (repeatable_inv _ _ _ Hr) as [Hw Hps]. rewrite load_part_eq in *.
  pose proof (call_inv h i w n (proj1 Hg)) as Hia. pose proof (call_grows h i w n Hw) as Hga.
  destruct (call h i w n) as [ha [[j|]|e]] eqn:Ea; try discriminate. cbn [fst] in *.
  pose proof (good_grows _ _ _ Hg Hia Hga) as Gha.
  pose proof (load_parts_grows ps ha j Hps) as Hgb. rewrite Hl in Hgb. cbn [fst] in Hgb.
  destruct (call_again h i w n ha j h' Hg Hw Ea Hg' (grows_trans _ _ _ _ Hgb Hgr)) as [h2 [L2 U2]].
  rewrite L2.
  pose proof (call_inv h' i w n (proj1 Hg')) as Hi2. rewrite L2 in Hi2. cbn [fst] in Hi2.
  pose proof (untouched_grows once_attrs _ _ U2) as G2.
  destruct (again_parts ps IH ha j h1 u h2 Hps Gha Hl (good_grows _ _ _ Hg' Hi2 G2) (grows_trans _ _ _ _ Hgr G2)) as [h3 [L3 U3]].
  exists h3. split; auto. eapply untouched_trans; eauto.
Qed.
