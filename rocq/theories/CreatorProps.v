From Coq Require Import String Ascii List Bool Arith Lia.
From Verif Require Import PyBase PyBaseFacts ClassTable Collection SpecCollection CollectionFacts CollProps
  ObjHeap SpecHeap HeapFacts Creators CreatorFacts SpecCreators SpecCreate.
Import ListNotations.
Open Scope string_scope.
Open Scope list_scope.
Local Opaque isinst.

Definition pair_eqb (a b : string * string) : bool := (String.eqb (fst a) (fst b) && String.eqb (snd a) (snd b))%bool.
Definition pmem (a : string * string) (l : list (string * string)) : bool := existsb (pair_eqb a) l.
Lemma pair_eqb_eq : forall a b, pair_eqb a b = true <-> a = b.
Proof.
  intros [a1 a2] [b1 b2]. unfold pair_eqb. simpl. rewrite andb_true_iff, !String.eqb_eq. split.
  - intros [-> ->]; auto.
  - intro H; inversion H; auto.
Qed.
Lemma pmem_In : forall a l, pmem a l = true <-> In a l.
Proof.
  intros a l. unfold pmem. rewrite existsb_exists. split.
  - intros [x [H1 H2]]. apply pair_eqb_eq in H2. now subst.
  - intro H. exists a. split; auto. now apply pair_eqb_eq.
Qed.

(** ** C08 *)
Lemma c08_table : forallb (fun r => Bool.eqb (idem_shape (snd r)) (negb (pmem (fst r) non_idempotent))) creators = true.
Proof. vm_compute. reflexivity. Qed.

Lemma c08_idem : forall c m k os i n h1 r, In (c, m, k) creators -> ~ In (c, m) non_idempotent ->
  create (hrun os) i k n = (h1, r) ->
  exists h2, create h1 i k n = (h2, r) /\ forall j, j < List.length h1 -> nth_error h2 j = nth_error h1 j.
Proof.
  intros c m k os i n h1 r Hin Hno H. pose proof c08_table as T. rewrite forallb_forall in T.
  specialize (T _ Hin). cbn [fst snd] in T. apply Bool.eqb_prop in T.
  eapply create_idem; eauto.
  - apply hrun_inv.
  - rewrite T. apply negb_true_iff. apply not_true_is_false. intro Hp. apply Hno. now apply pmem_In.
Qed.

Definition onat_eqb (a b : option nat) : bool :=
  match a, b with Some x, Some y => Nat.eqb x y | None, None => true | _, _ => false end.
Definition res_is (r : res (option nat)) (x : nat) : bool :=
  match r with Ok (Some y) => Nat.eqb y x | _ => false end.
(** both calls succeed and the second is seen in the result, a child list or an attribute *)
Definition second_shows (d : string) (k : creator) : bool :=
  let h := hrun (base_ops d) in
  let (h1, r1) := create h 2 k "x" in
  let (h2, r2) := create h1 2 k "x" in
  (String.eqb (cls_of h 2) d &&
  match r1, nth_error h1 2, nth_error h2 2 with
  | Ok (Some x), Some a, Some b =>
      negb (res_is r2 x)
      || match k_list k with Some l => negb (Nat.eqb (List.length (node_list a l)) (List.length (node_list b l))) | None => false end
      || match k_attr k with Some t => negb (onat_eqb (dget (nattrs a) t) (dget (nattrs b) t)) | None => false end
  | _, _, _ => false
  end)%bool.

Lemma c08_bad_table : forallb (fun r => implb (pmem (fst r) non_idempotent) (second_shows (fst (fst r)) (snd r))) creators = true.
Proof. vm_compute. reflexivity. Qed.

Lemma onat_refl : forall a, onat_eqb a a = true.
Proof. intros [a|]; simpl; auto. apply Nat.eqb_refl. Qed.

Lemma c08_refuted : forall c m k, In (c, m, k) creators -> In (c, m) non_idempotent ->
  exists os i n h1 x h2 r2, cls_of (hrun os) i = c /\ create (hrun os) i k n = (h1, Ok (Some x)) /\ create h1 i k n = (h2, r2) /\
    (r2 <> Ok (Some x) \/ nth_error h2 i <> nth_error h1 i).
Proof.
  intros c m k Hin Hm. pose proof c08_bad_table as T. rewrite forallb_forall in T.
  specialize (T _ Hin). cbn [fst snd] in T.
  apply pmem_In in Hm. rewrite Hm in T. cbn [implb] in T. unfold second_shows in T.
  exists (base_ops c), 2, "x".
  destruct (create (hrun (base_ops c)) 2 k "x") as [h1 r1] eqn:E1.
  destruct (create h1 2 k "x") as [h2 r2] eqn:E2. apply andb_prop in T as [T0 T]. apply String.eqb_eq in T0.
  destruct r1 as [[x|]|]; try discriminate. destruct (nth_error h1 2) as [a|] eqn:Ea; [|discriminate].
  destruct (nth_error h2 2) as [b|] eqn:Eb; [|discriminate].
  exists h1, x, h2, r2. split; [exact T0|]. split; [reflexivity|]. split; [exact E2|].
  apply orb_prop in T as [T|T]; [apply orb_prop in T as [T|T]|].
  - left. intro C. subst r2. simpl in T. now rewrite Nat.eqb_refl in T.
  - right. intro C. rewrite Ea, Eb in C. inversion C; subst b. destruct (k_list k); [|discriminate].
    now rewrite Nat.eqb_refl in T.
  - right. intro C. rewrite Ea, Eb in C. inversion C; subst b. destruct (k_attr k); [|discriminate].
    now rewrite onat_refl in T.
Qed.

(** ** C09 *)
(** isinst by enumeration of the class table *)
Definition anc_table : list (string * list string) := map (fun p => (fst p, ancestors 20 (fst p))) class_bases.
Definition has (c : string) (l : list string) : bool := existsb (String.eqb c) l.

Local Transparent isinst.
Lemma isinst_has : forall d c, isinst d c = has c (ancestors 20 d).
Proof. reflexivity. Qed.

Lemma isinst_known : forall d c, isinst d c = true -> d = c \/ In (d, ancestors 20 d) anc_table.
Proof.
  intros d c H. rewrite isinst_has in H.
  destruct (find (fun p => String.eqb d (fst p)) class_bases) as [[d' bs]|] eqn:E.
  - right. apply find_some in E as [E1 E2]. simpl in E2. apply String.eqb_eq in E2. subst d'.
    unfold anc_table. apply in_map_iff. exists (d, bs). auto.
  - left. assert (B : bases d = []) by (unfold bases; now rewrite E).
    change (ancestors 20 d) with (d :: flat_map (ancestors 19) (bases d)) in H. rewrite B in H. simpl in H.
    rewrite orb_false_r in H. now apply String.eqb_eq in H.
Qed.
Local Opaque isinst ancestors anc_table.

Lemma isinst_enum : forall (P : string -> list string -> bool) c,
  forallb (fun p => if has c (snd p) then P (fst p) (snd p) else true) anc_table = true ->
  has c (map fst anc_table) = true ->
  forall d, isinst d c = true -> P d (ancestors 20 d) = true.
Proof.
  intros P c H Hc d Hd. rewrite forallb_forall in H.
  assert (K : In (d, ancestors 20 d) anc_table).
  { destruct (isinst_known d c Hd) as [->|K]; auto.
    unfold has in Hc. apply existsb_exists in Hc as [x [H1 H2]]. apply String.eqb_eq in H2. subst x.
    apply in_map_iff in H1 as [[d' a] [H3 H4]]. simpl in H3. subst d'.
    Local Transparent anc_table. unfold anc_table in *. apply in_map_iff in H4 as [q [H5 H6]].
    inversion H5; subst. apply in_map_iff. eauto. }
  specialize (H _ K). simpl in H. rewrite <- isinst_has, Hd in H. exact H.
Qed.
Local Opaque anc_table.

(** containers of methods that call addElement have a collection *)
Definition collectable_class (d : string) (ad : list string) : bool :=
  (String.eqb d CPackage || (has "Identifiable" ad && negb (String.eqb d "SignalServiceTranslationElementProps")))%bool.
Definition row := (string * string * creator)%type.
Definition row_collectable (tbl : list (string * list string)) (names : list string) (r : row) : bool :=
  let '(c, m, k) := r in
  if k_add k then (forallb (fun p => if has c (snd p) then collectable_class (fst p) (snd p) else true) tbl && has c names)%bool else true.
Lemma rows_collectable : (let t := anc_table in let ns := map fst t in forallb (row_collectable t ns) creators) = true.
Proof. vm_compute. reflexivity. Qed.

Lemma container_collectable : forall c m k i nd, In (c, m, k) creators -> k_add k = true ->
  isinst (ncls nd) c = true -> is_collectable i nd = true.
Proof.
  intros c m k i nd Hin Ha Hc. pose proof rows_collectable as T. cbv zeta in T. rewrite forallb_forall in T.
  specialize (T _ Hin). unfold row_collectable in T. rewrite Ha in T.
  apply andb_prop in T as [T1 T2].
  pose proof (isinst_enum collectable_class c T1 T2 (ncls nd) Hc) as G.
  unfold collectable_class in G. unfold is_collectable, is_pkg_holder. rewrite isinst_has.
  destruct (String.eqb (ncls nd) CPackage); [now rewrite orb_true_r|]. simpl in G. rewrite G. now rewrite orb_true_r.
Qed.

(** *** typed methods *)
Definition typed_shape (k : creator) : bool :=
  match k_guard k, k_add k, k_ret k with
  | GTyped, true, RGetTyped => true
  | GAlways, true, RGetTyped => true
  | GAlways, _, RNew => match k_list k, k_attr k with None, None => false | _, _ => true end
  | GAlways, _, RAttr a => match k_attr k with Some a' => String.eqb a a' | None => false end
  | _, _, _ => false
  end.

Lemma typed_table : forallb (fun r => implb (pmem (fst r) typed_methods) (typed_shape (snd r))) creators = true.
Proof. vm_compute. reflexivity. Qed.

Lemma get_typed_good : forall h i n t nd, heap_inv h -> nth_error h i = Some nd -> is_collectable i nd = true ->
  coll_exists (cls_of h) (ncoll nd) n (Some t) = true -> good_result h i t n (get_element h i n (Some t)).
Proof.
  intros h i n t nd Hi E Hc Hx. unfold get_element. rewrite E, Hc.
  assert (G : good_result h i t n (coll_get (cls_of h) (ncoll nd) n (Some t))).
  { rewrite (get_typed (name_of h)) by (eapply hi_coll; eauto).
    rewrite (exists_typed (name_of h)) in Hx by (eapply hi_coll; eauto).
    destruct (find _ _) as [x|] eqn:Ef.
    - apply find_some in Ef as [F1 F2]. unfold answers in F2. apply andb_prop in F2 as [F2 F3].
      apply String.eqb_eq in F2. exists x. repeat split; auto. left. exists nd. auto.
    - apply existsb_exists in Hx as [x [X1 X2]]. pose proof (find_none _ _ Ef x X1). congruence. }
  destruct (is_pkg_holder i nd); auto. destruct (String.eqb_spec t CPackage) as [->|]; auto.
  destruct (dget (npkgs nd) n) as [p|] eqn:Ed; auto.
  destruct (hi_pkg _ Hi _ _ _ _ E Ed) as [pd [A [B [C [D [F _]]]]]].
  exists p. repeat split; auto.
  - unfold cls_of. rewrite A, F. apply isinst_refl.
  - unfold name_of. now rewrite A.
  - left. exists nd. split; auto. right. apply dget_In in Ed. apply in_map_iff. exists (n, p). auto.
Qed.

Lemma created_exists : forall h i k n nd, heap_inv h -> nth_error h i = Some nd -> k_add k = true ->
  is_collectable i nd = true -> (guard_holds h nd k n = true \/ coll_exists (cls_of h) (ncoll nd) n (Some (k_class k)) = true) ->
  forall h1 r, create h i k n = (h1, r) -> exists nd1, nth_error h1 i = Some nd1 /\ same_id nd nd1 /\
    coll_exists (cls_of h1) (ncoll nd1) n (Some (k_class k)) = true.
Proof.
  intros h i k n nd Hi E Ha Hc Hg h1 r H.
  assert (Ec : (k_add k && negb (is_collectable i nd))%bool = false) by (rewrite Hc; apply andb_false_r).
  destruct (guard_holds h nd k n) eqn:Eg.
  - destruct (create_fresh h i k n nd Hi E Ec Eg) as [ha [hb [Ea [Eb [Hcr [Hib [_ [Hnd [Hnm [Hty [_ [Hn1 Hc1]]]]]]]]]]]].
    rewrite Hcr in H. inversion H; subst h1. eexists. split; [exact Hnd|]. split; [apply register_id|].
    rewrite register_coll, Ha.
    assert (Ca : coll_inv (name_of ha) (cls_of ha) (ncoll nd)).
    { rewrite Ea. eapply (hi_coll _ (heap_inv_alloc h (k_class k) n i Hi (nth_some_lt _ _ _ _ E))).
      rewrite nth_error_app1; eauto. eapply nth_some_lt; eauto. }
    pose proof (add_exists _ _ _ (List.length h) Ca) as X. rewrite <- Hnm, <- Hty, Hn1, Hc1 in X.
    rewrite (coll_exists_ext (cls_of hb) (cls_of ha)); [exact X|]. intro; apply Hty.
  - unfold create in H. rewrite E, Ec, Eg in H. inversion H; subst h1. exists nd. repeat split; auto.
    destruct Hg as [Hg|Hg]; [discriminate|auto].
Qed.

Lemma c09_typed : forall c m k os i n h1 r, In (c, m, k) creators -> In (c, m) typed_methods ->
  i < List.length (hrun os) -> isinst (cls_of (hrun os) i) c = true ->
  create (hrun os) i k n = (h1, r) -> good_result h1 i (k_class k) n r.
Proof.
  intros c m k os i n h1 r Hin Hm Hl Hc H.
  pose proof typed_table as T. rewrite forallb_forall in T. specialize (T _ Hin). cbn [fst snd] in T.
  apply pmem_In in Hm. rewrite Hm in T. cbn [implb] in T.
  pose proof (hrun_inv os) as Hi. set (h := hrun os) in *. clearbody h.
  destruct (nth_error h i) as [nd|] eqn:E; [|apply nth_error_None in E; lia].
  assert (Hcl : isinst (ncls nd) c = true) by (unfold cls_of in Hc; now rewrite E in Hc).
  assert (Hcol : k_add k = true -> is_collectable i nd = true) by (intro; eapply container_collectable; eauto).
  assert (Hi1 : heap_inv h1) by (pose proof (create_inv h i k n Hi) as X; rewrite H in X; exact X).
  assert (Lookup : k_add k = true -> k_ret k = RGetTyped ->
      (guard_holds h nd k n = true \/ coll_exists (cls_of h) (ncoll nd) n (Some (k_class k)) = true) ->
      good_result h1 i (k_class k) n r).
  { intros Ha Hr Hg. destruct (created_exists h i k n nd Hi E Ha (Hcol Ha) Hg h1 r H) as [nd1 [E1 [S1 X1]]].
    assert (R : r = get_element h1 i n (Some (k_class k))).
    { unfold create in H. rewrite E in H. destruct (k_add k && _)%bool eqn:Ec.
      - rewrite (Hcol Ha), andb_false_r in Ec. discriminate.
      - destruct (guard_holds h nd k n); inversion H; subst; unfold creator_result; now rewrite Hr. }
    rewrite R. eapply get_typed_good; eauto. rewrite <- (is_collectable_id i nd nd1 S1). auto. }
  assert (Fresh : k_guard k = GAlways -> exists nd1, nth_error h1 i = Some nd1 /\ 
     r = creator_result h1 i k n (Some (List.length h)) /\ name_of h1 (List.length h) = n /\
     cls_of h1 (List.length h) = k_class k /\ (forall l, k_list k = Some l -> In (List.length h) (node_list nd1 l)) /\
     (forall a, k_attr k = Some a -> dget (nattrs nd1) a = Some (List.length h))).
  { intro Gk. assert (Ec : (k_add k && negb (is_collectable i nd))%bool = false).
    { destruct (k_add k) eqn:Ha; auto. simpl. now rewrite Hcol. }
    assert (Eg : guard_holds h nd k n = true) by (unfold guard_holds; now rewrite Gk).
    destruct (create_fresh h i k n nd Hi E Ec Eg) as [ha [hb [Ea [Eb [Hcr [Hib [_ [Hnd [Hnm [Hty [_ [Hn1 Hc1]]]]]]]]]]]].
    rewrite Hcr in H. inversion H; subst h1 r. eexists. split; [exact Hnd|]. split; [reflexivity|].
    split; [exact Hn1|]. split; [exact Hc1|]. split.
    - intros l Hk. rewrite register_node_list by assumption. apply in_or_app. right. now left.
    - intros a Hk. now apply register_attr. }
  unfold typed_shape in T. destruct (k_guard k) eqn:Gk; try discriminate.
  - destruct (k_add k) eqn:Ha; [|discriminate]. destruct (k_ret k) eqn:Rk; try discriminate.
    apply Lookup; auto. unfold guard_holds. rewrite Gk.
    destruct (coll_exists (cls_of h) (ncoll nd) n (Some (k_class k))); auto.
  - destruct (Fresh eq_refl) as [nd1 [E1 [R [N [C [L A]]]]]].
    destruct (k_ret k) eqn:Rk.
    + destruct (k_add k); discriminate.
    + destruct (k_add k) eqn:Ha; [|discriminate]. apply Lookup; auto. left. unfold guard_holds. now rewrite Gk.
    + exists (List.length h). split; [rewrite R; unfold creator_result; now rewrite Rk|].
      rewrite C, N. split; [apply isinst_refl|]. split; auto. right. exists nd1. split; auto.
      destruct (k_list k) as [l|] eqn:Lk; [left; eauto|]. destruct (k_attr k) as [a|] eqn:Ak; [right; eauto|].
      destruct (k_add k); discriminate.
    + destruct (k_attr k) as [a'|] eqn:Ak; [|destruct (k_add k); discriminate].
      assert (a = a') by (apply String.eqb_eq; destruct (k_add k); exact T). subst a'.
      exists (List.length h). split; [rewrite R; unfold creator_result; rewrite Rk, E1; now rewrite A|].
      rewrite C, N. split; [apply isinst_refl|]. split; auto. right. exists nd1. split; auto. right. eauto.
Qed.

(** *** methods that rely on the container's other methods *)
Lemma built_hrun : forall h, built h -> exists os, h = hrun os.
Proof.
  induction 1 as [|h o _ [os ->] _]; [now exists []|].
  exists (os ++ [o]). unfold hrun. now rewrite fold_left_app.
Qed.
Lemma built_inv : forall h, built h -> heap_inv h.
Proof. intros h H. destruct (built_hrun h H) as [os ->]. apply hrun_inv. Qed.

Record origin (h : heap) : Prop := {
  or_elem : forall i nd e, nth_error h i = Some nd -> In e (elems (ncoll nd)) ->
    exists c m k, In (c, m, k) creators /\ isinst (ncls nd) c = true /\ k_add k = true /\ cls_of h e = k_class k;
  or_list : forall i nd l e, nth_error h i = Some nd -> In e (node_list nd l) ->
    exists c m k, In (c, m, k) creators /\ isinst (ncls nd) c = true /\ k_list k = Some l /\ cls_of h e = k_class k;
  or_names : forall i nd n, nth_error h i = Some nd -> dmem (mapp (ncoll nd)) n = true ->
    exists e, In e (elems (ncoll nd)) /\ name_of h e = n;
  or_root : cls_of h root = CDocument }.

Lemma origin_fresh : origin fresh_doc.
Proof.
  constructor.
  - intros [|[|i]] nd e H He; try discriminate. inversion H; subst. destruct He.
  - intros [|[|i]] nd l e H He; try discriminate. inversion H; subst. destruct He.
  - intros [|[|i]] nd n H He; try discriminate. inversion H; subst. discriminate.
  - reflexivity.
Qed.

Lemma nth_alloc_cases : forall (h : heap) new j x, nth_error (h ++ [new]) j = Some x ->
    (j < List.length h /\ nth_error h j = Some x) \/ (j = List.length h /\ x = new).
Proof.
  intros h new j x Hj. destruct (Nat.lt_ge_cases j (List.length h)) as [Hl|Hge].
  - rewrite nth_error_app1 in Hj by assumption. auto.
  - assert (j < List.length (h ++ [new])) by (eapply nth_some_lt; eauto).
    rewrite app_length in H. simpl in H. assert (j = List.length h) by lia. subst.
    rewrite nth_error_app2, Nat.sub_diag in Hj by lia. right. split; auto. simpl in Hj. congruence.
Qed.

Lemma origin_alloc : forall h cls n i, heap_inv h -> origin h -> origin (h ++ [new_node cls n i]).
Proof.
  intros h cls n i Hi [O1 O2 O3 O4]. constructor.
  - intros j nd e Hj He. apply nth_alloc_cases in Hj as [[Hl Hj]|[-> ->]]; [|destruct He].
    destruct (O1 _ _ _ Hj He) as [c [m [k [A [B [C D]]]]]]. exists c, m, k. repeat split; auto.
    rewrite cls_of_app; auto. destruct (hi_elem _ Hi _ _ _ Hj He) as [ed [X _]]. eapply nth_some_lt; eauto.
  - intros j nd l e Hj He. apply nth_alloc_cases in Hj as [[Hl Hj]|[-> ->]]; [|destruct He].
    destruct (O2 _ _ _ _ Hj He) as [c [m [k [A [B [C D]]]]]]. exists c, m, k. repeat split; auto.
    rewrite cls_of_app; auto. eapply hi_lists; eauto.
  - intros j nd m Hj He. apply nth_alloc_cases in Hj as [[Hl Hj]|[-> ->]]; [|discriminate].
    destruct (O3 _ _ _ Hj He) as [e [A B]]. exists e. split; auto. rewrite name_of_app; auto.
    destruct (hi_elem _ Hi _ _ _ Hj A) as [ed [X _]]. eapply nth_some_lt; eauto.
  - rewrite cls_of_app; auto. apply (hi_root _ Hi).
Qed.

Lemma origin_upd : forall h i nd nd', origin h -> nth_error h i = Some nd -> same_id nd nd' ->
  (forall e, In e (elems (ncoll nd')) -> In e (elems (ncoll nd)) \/
    exists c m k, In (c, m, k) creators /\ isinst (ncls nd) c = true /\ k_add k = true /\ cls_of h e = k_class k) ->
  (forall l e, In e (node_list nd' l) -> In e (node_list nd l) \/
    exists c m k, In (c, m, k) creators /\ isinst (ncls nd) c = true /\ k_list k = Some l /\ cls_of h e = k_class k) ->
  (forall n, dmem (mapp (ncoll nd')) n = true -> exists e, In e (elems (ncoll nd')) /\ name_of h e = n) ->
  origin (upd h i nd').
Proof.
  intros h i nd nd' [O1 O2 O3 O4] E Hs He Hl Hn.
  assert (Hlook : forall j x, nth_error (upd h i nd') j = Some x ->
    (j = i /\ x = nd') \/ (j <> i /\ nth_error h j = Some x)).
  { intros j x Hj. destruct (Nat.eq_dec i j) as [->|Hne].
    - rewrite upd_same in Hj by (eapply nth_some_lt; eauto). left. split; congruence.
    - rewrite upd_other in Hj by assumption. right. auto. }
  assert (N : forall j, name_of (upd h i nd') j = name_of h j) by (intro; eapply name_of_upd; eauto).
  assert (C : forall j, cls_of (upd h i nd') j = cls_of h j) by (intro; eapply cls_of_upd; eauto).
  constructor.
  - intros j x e Hj Hx. rewrite C. destruct (Hlook _ _ Hj) as [[-> ->]|[Hne Hj']]; [|eauto].
    destruct Hs as [<- _]. destruct (He e Hx) as [Y|Y]; eauto.
  - intros j x l e Hj Hx. rewrite C. destruct (Hlook _ _ Hj) as [[-> ->]|[Hne Hj']]; [|eauto].
    destruct Hs as [<- _]. destruct (Hl l e Hx) as [Y|Y]; eauto.
  - intros j x n Hj Hx. destruct (Hlook _ _ Hj) as [[-> ->]|[Hne Hj']].
    + destruct (Hn n Hx) as [e [A B]]. exists e. now rewrite N.
    + destruct (O3 _ _ _ Hj' Hx) as [e [A B]]. exists e. now rewrite N.
  - rewrite C. exact O4.
Qed.

Lemma register_list_at : forall h nd k e l x, In x (node_list (register h nd k e) l) ->
  In x (node_list nd l) \/ (x = e /\ k_list k = Some l).
Proof.
  intros h nd k e l x. unfold register.
  assert (G : forall nd', nlists nd' = nlists nd -> In x (node_list nd' l) -> In x (node_list nd l) \/ (x = e /\ k_list k = Some l))
    by (intros nd' E; unfold node_list; rewrite E; auto).
  assert (G2 : forall nd' l', k_list k = Some l' -> nlists nd' = dset (nlists nd) l' (node_list nd l' ++ [e]) ->
    In x (node_list nd' l) -> In x (node_list nd l) \/ (x = e /\ k_list k = Some l)).
  { intros nd' l' Hk E. unfold node_list at 1. rewrite E. destruct (String.eqb_spec l l') as [->|Hne].
    - rewrite dget_dset_same. intro H. apply in_app_or in H as [H|[H|[]]]; auto.
    - rewrite dget_dset_other by auto. unfold node_list. auto. }
  destruct (k_list k) as [l'|] eqn:Lk; destruct (k_add k), (k_attr k); cbv zeta;
    solve [apply G; reflexivity | apply (G2 _ l'); reflexivity].
Qed.

Lemma origin_step : forall h o, heap_inv h -> origin h -> creation_call h o -> origin (hstep h o).
Proof.
  intros h o Hi Ho Hc. destruct o as [i n|i k n|i n t]; cbn [creation_call hstep] in *; [| |contradiction].
  - unfold create_package. destruct (nth_error h i) as [nd|] eqn:E; auto.
    destruct (is_pkg_holder i nd) eqn:Eh; auto. destruct (dget (npkgs nd) n) eqn:Ed; auto.
    cbn [fst]. pose proof (nth_some_lt _ _ _ _ E) as Hlt. rewrite upd_app by assumption.
    assert (E1 : nth_error (h ++ [new_node CPackage n i]) i = Some nd) by now rewrite nth_error_app1.
    pose proof (origin_alloc h CPackage n i Hi Ho) as Ho1.
    eapply origin_upd; eauto.
    + repeat split.
    + intros m Hm. destruct (or_names _ Ho1 i nd m E1 Hm) as [e X]. eauto.
  - destruct Hc as [c [m [Hin Hcl]]]. unfold create. destruct (nth_error h i) as [nd|] eqn:E; auto.
    destruct (k_add k && negb (is_collectable i nd))%bool eqn:Ec; auto.
    destruct (guard_holds h nd k n) eqn:Eg; auto. cbn [fst].
    pose proof (nth_some_lt _ _ _ _ E) as Hlt.
    pose proof (origin_alloc h (k_class k) n i Hi Ho) as Ho1.
    pose proof (heap_inv_alloc h (k_class k) n i Hi Hlt) as Hi1.
    set (h1 := h ++ [new_node (k_class k) n i]) in *.
    assert (E1 : nth_error h1 i = Some nd) by (unfold h1; now rewrite nth_error_app1).
    assert (Hcl' : isinst (ncls nd) c = true) by (unfold cls_of in Hcl; now rewrite E in Hcl).
    assert (Hnew : cls_of h1 (List.length h) = k_class k) by (unfold h1; apply cls_of_new).
    eapply origin_upd; eauto.
    + apply register_id.
    + intros e He. rewrite register_coll in He. destruct (k_add k) eqn:Ha; auto.
      apply coll_add_In in He as [He| ->]; auto. right. exists c, m, k. auto.
    + intros l e He. apply register_list_at in He as [He|[-> He]]; auto. right. exists c, m, k. auto.
    + intros q Hq. rewrite register_coll in *. destruct (k_add k) eqn:Ha.
      * rewrite add_dom in Hq by (eapply hi_coll; eauto).
        unfold coll_add. destruct (coll_exists (cls_of h1) (ncoll nd) (name_of h1 (List.length h)) (Some (cls_of h1 (List.length h)))) eqn:Ex.
        -- apply (or_names _ Ho1 i nd q E1). apply orb_prop in Hq as [Hq|Hq]; auto.
           apply String.eqb_eq in Hq. subst q. apply typed_untyped in Ex. exact Ex.
        -- cbn [elems]. apply orb_prop in Hq as [Hq|Hq].
           ++ destruct (or_names _ Ho1 i nd q E1 Hq) as [e [X Y]]. exists e. split; auto. apply in_or_app. auto.
           ++ apply String.eqb_eq in Hq. subst q. exists (List.length h). split; auto. apply in_or_app. right. now left.
      * destruct (or_names _ Ho1 i nd q E1 Hq) as [e X]. eauto.
Qed.

Lemma built_origin : forall h, built h -> origin h.
Proof.
  induction 1 as [|h o Hb IH Hc]; [apply origin_fresh|].
  apply origin_step; auto. now apply built_inv.
Qed.

Definition sole_shape (k : creator) : bool :=
  match k_guard k, k_ret k with
  | (GUntyped | GAlways), (RGet | RGetTyped) => k_add k
  | GScan l, RNew => match k_list k with Some l' => (negb (k_add k) && String.eqb l l')%bool | None => false end
  | _, _ => false
  end.
(** everything that can get into the same place of a container of class [d] has the class *)
Definition rivals_ok (k : creator) (d : string) (ad : list string) : bool :=
  (negb (String.eqb d CPackage) && negb (String.eqb d CDocument) &&
   forallb (fun r' => let '(c', _, k') := r' in
      if (has c' ad && match k_guard k with
                       | GScan l => match k_list k' with Some l' => String.eqb l' l | None => false end
                       | _ => k_add k' end)%bool
      then has (k_class k) (ancestors 20 (k_class k')) else true) creators)%bool.
Definition row_sole (tbl : list (string * list string)) (names : list string) (r : row) : bool :=
  let '(c, m, k) := r in
  if pmem (c, m) sole_methods then
    (sole_shape k && forallb (fun p => if has c (snd p) then rivals_ok k (fst p) (snd p) else true) tbl && has c names)%bool
  else true.
Lemma rows_sole : (let t := anc_table in let ns := map fst t in forallb (row_sole t ns) creators) = true.
Proof. vm_compute. reflexivity. Qed.

Lemma c09_sole : forall c m k h i n h1 r, In (c, m, k) creators -> In (c, m) sole_methods ->
  built h -> i < List.length h -> isinst (cls_of h i) c = true ->
  create h i k n = (h1, r) -> good_result h1 i (k_class k) n r.
Proof.
  intros c m k h i n h1 r Hin Hm Hb Hl Hc H.
  pose proof rows_sole as T. cbv zeta in T. rewrite forallb_forall in T. specialize (T _ Hin). unfold row_sole in T.
  apply pmem_In in Hm. rewrite Hm in T. apply andb_prop in T as [T T3]. apply andb_prop in T as [T1 T2].
  assert (Hb1 : built h1).
  { assert (X : h1 = hstep h (HCreate i k n)) by (simpl; now rewrite H). rewrite X. constructor; [exact Hb|]. exists c, m. auto. }
  pose proof (built_inv _ Hb) as Hi. pose proof (built_inv _ Hb1) as Hi1.
  pose proof (built_origin _ Hb) as Ho. pose proof (built_origin _ Hb1) as Ho1.
  destruct (nth_error h i) as [nd|] eqn:E; [|apply nth_error_None in E; lia].
  assert (Hcl : isinst (ncls nd) c = true) by (unfold cls_of in Hc; now rewrite E in Hc).
  assert (Hcol : k_add k = true -> is_collectable i nd = true) by (intro; eapply container_collectable; eauto).
  pose proof (isinst_enum (rivals_ok k) c T2 T3 (ncls nd) Hcl) as G.
  unfold rivals_ok in G. apply andb_prop in G as [G G3]. apply andb_prop in G as [G1 G2]. rewrite forallb_forall in G3.
  assert (Hroot : i <> root).
  { intros ->. pose proof (or_root _ Ho) as X. unfold cls_of in X. rewrite E in X. rewrite X in G2. discriminate. }
  assert (Ec : (k_add k && negb (is_collectable i nd))%bool = false).
  { destruct (k_add k) eqn:Ha; auto. simpl. now rewrite Hcol. }
  assert (Shape : exists nd1 new, nth_error h1 i = Some nd1 /\ same_id nd nd1 /\ r = creator_result h1 i k n new /\
     (guard_holds h nd k n = true -> new = Some (List.length h) /\ name_of h1 (List.length h) = n /\
         (forall l, k_list k = Some l -> In (List.length h) (node_list nd1 l)))
     /\ (guard_holds h nd k n = false -> h1 = h /\ nd1 = nd /\ new = None)).
  { destruct (guard_holds h nd k n) eqn:Eg.
    - destruct (create_fresh h i k n nd Hi E Ec Eg) as [ha [hb [Ea [Eb [Hcr [Hib [_ [Hnd [Hnm [Hty [_ [Hn1 Hc1]]]]]]]]]]]].
      rewrite Hcr in H. inversion H; subst h1 r. eexists. exists (Some (List.length h)).
      split; [exact Hnd|]. split; [apply register_id|]. split; [reflexivity|]. split; [|discriminate].
      intros _. repeat split; auto. intros l Hk. rewrite register_node_list by assumption. apply in_or_app. right. now left.
    - unfold create in H. rewrite E, Ec, Eg in H. inversion H; subst h1 r. exists nd, None.
      split; [exact E|]. split; [repeat split|]. split; [reflexivity|]. split; [discriminate|]. auto. }
  destruct Shape as [nd1 [new [E1 [S1 [R [SG SN]]]]]].
  assert (Hcl1 : isinst (ncls nd1) c = true) by (destruct S1 as [<- _]; auto).
  unfold sole_shape in T1.
  assert (Add : k_add k = true -> (k_guard k = GUntyped \/ k_guard k = GAlways) -> (k_ret k = RGet \/ k_ret k = RGetTyped) ->
     good_result h1 i (k_class k) n r).
  { intros Ha Hg Hr.
    assert (D : coll_exists (cls_of h1) (ncoll nd1) n None = true).
    { destruct (guard_holds h nd k n) eqn:Eg.
      - destruct (created_exists h i k n nd Hi E Ha (Hcol Ha) (or_introl Eg) h1 r H) as [nd2 [A [_ B]]].
        rewrite E1 in A. inversion A; subst. eapply typed_untyped; eauto.
      - destruct (SN eq_refl) as [-> [-> _]]. unfold guard_holds in Eg. destruct Hg as [Hg|Hg]; rewrite Hg in Eg; [|discriminate].
        now apply negb_false_iff in Eg. }
    destruct (or_names _ Ho1 i nd1 n E1 D) as [e [He Hn]].
    assert (Cls : forall x, In x (elems (ncoll nd1)) -> isinst (cls_of h1 x) (k_class k) = true).
    { intros x Hx. destruct (or_elem _ Ho1 _ _ _ E1 Hx) as [c' [m' [k' [A [B [C F]]]]]].
      specialize (G3 _ A). cbv beta iota in G3.
      assert (B' : has c' (ancestors 20 (ncls nd)) = true) by (rewrite <- isinst_has; destruct S1 as [-> _]; auto).
      rewrite B', C in G3. rewrite F, isinst_has.
      destruct Hg as [Hg|Hg]; rewrite Hg in G3; exact G3. }
    assert (Holder : is_pkg_holder i nd1 = false).
    { unfold is_pkg_holder. destruct (Nat.eqb_spec i root); [contradiction|]. destruct S1 as [<- _].
      simpl. now apply negb_true_iff in G1. }
    assert (Get : forall t, (t = None \/ t = Some (k_class k)) -> good_result h1 i (k_class k) n (get_element h1 i n t)).
    { intros t Ht. unfold get_element. rewrite E1, <- (is_collectable_id i nd nd1 S1), (Hcol Ha), Holder.
      assert (F : exists x, find (answers (name_of h1) (cls_of h1) n t) (elems (ncoll nd1)) = Some x).
      { destruct (find _ _) eqn:Ef; eauto. exfalso. pose proof (find_none _ _ Ef e He) as X. unfold answers in X.
        rewrite Hn, String.eqb_refl in X. destruct Ht as [-> | ->]; [discriminate|]. rewrite (Cls e He) in X. discriminate. }
      destruct F as [x F].
      assert (Q : coll_get (cls_of h1) (ncoll nd1) n t = Ok (Some x)).
      { destruct t as [t|].
        - rewrite (get_typed (name_of h1)) by (eapply hi_coll; eauto). now rewrite F.
        - rewrite (get_untyped (name_of h1)) by (eapply hi_coll; eauto). now rewrite F. }
      rewrite Q. apply find_some in F as [F1 F2]. unfold answers in F2. apply andb_prop in F2 as [F2 _].
      apply String.eqb_eq in F2. exists x. repeat split; auto. left. exists nd1. auto. }
    rewrite R. unfold creator_result. destruct Hr as [Hr|Hr]; rewrite Hr; apply Get; auto. }
  destruct (k_guard k) as [| | |a|l] eqn:Gk; try discriminate.
  - destruct (k_ret k); try discriminate; apply Add; auto.
  - destruct (k_ret k); try discriminate; apply Add; auto.
  - destruct (k_ret k) eqn:Rk; try discriminate. destruct (k_list k) as [l'|] eqn:Lk; [|discriminate].
    apply andb_prop in T1 as [_ T1]. apply String.eqb_eq in T1. subst l'.
    assert (Cls : forall x, In x (node_list nd1 l) -> isinst (cls_of h1 x) (k_class k) = true).
    { intros x Hx. destruct (or_list _ Ho1 _ _ _ _ E1 Hx) as [c' [m' [k' [A [B [C F]]]]]].
      specialize (G3 _ A). cbv beta iota in G3.
      assert (B' : has c' (ancestors 20 (ncls nd)) = true) by (rewrite <- isinst_has; destruct S1 as [-> _]; auto).
      rewrite B', C, String.eqb_refl in G3. rewrite F, isinst_has. exact G3. }
    rewrite R. unfold creator_result. rewrite Rk, Gk, E1. destruct (guard_holds h nd k n) eqn:Eg.
    + destruct (SG eq_refl) as [-> [N L]]. exists (List.length h). repeat split; auto.
      right. exists nd1. split; auto. left. exists l. auto.
    + destruct (SN eq_refl) as [-> [-> ->]]. unfold guard_holds in Eg. rewrite Gk in Eg. apply negb_false_iff in Eg.
      destruct (find _ _) as [x|] eqn:Ef.
      * apply find_some in Ef as [F1 F2]. apply String.eqb_eq in F2. exists x. repeat split; auto.
        right. exists nd. split; auto. left. exists l. auto.
      * apply existsb_exists in Eg as [x [X1 X2]]. pose proof (find_none _ _ Ef x X1) as X. simpl in X. congruence.
Qed.

(** *** methods that fail on a collision *)
Definition creator_of (p : string * string) : option creator :=
  option_map snd (find (fun r => pair_eqb p (fst r)) creators).
Definition collide_ops (w : string * (string * string) * string) : option (list hop) :=
  let '(d, p', n') := w in
  option_map (fun k' => base_ops d ++ [HCreate 2 k' n']) (creator_of p').
Definition collides (r : row) : bool :=
  let '(c, m, k) := r in
  match find (fun q => pair_eqb (c, m) (fst q)) colliding_methods with
  | None => true
  | Some (_, w) =>
      match collide_ops w with
      | None => false
      | Some os =>
          let h := hrun os in
          (isinst (cls_of h 2) c && isinst (cls_of h 2) (fst (snd (fst w))) &&
          let (h1, r) := create h 2 k "x" in
          match r with
          | Ok (Some x) => negb (isinst (cls_of h1 x) (k_class k) && String.eqb (name_of h1 x) "x")
          | _ => true
          end)%bool
      end
  end.
Lemma rows_collide : forallb collides creators = true.
Proof. vm_compute. reflexivity. Qed.

Lemma c09_refuted : forall c m k, In (c, m, k) creators -> In (c, m) (map fst colliding_methods) ->
  exists d c' m' k' n' h1 r, In (c', m', k') creators /\
    let h := hrun (base_ops d ++ [HCreate 2 k' n']) in
    isinst (cls_of h 2) c = true /\ isinst (cls_of h 2) c' = true /\
    create h 2 k "x" = (h1, r) /\ ~ good_result h1 2 (k_class k) "x" r.
Proof.
  intros c m k Hin Hm. pose proof rows_collide as T. rewrite forallb_forall in T. specialize (T _ Hin).
  unfold collides in T. destruct (find _ colliding_methods) as [[p [[d p'] n']]|] eqn:Ef.
  - apply find_some in Ef as [F1 F2]. cbn [fst] in F2. apply pair_eqb_eq in F2. subst p.
    unfold collide_ops in T. destruct (creator_of p') as [k'|] eqn:Ek; [|discriminate]. cbn [option_map] in T. cbv zeta in T.
    assert (In (p', k') creators).
    { unfold creator_of in Ek. destruct (find _ creators) as [[q k0]|] eqn:Eq; [|discriminate].
      simpl in Ek. inversion Ek; subst k0. apply find_some in Eq as [Q1 Q2]. cbn [fst] in Q2. apply pair_eqb_eq in Q2. now subst q. }
    destruct p' as [c' m']. cbn [fst snd] in T.
    destruct (create (hrun (base_ops d ++ [HCreate 2 k' n'])) 2 k "x") as [h1 r] eqn:Ec.
    apply andb_prop in T as [T T3]. apply andb_prop in T as [T1 T2].
    exists d, c', m', k', n', h1, r. split; auto. cbv zeta. repeat split; auto.
    intros [x [-> [X1 [X2 _]]]]. rewrite X1, X2, String.eqb_refl in T3. discriminate.
  - apply in_map_iff in Hm as [[p w] [H1 H2]]. simpl in H1. subst p.
    pose proof (find_none _ _ Ef _ H2) as X. cbn [fst] in X.
    assert (Y : pair_eqb (c, m) (c, m) = true) by now apply pair_eqb_eq. congruence.
Qed.

Lemma c09_cover : forall c m k, In (c, m, k) creators ->
  In (c, m) typed_methods \/ In (c, m) sole_methods \/ In (c, m) (map fst colliding_methods).
Proof.
  assert (T : forallb (fun r => pmem (fst r) typed_methods || pmem (fst r) sole_methods || pmem (fst r) (map fst colliding_methods))%bool creators = true)
    by (vm_compute; reflexivity).
  intros c m k H. rewrite forallb_forall in T. specialize (T _ H). cbn [fst] in T.
  apply orb_prop in T as [T|T]; [apply orb_prop in T as [T|T]|]; apply pmem_In in T; auto.
Qed.
