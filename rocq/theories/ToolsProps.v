From Coq Require Import String Ascii List Bool Arith NArith Lia Permutation Sorted.
From Verif Require Import PyBase PyBaseFacts ClassTable Collection CollectionFacts ObjHeap SpecHeap HeapFacts Doc Tools SpecTools.
Import ListNotations.
Open Scope string_scope.
Open Scope list_scope.
Local Opaque isinst.
Local Arguments nth_error : simpl never.

(** ** C28 *)
Lemma is_dt_bool : forall h x, is_data_type h x ->
  (isinst (cls_of h x) "ImplementationDataType" || isinst (cls_of h x) "SwBaseType")%bool = true.
Proof. intros h x [H|H]; rewrite H; [reflexivity|apply orb_true_r]. Qed.

Lemma cat_eq_text : forall v s, (forall t, v <> CObj t) -> (cat_eq v s = true <-> cat_text v = Some s).
Proof.
  intros [|t|t] s H; simpl.
  - split; discriminate.
  - rewrite String.eqb_eq. split; congruence.
  - exfalso. eapply H; eauto.
Qed.

Lemma find_ref_none : forall h v y, find_path h v = Ok y -> find_ref h (Some v) None = Ok y.
Proof. intros h v y H. unfold find_ref. rewrite H. destruct y; reflexivity. Qed.

Lemma c28_resolves : forall h ti x y, plain_strings ti -> resolves h ti x y ->
  exists n, forall fuel, n <= fuel -> getDataType fuel h ti (Some x) = Some (Ok y).
Proof.
  intros h ti x y Hp H. induction H as [x [H1 [H2 H3]]|x y z H _ [n IH]].
  - exists 1. intros [|f] Hf; [lia|]. cbn [getDataType]. rewrite (is_dt_bool _ _ H1).
    destruct (Hp x) as [P1 P2].
    destruct (cat_eq (t_category (ti x)) "TYPE_REFERENCE") eqn:E1; [apply cat_eq_text in E1; auto; contradiction|].
    destruct (cat_eq (t_category (ti x)) "DATA_REFERENCE") eqn:E2; [|reflexivity].
    apply cat_eq_text in E2; auto. destruct (H3 E2) as [c [p [A B]]]. rewrite A.
    destruct (cat_eq c "VALUE") eqn:E3; [|reflexivity].
    apply cat_eq_text in E3; [contradiction|]. intros s Hs. eapply P2; eauto.
  - exists (S n). intros [|f] Hf; [lia|]. cbn [getDataType]. destruct (Hp x) as [P1 P2].
    inversion H as [x' v y' A B C D|x' c v d y' A B C D E]; subst; rewrite (is_dt_bool _ _ A).
    + assert (E : cat_eq (t_category (ti x)) "TYPE_REFERENCE" = true) by (apply cat_eq_text; auto).
      rewrite E, C, (find_ref_none _ _ _ D). apply IH. lia.
    + assert (E1 : cat_eq (t_category (ti x)) "DATA_REFERENCE" = true) by (apply cat_eq_text; auto).
      assert (E2 : cat_eq (t_category (ti x)) "TYPE_REFERENCE" = false).
      { destruct (cat_eq _ "TYPE_REFERENCE") eqn:G; [|reflexivity]. apply cat_eq_text in G; auto. congruence. }
      assert (E3 : cat_eq c "VALUE" = true) by (apply cat_eq_text; [intros s Hs; eapply P2; eauto|assumption]).
      rewrite E2, E1, C, E3, E. apply IH. lia.
Qed.

Lemma c28_api : forall h ti x fuel, api_categories ti -> is_data_type h x ->
  getDataType (S fuel) h ti (Some x) = Some (Ok x).
Proof.
  intros h ti x fuel H Hx. cbn [getDataType]. rewrite (is_dt_bool _ _ Hx). specialize (H x).
  destruct (t_category (ti x)) as [|s|s]; simpl; auto. exfalso. eapply H; eauto.
Qed.

Lemma c28_other : forall h ti x fuel, ~ is_data_type h x -> getDataType (S fuel) h ti (Some x) = Some (Raise ValueError).
Proof.
  intros h ti x fuel H. cbn [getDataType]. destruct (isinst (cls_of h x) "ImplementationDataType") eqn:E1.
  - exfalso. apply H. now left.
  - destruct (isinst (cls_of h x) "SwBaseType") eqn:E2; [exfalso; apply H; now right|reflexivity].
Qed.

(** ** Package trees *)
Lemma sorted_packages_In : forall h i p, In p (sorted_packages h i) <->
  exists nd, nth_error h i = Some nd /\ In p (map snd (npkgs nd)).
Proof.
  intros h i p. unfold sorted_packages. destruct (nth_error h i) as [nd|]; [|split; [contradiction|intros [nd [A _]]; discriminate]].
  split.
  - intro H. exists nd. split; auto. exact (Permutation_in _ (py_sorted_perm _ _) H).
  - intros [nd' [A B]]. inversion A; subst. exact (Permutation_in _ (Permutation_sym (py_sorted_perm _ _)) B).
Qed.

Lemma pkg_child : forall h i p, heap_inv h -> In p (sorted_packages h i) ->
  exists pd, nth_error h p = Some pd /\ nparent pd = i /\ p <> root /\ i < p.
Proof.
  intros h i p Hi H. apply sorted_packages_In in H as [nd [A B]]. apply in_map_iff in B as [[n q] [C D]]. simpl in C. subst q.
  apply In_dget in D; [|eapply hi_keys; eauto].
  destruct (hi_pkg _ Hi _ _ _ _ A D) as [pd [E1 [E2 [E3 [E4 _]]]]]. exists pd. repeat split; auto.
  rewrite <- E2. eapply hi_parent; eauto.
Qed.

Lemma sorted_packages_NoDup : forall h i, heap_inv h -> NoDup (sorted_packages h i).
Proof.
  intros h i Hi. unfold sorted_packages. destruct (nth_error h i) as [nd|] eqn:E; [|constructor].
  eapply Permutation_NoDup; [apply Permutation_sym, py_sorted_perm|].
  pose proof (hi_keys _ Hi _ _ E) as Hk.
  assert (Hn : forall n p, In (n, p) (npkgs nd) -> name_of h p = n).
  { intros n p Hin. apply In_dget in Hin; auto. destruct (hi_pkg _ Hi _ _ _ _ E Hin) as [pd [A [_ [B _]]]].
    unfold name_of. now rewrite A. }
  unfold dvalues. unfold dkeys in Hk.
  induction (npkgs nd) as [|[n p] l IH]; [constructor|]. simpl in *. inversion Hk; subst. constructor.
  - intro Hp. apply in_map_iff in Hp as [[m q] [A B]]. simpl in A. subst q.
    assert (m = n) by (rewrite <- (Hn m p), <- (Hn n p); auto). subst m.
    apply H1. apply in_map_iff. exists (n, p). auto.
  - apply IH; auto.
Qed.

(** packages met by the recursion, in order *)
Fixpoint walk (fuel : nat) (h : heap) (i : nat) : list nat :=
  match fuel with
  | O => []
  | S f => match nth_error h i with
           | None => []
           | Some _ => flat_map (walk f h) (sorted_packages h i) ++ [i] end
  end.
Definition walk_all (h : heap) : list nat := flat_map (walk (List.length h) h) (sorted_packages h root).

Lemma parse_walk : forall f h sel i, parse_pkg f h sel i =
  flat_map (fun p => match nth_error h p with Some nd => sel nd | None => [] end) (walk f h i).
Proof.
  induction f as [|f IH]; intros h sel i; [reflexivity|]. simpl. destruct (nth_error h i) as [nd|] eqn:E; [|reflexivity].
  rewrite flat_map_app. simpl. rewrite E, app_nil_r. f_equal. clear E.
  induction (sorted_packages h i) as [|p l IHl]; [reflexivity|]. simpl. rewrite flat_map_app, IH. now f_equal.
Qed.

Lemma import_walk : forall h sel, import_data h sel =
  flat_map (fun p => match nth_error h p with Some nd => sel nd | None => [] end) (walk_all h).
Proof.
  intros h sel. unfold import_data, walk_all.
  induction (sorted_packages h root) as [|p l IHl]; [reflexivity|]. simpl. rewrite flat_map_app, parse_walk. now f_equal.
Qed.

Inductive under (h : heap) (a : nat) : nat -> Prop :=
| under_refl : under h a a
| under_step : forall q nd, nth_error h q = Some nd -> q <> root -> under h a (nparent nd) -> under h a q.

Lemma under_le : forall h a q, heap_inv h -> under h a q -> a <= q.
Proof.
  intros h a q Hi H. induction H as [|q nd A B C IH]; [lia|]. pose proof (hi_parent _ Hi _ _ A B). lia.
Qed.

Lemma under_linear : forall h a b q, under h a q -> under h b q -> under h a b \/ under h b a.
Proof.
  intros h a b q H. induction H as [|q nd A B C IH]; intro H2; [right; exact H2|].
  inversion H2 as [|q' nd' A' B' C']; subst.
  - left. econstructor; eauto.
  - rewrite A in A'. inversion A'; subst. auto.
Qed.

Lemma siblings_apart : forall h i c c' q, heap_inv h -> In c (sorted_packages h i) -> In c' (sorted_packages h i) ->
  under h c q -> under h c' q -> c = c'.
Proof.
  intros h i c c' q Hi Hc Hc' H H'.
  destruct (pkg_child _ _ _ Hi Hc) as [nd [A [B [C D]]]]. destruct (pkg_child _ _ _ Hi Hc') as [nd' [A' [B' [C' D']]]].
  destruct (under_linear _ _ _ _ H H') as [G|G].
  - inversion G as [|q' x X Y Z]; subst; [reflexivity|]. rewrite A' in X. inversion X; subst.
    pose proof (under_le _ _ _ Hi Z). lia.
  - inversion G as [|q' x X Y Z]; subst; [reflexivity|]. rewrite A in X. inversion X; subst.
    pose proof (under_le _ _ _ Hi Z). lia.
Qed.

Lemma walk_under : forall f h i q, heap_inv h -> In q (walk f h i) -> under h i q.
Proof.
  induction f as [|f IH]; intros h i q Hi H; [contradiction|]. simpl in H. destruct (nth_error h i) eqn:E; [|contradiction].
  apply in_app_or in H as [H|[<-|[]]]; [|constructor].
  apply in_flat_map in H as [c [A B]]. apply IH in B; auto.
  destruct (pkg_child _ _ _ Hi A) as [pd [X [Y [Z W]]]]. clear A.
  induction B as [|q nd' P Q R IHu]; [econstructor; eauto; rewrite Y; constructor|].
  econstructor; eauto.
Qed.

Lemma NoDup_flat_map : forall A B (f : A -> list B) l, NoDup l -> (forall x, In x l -> NoDup (f x)) ->
  (forall x y z, In x l -> In y l -> In z (f x) -> In z (f y) -> x = y) -> NoDup (flat_map f l).
Proof.
  induction l as [|a l IH]; intros H1 H2 H3; [constructor|]. simpl. inversion H1 as [|a' l' Ha Hl]; subst.
  assert (H5 : NoDup (flat_map f l)) by (apply IH; auto; [intros; apply H2; now right|intros; eapply H3; eauto; now right]).
  assert (H6 : forall z, In z (f a) -> ~ In z (flat_map f l)).
  { intros z Hz Hz'. apply in_flat_map in Hz' as [y [P Q]]. assert (a = y) by (eapply H3; eauto; [now left|now right]).
    subst y. contradiction. }
  specialize (H2 a (or_introl eq_refl)). clear - H2 H5 H6.
  induction (f a) as [|z r IHr]; [assumption|]. simpl. inversion H2; subst. constructor.
  - intro C. apply in_app_or in C as [C|C]; [contradiction|]. eapply H6; [now left|eassumption].
  - apply IHr; auto. intros w Hw. apply H6. now right.
Qed.

Lemma walk_NoDup : forall f h i, heap_inv h -> NoDup (walk f h i).
Proof.
  induction f as [|f IH]; intros h i Hi; [constructor|]. simpl. destruct (nth_error h i) eqn:E; [|constructor].
  assert (H1 : NoDup (flat_map (walk f h) (sorted_packages h i))).
  { apply NoDup_flat_map; auto.
    - now apply sorted_packages_NoDup.
    - intros x y z Hx Hy Hz Hz'. eapply siblings_apart; eauto using walk_under. }
  assert (H2 : ~ In i (flat_map (walk f h) (sorted_packages h i))).
  { intro C. apply in_flat_map in C as [c [A B]]. apply walk_under in B; auto.
    destruct (pkg_child _ _ _ Hi A) as [pd [_ [_ [_ W]]]]. pose proof (under_le _ _ _ Hi B). lia. }
  eapply Permutation_NoDup; [apply Permutation_cons_append|]. constructor; assumption.
Qed.

Lemma walk_all_NoDup : forall h, heap_inv h -> NoDup (walk_all h).
Proof.
  intros h Hi. unfold walk_all. apply NoDup_flat_map.
  - now apply sorted_packages_NoDup.
  - intros. now apply walk_NoDup.
  - intros x y z Hx Hy Hz Hz'. eapply siblings_apart; eauto using walk_under.
Qed.

Inductive sub_package (h : heap) (a : nat) : nat -> Prop :=
| sub_self : sub_package h a a
| sub_next : forall i nd p, sub_package h a i -> nth_error h i = Some nd -> In p (map snd (npkgs nd)) -> sub_package h a p.

Lemma sub_left : forall h i nd c q, nth_error h i = Some nd -> In c (map snd (npkgs nd)) -> sub_package h c q -> sub_package h i q.
Proof.
  intros h i nd c q A B H. induction H; [econstructor; eauto; constructor|]. econstructor; eauto.
Qed.

Lemma sub_cases : forall h i q, sub_package h i q -> q = i \/
  exists nd c, nth_error h i = Some nd /\ In c (map snd (npkgs nd)) /\ sub_package h c q.
Proof.
  intros h i q H. induction H as [|j nd p H IH A B]; [now left|]. right. destruct IH as [->|[nd' [c [X [Y Z]]]]].
  - exists nd, p. repeat split; auto. constructor.
  - exists nd', c. repeat split; auto. econstructor; eauto.
Qed.

Lemma walk_In : forall f h i q, heap_inv h -> List.length h <= f + i -> i < List.length h ->
  (In q (walk f h i) <-> sub_package h i q).
Proof.
  induction f as [|f IH]; intros h i q Hi Hf Hl; [lia|]. simpl.
  destruct (nth_error h i) as [nd|] eqn:E; [|apply nth_error_None in E; lia].
  rewrite in_app_iff, in_flat_map. split.
  - intros [[c [A B]]|[<-|[]]]; [|constructor].
    destruct (pkg_child _ _ _ Hi A) as [pd [X [Y [Z W]]]]. pose proof (nth_some_lt _ _ _ _ X).
    apply IH in B; auto; [|lia]. apply sorted_packages_In in A as [nd' [A1 A2]]. eapply sub_left; eauto.
  - intro H. apply sub_cases in H as [->|[nd' [c [A [B C]]]]]; [right; now left|]. left. exists c.
    assert (D : In c (sorted_packages h i)) by (apply sorted_packages_In; eauto). split; auto.
    destruct (pkg_child _ _ _ Hi D) as [pd [X [Y [Z W]]]]. pose proof (nth_some_lt _ _ _ _ X).
    apply IH; auto. lia.
Qed.

Lemma walk_all_In : forall h q, heap_inv h -> (In q (walk_all h) <-> package_in h q).
Proof.
  intros h q Hi. unfold walk_all. rewrite in_flat_map. split.
  - intros [c [A B]]. destruct (pkg_child _ _ _ Hi A) as [pd [X [Y [Z W]]]]. pose proof (nth_some_lt _ _ _ _ X).
    apply walk_In in B; auto; [|lia]. apply sorted_packages_In in A as [nd [A1 A2]].
    induction B; [econstructor 1; eauto|econstructor 2; eauto].
  - intro H. assert (G : exists c, In c (sorted_packages h root) /\ sub_package h c q).
    { induction H as [nd p A B|i nd p H [c [IH1 IH2]] A B].
      - exists p. split; [apply sorted_packages_In; eauto|constructor].
      - exists c. split; auto. econstructor; eauto. }
    destruct G as [c [A B]]. exists c. split; auto.
    destruct (pkg_child _ _ _ Hi A) as [pd [X [Y [Z W]]]]. pose proof (nth_some_lt _ _ _ _ X).
    apply walk_In; auto. lia.
Qed.

(** ** C30 *)
Lemma import_In : forall h sel P, heap_inv h -> (forall nd x, In x (sel nd) <-> In x (elems (ncoll nd)) /\ P x) ->
  forall x, In x (import_data h sel) <-> element_in h x /\ P x.
Proof.
  intros h sel P Hi Hs x. rewrite import_walk, in_flat_map. split.
  - intros [p [A B]]. apply walk_all_In in A; auto. destruct (nth_error h p) as [nd|] eqn:E; [|contradiction].
    apply Hs in B as [B1 B2]. split; auto. exists p, nd. auto.
  - intros [[p [nd [A [B C]]]] D]. exists p. split; [now apply walk_all_In|]. rewrite B. apply Hs. auto.
Qed.

Lemma import_NoDup : forall h sel, heap_inv h -> (forall nd x, In x (sel nd) -> In x (elems (ncoll nd))) ->
  (forall p nd, nth_error h p = Some nd -> NoDup (sel nd)) -> NoDup (import_data h sel).
Proof.
  intros h sel Hi Hs Hn. rewrite import_walk. apply NoDup_flat_map.
  - now apply walk_all_NoDup.
  - intros p _. destruct (nth_error h p) eqn:E; [eauto|constructor].
  - intros p q z _ _ A B. destruct (nth_error h p) as [nd|] eqn:E; [|contradiction].
    destruct (nth_error h q) as [nd'|] eqn:E'; [|contradiction]. apply Hs in A, B.
    destruct (hi_elem _ Hi _ _ _ E A) as [ed [X1 [X2 _]]]. destruct (hi_elem _ Hi _ _ _ E' B) as [ed' [Y1 [Y2 _]]].
    congruence.
Qed.

Lemma elems_NoDup : forall h p nd, heap_inv h -> nth_error h p = Some nd -> NoDup (elems (ncoll nd)).
Proof. intros h p nd Hi E. pose proof (hi_coll _ Hi _ _ E) as H. apply H. Qed.

Lemma c30_swc : forall os comp long, exists objs,
  swc_lines (hrun os) comp long = map (fun x => if long then full_name (hrun os) x else name_of (hrun os) x) objs /\
  NoDup objs /\ StronglySorted (fun a b => str_leb (name_of (hrun os) a) (name_of (hrun os) b) = true) objs /\
  forall x, In x objs <-> element_in (hrun os) x /\ isinst (cls_of (hrun os) x) "SwComponentType" = true /\
    (comp = true -> isinst (cls_of (hrun os) x) "CompositionSwComponentType" = true).
Proof.
  intros os comp long. pose proof (hrun_inv os) as Hi. set (h := hrun os) in *. clearbody h.
  exists (swc_list h comp). split; [reflexivity|]. unfold swc_list.
  assert (N : NoDup (import_data h (getSwComponentTypes h))).
  { apply import_NoDup; auto.
    - intros nd x H. now apply filter_In in H.
    - intros p nd E. apply NoDup_filter. eapply elems_NoDup; eauto. }
  assert (I : forall x, In x (import_data h (getSwComponentTypes h)) <-> element_in h x /\ isinst (cls_of h x) "SwComponentType" = true).
  { apply import_In; auto. intros nd x. unfold getSwComponentTypes. apply filter_In. }
  split; [|split].
  - eapply Permutation_NoDup; [apply Permutation_sym, py_sorted_perm|]. destruct comp; [now apply NoDup_filter|assumption].
  - apply py_sorted_sorted.
  - intro x. split.
    + intro H. apply (Permutation_in _ (py_sorted_perm _ _)) in H. destruct comp.
      * apply filter_In in H as [H1 H2]. apply I in H1 as [A B]. auto.
      * apply I in H as [A B]. split; auto. split; auto. discriminate.
    + intros [A [B C]]. apply (Permutation_in _ (Permutation_sym (py_sorted_perm _ _))). destruct comp.
      * apply filter_In. split; [now apply I|auto].
      * now apply I.
Qed.

Lemma c30_signals : forall os full, exists objs,
  signal_lines (hrun os) full = map (fun x => if full then full_name (hrun os) x else name_of (hrun os) x) objs /\
  NoDup objs /\ StronglySorted (fun a b => str_leb (name_of (hrun os) a) (name_of (hrun os) b) = true) objs /\
  forall x, In x objs <-> element_in (hrun os) x /\ isinst (cls_of (hrun os) x) "SystemSignal" = true.
Proof.
  intros os full. pose proof (hrun_inv os) as Hi. set (h := hrun os) in *. clearbody h.
  exists (signal_list h). split; [reflexivity|]. unfold signal_list.
  assert (S : forall nd x, In x (getSystemSignals h nd) <-> In x (elems (ncoll nd)) /\ isinst (cls_of h x) "SystemSignal" = true).
  { intros nd x. unfold getSystemSignals. split.
    - intro H. apply (Permutation_in _ (py_sorted_perm _ _)) in H. now apply filter_In in H.
    - intro H. apply (Permutation_in _ (Permutation_sym (py_sorted_perm _ _))). now apply filter_In. }
  assert (N : NoDup (import_data h (getSystemSignals h))).
  { apply import_NoDup; auto.
    - intros nd x H. now apply S in H.
    - intros p nd E. unfold getSystemSignals. eapply Permutation_NoDup; [apply Permutation_sym, py_sorted_perm|].
      apply NoDup_filter. eapply elems_NoDup; eauto. }
  pose proof (import_In h (getSystemSignals h) (fun x => isinst (cls_of h x) "SystemSignal" = true) Hi S) as I.
  split; [|split].
  - eapply Permutation_NoDup; [apply Permutation_sym, py_sorted_perm|assumption].
  - apply py_sorted_sorted.
  - intro x. rewrite <- I. split; apply Permutation_in; [|symmetry]; apply py_sorted_perm.
Qed.

(** ** C29 *)
Definition removable (h : heap) (e : nat) : bool :=
  (isinst (cls_of h e) "Describable" || isinst (cls_of h e) "Identifiable")%bool.
Definition cleared_in (h : heap) (p : nat) : list nat :=
  p :: match nth_error h p with Some nd => filter (removable h) (elems (ncoll nd)) | None => [] end.
Definition remove_list (l : list nat) (a : admins) : admins := fold_left (fun a x => remove_at x a) l a.

Lemma remove_list_app : forall l l' a, remove_list (l ++ l') a = remove_list l' (remove_list l a).
Proof. intros. unfold remove_list. apply fold_left_app. Qed.

Lemma remove_list_spec : forall l a x, remove_list l a x = if existsb (Nat.eqb x) l then None else a x.
Proof.
  induction l as [|y l IH]; intros a x; [reflexivity|]. simpl. unfold remove_list in *. simpl. rewrite IH. unfold remove_at.
  destruct (Nat.eqb x y); simpl; destruct (existsb (Nat.eqb x) l); reflexivity.
Qed.

Lemma process_walk : forall f h i a, process_pkg f h i a = remove_list (flat_map (cleared_in h) (walk f h i)) a.
Proof.
  induction f as [|f IH]; intros h i a; [reflexivity|]. simpl. destruct (nth_error h i) as [nd|] eqn:E; [|reflexivity].
  rewrite flat_map_app, remove_list_app.
  assert (F : forall l a0, fold_left (fun a p => process_pkg f h p a) l a0 =
     remove_list (flat_map (cleared_in h) (flat_map (walk f h) l)) a0).
  { induction l as [|p l IHl]; intro a0; [reflexivity|]. simpl. rewrite flat_map_app, remove_list_app, IHl, IH. reflexivity. }
  rewrite F. generalize (remove_list (flat_map (cleared_in h) (flat_map (walk f h) (sorted_packages h i))) a) as b. intro b.
  simpl. unfold cleared_in. rewrite E, app_nil_r. unfold remove_list. simpl.
  generalize (remove_at i b) as c. induction (elems (ncoll nd)) as [|e l IHl]; intro c; [reflexivity|].
  simpl. unfold removable at 1. destruct (isinst (cls_of h e) "Describable"); simpl; [apply IHl|].
  destruct (isinst (cls_of h e) "Identifiable"); simpl; apply IHl.
Qed.

Lemma remove_admin_walk : forall h a, remove_admin h a = remove_list (root :: flat_map (cleared_in h) (walk_all h)) a.
Proof.
  intros h a. unfold remove_admin, walk_all.
  assert (F : forall l a0, fold_left (fun a p => process_pkg (List.length h) h p a) l a0 =
     remove_list (flat_map (cleared_in h) (flat_map (walk (List.length h) h) l)) a0).
  { induction l as [|p l IHl]; intro a0; [reflexivity|]. simpl. rewrite flat_map_app, remove_list_app, IHl, process_walk. reflexivity. }
  rewrite F. reflexivity.
Qed.

Lemma c29_removed : forall os a x,
  (x = root \/ package_in (hrun os) x \/
   (element_in (hrun os) x /\ (isinst (cls_of (hrun os) x) "Describable" = true \/ isinst (cls_of (hrun os) x) "Identifiable" = true))) ->
  remove_admin (hrun os) a x = None.
Proof.
  intros os a x H. pose proof (hrun_inv os) as Hi. set (h := hrun os) in *. clearbody h.
  rewrite remove_admin_walk, remove_list_spec.
  assert (E : existsb (Nat.eqb x) (root :: flat_map (cleared_in h) (walk_all h)) = true); [|now rewrite E].
  apply existsb_exists. exists x. split; [|apply Nat.eqb_refl].
  destruct H as [->|[H|[[p [nd [A [B C]]]] D]]]; [now left|right|right].
  - apply in_flat_map. exists x. split; [now apply walk_all_In|now left].
  - apply in_flat_map. exists p. split; [now apply walk_all_In|]. right. rewrite B. apply filter_In. split; auto.
    unfold removable. destruct D as [->| ->]; [reflexivity|apply orb_true_r].
Qed.

Lemma c29_kept : forall os a x, x <> root -> ~ package_in (hrun os) x -> ~ element_in (hrun os) x ->
  remove_admin (hrun os) a x = a x.
Proof.
  intros os a x H1 H2 H3. pose proof (hrun_inv os) as Hi. set (h := hrun os) in *. clearbody h.
  rewrite remove_admin_walk, remove_list_spec.
  assert (E : existsb (Nat.eqb x) (root :: flat_map (cleared_in h) (walk_all h)) = false); [|now rewrite E].
  destruct (existsb _ _) eqn:G; [|reflexivity]. apply existsb_exists in G as [y [A B]]. apply Nat.eqb_eq in B. subst y.
  exfalso. destruct A as [A|A]; [congruence|]. apply in_flat_map in A as [p [A B]]. apply walk_all_In in A; auto.
  destruct B as [->|B]; [contradiction|]. destruct (nth_error h p) as [nd|] eqn:E; [|contradiction].
  apply filter_In in B as [B _]. apply H3. exists p, nd. auto.
Qed.

(** ** C42 *)
Section FsInd.
  Variable P : fsobj -> Prop.
  Hypothesis Hf : forall ls, P (FFile ls).
  Hypothesis Hd : forall es, Forall (fun p => P (snd p)) es -> P (FDir es).
  Fixpoint fsobj_rec' (o : fsobj) : P o :=
    match o with
    | FFile ls => Hf ls
    | FDir es => Hd es ((fix go (l : list (string * fsobj)) : Forall (fun p => P (snd p)) l :=
        match l with
        | [] => Forall_nil _
        | p :: l' => Forall_cons p (fsobj_rec' (snd p)) (go l') end) es)
    end.
End FsInd.

Definition sub_files (dir : string) (p : string * fsobj) : list string := dir_files (path_join dir (fst p)) (snd p).
Definition own_files (dir : string) (p : string * fsobj) : list string :=
  match snd p with FFile _ => if arxml_name (fst p) then [path_join dir (fst p)] else [] | FDir _ => [] end.

Lemma dir_files_eq : forall dir es, dir_files dir (FDir es) = flat_map (sub_files dir) es ++ flat_map (own_files dir) es.
Proof.
  intros dir es. cbn [dir_files]. f_equal.
  induction es as [|[n o] es IH]; [reflexivity|]. simpl. rewrite IH. f_equal. unfold sub_files. simpl. destruct o; reflexivity.
Qed.

Lemma slash_end : forall d, ends_with_slash (d ++ "/")%string = true.
Proof. induction d as [|c d IH]; [reflexivity|]. cbn. destruct (d ++ "/")%string eqn:E; [destruct d; discriminate|exact IH]. Qed.
Lemma end_slash : forall d, ends_with_slash d = true -> exists e, d = (e ++ "/")%string.
Proof.
  induction d as [|c d IH]; [discriminate|]. intros H. destruct d as [|c' d].
  - cbn in H. apply Ascii.eqb_eq in H. subst. now exists "".
  - destruct (IH H) as [e E]. exists (String c e). cbn. now rewrite <- E.
Qed.
Lemma joined_is : forall d n p, joined d n p <-> p = path_join d n.
Proof.
  assert (A : forall a b c : string, ((a ++ b) ++ c)%string = (a ++ b ++ c)%string) by (induction a as [|k a IHa]; intros; cbn; [|rewrite IHa]; reflexivity).
  intros d n p. split.
  - intros H. destruct H as [n|d n|d n N S]; unfold path_join.
    + reflexivity.
    + rewrite slash_end, orb_true_r. now rewrite A.
    + destruct d as [|c d]; [congruence|]. cbn [is_empty orb]. destruct (ends_with_slash (String c d)) eqn:E; [|reflexivity].
      destruct (end_slash _ E) as [e Q]. destruct (S e Q).
  - intros ->. unfold path_join. destruct d as [|c d]; [apply joined_empty|]. cbn [is_empty orb]. destruct (ends_with_slash (String c d)) eqn:E.
    + destruct (end_slash _ E) as [e Q]. rewrite Q, A. apply joined_slash.
    + apply joined_plain; [discriminate|]. intros e Q. rewrite Q, slash_end in E. discriminate.
Qed.
Lemma join_is : forall d n, joined d n (path_join d n).
Proof. intros d n. now apply joined_is. Qed.

Lemma c42_below : forall o dir path, In path (dir_files dir o) <->
  exists n, file_below dir o n path /\ arxml_name n = true.
Proof.
  induction o as [ls|es IH] using fsobj_rec'; intros dir path.
  - split; [contradiction|]. intros [n [H _]]. inversion H.
  - rewrite dir_files_eq, in_app_iff, !in_flat_map. rewrite Forall_forall in IH. split.
    + intros [[[d o] [A B]]|[[n o] [A B]]].
      * specialize (IH _ A). simpl in IH. unfold sub_files in B. simpl in B. apply IH in B as [n [C D]].
        exists n. split; auto. apply below_sub with d o (path_join dir d); auto. apply join_is.
      * unfold own_files in B. simpl in B. destruct o as [ls|]; [|contradiction].
        destruct (arxml_name n) eqn:E; [|contradiction]. destruct B as [<-|[]]. exists n. split; auto. apply below_here with ls; auto. apply join_is.
    + intros [n [H E]]. inversion H as [dir' es' n' ls path' A B|dir' es' d o n' sub path' A J B]; subst.
      * right. exists (n, FFile ls). split; auto. unfold own_files. simpl. rewrite E. left. symmetry. now apply joined_is.
      * left. exists (d, o). split; auto. unfold sub_files. simpl. specialize (IH _ A). simpl in IH. apply IH. apply joined_is in J. subst sub. eauto.
Qed.

Lemma lower_app : forall a b, lower (a ++ b)%string = (lower a ++ lower b)%string.
Proof. induction a; simpl; intros; auto. now rewrite IHa. Qed.

Lemma lower_newline : forall c, lower_char c = newline -> c = newline.
Proof. intros [[] [] [] [] [] [] [] []]; vm_compute; congruence. Qed.

Lemma lower_In_newline : forall s, In newline (list_ascii_of_string (lower s)) -> In newline (list_ascii_of_string s).
Proof.
  induction s as [|c s IH]; simpl; [auto|]. intros [H|H]; [left; now apply lower_newline|right; auto].
Qed.

Lemma arxml_name_spec : forall n, no_newline n -> (arxml_name n = true <-> arxml_file n).
Proof.
  unfold no_newline. induction n as [|c n IH]; intro Hn.
  - simpl. split; [discriminate|]. intros [a [b [A B]]]. destruct a; [|discriminate]. simpl in A. subst b. discriminate.
  - assert (Hn' : ~ In newline (list_ascii_of_string n)) by (intro C; apply Hn; now right). specialize (IH Hn').
    split.
    + intro H. change (((String.eqb (lower (String c n)) ".arxml" || String.eqb (lower (String c n)) (".arxml" ++ String newline "")%string
       || (negb (Ascii.eqb c newline) && arxml_name n))%bool = true)) in H.
      apply orb_prop in H as [H|H]; [apply orb_prop in H as [H|H]|].
      * apply String.eqb_eq in H. exists "", (String c n). auto.
      * apply String.eqb_eq in H. exfalso. apply Hn.
        apply lower_In_newline. rewrite H. simpl. tauto.
      * apply andb_prop in H as [_ H]. apply IH in H as [a [b [A B]]]. exists (String c a), b. simpl. rewrite A. auto.
    + intros [a [b [A B]]].
      change (((String.eqb (lower (String c n)) ".arxml" || String.eqb (lower (String c n)) (".arxml" ++ String newline "")%string
       || (negb (Ascii.eqb c newline) && arxml_name n))%bool = true)).
      destruct a as [|c' a].
      * simpl in A. subst b. rewrite B. reflexivity.
      * simpl in A. inversion A; subst c' n. apply orb_true_intro. right. apply andb_true_intro. split.
        -- destruct (Ascii.eqb_spec c newline); [|reflexivity]. exfalso. apply Hn. left. auto.
        -- apply IH. exists a, b. auto.
Qed.

Lemma c42_dir : forall fs arg es path, fs arg = Some (FDir es) ->
  (forall n p, file_below arg (FDir es) n p -> no_newline n) ->
  exists l, input_arg fs arg = Ok l /\ list_arg fs arg = Ok l /\
   (In path l <-> exists n, file_below arg (FDir es) n path /\ arxml_file n).
Proof.
  intros fs arg es path H Hn. exists (dir_files arg (FDir es)). unfold input_arg, list_arg. rewrite H. repeat split; auto.
  - intro G. apply c42_below in G as [n [A B]]. exists n. split; auto. apply arxml_name_spec; eauto.
  - intros [n [A B]]. apply c42_below. exists n. split; auto. apply arxml_name_spec; eauto.
Qed.

Lemma c42_args : forall fs args l, input_files fs args = Ok l <->
  exists ls, Forall2 (fun a r => input_arg fs a = Ok r) args ls /\ l = List.concat ls.
Proof.
  intros fs args. induction args as [|a args IH]; intro l; simpl.
  - split.
    + intro H. inversion H. exists []. split; constructor.
    + intros [ls [A B]]. inversion A; subst. reflexivity.
  - split.
    + destruct (input_arg fs a) as [x|e] eqn:E; [|discriminate]. simpl.
      destruct (input_files fs args) as [y|e]; [|discriminate]. simpl. intro H. inversion H; subst.
      destruct (proj1 (IH y) eq_refl) as [ls [A B]]. exists (x :: ls). split; [constructor; auto|]. simpl. now f_equal.
    + intros [ls [A B]]. inversion A as [|a' x args' ls' P Q]; subst. rewrite P. simpl.
      rewrite (proj2 (IH (List.concat ls')) (ex_intro _ ls' (conj Q eq_refl))). reflexivity.
Qed.
Lemma c42_list_args : forall fs args l, list_files fs args = Ok l <->
  exists ls, Forall2 (fun a r => list_arg fs a = Ok r) args ls /\ l = List.concat ls.
Proof.
  intros fs args. induction args as [|a args IH]; intro l; simpl.
  - split.
    + intro H. inversion H. exists []. split; constructor.
    + intros [ls [A B]]. inversion A; subst. reflexivity.
  - split.
    + destruct (list_arg fs a) as [x|e] eqn:E; [|discriminate]. simpl.
      destruct (list_files fs args) as [y|e]; [|discriminate]. simpl. intro H. inversion H; subst.
      destruct (proj1 (IH y) eq_refl) as [ls [A B]]. exists (x :: ls). split; [constructor; auto|]. simpl. now f_equal.
    + intros [ls [A B]]. inversion A as [|a' x args' ls' P Q]; subst. rewrite P. simpl.
      rewrite (proj2 (IH (List.concat ls')) (ex_intro _ ls' (conj Q eq_refl))). reflexivity.
Qed.

Lemma c42_list_file : forall fs file ls, (forall es, fs ("@" ++ file)%string <> Some (FDir es)) ->
  fs file = Some (FFile ls) ->
  input_arg fs ("@" ++ file)%string = Ok (map strip ls) /\
  list_arg fs ("@" ++ file)%string = Ok (map strip (filter (fun l => negb (String.prefix "#" l)) ls)).
Proof.
  intros fs file ls H1 H2. rewrite (filter_ext (fun l => negb (String.prefix "#" l)) (fun l => negb (starts_hash l))).
  2: { intros [|c l]; [reflexivity|]. unfold starts_hash, String.prefix. destruct (Ascii.ascii_dec "#" c) as [<-|N]; [rewrite Ascii.eqb_refl; now destruct l|]. destruct (Ascii.eqb_spec c "#"); congruence. }
  unfold input_arg, list_arg. simpl. simpl in H1.
  destruct (fs (String "@" file)) as [[l|es]|] eqn:E; [| exfalso; eapply H1; eauto |]; rewrite H2; auto.
Qed.

Lemma c42_plain : forall fs c rest, (forall es, fs (String c rest) <> Some (FDir es)) -> c <> "@"%char ->
  input_arg fs (String c rest) = Ok [String c rest] /\ list_arg fs (String c rest) = Ok [String c rest].
Proof.
  intros fs c rest H1 H2. unfold input_arg, list_arg.
  assert (E : Ascii.eqb c "@" = false) by now apply Ascii.eqb_neq.
  destruct (fs (String c rest)) as [[l|es]|] eqn:F; [| exfalso; eapply H1; eauto |]; rewrite E; auto.
Qed.

Definition base (dir : string) : string := path_join dir "".
Lemma path_join_base : forall dir n, path_join dir n = (base dir ++ n)%string.
Proof.
  intros dir n. unfold base, path_join. destruct (is_empty dir || ends_with_slash dir)%bool.
  - now rewrite append_nil_r.
  - rewrite append_assoc. reflexivity.
Qed.

Lemma ends_slash_app : forall a c n, ends_with_slash (a ++ String c n)%string = ends_with_slash (String c n).
Proof.
  induction a as [|x a IH]; intros c n; [reflexivity|]. simpl. destruct (a ++ String c n)%string eqn:E.
  - destruct a; discriminate.
  - rewrite <- E. apply IH.
Qed.
Lemma ends_slash_free : forall n, slash_free n -> ends_with_slash n = false.
Proof.
  unfold slash_free. induction n as [|c n IH]; intro H; [reflexivity|]. simpl. destruct n.
  - apply Ascii.eqb_neq. intro C. apply H. left. auto.
  - apply IH. intro C. apply H. now right.
Qed.

Lemma base_sub : forall dir d, d <> "" -> slash_free d -> base (path_join dir d) = (base dir ++ (d ++ "/"))%string.
Proof.
  intros dir d Hd Hs. rewrite path_join_base. unfold base at 1. unfold path_join.
  destruct d as [|c d]; [contradiction|].
  assert (E : is_empty (base dir ++ String c d) = false) by (destruct (base dir); reflexivity).
  rewrite E, ends_slash_app, (ends_slash_free _ Hs). simpl. now rewrite append_assoc.
Qed.

Lemma app_cancel_l : forall p a b : string, (p ++ a)%string = (p ++ b)%string -> a = b.
Proof. induction p; simpl; intros a' b' H; auto. inversion H. auto. Qed.

Lemma slash_head : forall d d' r r', slash_free d -> slash_free d' ->
  (d ++ String "/" r)%string = (d' ++ String "/" r')%string -> d = d'.
Proof.
  unfold slash_free. induction d as [|c d IH]; intros [|c' d'] r r' H H' E; simpl in *; auto.
  - inversion E; subst. exfalso. apply H'. now left.
  - inversion E; subst. exfalso. apply H. now left.
  - inversion E; subst. f_equal. eapply IH; eauto.
Qed.

Lemma files_prefix : forall o dir path, tidy o -> In path (dir_files dir o) -> exists rel, path = (base dir ++ rel)%string.
Proof.
  induction o as [ls|es IH] using fsobj_rec'; intros dir path Ht H; [contradiction|].
  rewrite Forall_forall in IH. inversion Ht as [|es' Hn He]; subst.
  rewrite dir_files_eq, in_app_iff, !in_flat_map in H. destruct H as [[[d o] [A B]]|[[n o] [A B]]].
  - destruct (He _ _ A) as [D1 [D2 D3]]. unfold sub_files in B. simpl in B. apply (IH _ A) in B as [rel R]; [|assumption].
    rewrite base_sub in R by assumption. exists ((d ++ "/") ++ rel)%string. now rewrite R, append_assoc.
  - unfold own_files in B. simpl in B. destruct o; [|contradiction]. destruct (arxml_name n); [|contradiction].
    destruct B as [<-|[]]. exists n. apply path_join_base.
Qed.

Lemma NoDup_fst : forall A B (l : list (A * B)), NoDup (map fst l) -> NoDup l.
Proof.
  induction l as [|p l IH]; intro H; [constructor|]. inversion H; subst. constructor; auto.
  intro C. apply H2. now apply in_map.
Qed.
Lemma fst_inj : forall A B (l : list (A * B)) p q, NoDup (map fst l) -> In p l -> In q l -> fst p = fst q -> p = q.
Proof.
  induction l as [|a l IH]; intros p q H Hp Hq E; [contradiction|]. inversion H; subst.
  destruct Hp as [->|Hp], Hq as [->|Hq]; auto.
  - exfalso. apply H2. rewrite E. now apply in_map.
  - exfalso. apply H2. rewrite <- E. now apply in_map.
Qed.

Lemma slash_free_no : forall n r, slash_free n -> forall d, n = (d ++ String "/" r)%string -> False.
Proof.
  unfold slash_free. intros n r H d E. apply H. rewrite E. clear.
  induction d; simpl; auto.
Qed.

Lemma c42_once : forall o dir, tidy o -> NoDup (dir_files dir o).
Proof.
  induction o as [ls|es IH] using fsobj_rec'; intros dir Ht; [constructor|].
  rewrite Forall_forall in IH. inversion Ht as [|es' Hn He]; subst. rewrite dir_files_eq.
  assert (Hsub : forall p z, In p es -> In z (sub_files dir p) -> exists rel, z = (base dir ++ (fst p ++ String "/" rel))%string).
  { intros [d o] z A B. destruct (He _ _ A) as [D1 [D2 D3]]. unfold sub_files in B. simpl in B.
    apply files_prefix in B as [rel R]; auto. exists rel. rewrite R, base_sub by assumption. rewrite !append_assoc. reflexivity. }
  assert (Hown : forall p z, In p es -> In z (own_files dir p) -> z = (base dir ++ fst p)%string).
  { intros [n o] z A B. unfold own_files in B. simpl in *. destruct o; [|contradiction].
    destruct (arxml_name n); [|contradiction]. destruct B as [<-|[]]. apply path_join_base. }
  assert (N1 : NoDup (flat_map (sub_files dir) es)).
  { apply NoDup_flat_map.
    - now apply NoDup_fst.
    - intros [d o] A. destruct (He _ _ A) as [D1 [D2 D3]]. unfold sub_files. simpl. apply (IH _ A). assumption.
    - intros p q z Hp Hq A B. destruct (Hsub _ _ Hp A) as [r R]. destruct (Hsub _ _ Hq B) as [r' R'].
      rewrite R in R'. apply app_cancel_l in R'. destruct p as [d o], q as [d' o'].
      apply slash_head in R'; simpl in *; [|eapply He; eauto|eapply He; eauto]. eapply fst_inj; eauto. }
  assert (N2 : NoDup (flat_map (own_files dir) es)).
  { apply NoDup_flat_map.
    - now apply NoDup_fst.
    - intros [n o] A. unfold own_files. simpl. destruct o; [|constructor]. destruct (arxml_name n); repeat constructor. auto.
    - intros p q z Hp Hq A B. apply Hown in A, B; auto. subst z. apply app_cancel_l in B. eapply fst_inj; eauto. }
  assert (D : forall z, In z (flat_map (sub_files dir) es) -> ~ In z (flat_map (own_files dir) es)).
  { intros z A B. apply in_flat_map in A as [p [P1 P2]]. apply in_flat_map in B as [[n o] [Q1 Q2]].
    destruct (Hsub _ _ P1 P2) as [r R]. apply Hown in Q2; auto. rewrite R in Q2. apply app_cancel_l in Q2.
    simpl in Q2. eapply slash_free_no; [|symmetry; exact Q2]. eapply He; eauto. }
  clear - N1 N2 D. induction (flat_map (sub_files dir) es) as [|z l IHl]; [assumption|].
  simpl. inversion N1; subst. constructor.
  - intro C. apply in_app_or in C as [C|C]; [contradiction|]. eapply D; [now left|eassumption].
  - apply IHl; auto. intros w Hw. apply D. now right.
Qed.
