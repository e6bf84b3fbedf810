From Coq Require Import String Ascii List Bool Arith Lia.
From Verif Require Import PyBase PyBaseFacts ClassTable Collection CollectionFacts
  ObjHeap SpecHeap HeapFacts Creators SpecCreators SpecCreate CreatorFacts CreatorProps Merge SpecMerge MergeFacts.
Import ListNotations.
Open Scope string_scope.
Open Scope list_scope.
Local Opaque isinst.

Lemma c44_kept : forall ps h i h1 r, load_parts h i ps = (h1, r) -> kept h h1.
Proof. intros ps h i h1 r H. pose proof (load_parts_kept ps h i) as G. rewrite H in G. eapply grows_kept; eauto. Qed.

Lemma c44_once : forall os ps i h1 r, load_parts (hrun os) i ps = (h1, r) ->
  forall p x y, package_of h1 p x -> package_of h1 p y -> name_of h1 x = name_of h1 y -> x = y.
Proof.
  intros os ps i h1 r H p x y [nd [E Hx]] [nd' [E' Hy]] Hn. rewrite E in E'. inversion E'; subst nd'. clear E'.
  pose proof (load_parts_inv ps (hrun os) i (hrun_inv os)) as Hi. rewrite H in Hi. cbn [fst] in Hi.
  apply in_map_iff in Hx as [[a x'] [Ex Hx]]. apply in_map_iff in Hy as [[b y'] [Ey Hy]]. cbn [snd] in *. subst x' y'.
  pose proof (hi_keys _ Hi _ _ E) as K.
  apply (In_dget _ _ _ _ K) in Hx. apply (In_dget _ _ _ _ K) in Hy.
  destruct (hi_pkg _ Hi _ _ _ _ E Hx) as [xd [X1 [_ [X2 _]]]]. destruct (hi_pkg _ Hi _ _ _ _ E Hy) as [yd [Y1 [_ [Y2 _]]]].
  unfold name_of in Hn. rewrite X1, Y1 in Hn. congruence.
Qed.

Lemma c44_again : forall h i ps qs h1 h2 r, built h -> Forall repeatable ps -> Forall repeatable qs ->
  load_parts h i ps = (h1, Ok tt) -> load_parts h1 i qs = (h2, r) ->
  exists h3, load_parts h2 i ps = (h3, Ok tt) /\ untouched h2 h3.
Proof.
  intros h i ps qs h1 h2 r Hb Hp Hq L1 L2. pose proof (built_good _ Hb) as Hg.
  pose proof (load_parts_inv ps h i (proj1 Hg)) as I1. rewrite L1 in I1. cbn [fst] in I1.
  pose proof (load_parts_grows ps h i Hp) as G1. rewrite L1 in G1. cbn [fst] in G1.
  pose proof (load_parts_inv qs h1 i I1) as I2. rewrite L2 in I2. cbn [fst] in I2.
  pose proof (load_parts_grows qs h1 i Hq) as G2. rewrite L2 in G2. cbn [fst] in G2.
  pose proof (good_grows _ _ _ Hg I1 G1) as Hg1. pose proof (good_grows _ _ _ Hg1 I2 G2) as Hg2.
  apply (again_parts ps) with (h := h) (h1 := h1) (u := tt); auto.
  apply Forall_forall. intros p _. apply again_part.
Qed.

Lemma c44_methods : forall c m k, In (c, m, k) creators -> In (c, m) non_idempotent ->
  exists os i n h1 h2 r x, cls_of (hrun os) i = c /\ load_parts (hrun os) i [Part (Some (c, m)) n []] = (h1, Ok tt) /\
    load_parts h1 i [Part (Some (c, m)) n []] = (h2, r) /\
    call (hrun os) i (Some (c, m)) n = (h1, Ok (Some x)) /\
    (snd (call h1 i (Some (c, m)) n) <> Ok (Some x) \/ nth_error h2 i <> nth_error h1 i).
Proof.
  intros c m k Hin Hm.
  assert (T : forallb (fun r => implb (pmem (fst r) non_idempotent)
    match method (fst (fst r)) (snd (fst r)) with
    | Some k => second_shows (fst (fst r)) k
    | None => false end) creators = true) by (vm_compute; reflexivity).
  rewrite forallb_forall in T. specialize (T _ Hin). cbn [fst snd] in T.
  apply pmem_In in Hm. rewrite Hm in T. cbn [implb] in T. destruct (method c m) as [k'|] eqn:M; [|discriminate].
  unfold second_shows in T. exists (base_ops c), 2, "x".
  destruct (create (hrun (base_ops c)) 2 k' "x") as [h1 r1] eqn:E1.
  destruct (create h1 2 k' "x") as [h2 r2] eqn:E2. apply andb_prop in T as [T0 T]. apply String.eqb_eq in T0.
  destruct r1 as [[x|]|]; try discriminate. destruct (nth_error h1 2) as [a|] eqn:Ea; [|discriminate].
  destruct (nth_error h2 2) as [b|] eqn:Eb; [|discriminate].
  pose proof (create_grows [] (hrun (base_ops c)) 2 k' "x") as G. rewrite E1 in G. cbn [fst] in G.
  assert (Hl : 2 < List.length (hrun (base_ops c))).
  { destruct (nth_error (hrun (base_ops c)) 2) eqn:E; [eapply nth_some_lt; eauto|].
    unfold create in E1. rewrite E in E1. discriminate. }
  destruct (grows_ids _ _ _ 2 (G ltac:(intros ? ? [])) Hl) as [_ C].
  assert (Ec : call (hrun (base_ops c)) 2 (Some (c, m)) "x" = (h1, Ok (Some x))).
  { unfold call. rewrite M, E1, T0. now rewrite isinst_refl. }
  assert (Ec2 : call h1 2 (Some (c, m)) "x" = (h2, r2)).
  { unfold call. rewrite M, E2, C, T0. now rewrite isinst_refl. }
  exists h1, h2, (snd (load_parts h1 2 [Part (Some (c, m)) "x" []])), x. split; [exact T0|].
  cbn [load_parts]. rewrite !load_part_eq, Ec, Ec2. cbn [load_parts snd]. split; [reflexivity|].
  split; [destruct r2 as [[y|]|e]; reflexivity|]. split; [reflexivity|].
  apply orb_prop in T as [T|T]; [apply orb_prop in T as [T|T]|].
  - left. intro Z. subst r2. simpl in T. now rewrite Nat.eqb_refl in T.
  - right. intro Z. rewrite Ea, Eb in Z. inversion Z; subst b. destruct (k_list k'); [|discriminate].
    now rewrite Nat.eqb_refl in T.
  - right. intro Z. rewrite Ea, Eb in Z. inversion Z; subst b. destruct (k_attr k'); [|discriminate].
    now rewrite onat_refl in T.
Qed.

(** ** Every part of the file is there *)
Lemma coll_get_in : forall h i nd n t x, heap_inv h -> nth_error h i = Some nd ->
  coll_get (cls_of h) (ncoll nd) n t = Ok (Some x) -> In x (elems (ncoll nd)) /\ name_of h x = n.
Proof.
  intros h i nd n t x Hi E H. pose proof (hi_coll _ Hi _ _ E) as C. destruct t as [t|].
  - rewrite (get_typed (name_of h)) in H by exact C. injection H as F. apply find_some in F as [F1 F2]. split; auto.
    unfold SpecCollection.answers in F2. apply andb_prop in F2 as [F2 _]. now apply String.eqb_eq in F2.
  - rewrite (get_untyped (name_of h)) in H by exact C. destruct (find _ _) eqn:F; [|destruct (dmem _ _); discriminate].
    injection H as <-. apply find_some in F as [F1 F2]. split; auto.
    unfold SpecCollection.answers in F2. apply andb_prop in F2 as [F2 _]. now apply String.eqb_eq in F2.
Qed.

Lemma call_holds : forall h i w n h1 j h', good h -> (forall c m, w = Some (c, m) -> ~ In (c, m) non_idempotent) ->
  call h i w n = (h1, Ok (Some j)) -> good h' -> grows once_attrs h1 h' -> holds h' i w n j.
Proof.
  intros h i w n h1 j h' [Hi Hroot] Hw H [Hi' Hroot'] Hg.
  pose proof (call_inv h i w n Hi) as Hi1. rewrite H in Hi1. cbn [fst] in Hi1.
  pose proof (call_grows h i w n Hw) as Hg0. rewrite H in Hg0. cbn [fst] in Hg0.
  destruct w as [[c m]|]; cbn [call] in *.
  - destruct (isinst (cls_of h i) c) eqn:Ei; [|discriminate].
    destruct (method c m) as [k|] eqn:M; [|discriminate].
    pose proof (method_In _ _ _ M) as Hin.
    destruct (steady_row _ _ _ Hin (Hw c m eq_refl)) as [Hs [Hsafe Hret]].
    destruct (create_settled _ _ _ _ _ _ Hi Hs H) as [nd S].
    assert (Hil : i < List.length h).
    { destruct (nth_error h i) eqn:E; [eapply nth_some_lt; eauto|]. unfold create in H. rewrite E in H. discriminate. }
    destruct (grows_ids _ _ _ i Hg0 Hil) as [_ C1].
    assert (Hp : k_ret k = RGet -> is_pkg_holder i nd = false).
    { intro Rk. rewrite Rk in Hret. destruct Hret as [R1 R2]. unfold is_pkg_holder. apply orb_false_intro.
      + apply Nat.eqb_neq. intro Z. subst i. rewrite Hroot in Ei. congruence.
      + apply String.eqb_neq. intro Z. unfold cls_of in C1 at 1. rewrite (st_node _ _ _ _ _ _ S) in C1.
        rewrite <- C1, Z in Ei. congruence. }
    destruct (settled_grows h1 h' i k n j nd Hi1 Hs Hg) as [nd' S']; auto.
    { destruct (k_ret k) as [| | |a] eqn:Rk; auto.
      unfold steady_shape in Hs. destruct (k_guard k) as [| | |b|l] eqn:Gk; rewrite Rk in Hs;
          try (rewrite andb_false_r in Hs; discriminate);
          try (destruct (k_list k), (k_attr k); discriminate).
      destruct (k_attr k); [|discriminate]. apply andb_prop in Hs as [A B]. apply String.eqb_eq in A, B. subst.
      eapply unset_once; eauto. }
    pose proof (st_node _ _ _ _ _ _ S') as E'. pose proof (st_result _ _ _ _ _ _ S') as R.
    destruct (Hg _ _ (st_node _ _ _ _ _ _ S)) as [nd2 [E2 Hn]]. rewrite E' in E2. injection E2 as <-.
    pose proof (is_pkg_holder_id i nd nd' (ng_id _ _ _ Hn)) as Hh.
    exists nd'. split; [exact E'|]. unfold creator_result in R.
    destruct (k_ret k) as [| | |a] eqn:Rk.
    + left. unfold get_element in R. rewrite E' in R. destruct (is_collectable i nd'); [|discriminate].
      rewrite <- Hh, (Hp eq_refl) in R. eapply coll_get_in; eauto.
    + left. unfold get_element in R. rewrite E' in R. destruct (is_collectable i nd'); [|discriminate].
      apply String.eqb_neq in Hret. rewrite Hret in R.
      destruct (is_pkg_holder i nd'); eapply coll_get_in; eauto.
    + right; left. destruct (k_guard k) as [| | |b|l]; try discriminate. rewrite E' in R. injection R as F.
      apply find_some in F as [F1 F2]. split; [now exists l|]. now apply String.eqb_eq in F2.
    + right; right. rewrite E' in R. injection R as R. now exists a.
  - unfold create_package in H. destruct (nth_error h i) as [nd|] eqn:E; [|discriminate].
    destruct (is_pkg_holder i nd) eqn:Eh; [|discriminate].
    assert (X : exists nd1, nth_error h1 i = Some nd1 /\ dget (npkgs nd1) n = Some j).
    { destruct (dget (npkgs nd) n) eqn:Ed.
      - inversion H; subst. now exists nd.
      - pose proof (nth_some_lt _ _ _ _ E) as Hl. inversion H; subst. exists (set_pkgs nd (dset (npkgs nd) n (List.length h))).
        split; [|cbn [npkgs set_pkgs]; apply dget_dset_same].
        rewrite nth_error_app1 by now rewrite upd_length. now apply upd_same. }
    destruct X as [nd1 [E1 D1]]. destruct (Hg _ _ E1) as [nd2 [E2 Hn]]. pose proof (ng_pkgs _ _ _ Hn _ _ D1) as D2.
    exists nd2. split; [exact E2|]. destruct (hi_pkg _ Hi' _ _ _ _ E2 D2) as [pd [P1 [_ [P2 _]]]]. split.
    + exists nd2. split; [exact E2|]. apply dget_In in D2. apply in_map_iff. exists (n, j). auto.
    + unfold name_of. now rewrite P1.
Qed.

Definition stays (p : part) : Prop := forall h i h1 u h', repeatable p -> good h ->
  load_part h i p = (h1, Ok u) -> good h' -> grows once_attrs h1 h' -> present h' i p.
Lemma parts_stay : forall ps, Forall stays ps -> forall h i h1 u h', Forall repeatable ps -> good h ->
  load_parts h i ps = (h1, Ok u) -> good h' -> grows once_attrs h1 h' -> Forall (present h' i) ps.
Proof.
  intros ps H. induction H as [|p ps Hp H IH]; intros h i h1 u h' Hr Hg Hl Hg' Hgr; cbn [load_parts] in *; constructor;
    inversion Hr as [|? ? Hrp Hrps]; subst;
    pose proof (load_part_inv p h i (proj1 Hg)) as Hia; pose proof (load_part_grows p h i Hrp) as Hga;
    destruct (load_part h i p) as [ha [ua|e]] eqn:Ea; try discriminate; cbn [fst] in *;
    pose proof (good_grows _ _ _ Hg Hia Hga) as Gha;
    pose proof (load_parts_grows ps ha i Hrps) as Hgb; rewrite Hl in Hgb; cbn [fst] in Hgb.
  - exact (Hp h i ha ua h' Hrp Hg Ea Hg' (grows_trans _ _ _ _ Hgb Hgr)).
  - exact (IH ha i h1 u h' Hrps Gha Hl Hg' Hgr).
Qed.
Lemma part_stays : forall p, stays p.
Proof.
  induction p as [w n ps IH] using part_ind'. intros h i h1 u h' Hr Hg Hl Hg' Hgr.
  destruct (repeatable_inv _ _ _ Hr) as [Hw Hps]. rewrite load_part_eq in *.
  pose proof (call_inv h i w n (proj1 Hg)) as Hia. pose proof (call_grows h i w n Hw) as Hga.
  destruct (call h i w n) as [ha [[j|]|e]] eqn:Ea; try discriminate. cbn [fst] in *.
  pose proof (good_grows _ _ _ Hg Hia Hga) as Gha.
  pose proof (load_parts_grows ps ha j Hps) as Hgb. rewrite Hl in Hgb. cbn [fst] in Hgb.
  apply present_part with j.
  - exact (call_holds h i w n ha j h' Hg Hw Ea Hg' (grows_trans _ _ _ _ Hgb Hgr)).
  - apply Forall_forall. exact (parts_stay ps IH ha j h1 u h' Hps Gha Hl Hg' Hgr).
Qed.
Lemma c44_present : forall h i ps qs h1 h2 r, built h -> Forall repeatable ps -> Forall repeatable qs ->
  load_parts h i ps = (h1, Ok tt) -> load_parts h1 i qs = (h2, r) -> Forall (present h2 i) ps.
Proof.
  intros h i ps qs h1 h2 r Hb Hp Hq L1 L2. pose proof (built_good _ Hb) as Hg.
  pose proof (load_parts_inv ps h i (proj1 Hg)) as I1. rewrite L1 in I1. cbn [fst] in I1.
  pose proof (load_parts_grows ps h i Hp) as G1. rewrite L1 in G1. cbn [fst] in G1.
  pose proof (load_parts_inv qs h1 i I1) as I2. rewrite L2 in I2. cbn [fst] in I2.
  pose proof (load_parts_grows qs h1 i Hq) as G2. rewrite L2 in G2. cbn [fst] in G2.
  pose proof (good_grows _ _ _ Hg I1 G1) as Hg1. pose proof (good_grows _ _ _ Hg1 I2 G2) as Hg2.
  apply (parts_stay ps) with (h := h) (h1 := h1) (u := tt); auto.
  apply Forall_forall. intros p _. apply part_stays.
Qed.

(** ** Deciding [repeatable] *)
Fixpoint repeatable_b (p : part) : bool :=
  match p with
  | Part w n ps => (match w with Some q => negb (pmem q non_idempotent) | None => true end && forallb repeatable_b ps)%bool
  end.
Lemma repeatable_checked : forall ps, forallb repeatable_b ps = true -> Forall repeatable ps.
Proof.
  assert (H : forall p, repeatable_b p = true -> repeatable p).
  { induction p as [w n ps IH] using part_ind'. cbn [repeatable_b]. intro H. apply andb_prop in H as [Hw Hp].
    constructor.
    - intros c m -> K. apply pmem_In in K. rewrite K in Hw. discriminate.
    - intros p Hin. rewrite Forall_forall in IH. rewrite forallb_forall in Hp. auto. }
  intros ps Hp. apply Forall_forall. intros p Hin. rewrite forallb_forall in Hp. auto.
Qed.
