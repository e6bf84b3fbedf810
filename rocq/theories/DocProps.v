From Coq Require Import String Ascii List Bool Arith Lia Permutation Sorted.
From Verif Require Import PyBase PyBaseFacts ClassTable Collection CollectionFacts CollProps ObjHeap SpecHeap HeapFacts Doc SpecDoc.
Import ListNotations.
Open Scope string_scope.
Open Scope list_scope.
Local Opaque isinst releases.
Local Arguments nth_error : simpl never.
Local Arguments upd : simpl never.

(** ** Structure of histories *)
Lemma drun_app : forall os o, drun (os ++ [o]) = dstep (drun os) o.
Proof. intros. unfold drun. now rewrite fold_left_app. Qed.

Lemma since_app : forall os o, since_clear (os ++ [o]) = match o with DClear => [] | _ => since_clear os ++ [o] end.
Proof.
  induction os as [|a os IH]; intro o.
  - simpl. destruct o; reflexivity.
  - simpl. rewrite existsb_app, IH. simpl. destruct (existsb _ os) eqn:E; simpl.
    + reflexivity.
    + destruct o; simpl; try (destruct a; reflexivity).
Qed.

Lemma drun_ind : forall (P : list dop -> doc -> Prop), P [] doc_new ->
  (forall os d o, P os d -> d = drun os -> P (os ++ [o]) (dstep d o)) -> forall os, P os (drun os).
Proof.
  intros P H0 Hs os. induction os as [|o os IH] using rev_ind; [exact H0|].
  rewrite drun_app. apply Hs; auto.
Qed.

Definition root_ok (h : heap) : Prop := exists nd, nth_error h root = Some nd /\ same_id (new_node CDocument "" 0) nd.

Lemma root_ok_upd : forall h i x y, root_ok h -> nth_error h i = Some x -> same_id x y -> root_ok (upd h i y).
Proof.
  intros h i x y [nd [H1 H2]] E S. unfold root_ok. destruct (Nat.eq_dec i root) as [->|Hne].
  - rewrite upd_same by (eapply nth_some_lt; eauto). exists y. split; [reflexivity|].
    rewrite H1 in E. inversion E; subst. destruct H2 as [A [B C]], S as [A' [B' C']]. repeat split; congruence.
  - rewrite upd_other by assumption. eauto.
Qed.

Lemma root_ok_app : forall h y, root_ok h -> root_ok (h ++ [y]).
Proof.
  intros h y [nd [H1 H2]]. exists nd. split; [|exact H2]. rewrite nth_error_app1; [exact H1|]. eapply nth_some_lt; eauto.
Qed.

Lemma root_ok_hstep : forall h o, root_ok h -> root_ok (hstep h o).
Proof.
  intros h o H. destruct o as [i n|i k n|i n t]; cbn [hstep].
  - unfold create_package. destruct (nth_error h i) as [x|] eqn:E; [|exact H].
    destruct (is_pkg_holder i x); [|exact H]. destruct (dget (npkgs x) n); [exact H|]. cbn [fst].
    apply root_ok_app. eapply root_ok_upd; eauto. repeat split.
  - unfold create. destruct (nth_error h i) as [x|] eqn:E; [|exact H].
    destruct (k_add k && negb (is_collectable i x))%bool; [exact H|].
    destruct (guard_holds h x k n); [|exact H]. cbn [fst].
    eapply root_ok_upd; [apply root_ok_app; exact H| |apply register_id].
    rewrite nth_error_app1; [exact E|]. eapply nth_some_lt; eauto.
  - unfold remove_element. destruct (nth_error h i) as [x|] eqn:E; [|exact H].
    destruct (is_collectable i x); [|exact H]. destruct (coll_remove _ _ _ _) as [c e]. cbn [fst].
    eapply root_ok_upd; eauto. repeat split.
Qed.

Ltac step_field :=
  intros d o; destruct o; cbn [dstep]; try reflexivity;
  repeat match goal with
  | |- context[setARRelease] => unfold setARRelease; destruct (dget _ _); reflexivity
  | |- context[setRootSwCompositionPrototype] => unfold setRootSwCompositionPrototype
  | |- context[addSystem] => unfold addSystem
  | |- context[addComposition] => unfold addComposition
  | |- context[addARObject] => unfold addARObject
  | |- context[addDataTypeMap] => unfold addDataTypeMap
  | v : option named |- _ => destruct v
  | v : option (nat * option string) |- _ => destruct v as [[? [?|]]|]
  | v : option nat |- _ => destruct v
  | v : option string |- _ => destruct v
  | |- context[match d_root ?d with _ => _ end] => destruct (d_root d)
  | |- context[if ?b then _ else _] => destruct b
  end; try reflexivity.

Lemma heap_step : forall d o, d_heap (dstep d o) =
  match o with
  | DHeap o => hstep (d_heap d) o
  | DClear => clear_packages (clear_elements (d_heap d))
  | _ => d_heap d end.
Proof. step_field. Qed.
Lemma type_step : forall d o, (d_appl_impl (dstep d o), d_impl_appl (dstep d o)) =
  match o with
  | DDataMap (Some a) (Some i) => (dset (d_appl_impl d) a i, dset (d_impl_appl d) i a)
  | DClear => ([], [])
  | _ => (d_appl_impl d, d_impl_appl d) end.
Proof. step_field. Qed.
Lemma beh_step : forall d o, (d_impl_beh (dstep d o), d_beh_impl (dstep d o)) =
  match o with
  | DImplBeh i b => (dset (d_impl_beh d) i b, dset (d_beh_impl d) b i)
  | DClear => ([], [])
  | _ => (d_impl_beh d, d_beh_impl d) end.
Proof. step_field. Qed.
Lemma rel_step : forall d o, d_releases (dstep d o) = d_releases d.
Proof. step_field. Qed.
Lemma root_step : forall d o, d_root (dstep d o) =
  match o with
  | DRoot (Some x) => match d_root d with Some y => Some y | None => Some x end
  | DClear => None
  | _ => d_root d end.
Proof.
  intros d o; destruct o; try (step_field; fail); cbn [dstep]; try reflexivity;
  try (unfold setARRelease; destruct (dget _ _); reflexivity);
  try (unfold addSystem; destruct (dmem _ _); reflexivity).
  - destruct appl, impl; reflexivity.
  - unfold setRootSwCompositionPrototype. destruct v; [|reflexivity]. destruct (d_root d) eqn:E; [|reflexivity].
    destruct (String.eqb _ _); exact E.
  - unfold addComposition. destruct v; [|reflexivity]. destruct (dmem _ _); reflexivity.
  - unfold addARObject. destruct v as [[? [?|]]|]; reflexivity.
  - destruct v; reflexivity.
Qed.
Lemma systems_step : forall d o, d_systems (dstep d o) =
  match o with
  | DSystem x => if dmem (d_systems d) (o_name x) then d_systems d else dset (d_systems d) (o_name x) x
  | DClear => []
  | _ => d_systems d end.
Proof. step_field. Qed.
Lemma comps_step : forall d o, d_comps (dstep d o) =
  match o with
  | DComp (Some x) => if dmem (d_comps d) (o_name x) then d_comps d else dset (d_comps d) (o_name x) x
  | DClear => []
  | _ => d_comps d end.
Proof. step_field. Qed.
Lemma uuids_step : forall d o, d_uuids (dstep d o) =
  match o with
  | DObj (Some (x, Some u)) =>
      let m := if dmem (d_uuids d) u then d_uuids d else dset (d_uuids d) u [] in
      dset m u (match dget m u with Some l => l | None => [] end ++ [x])
  | DClear => []
  | _ => d_uuids d end.
Proof. step_field. Qed.

Lemma root_node : forall os, root_ok (d_heap (drun os)).
Proof.
  apply (drun_ind (fun os d => root_ok (d_heap d))).
  - exists (new_node CDocument "" 0). split; [reflexivity|repeat split].
  - intros os d o H _. rewrite heap_step. destruct o; try exact H.
    + now apply root_ok_hstep.
    + assert (H' : root_ok (clear_elements (d_heap d))).
      { unfold clear_elements. destruct (nth_error (d_heap d) root) eqn:E; [|exact H]. eapply root_ok_upd; eauto. repeat split. }
      unfold clear_packages. destruct (nth_error (clear_elements (d_heap d)) root) eqn:E; [|exact H'].
      eapply root_ok_upd; eauto. repeat split.
Qed.

Lemma releases_kept : forall os, d_releases (drun os) = releases.
Proof.
  apply (drun_ind (fun os d => d_releases d = releases)); [reflexivity|].
  intros os d o H _. now rewrite rel_step.
Qed.

(** ** C10 *)
Lemma find_from_empty : forall names h, (exists nd, nth_error h root = Some nd /\ elems (ncoll nd) = [] /\ mapp (ncoll nd) = [] /\ npkgs nd = []) ->
  find_from h root names = if forallb is_empty names then Ok (Some root) else Ok None.
Proof.
  induction names as [|n names IH]; intros h Hr; [reflexivity|]. simpl. destruct n as [|c n]; simpl.
  - apply IH, Hr.
  - destruct Hr as [nd [H1 [H2 [H3 H4]]]]. unfold get_element. rewrite H1.
    unfold is_collectable, is_pkg_holder. simpl. rewrite H4. simpl. unfold coll_get. rewrite H3. reflexivity.
Qed.

Lemma getDest_root : forall h, (exists nd, nth_error h root = Some nd /\ ncls nd = CDocument) -> getDestType h root = Raise NotImplementedError.
Proof.
  intros h [nd [H1 H2]]. unfold getDestType, cls_of. rewrite H1, H2. vm_compute. reflexivity.
Qed.

Lemma c10_clear : forall os q, ask (doc_clear (drun os)) q = ask doc_new q.
Proof.
  intros os q. destruct (root_node os) as [nd [Hn Hs]]. set (d := drun os) in *. clearbody d.
  pose proof (nth_some_lt _ _ _ _ Hn) as Hl.
  assert (Hh : d_heap (doc_clear d) = upd (d_heap d) root (set_pkgs (set_coll nd coll_empty) [])).
  { unfold doc_clear. cbn [d_heap set_heap set_arobject set_schema set_type_maps set_beh_maps set_uuids set_systems
      set_comps set_root set_admin set_fileinfo set_intro].
    unfold clear_packages, clear_elements. rewrite Hn. rewrite upd_same by assumption. now rewrite upd_upd. }
  assert (Hr : nth_error (d_heap (doc_clear d)) root = Some (set_pkgs (set_coll nd coll_empty) [])).
  { rewrite Hh. now apply upd_same. }
  assert (Hc : ncls nd = CDocument) by (destruct Hs as [A _]; now symmetry).
  assert (Hf : forall p, find_path (d_heap (doc_clear d)) p = find_path fresh_doc p).
  { intro p. unfold find_path. rewrite !find_from_empty; auto.
    - exists (new_node CDocument "" 0). auto.
    - eexists. split; [exact Hr|]. auto. }
  destruct q; cbn [ask].
  - unfold sorted_packages. rewrite Hr. reflexivity.
  - rewrite Hr. reflexivity.
  - rewrite Hr. reflexivity.
  - unfold get_element. rewrite Hr. unfold is_collectable, is_pkg_holder. reflexivity.
  - rewrite Hr. cbn. now destruct t.
  - now rewrite Hf.
  - unfold find_ref. destruct v as [v|]; [|reflexivity]. rewrite Hf. cbn [d_heap doc_new].
    destruct (find_path fresh_doc v) as [[x|]|e] eqn:E; cbn [bind]; [|reflexivity|reflexivity].
    destruct d0 as [t|]; [|reflexivity]. destruct (String.eqb t ""); [reflexivity|].
    assert (x = root).
    { unfold find_path in E. rewrite find_from_empty in E by (exists (new_node CDocument "" 0); auto).
      destruct (forallb _ _); [now inversion E|discriminate]. }
    subst x. rewrite !getDest_root; auto.
    + exists (new_node CDocument "" 0). auto.
    + eexists. split; [exact Hr|]. exact Hc.
  - reflexivity.
  - reflexivity.
  - reflexivity.
  - reflexivity.
  - reflexivity.
  - reflexivity.
  - reflexivity.
  - reflexivity.
  - reflexivity.
  - reflexivity.
  - reflexivity.
  - reflexivity.
  - reflexivity.
  - reflexivity.
  - reflexivity.
Qed.

(** ** C11 *)
Lemma releases_supported : releases = supported.
Proof. reflexivity. Qed.

Lemma c11_known : forall os r xsd, In (r, xsd) supported ->
  setARRelease (drun os) r = (set_schema (drun os) (Some ("http://autosar.org/schema/r4.0 " ++ xsd)%string), None).
Proof.
  intros os r xsd H. unfold setARRelease. rewrite releases_kept, releases_supported.
  apply In_dget in H; [now rewrite H|].
  assert (E : List.nodup string_dec (dkeys supported) = dkeys supported) by (vm_compute; reflexivity).
  rewrite <- E. apply NoDup_nodup.
Qed.

Lemma c11_unknown : forall os r, ~ In r (map fst supported) -> setARRelease (drun os) r = (drun os, Some ValueError).
Proof.
  intros os r H. unfold setARRelease. rewrite releases_kept, releases_supported. destruct (dget supported r) eqn:E; auto.
  exfalso. apply H. apply dget_In in E. apply in_map_iff. exists (r, s). auto.
Qed.

Lemma string_app_inj : forall p a b, (p ++ a)%string = (p ++ b)%string -> a = b.
Proof. induction p; simpl; intros a' b' H; auto. inversion H. auto. Qed.

Lemma c11_distinct : forall r r' x, In (r, x) supported -> In (r', x) supported -> r = r'.
Proof.
  assert (T : forallb (fun p => forallb (fun q => implb (String.eqb (snd p) (snd q)) (String.eqb (fst p) (fst q))) supported) supported = true)
    by (vm_compute; reflexivity).
  intros r r' x H1 H2. rewrite forallb_forall in T. specialize (T _ H1). rewrite forallb_forall in T. specialize (T _ H2).
  cbn [fst snd] in T. rewrite String.eqb_refl in T. now apply String.eqb_eq.
Qed.

Lemma c11_locations : forall os r r', In r (map fst supported) -> In r' (map fst supported) ->
  d_schema (fst (setARRelease (drun os) r)) = d_schema (fst (setARRelease (drun os) r')) -> r = r'.
Proof.
  intros os r r' H1 H2 E. apply in_map_iff in H1 as [[a x] [Ha H1]]. apply in_map_iff in H2 as [[b y] [Hb H2]].
  simpl in Ha, Hb. subst a b. rewrite (c11_known os r x H1), (c11_known os r' y H2) in E.
  cbn [fst d_schema set_schema] in E. assert (E' : x = y) by (inversion E; reflexivity). subst y.
  eapply c11_distinct; eauto.
Qed.

(** ** C24, C25 *)
Lemma latest_app : forall x ps a b, latest x (ps ++ [(a, b)]) = if String.eqb a x then Some b else latest x ps.
Proof.
  induction ps as [|[c e] ps IH]; intros a b; simpl.
  - destruct (String.eqb a x); reflexivity.
  - rewrite IH. destruct (String.eqb a x); auto.
Qed.

Lemma type_maps_run : forall os x,
  dget (d_appl_impl (drun os)) x = latest x (type_maps (since_clear os)) /\
  dget (d_impl_appl (drun os)) x = latest x (map swap_pair (type_maps (since_clear os))).
Proof.
  intros os x. apply (drun_ind (fun os d => dget (d_appl_impl d) x = latest x (type_maps (since_clear os)) /\
    dget (d_impl_appl d) x = latest x (map swap_pair (type_maps (since_clear os))))); [split; reflexivity|].
  clear os. intros os d o [H1 H2] _. rewrite since_app.
  assert (K : forall os' o', type_maps (os' ++ [o']) = type_maps os' ++ type_maps [o']) by
    (intros; unfold type_maps; now rewrite flat_map_app).
  pose proof (type_step d o) as S.
  assert (Same : type_maps [o] = [] -> o <> DClear -> (d_appl_impl (dstep d o), d_impl_appl (dstep d o)) = (d_appl_impl d, d_impl_appl d) ->
     dget (d_appl_impl (dstep d o)) x = latest x (type_maps (match o with DClear => [] | _ => since_clear os ++ [o] end)) /\
     dget (d_impl_appl (dstep d o)) x = latest x (map swap_pair (type_maps (match o with DClear => [] | _ => since_clear os ++ [o] end)))).
  { intros E1 E2 E3. inversion E3 as [[A B]]. rewrite A, B.
    replace (type_maps (match o with DClear => [] | _ => since_clear os ++ [o] end)) with (type_maps (since_clear os)); [auto|].
    destruct o; try congruence; rewrite K, E1, app_nil_r; reflexivity. }
  destruct o; try (apply Same; [reflexivity|discriminate|exact S]).
  - destruct appl as [a|]; [|apply Same; [reflexivity|discriminate|exact S]].
    destruct impl as [i|]; [|apply Same; [reflexivity|discriminate|exact S]].
    pose proof (f_equal fst S) as A. pose proof (f_equal snd S) as B. cbn [fst snd] in A, B. rewrite A, B. rewrite K, map_app. cbn [type_maps flat_map app map swap_pair fst snd].
    unfold swap_pair at 2. cbn [fst snd]. rewrite !latest_app. split.
    + destruct (String.eqb_spec a x) as [->|Hne]; [now rewrite dget_dset_same|now rewrite dget_dset_other by auto].
    + destruct (String.eqb_spec i x) as [->|Hne]; [now rewrite dget_dset_same|now rewrite dget_dset_other by auto].
  - pose proof (f_equal fst S) as A. pose proof (f_equal snd S) as B. cbn [fst snd] in A, B. rewrite A, B. split; reflexivity.
Qed.

Lemma beh_maps_run : forall os x,
  dget (d_impl_beh (drun os)) x = latest x (beh_maps (since_clear os)) /\
  dget (d_beh_impl (drun os)) x = latest x (map swap_pair (beh_maps (since_clear os))).
Proof.
  intros os x. apply (drun_ind (fun os d => dget (d_impl_beh d) x = latest x (beh_maps (since_clear os)) /\
    dget (d_beh_impl d) x = latest x (map swap_pair (beh_maps (since_clear os))))); [split; reflexivity|].
  clear os. intros os d o [H1 H2] _. rewrite since_app.
  assert (K : forall os' o', beh_maps (os' ++ [o']) = beh_maps os' ++ beh_maps [o']) by
    (intros; unfold beh_maps; now rewrite flat_map_app).
  pose proof (beh_step d o) as S.
  assert (Same : beh_maps [o] = [] -> o <> DClear -> (d_impl_beh (dstep d o), d_beh_impl (dstep d o)) = (d_impl_beh d, d_beh_impl d) ->
     dget (d_impl_beh (dstep d o)) x = latest x (beh_maps (match o with DClear => [] | _ => since_clear os ++ [o] end)) /\
     dget (d_beh_impl (dstep d o)) x = latest x (map swap_pair (beh_maps (match o with DClear => [] | _ => since_clear os ++ [o] end)))).
  { intros E1 E2 E3. inversion E3 as [[A B]]. rewrite A, B.
    replace (beh_maps (match o with DClear => [] | _ => since_clear os ++ [o] end)) with (beh_maps (since_clear os)); [auto|].
    destruct o; try congruence; rewrite K, E1, app_nil_r; reflexivity. }
  destruct o; try (apply Same; [reflexivity|discriminate|exact S]).
  - pose proof (f_equal fst S) as A. pose proof (f_equal snd S) as B. cbn [fst snd] in A, B. rewrite A, B. rewrite K, map_app. cbn [beh_maps flat_map app map swap_pair fst snd].
    unfold swap_pair at 2. cbn [fst snd]. rewrite !latest_app. split.
    + destruct (String.eqb_spec impl x) as [->|Hne]; [now rewrite dget_dset_same|now rewrite dget_dset_other by auto].
    + destruct (String.eqb_spec beh x) as [->|Hne]; [now rewrite dget_dset_same|now rewrite dget_dset_other by auto].
  - pose proof (f_equal fst S) as A. pose proof (f_equal snd S) as B. cbn [fst snd] in A, B. rewrite A, B. split; reflexivity.
Qed.

Lemma c24_to_impl : forall os a, convertToImplementationDataType (drun os) a =
  match latest a (type_maps (since_clear os)) with
  | Some i => find_path (d_heap (drun os)) i | None => Raise IndexError end.
Proof.
  intros os a. unfold convertToImplementationDataType. destruct (type_maps_run os a) as [-> _].
  destruct (latest _ _); reflexivity.
Qed.
Lemma c24_to_appl : forall os i, convertToApplicationDataType (drun os) i =
  match latest i (map swap_pair (type_maps (since_clear os))) with
  | Some a => find_path (d_heap (drun os)) a | None => Raise IndexError end.
Proof.
  intros os i. unfold convertToApplicationDataType. destruct (type_maps_run os i) as [_ ->].
  destruct (latest _ _); reflexivity.
Qed.

Lemma latest_In : forall x ps y, latest x ps = Some y -> In (x, y) ps.
Proof.
  induction ps as [|[a b] ps IH]; simpl; intros y H; [discriminate|]. destruct (latest x ps) eqn:E.
  - right. apply IH. congruence.
  - destruct (String.eqb_spec a x); [|discriminate]. inversion H; subst. auto.
Qed.
Lemma In_latest : forall x y ps, In (x, y) ps -> exists z, latest x ps = Some z.
Proof.
  induction ps as [|[a b] ps IH]; simpl; intro H; [contradiction|]. destruct H as [H|H].
  - inversion H; subst. destruct (latest x ps); eauto. rewrite String.eqb_refl. eauto.
  - destruct (IH H) as [z ->]. eauto.
Qed.

Lemma one_to_one_inverse : forall ps a b, one_to_one ps -> (latest a ps = Some b <-> latest b (map swap_pair ps) = Some a).
Proof.
  intros ps a b H. split; intro E.
  - apply latest_In in E. assert (In (b, a) (map swap_pair ps)) by (apply in_map_iff; exists (a, b); auto).
    destruct (In_latest _ _ _ H0) as [z Hz]. rewrite Hz. f_equal.
    apply latest_In in Hz. apply in_map_iff in Hz as [[a' b'] [X Y]]. inversion X; subst.
    destruct (H a b z b E Y) as [_ G]. symmetry. auto.
  - apply latest_In in E. apply in_map_iff in E as [[a' b'] [X Y]]. inversion X; subst.
    destruct (In_latest _ _ _ Y) as [z Hz]. rewrite Hz. f_equal. apply latest_In in Hz.
    destruct (H a b a z Y Hz) as [G _]. symmetry. auto.
Qed.

Lemma c24_inverse : forall os a i, one_to_one (type_maps (since_clear os)) ->
  (latest a (type_maps (since_clear os)) = Some i <-> latest i (map swap_pair (type_maps (since_clear os))) = Some a).
Proof. intros. now apply one_to_one_inverse. Qed.

(** the state after a map with a missing side *)
Lemma c24_incomplete : forall os a i, a = None \/ i = None -> dstep (drun os) (DDataMap a i) = drun os.
Proof. intros os [a|] [i|] [H|H]; try discriminate; reflexivity. Qed.

Lemma c25_behavior : forall os i, getBehavior (drun os) i =
  match latest i (beh_maps (since_clear os)) with Some b => find_path (d_heap (drun os)) b | None => Ok None end.
Proof. intros os i. unfold getBehavior. destruct (beh_maps_run os i) as [-> _]. destruct (latest _ _); reflexivity. Qed.
Lemma c25_implementation : forall os b, getImplementation (drun os) b =
  match latest b (map swap_pair (beh_maps (since_clear os))) with Some i => find_path (d_heap (drun os)) i | None => Ok None end.
Proof. intros os b. unfold getImplementation. destruct (beh_maps_run os b) as [_ ->]. destruct (latest _ _); reflexivity. Qed.

(** ** C26 *)
Lemma root_run : forall os, d_root (drun os) = hd_error (root_calls (since_clear os)).
Proof.
  apply (drun_ind (fun os d => d_root d = hd_error (root_calls (since_clear os)))); [reflexivity|].
  intros os d o H _. rewrite since_app, root_step.
  assert (K : forall os' o', root_calls (os' ++ [o']) = root_calls os' ++ root_calls [o']) by
    (intros; unfold root_calls; now rewrite flat_map_app).
  destruct o; try (rewrite K; cbn [root_calls flat_map app]; rewrite ?app_nil_r; exact H); [|reflexivity].
  rewrite K. destruct v as [x|]; cbn [root_calls flat_map app]; [|now rewrite app_nil_r].
  rewrite H. destruct (root_calls (since_clear os)); reflexivity.
Qed.

Lemma c26_first : forall os, d_root (drun os) = hd_error (root_calls (since_clear os)).
Proof. exact root_run. Qed.

Lemma c26_fixed : forall os x v d' e, d_root (drun os) = Some x ->
  setRootSwCompositionPrototype (drun os) v = (d', e) -> d' = drun os /\
  (e = Some ValueError <-> exists y, v = Some y /\ o_name y <> o_name x) /\ (e = None \/ e = Some ValueError).
Proof.
  intros os x v d' e Hx H. unfold setRootSwCompositionPrototype in H. rewrite Hx in H. destruct v as [y|].
  - destruct (String.eqb_spec (o_name y) (o_name x)); inversion H; subst; split; auto; split; auto.
    + split; [discriminate|]. intros [z [A B]]. inversion A; subst. contradiction.
    + split; eauto.
  - inversion H; subst. split; auto. split; auto. split; [discriminate|]. intros [z [A _]]. discriminate.
Qed.

(** ** C27 *)
Lemma first_named_app : forall n l x, first_named n (l ++ [x]) =
  match first_named n l with Some y => Some y | None => if String.eqb (o_name x) n then Some x else None end.
Proof.
  intros n l x. unfold first_named. induction l as [|y l IH]; simpl; [reflexivity|].
  destruct (String.eqb (o_name y) n); auto.
Qed.

Lemma first_wins : forall (m : dict named) l x, (forall n, dget m n = first_named n l) -> NoDup (dkeys m) ->
  (forall n y, dget m n = Some y -> o_name y = n) ->
  let m' := if dmem m (o_name x) then m else dset m (o_name x) x in
  (forall n, dget m' n = first_named n (l ++ [x])) /\ NoDup (dkeys m') /\
  (forall n y, dget m' n = Some y -> o_name y = n).
Proof.
  intros m l x H1 H2 H3 m'. unfold m', dmem. clear m'. destruct (dget m (o_name x)) as [y|] eqn:Ed.
  - split; [|split]; auto. intro n. rewrite first_named_app, <- H1. destruct (String.eqb_spec (o_name x) n) as [<-|Hne].
    + now rewrite Ed.
    + destruct (dget m n); auto.
  - split; [|split].
    + intro n. rewrite first_named_app, <- H1. destruct (String.eqb_spec (o_name x) n) as [<-|Hne].
      * rewrite dget_dset_same. now rewrite Ed.
      * rewrite dget_dset_other by auto. destruct (dget m n); auto.
    + now apply dset_NoDup.
    + intros n y Hy. destruct (String.eqb_spec n (o_name x)) as [->|Hne].
      * rewrite dget_dset_same in Hy. inversion Hy; subst. reflexivity.
      * rewrite dget_dset_other in Hy by auto. auto.
Qed.

Definition reg_ok (m : dict named) (l : list named) : Prop :=
  (forall n, dget m n = first_named n l) /\ NoDup (dkeys m) /\ (forall n x, dget m n = Some x -> o_name x = n).

Lemma systems_run : forall os, reg_ok (d_systems (drun os)) (system_calls (since_clear os)).
Proof.
  apply (drun_ind (fun os d => reg_ok (d_systems d) (system_calls (since_clear os)))).
  - split; [reflexivity|]. split; [constructor|discriminate].
  - intros os d o H _. rewrite since_app, systems_step.
    assert (K : forall os' o', system_calls (os' ++ [o']) = system_calls os' ++ system_calls [o']) by
      (intros; unfold system_calls; now rewrite flat_map_app).
    destruct o; try (rewrite K; cbn [system_calls flat_map app]; rewrite ?app_nil_r; exact H).
    + rewrite K. cbn [system_calls flat_map app]. destruct H as [H1 [H2 H3]]. now apply first_wins.
    + split; [reflexivity|]. split; [constructor|discriminate].
Qed.

Lemma comps_run : forall os, reg_ok (d_comps (drun os)) (comp_calls (since_clear os)).
Proof.
  apply (drun_ind (fun os d => reg_ok (d_comps d) (comp_calls (since_clear os)))).
  - split; [reflexivity|]. split; [constructor|discriminate].
  - intros os d o H _. rewrite since_app, comps_step.
    assert (K : forall os' o', comp_calls (os' ++ [o']) = comp_calls os' ++ comp_calls [o']) by
      (intros; unfold comp_calls; now rewrite flat_map_app).
    destruct o; try (rewrite K; cbn [comp_calls flat_map app]; rewrite ?app_nil_r; exact H).
    + destruct v as [x|]; rewrite K; cbn [comp_calls flat_map app]; [|now rewrite app_nil_r].
      destruct H as [H1 [H2 H3]]. now apply first_wins.
    + split; [reflexivity|]. split; [constructor|discriminate].
Qed.

Lemma c27_listed : forall os x, In x (getSystems (drun os)) <->
  first_named (o_name x) (system_calls (since_clear os)) = Some x.
Proof.
  intros os x. destruct (systems_run os) as [H1 [H2 H3]]. unfold getSystems. split.
  - intro H. apply (Permutation_in _ (py_sorted_perm _ _)) in H.
    unfold dvalues in H. apply in_map_iff in H as [[n y] [A B]]. simpl in A. subst y.
    apply In_dget in B; auto. rewrite <- H1, (H3 _ _ B). exact B.
  - intro H. apply (Permutation_in _ (Permutation_sym (py_sorted_perm _ _))).
    rewrite <- H1 in H. apply dget_In in H. unfold dvalues. apply in_map_iff. exists (o_name x, x). auto.
Qed.

Lemma c27_names : forall os, NoDup (map o_name (getSystems (drun os))).
Proof.
  intro os. destruct (systems_run os) as [H1 [H2 H3]]. unfold getSystems.
  assert (P : Permutation (map o_name (py_sorted o_name (dvalues (d_systems (drun os))))) (dkeys (d_systems (drun os)))).
  { apply Permutation_trans with (map o_name (dvalues (d_systems (drun os)))).
    - apply Permutation_map. apply py_sorted_perm.
    - unfold dvalues, dkeys. rewrite map_map.
      assert (E : map (fun p => o_name (snd p)) (d_systems (drun os)) = map fst (d_systems (drun os))).
      { apply map_ext_in. intros [n x] Hin. simpl. apply H3. now apply In_dget. }
      rewrite E. apply Permutation_refl. }
  eapply Permutation_NoDup; [apply Permutation_sym; exact P|assumption].
Qed.

Lemma c27_sorted : forall os, StronglySorted (fun a b => str_leb (o_name a) (o_name b) = true) (getSystems (drun os)).
Proof. intro os. unfold getSystems. apply py_sorted_sorted. Qed.

Lemma c27_comp : forall os n, getComposition (drun os) n =
  match first_named n (comp_calls (since_clear os)) with Some x => Ok x | None => Raise KeyError end.
Proof. intros. unfold getComposition. destruct (comps_run os) as [-> _]. reflexivity. Qed.

(** ** C22, C23 *)
Lemma with_uuid_app : forall u l p, with_uuid u (l ++ [p]) = with_uuid u l ++ (if String.eqb (fst p) u then [snd p] else []).
Proof.
  intros u l p. unfold with_uuid. rewrite filter_app, map_app. simpl. destruct (String.eqb (fst p) u); reflexivity.
Qed.

Lemma uuids_run : forall os,
  (forall u, getARObjectByUUID (drun os) u = with_uuid u (uuid_calls (since_clear os))) /\
  NoDup (dkeys (d_uuids (drun os))) /\
  (forall u l, dget (d_uuids (drun os)) u = Some l -> l <> []).
Proof.
  unfold getARObjectByUUID.
  pose (Q := fun (m : dict (list nat)) l => (forall u, match dget m u with Some l => l | None => [] end = with_uuid u l) /\
      NoDup (dkeys m) /\ (forall u l, dget m u = Some l -> l <> [])).
  apply (drun_ind (fun os d => Q (d_uuids d) (uuid_calls (since_clear os)))).
  - split; [reflexivity|]. split; [constructor|discriminate].
  - intros os d o H _. rewrite since_app, uuids_step.
    assert (K : forall os' o', uuid_calls (os' ++ [o']) = uuid_calls os' ++ uuid_calls [o']) by
      (intros; unfold uuid_calls; now rewrite flat_map_app).
    destruct o; try (rewrite K; cbn [uuid_calls flat_map app]; rewrite ?app_nil_r; exact H).
    + destruct v as [[x [u|]]|]; rewrite K; cbn [uuid_calls flat_map app]; rewrite ?app_nil_r; try exact H.
      destruct H as [H1 [H2 H3]].
      set (m := if dmem (d_uuids d) u then d_uuids d else dset (d_uuids d) u []). cbv zeta.
      assert (M1 : forall v, match dget m v with Some l => l | None => [] end = match dget (d_uuids d) v with Some l => l | None => [] end).
      { intro v. unfold m, dmem. destruct (dget (d_uuids d) u) eqn:E; [reflexivity|].
        destruct (String.eqb_spec v u) as [->|Hne]; [now rewrite dget_dset_same, E|now rewrite dget_dset_other by auto]. }
      assert (M2 : NoDup (dkeys m)) by (unfold m; destruct (dmem _ _); auto; now apply dset_NoDup).
      assert (M3 : forall v l, v <> u -> dget m v = Some l -> l <> []).
      { intros v l Hne. unfold m. destruct (dmem _ _); [apply H3|]. rewrite dget_dset_other by auto. apply H3. }
      split; [|split].
      * intro v. rewrite with_uuid_app. cbn [fst snd]. rewrite <- H1. destruct (String.eqb_spec u v) as [<-|Hne].
        -- rewrite dget_dset_same. now rewrite M1.
        -- rewrite dget_dset_other by auto. rewrite M1. now rewrite app_nil_r.
      * now apply dset_NoDup.
      * intros v l Hl. destruct (String.eqb_spec v u) as [->|Hne].
        -- rewrite dget_dset_same in Hl. inversion Hl; subst. intro C. now apply app_eq_nil in C as [_ C].
        -- rewrite dget_dset_other in Hl by auto. eapply M3; eauto.
    + split; [reflexivity|]. split; [constructor|discriminate].
Qed.

Lemma c22_exact : forall os u, getARObjectByUUID (drun os) u = with_uuid u (uuid_calls (since_clear os)).
Proof. intros os u. apply uuids_run. Qed.

Lemma dup_keys : forall d, getDuplicateUUIDs d = dkeys (d_uuids d).
Proof. intro d. unfold getDuplicateUUIDs. destruct (d_uuids d); reflexivity. Qed.

Lemma c23_keys : forall os u, In u (getDuplicateUUIDs (drun os)) <-> exists x, In (u, x) (uuid_calls (since_clear os)).
Proof.
  intros os u. rewrite dup_keys. destruct (uuids_run os) as [H1 [H2 H3]]. specialize (H1 u).
  unfold getARObjectByUUID in H1. split.
  - intro H. unfold dkeys in H. apply in_map_iff in H as [[v l] [A B]]. simpl in A. subst v.
    apply In_dget in B; auto. rewrite B in H1. specialize (H3 _ _ B). destruct l as [|x l]; [contradiction|].
    exists x. assert (Hx : In x (with_uuid u (uuid_calls (since_clear os)))) by (rewrite <- H1; now left).
    unfold with_uuid in Hx. apply in_map_iff in Hx as [[w y] [C D]]. simpl in C. subst y. apply filter_In in D as [D E].
    simpl in E. apply String.eqb_eq in E. now subst w.
  - intros [x Hx]. assert (Hx' : In x (with_uuid u (uuid_calls (since_clear os)))).
    { unfold with_uuid. apply in_map_iff. exists (u, x). split; auto. apply filter_In. split; auto. apply String.eqb_refl. }
    rewrite <- H1 in Hx'. destruct (dget (d_uuids (drun os)) u) eqn:E; [|contradiction].
    apply dget_In in E. unfold dkeys. apply in_map_iff. exists (u, l). auto.
Qed.

Lemma report_from_ok : forall is_ref d us, (forall u x, In u us -> 1 < List.length (getARObjectByUUID d u) ->
    In x (getARObjectByUUID d u) -> is_ref x = true) ->
  uuid_report_from is_ref d us = (map (fun u => (u, getARObjectByUUID d u)) (filter (fun u => Nat.ltb 1 (List.length (getARObjectByUUID d u))) us), None).
Proof.
  induction us as [|u us IH]; intro H; [reflexivity|]. simpl. rewrite IH by (intros; eapply H; eauto; now right).
  destruct (Nat.ltb_spec 1 (List.length (getARObjectByUUID d u))) as [Hl|Hl]; [|reflexivity].
  assert (F : forallb is_ref (getARObjectByUUID d u) = true) by (apply forallb_forall; intros; eapply H; eauto; now left).
  now rewrite F.
Qed.

Lemma c23_report : forall is_ref os rep e,
  (forall u x, In (u, x) (uuid_calls (since_clear os)) -> is_ref x = true) ->
  uuid_report is_ref (drun os) = (rep, e) ->
  e = None /\ NoDup (map fst rep) /\
  forall u xs, In (u, xs) rep <-> xs = with_uuid u (uuid_calls (since_clear os)) /\ 2 <= List.length xs.
Proof.
  intros is_ref os rep e Href H. unfold uuid_report in H.
  assert (W : forall u x, In x (getARObjectByUUID (drun os) u) -> In (u, x) (uuid_calls (since_clear os))).
  { intros u x Hx. rewrite c22_exact in Hx. unfold with_uuid in Hx. apply in_map_iff in Hx as [[w y] [C D]]. simpl in C.
    subst y. apply filter_In in D as [D E]. simpl in E. apply String.eqb_eq in E. now subst w. }
  rewrite report_from_ok in H by (intros; eapply Href; eapply W; eauto). inversion H; subst rep e. clear H.
  split; [reflexivity|]. split.
  - rewrite map_map. simpl. rewrite map_id. apply NoDup_filter. rewrite dup_keys. apply uuids_run.
  - intros u xs. rewrite in_map_iff. split.
    + intros [v [A B]]. inversion A; subst. apply filter_In in B as [B C]. apply Nat.ltb_lt in C.
      split; [now rewrite c22_exact|]. lia.
    + intros [A B]. exists u. rewrite c22_exact, <- A. split; auto. apply filter_In. split.
      * apply c23_keys. destruct xs as [|x xs]; [simpl in B; lia|]. exists x. apply W. rewrite c22_exact, <- A. now left.
      * apply Nat.ltb_lt. rewrite c22_exact, <- A. lia.
Qed.
