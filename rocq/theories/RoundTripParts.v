(** Packages and documents put together from given parts meet the conditions of the round-trip theorems. *)
From Coq Require Import String Ascii List Bool.
From Verif Require Import PyBase PyBaseFacts Xml Leaf SpecLeaf Ir Access IrSem Domain SpecDomain IrFacts IrCheck IrWrite SpecRoundTrip.
Import ListNotations.
Open Scope string_scope.
Open Scope list_scope.

(** ** Packages and documents put together from given parts *)
Definition package_types : list (string * ftype) := Eval vm_compute in match assoc "ARPackage" domain with Some l => l | None => [] end.
Definition document_types : list (string * ftype) := Eval vm_compute in match assoc "AUTOSAR" domain with Some l => l | None => [] end.
Definition package_fields (nm : string) (els : list val) : list (string * val) :=
  Eval vm_compute in match package nm els with VObj _ fs => fs | _ => [] end.
Definition document_fields (a : val) (ps : list val) : list (string * val) :=
  Eval vm_compute in match document a ps with VObj _ fs => fs | _ => [] end.
Lemma package_eq : forall nm els, package nm els = VObj "ARPackage" (package_fields nm els).
Proof. intros. vm_compute. reflexivity. Qed.
Lemma document_eq : forall a ps, document a ps = VObj "AUTOSAR" (document_fields a ps).
Proof. intros. vm_compute. reflexivity. Qed.
Lemma package_init : init "ARPackage" = VObj "ARPackage" (map (fun p => (fst p, if String.eqb (fst p) "short_name" then VNone else snd p)) (package_fields "" [])).
Proof. vm_compute. reflexivity. Qed.
Lemma document_init : init "AUTOSAR" = VObj "AUTOSAR" (document_fields VNone []).
Proof. vm_compute. reflexivity. Qed.
Lemma package_assoc : assoc "ARPackage" domain = Some package_types.
Proof. vm_compute. reflexivity. Qed.
Lemma document_assoc : assoc "AUTOSAR" domain = Some document_types.
Proof. vm_compute. reflexivity. Qed.
Lemma package_keys : map fst (attrs_of "ARPackage") = map fst (package_fields "" []).
Proof. vm_compute. reflexivity. Qed.
Lemma document_keys : map fst (attrs_of "AUTOSAR") = map fst (document_fields VNone []).
Proof. vm_compute. reflexivity. Qed.
Lemma element_classes : assoc "elements" package_types = Some (FObjs false (match assoc "elements" package_types with Some (FObjs _ cs) => cs | _ => [] end)).
Proof. vm_compute. reflexivity. Qed.
Lemma element_class : forall t c, In (t, c) package_elements -> In c (match assoc "elements" package_types with Some (FObjs _ cs) => cs | _ => [] end).
Proof.
  assert (H : forallb (fun p => existsb (String.eqb (snd p)) (match assoc "elements" package_types with Some (FObjs _ cs) => cs | _ => [] end)) package_elements = true)
    by (vm_compute; reflexivity).
  intros t c I. rewrite forallb_forall in H. specialize (H _ I). apply existsb_exists in H. destruct H as (c' & I' & E). apply String.eqb_eq in E. cbn [snd] in E. now subst.
Qed.
Lemma admin_keys : existsb (String.eqb "short_name") (map fst (attrs_of "AdminData")) = false.
Proof. vm_compute. reflexivity. Qed.
Local Opaque attrs_of access_of domain init.


Ltac each F := apply assoc_In in F; cbn [In] in F;
  repeat match type of F with _ \/ _ => destruct F as [F|F] | False => contradiction end;
  injection F as <- <-.

Lemma package_ok : forall nm els, nm <> "" -> elements_ok els -> NoDup (flat_map name_of els) -> ok (package nm els).
Proof.
  intros nm els N E ND. unfold elements_ok in E. rewrite package_eq. apply (ok_obj _ _ _ package_assoc).
  - rewrite package_keys. reflexivity.
  - intros f v t F T. unfold package_fields in F. each F;
      match type of T with assoc "elements" _ = _ => rewrite element_classes in T; injection T as <- | _ => vm_compute in T; try discriminate T; injection T as <- end; try constructor; try discriminate; try (now constructor).
    + exact N.
    + apply Forall_forall. intros u I. rewrite Forall_forall in E. destruct (E _ I) as [O (t & c & C & T)]. exists c. split; [exact C|]. eapply element_class. exact T.
    + apply Forall_forall. intros u I. rewrite Forall_forall in E. apply (E _ I).
  - intros f v F T. unfold default. rewrite package_init. unfold package_fields in F. each F; try (vm_compute in T; discriminate T); vm_compute; reflexivity.
  - unfold names_below, package_fields, children. cbn [flat_map snd app]. rewrite !app_nil_r. exact ND.
Qed.
Lemma admin_name : forall a, ok a -> class_of a = Some "AdminData" -> name_of a = [].
Proof.
  intros a O K. destruct O as [c fs ft D E _ _ _]. injection K as ->. unfold name_of. cbn [field]. destruct (assoc "short_name" fs) as [w|] eqn:F; [|reflexivity].
  apply assoc_In in F. apply (in_map fst) in F. rewrite E in F. exfalso. assert (X : existsb (String.eqb "short_name") (map fst (attrs_of "AdminData")) = true).
  { apply existsb_exists. exists "short_name". split; [exact F|apply String.eqb_refl]. } rewrite admin_keys in X. discriminate.
Qed.
Lemma document_ok : forall a ps, (a = VNone \/ ok a /\ class_of a = Some "AdminData") -> Forall ok ps -> Forall (fun p => class_of p = Some "ARPackage") ps ->
  sortable ps = true -> py_sorted sort_key ps = ps -> NoDup (flat_map name_of ps) -> ok (document a ps).
Proof.
  intros a ps A P C SB S ND. rewrite document_eq. apply (ok_obj _ _ _ document_assoc).
  - rewrite document_keys. reflexivity.
  - intros f v t F T. unfold document_fields in F. each F; vm_compute in T; try discriminate T; injection T as <-.
    + destruct A as [->|[O K]]; [constructor|]. apply fok_obj_some; [|exact O]. exists "AdminData". split; [exact K|left; reflexivity].
    + constructor; [|exact P|intros _; split; [exact SB|exact S]]. eapply Forall_impl; [|exact C]. intros p K. exists "ARPackage". split; [exact K|left; reflexivity].
  - intros f v F T. unfold default. rewrite document_init. unfold document_fields in F. each F; try (vm_compute in T; discriminate T); vm_compute; reflexivity.
  - unfold names_below, document_fields, children. cbn [flat_map snd app]. rewrite !app_nil_r.
    change (NoDup (flat_map name_of (items_of a ++ ps))). rewrite flat_map_app. assert (X : flat_map name_of (items_of a) = []); [|now rewrite X].
    destruct A as [->|[O K]]; [reflexivity|]. rewrite <- (admin_name _ O K). destruct a; try discriminate K. cbn [items_of flat_map]. now rewrite app_nil_r.
Qed.

(** ** Trees of packages *)
Definition tree_fields (nm : string) (subs els : list val) : list (string * val) :=
  Eval vm_compute in match set_field (package nm els) "arPackages" (VList subs) with VObj _ fs => fs | _ => [] end.
Lemma tree_eq : forall nm subs els, set_field (package nm els) "arPackages" (VList subs) = VObj "ARPackage" (tree_fields nm subs els).
Proof. intros. vm_compute. reflexivity. Qed.
Lemma tree_node_ok : forall nm subs els, nm <> "" -> Forall ok subs -> Forall (fun p => class_of p = Some "ARPackage") subs -> elements_ok els ->
  sortable subs = true -> py_sorted sort_key subs = subs -> NoDup (flat_map name_of subs ++ flat_map name_of els) -> ok (set_field (package nm els) "arPackages" (VList subs)).
Proof.
  intros nm subs els N OS CS E SB SS ND. unfold elements_ok in E. rewrite tree_eq. apply (ok_obj _ _ _ package_assoc).
  - rewrite package_keys. reflexivity.
  - intros f v t F T. unfold tree_fields in F. each F;
      match type of T with assoc "elements" _ = _ => rewrite element_classes in T; injection T as <- | _ => vm_compute in T; try discriminate T; injection T as <- end; try constructor; try discriminate; try (now constructor).
    + exact N.
    + eapply Forall_impl; [|exact CS]. intros p K. exists "ARPackage". split; [exact K|left; reflexivity].
    + exact OS.
    + apply Forall_forall. intros u I. rewrite Forall_forall in E. destruct (E _ I) as [O (t & c & C & T)]. exists c. split; [exact C|]. eapply element_class. exact T.
    + apply Forall_forall. intros u I. rewrite Forall_forall in E. apply (E _ I).
  - intros f v F T. unfold default. rewrite package_init. unfold tree_fields in F. each F; try (vm_compute in T; discriminate T); vm_compute; reflexivity.
  - unfold names_below, tree_fields, children. cbn [flat_map snd app]. rewrite !app_nil_r.
    change (NoDup (flat_map name_of (subs ++ els))). rewrite flat_map_app. exact ND.
Qed.
Lemma tree_facts : forall t, class_of (tree_val t) = Some "ARPackage" /\ field (tree_val t) "short_name" = Some (VStr (tree_name t)).
Proof. destruct t. cbn [tree_val tree_name]. rewrite tree_eq. split; reflexivity. Qed.
Lemma trees_sortable : forall l, sortable (map tree_val l) = true.
Proof.
  intros l. assert (H : forallb has_name (map tree_val l) = true).
  { induction l as [|t l IH]; [reflexivity|]. cbn [map forallb]. rewrite IH. unfold has_name. now rewrite (proj2 (tree_facts t)). }
  unfold sortable. now destruct (map tree_val l) as [|? []].
Qed.
Lemma sort_trees : forall l, py_sorted sort_key (map tree_val l) = map tree_val (py_sorted tree_name l).
Proof.
  assert (I : forall a l, sort_insert sort_key (tree_val a) (map tree_val l) = map tree_val (sort_insert tree_name a l)).
  { assert (K : forall t, sort_key (tree_val t) = tree_name t) by (intros t; unfold sort_key; now rewrite (proj2 (tree_facts t))).
    induction l as [|b l IH]; [reflexivity|]. cbn [map sort_insert]. rewrite !K. destruct (str_leb _ _); cbn [map]; [reflexivity|now rewrite IH]. }
  induction l as [|a l IH]; [reflexivity|]. unfold py_sorted in *. cbn [map fold_right]. now rewrite IH, I.
Qed.
Lemma tree_names : forall l, flat_map name_of (map tree_val l) = map tree_name l.
Proof. induction l as [|t l IH]; [reflexivity|]. cbn [map flat_map]. rewrite IH. unfold name_of at 1. now rewrite (proj2 (tree_facts t)). Qed.
Fixpoint tree_ok (t : tree) : tree_good t -> ok (tree_val t).
Proof.
  intros G. destruct t as [nm subs els]. inversion G as [? ? ? N GS E SS ND]; subst. cbn [tree_val]. apply tree_node_ok; try assumption.
  - clear G SS ND. induction subs as [|t subs IH]; cbn [map]; constructor; inversion GS; subst; [now apply tree_ok|now apply IH].
  - clear. induction subs; cbn [map]; constructor; [apply tree_facts|assumption].
  - apply trees_sortable.
  - now rewrite sort_trees, SS.
  - now rewrite tree_names.
Qed.
Lemma forest_ok : forall a ts, (a = VNone \/ ok a /\ class_of a = Some "AdminData") -> Forall tree_good ts ->
  py_sorted tree_name ts = ts -> NoDup (map tree_name ts) -> ok (document a (map tree_val ts)).
Proof.
  intros a ts A G S ND. apply document_ok; [exact A| | |apply trees_sortable| |].
  - apply Forall_forall. intros v I. apply in_map_iff in I. destruct I as (t & <- & I). apply tree_ok. rewrite Forall_forall in G. now apply G.
  - apply Forall_forall. intros v I. apply in_map_iff in I. destruct I as (t & <- & I). apply tree_facts.
  - now rewrite sort_trees, S.
  - now rewrite tree_names.
Qed.

(** ** Special data groups *)
Definition group_types : list (string * ftype) := Eval vm_compute in match assoc "Sdg" domain with Some l => l | None => [] end.
Definition contents_types : list (string * ftype) := Eval vm_compute in match assoc "SdgContents" domain with Some l => l | None => [] end.
Definition admin_types : list (string * ftype) := Eval vm_compute in match assoc "AdminData" domain with Some l => l | None => [] end.
Transparent attrs_of access_of domain init.
Definition group_fields (gid : string) (w : val) : list (string * val) :=
  Eval vm_compute in match set_field (set_field (init "Sdg") "gid" (literal "NameToken" gid)) "sdgContentsType" w with VObj _ fs => fs | _ => [] end.
Definition contents_fields (inner : list val) : list (string * val) :=
  Eval vm_compute in match set_field (init "SdgContents") "sdg" (VList inner) with VObj _ fs => fs | _ => [] end.
Definition admin_fields (gs : list val) : list (string * val) :=
  Eval vm_compute in match admin_data gs with VObj _ fs => fs | _ => [] end.
Lemma group_eq : forall gid w, set_field (set_field (init "Sdg") "gid" (literal "NameToken" gid)) "sdgContentsType" w = VObj "Sdg" (group_fields gid w).
Proof. intros. vm_compute. reflexivity. Qed.
Lemma contents_eq : forall inner, set_field (init "SdgContents") "sdg" (VList inner) = VObj "SdgContents" (contents_fields inner).
Proof. intros. vm_compute. reflexivity. Qed.
Lemma admin_eq : forall gs, admin_data gs = VObj "AdminData" (admin_fields gs).
Proof. intros. vm_compute. reflexivity. Qed.
Lemma group_assoc : assoc "Sdg" domain = Some group_types.
Proof. vm_compute. reflexivity. Qed.
Lemma contents_assoc : assoc "SdgContents" domain = Some contents_types.
Proof. vm_compute. reflexivity. Qed.
Lemma admin_assoc : assoc "AdminData" domain = Some admin_types.
Proof. vm_compute. reflexivity. Qed.
Lemma group_keys : map fst (attrs_of "Sdg") = map fst (group_fields "" VNone).
Proof. vm_compute. reflexivity. Qed.
Lemma contents_keys : map fst (attrs_of "SdgContents") = map fst (contents_fields []).
Proof. vm_compute. reflexivity. Qed.
Lemma admin_data_keys : map fst (attrs_of "AdminData") = map fst (admin_fields []).
Proof. vm_compute. reflexivity. Qed.
Lemma group_init : init "Sdg" = VObj "Sdg" (set_assoc (group_fields "" VNone) "gid" VNone).
Proof. vm_compute. reflexivity. Qed.
Lemma contents_init : init "SdgContents" = VObj "SdgContents" (contents_fields []).
Proof. vm_compute. reflexivity. Qed.
Lemma admin_init : init "AdminData" = VObj "AdminData" (admin_fields []).
Proof. vm_compute. reflexivity. Qed.
Lemma sdg_no_name : existsb (String.eqb "short_name") (map fst (attrs_of "Sdg")) = false /\ existsb (String.eqb "short_name") (map fst (attrs_of "SdgContents")) = false.
Proof. split; vm_compute; reflexivity. Qed.
Local Opaque attrs_of access_of domain init.
Lemma no_name : forall v c, ok v -> class_of v = Some c -> existsb (String.eqb "short_name") (map fst (attrs_of c)) = false -> name_of v = [].
Proof.
  intros v c O K X. destruct O as [d fs ft D E _ _ _]. injection K as ->. unfold name_of. cbn [field]. destruct (assoc "short_name" fs) as [w|] eqn:F; [|reflexivity].
  apply assoc_In in F. apply (in_map fst) in F. rewrite E in F. exfalso. assert (Y : existsb (String.eqb "short_name") (map fst (attrs_of c)) = true).
  { apply existsb_exists. exists "short_name". split; [exact F|apply String.eqb_refl]. } rewrite X in Y. discriminate.
Qed.
Lemma no_names : forall c vs, Forall ok vs -> Forall (fun v => class_of v = Some c) vs -> existsb (String.eqb "short_name") (map fst (attrs_of c)) = false -> flat_map name_of vs = [].
Proof. intros c vs O K X. induction O as [|v vs O _ IH]; [reflexivity|]. inversion K; subst. cbn [flat_map]. rewrite (no_name v c); auto. Qed.
Lemma contents_ok : forall inner, Forall ok inner -> Forall (fun v => class_of v = Some "Sdg") inner -> ok (set_field (init "SdgContents") "sdg" (VList inner)).
Proof.
  intros inner O K. rewrite contents_eq. apply (ok_obj _ _ _ contents_assoc).
  - rewrite contents_keys. reflexivity.
  - intros f v t F T. unfold contents_fields in F. each F; vm_compute in T; try discriminate T; injection T as <-; try (apply (fok_leafs RRef []); constructor); try (constructor; try constructor; discriminate).
    constructor; [|exact O|discriminate]. eapply Forall_impl; [|exact K]. intros p C. exists "Sdg". split; [exact C|left; reflexivity].
  - intros f v F T. unfold default. rewrite contents_init. unfold contents_fields in F. each F; try (vm_compute in T; discriminate T); vm_compute; reflexivity.
  - unfold names_below, contents_fields, children. cbn [flat_map snd app]. rewrite !app_nil_r.
    change (NoDup (flat_map name_of inner)). rewrite (no_names "Sdg" inner O K (proj1 sdg_no_name)). constructor.
Qed.
Lemma group_ok : forall gid inner, Forall ok inner -> Forall (fun v => class_of v = Some "Sdg") inner -> ok (group gid inner) /\ class_of (group gid inner) = Some "Sdg".
Proof.
  intros gid inner O K. unfold group. set (w := match inner with [] => VNone | _ => _ end).
  assert (W : fok (FPartAny "SdgContents") w /\ flat_map name_of (items_of w) = []).
  { subst w. destruct inner as [|v inner]; [split; [constructor|reflexivity]|]. pose proof (contents_ok _ O K) as OC. split.
    - rewrite contents_eq in *. apply (fok_partany _ _ "sdg" v inner OC). unfold contents_fields. cbn [In]. tauto.
    - assert (C : class_of (set_field (init "SdgContents") "sdg" (VList (v :: inner))) = Some "SdgContents") by (rewrite contents_eq; reflexivity).
      pose proof (no_name _ _ OC C (proj2 sdg_no_name)) as NN. rewrite contents_eq in *. cbn [items_of flat_map]. now rewrite NN. }
  rewrite group_eq. split; [|reflexivity]. apply (ok_obj _ _ _ group_assoc).
  - rewrite group_keys. reflexivity.
  - intros f v t F T. unfold group_fields in F. each F; vm_compute in T; try discriminate T; injection T as <-; try apply W; constructor.
  - intros f v F T. unfold default. rewrite group_init. unfold group_fields in F. each F; try (vm_compute in T; discriminate T); vm_compute; reflexivity.
  - unfold names_below, group_fields, children. cbn [flat_map snd app]. rewrite !app_nil_r. 
    change (NoDup (flat_map name_of (items_of w))). rewrite (proj2 W). constructor.
Qed.
Lemma nested_ok : forall n, ok (nested_group n) /\ class_of (nested_group n) = Some "Sdg".
Proof.
  induction n as [|n [O C]]; cbn [nested_group]; [apply group_ok; constructor|].
  destruct (group_ok "other" []) as [O' C']; [constructor|constructor|]. apply group_ok; repeat constructor; assumption.
Qed.
Lemma admin_ok : forall gs, Forall ok gs -> Forall (fun v => class_of v = Some "Sdg") gs -> ok (admin_data gs) /\ class_of (admin_data gs) = Some "AdminData".
Proof.
  intros gs O K. rewrite admin_eq. split; [|reflexivity]. apply (ok_obj _ _ _ admin_assoc).
  - rewrite admin_data_keys. reflexivity.
  - intros f v t F T. unfold admin_fields in F. each F; vm_compute in T; try discriminate T; injection T as <-; try (constructor; try constructor; discriminate).
    constructor; [|exact O|discriminate]. eapply Forall_impl; [|exact K]. intros p C. exists "Sdg". split; [exact C|left; reflexivity].
  - intros f v F T. unfold default. rewrite admin_init. unfold admin_fields in F. each F; try (vm_compute in T; discriminate T); vm_compute; reflexivity.
  - unfold names_below, admin_fields, children. cbn [flat_map snd app]. rewrite !app_nil_r.
    change (NoDup (flat_map name_of gs)). rewrite (no_names "Sdg" gs O K (proj1 sdg_no_name)). constructor.
Qed.
