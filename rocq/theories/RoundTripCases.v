(** Corollaries of the round-trip theorems, and objects they apply to. *)
From Coq Require Import String Ascii List Bool Floats.SpecFloat.
From Verif Require Import PyBase Xml Leaf SpecLeaf Ir Access IrSem Domain SpecDomain IrCheck IrWrite SpecRoundTrip RoundTripParts RoundTripProps RoundTripElems RoundTripRead Samples.
Import ListNotations.
Open Scope string_scope.
Open Scope list_scope.

Lemma document_class : forall a ps, class_of (document a ps) = Some "AUTOSAR".
Proof. intros. rewrite document_eq. reflexivity. Qed.
Theorem forest_round_trip : forall repr warn ts, Forall tree_good ts -> py_sorted tree_name ts = ts -> NoDup (map tree_name ts) ->
  exists x, saved repr warn (document VNone (map tree_val ts)) x /\ forall d, loaded warn (reload d x) (document VNone (map tree_val ts)).
Proof.
  intros repr warn ts G S ND. apply document_round_trip; [|apply document_class]. apply forest_ok; [now left|exact G|exact S|exact ND].
Qed.
Theorem admin_round_trip : forall repr warn a, ok a -> class_of a = Some "AdminData" ->
  exists x, saved repr warn (document a []) x /\ forall d, loaded warn (reload d x) (document a []).
Proof.
  intros repr warn a O C. apply document_round_trip; [|apply document_class]. apply (forest_ok a []); [right; split; assumption|constructor|reflexivity|constructor].
Qed.

(** every kind of package element has an object with all attributes of the domain set *)
Definition class_known : bool :=
  forallb (fun p => match assoc (snd p) domain with Some _ => true | None => false end) package_elements.
Lemma class_checked : class_known = true.
Proof. vm_compute. reflexivity. Qed.
Lemma element_sample : forall t c, In (t, c) package_elements -> exists u, sample 12 1 "name" c = Some u /\ elements_ok [u] /\ class_of u = Some c.
Proof.
  intros t c I. pose proof class_checked as K. unfold class_known in K. rewrite forallb_forall in K. specialize (K _ I). cbn [snd] in K.
  destruct (assoc c domain) as [ft|] eqn:D; [|discriminate K]. apply assoc_In in D. apply (in_map fst) in D.
  destruct (sample_each _ D) as (u & E & O & C). exists u. split; [exact E|]. split; [|exact C]. constructor; [|constructor]. split; [exact O|].
  exists t, c. split; [exact C|exact I].
Qed.

(** the classes that occur in objects of a class, by the attributes of [domain] *)
Definition type_classes (t : ftype) : list string :=
  match t with FObj _ cs | FObjs _ cs => cs | FPart c | FPartAny c => [c] | _ => [] end.
Fixpoint reachable (n : nat) (todo seen : list string) : list string :=
  match n, todo with
  | S n, c :: r =>
      if mem c seen then reachable n r seen
      else reachable n (match assoc c domain with Some ft => flat_map (fun p => type_classes (snd p)) ft | None => [] end ++ r) (c :: seen)
  | _, _ => seen
  end.

(** a tree of packages with all sample elements *)
Definition sample_elements : list val :=
  flat_map (fun p => match sample 12 0 (fst p) (snd p) with Some u => [u] | None => [] end) package_elements.
Definition sample_tree : tree :=
  Tree "Top" [Tree "Components" [Tree "Inner" [] sample_elements] []; Tree "Types" [] []] sample_elements.
Lemma sample_elements_ok : elements_ok sample_elements.
Proof.
  unfold sample_elements, elements_ok. assert (X : forall l, incl l package_elements -> Forall (fun u => ok u /\ exists t c, class_of u = Some c /\ In (t, c) package_elements)
    (flat_map (fun p => match sample 12 0 (fst p) (snd p) with Some u => [u] | None => [] end) l)).
  { induction l as [|[t c] l IH]; intros I; [constructor|]. cbn [flat_map fst snd]. apply Forall_app. split; [|apply IH; intros p J; apply I; now right].
    destruct (sample 12 0 t c) as [u|] eqn:E; [|constructor]. destruct (sample_ok _ _ _ _ _ E) as [O C]. constructor; [|constructor]. split; [exact O|].
    exists t, c. split; [exact C|apply I; now left]. }
  apply X. intros p J. exact J.
Qed.
Lemma sample_count : length sample_elements = 94.
Proof. vm_compute. reflexivity. Qed.
Lemma sample_names : flat_map name_of sample_elements = map fst package_elements.
Proof. vm_compute. reflexivity. Qed.
Lemma sample_nodup : NoDup (flat_map name_of sample_elements).
Proof. rewrite sample_names. apply nodupb_ok. vm_compute. reflexivity. Qed.
Lemma sample_tree_good : tree_good sample_tree.
Proof.
  assert (E : elements_ok []) by constructor. assert (F : nodupb (["Components"; "Types"] ++ map fst package_elements) = true) by (vm_compute; reflexivity).
  unfold sample_tree. constructor; [discriminate| |exact sample_elements_ok|reflexivity|rewrite sample_names; apply nodupb_ok; exact F].
  constructor; [|constructor; [|constructor]].
  - constructor; [discriminate| |exact E|reflexivity|repeat constructor; intros []]. constructor; [|constructor].
    constructor; [discriminate|constructor|exact sample_elements_ok|reflexivity|exact sample_nodup].
  - constructor; [discriminate|constructor|exact E|reflexivity|constructor].
Qed.
