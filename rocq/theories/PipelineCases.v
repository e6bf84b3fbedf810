(** Runs of arxml-format on given texts, for C57. *)
From Coq Require Import String Ascii List Bool Arith Floats.SpecFloat.
From Verif Require Import PyBase Primitives Xml Leaf ClassTable Ir Access IrSem Domain SpecDomain SpecRoundTrip SpecTolerant RoundTripLoss Serial SpecSerial SpecFile SpecRun TypeProps RoundTripParts RoundTripCases FileCases File PipelineProps ArxmlFormat SpecPipeline.
Import ListNotations.
Open Scope string_scope.
Open Scope list_scope.

Definition tree_of (s : string) : xml := match load_tree s with Some y => y | None => El "" [] None [] end.
Definition doc_of (warn : bool) (s : string) : val := value (load_run warn (tree_of s)).

(** -w: loaded, could be saved in warning mode, but is not *)
Lemma warning_saves_not : forall repr decl remove unescape,
  arxml_format_save_fails repr (mkOptions true remove unescape) value_text NotImplementedError /\
  (forall t, ~ arxml_format repr decl (mkOptions true remove unescape) value_text t) /\
  exists u x, loaded_text true value_text None u /\ saved repr true u x.
Proof.
  intros repr decl remove unescape.
  let u := eval vm_compute in (doc_of true value_text) in let y := eval vm_compute in (tree_of value_text) in let e := eval vm_compute in (content (save_run (fun _ => "") true u)) in
  assert (L : loaded true y u) by (apply loaded_run; vm_compute; reflexivity);
  assert (Y : load_tree value_text = Some y) by (vm_compute; reflexivity);
  assert (LT : loaded_text true value_text None u) by (exists y; split; [exact Y|]; split; [now left|]; split; [vm_compute; reflexivity|exact L]);
  assert (R : forall r : bool, (if r then remove_admin_data u else Done u) = Done u) by (intros []; vm_compute; reflexivity);
  assert (E : saving_raises repr false u NotImplementedError) by (exists steps_max; vm_compute; reflexivity);
  split; [exists None, u, u; split; [exact LT|]; split; [apply R|exact E]|]; split;
  [intros t (l & u' & v & x & (y' & Y' & _ & _ & L') & R' & S & _); cbn [o_warning o_remove] in *; rewrite Y in Y'; injection Y' as <-; pose proof (load_once _ _ _ _ L L') as <-; rewrite R in R'; injection R' as <-; exact (save_either _ _ _ _ _ S E)|];
  exists u, (to_xml "AUTOSAR" e); split; [exact LT|apply saved_run; vm_compute; reflexivity].
Qed.

(** --remove-admin-data: the port keeps its data *)
Definition data_left (v : val) : Prop := exists fs w, part v (VObj "PPortPrototype" fs) /\ In ("adminData", w) fs /\ w <> VNone.
Definition path_to (v : val) (f : string) : val :=
  match field v f with Some (VList (w :: _)) => w | Some w => w | None => VNone end.
Lemma part_path : forall u v f, part u v -> path_to v f <> VNone -> part u (path_to v f).
Proof.
  intros u v f P N. unfold path_to in *. destruct v as [| | |c fs|]; try (now elim N). cbn [field] in *. destruct (assoc f fs) as [x|] eqn:A; [|now elim N].
  apply IrWrite.assoc_In in A. pose proof (part_field _ _ _ _ _ P A) as PX. destruct x as [| | | |[|y l]]; try exact PX. eapply part_item; [exact PX|now left].
Qed.
Definition data_doc : val := Eval vm_compute in doc_of false data_text.
Definition data_result : val := Eval vm_compute in clear_document data_doc.
Definition data_elem : elem := Eval vm_compute in content (save_run (fun _ => "") false data_result).
Definition data_tree : xml := to_xml "AUTOSAR" data_elem.
Definition data_output (decl : bool) : string := match save_text decl false (with_attrs (root_attrs None) data_tree) with Some t => t | None => "" end.
Lemma data_formatted : forall repr decl, arxml_format repr decl (mkOptions false true false) data_text (data_output decl).
Proof.
  intros repr decl. exists None, data_doc, data_result, data_tree. split; [exists (tree_of data_text)|split].
  - split; [vm_compute; reflexivity|]. split; [right; vm_compute; reflexivity|]. split; [vm_compute; reflexivity|]. apply loaded_run. vm_compute. reflexivity.
  - vm_compute. reflexivity.
  - split; [apply saved_run; vm_compute; reflexivity|]. destruct decl; vm_compute; reflexivity.
Qed.
Lemma data_loads : forall decl, loaded_text false (data_output decl) (Some default_location) data_result.
Proof.
  intros decl. exists (tree_of (data_output decl)). split; [destruct decl; vm_compute; reflexivity|]. split; [right; destruct decl; vm_compute; reflexivity|].
  split; [destruct decl; vm_compute; reflexivity|]. apply loaded_run. destruct decl; vm_compute; reflexivity.
Qed.
Lemma data_stays : data_left data_result.
Proof.
  assert (P : part data_result (path_to (path_to (path_to data_result "arPackages") "elements") "ports")).
  { apply part_path; [apply part_path; [apply part_path; [apply part_self|]|]|]; vm_compute; discriminate. }
  let q := eval vm_compute in (path_to (path_to (path_to data_result "arPackages") "elements") "ports") in
  match q with VObj _ ?fs => let w := eval vm_compute in (match assoc "adminData" fs with Some w => w | None => VNone end) in
    exists fs, w; split; [exact P|]; split; [apply IrWrite.assoc_In; vm_compute; reflexivity|discriminate] end.
Qed.
Lemma nested_data : exists s, forall repr decl, exists t location v,
  arxml_format repr decl (mkOptions false true false) s t /\ loaded_text false t location v /\
  exists c fs w, part v (VObj c fs) /\ In ("adminData", w) fs /\ w <> VNone.
Proof.
  exists data_text. intros repr decl. exists (data_output decl), (Some default_location), data_result. split; [apply data_formatted|]. split; [apply data_loads|].
  destruct data_stays as (fs & w & H). exists "PPortPrototype", fs, w. exact H.
Qed.

(** a document of the domain with data of its own *)
Definition full_document : val := document (admin_data [nested_group 2]) [tree_val RoundTripCases.sample_tree].
Lemma full_fits : ok full_document /\ class_of full_document = Some "AUTOSAR" /\ tidy false full_document = true /\ field full_document "adminData" <> Some VNone.
Proof.
  split; [|split; [vm_compute; reflexivity|split; [vm_compute; reflexivity|vm_compute; discriminate]]].
  apply (forest_ok _ [RoundTripCases.sample_tree]); [right|constructor; [exact sample_tree_good|constructor]|reflexivity|].
  - destruct (nested_ok 2) as [O C]. apply admin_ok; constructor; auto.
  - repeat constructor. intros [].
Qed.
Lemma full_case : forall repr decl warn, exists s, loaded_text warn s (Some default_location) full_document /\ saved_text repr false decl None full_document s.
Proof.
  intros repr decl warn. destruct full_fits as (O & C & T & _). destruct (file_round_trip repr false decl None full_document O C T eq_refl) as (s & S & _).
  exists s. split; [|exact S]. exact (saved_loads repr warn decl None _ s O C T eq_refl S).
Qed.
