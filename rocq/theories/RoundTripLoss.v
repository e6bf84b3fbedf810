(** Documents that loading, saving and loading again does not keep. *)
From Coq Require Import String Ascii List Bool Floats.SpecFloat.
From Verif Require Import PyBase Primitives Xml Leaf SpecLeaf Ir Access WriterCode ReaderCode IrSem Domain SpecDomain SpecRoundTrip.
Import ListNotations.
Open Scope string_scope.
Open Scope list_scope.

(** ** Running the code on them *)
Definition steps_max : nat := 40 * 40.
Definition load_run (warn : bool) (x : xml) : out val := rrun warn steps_max load_code "" x VNone (init "AUTOSAR").
Definition save_run (repr : spec_float -> string) (warn : bool) (u : val) : out elem := wrun repr warn steps_max save_code "" u elem0.
Definition value (o : out val) : val := match o with Done v => v | _ => VNone end.
Definition content (o : out elem) : elem := match o with Done e => e | _ => elem0 end.
Strategy expand [load_run save_run loaded saved read written].
Strategy opaque [rrun wrun].
Lemma loaded_run : forall warn x u, load_run warn x = Done u -> loaded warn x u.
Proof. intros warn x u H. unfold load_run in H. unfold loaded, read. exists steps_max. exact H. Qed.
Lemma saved_run : forall repr warn u e, save_run repr warn u = Done e -> saved repr warn u (to_xml "AUTOSAR" e).
Proof. intros repr warn u e H. unfold save_run in H. unfold saved, written. exists e. split; [exists steps_max; exact H|reflexivity]. Qed.

Ltac alter x :=
  let u := eval vm_compute in (value (load_run false x)) in
  let e := eval vm_compute in (content (save_run (fun _ => "") false u)) in
  let v := eval vm_compute in (value (load_run false (reload 0 (to_xml "AUTOSAR" e)))) in
  intros repr warn; exists u, (to_xml "AUTOSAR" e), v;
  split; [apply loaded_run; destruct warn; vm_compute; reflexivity|];
  split; [apply saved_run; destruct warn; vm_compute; reflexivity|];
  split; [apply loaded_run; destruct warn; vm_compute; reflexivity|];
  let E := fresh in intro E; discriminate E.

Lemma reference_base_altered : forall repr warn, altered repr warn reference_base.
Proof. alter reference_base. Qed.
Lemma contained_props_altered : forall repr warn, altered repr warn contained_props.
Proof. alter contained_props. Qed.
Lemma connector_mapping_altered : forall repr warn, altered repr warn connector_mapping.
Proof. alter connector_mapping. Qed.
Lemma required_trigger_altered : forall repr warn, altered repr warn required_trigger.
Proof. alter required_trigger. Qed.
Lemma triggering_point_altered : forall repr warn, altered repr warn triggering_point.
Proof. alter triggering_point. Qed.
Lemma trigger_event_altered : forall repr warn, altered repr warn trigger_event.
Proof. alter trigger_event. Qed.
Lemma ram_block_altered : forall repr warn, altered repr warn ram_block.
Proof. alter ram_block. Qed.
Lemma trigger_interface_altered : forall repr warn, altered repr warn trigger_interface.
Proof. alter trigger_interface. Qed.

Ltac raise_save x :=
  let u := eval vm_compute in (value (load_run false x)) in
  intros repr; exists u, steps_max; split; [apply loaded_run; vm_compute; reflexivity|vm_compute; reflexivity].
Lemma empty_scale_raises : forall repr, save_raises repr false empty_scale NotImplementedError.
Proof. raise_save empty_scale. Qed.
Lemma value_collection_raises : forall repr, save_raises repr false value_collection NotImplementedError.
Proof. raise_save value_collection. Qed.
Lemma mapping_set_raises : forall repr, reload_raises repr false mapping_set NotImplementedError.
Proof.
  let u := eval vm_compute in (value (load_run false mapping_set)) in
  let e := eval vm_compute in (content (save_run (fun _ => "") false u)) in
  intros repr; exists u, (to_xml "AUTOSAR" e), steps_max;
  split; [apply loaded_run; vm_compute; reflexivity|]; split; [apply saved_run; vm_compute; reflexivity|vm_compute; reflexivity].
Qed.

Ltac change_doc d :=
  let e := eval vm_compute in (content (save_run (fun _ => "") false d)) in
  let v := eval vm_compute in (value (load_run false (reload 0 (to_xml "AUTOSAR" e)))) in
  intros repr warn; exists (to_xml "AUTOSAR" e), v;
  split; [apply saved_run; destruct warn; vm_compute; reflexivity|];
  split; [apply loaded_run; destruct warn; vm_compute; reflexivity|];
  let E := fresh in intro E; vm_compute in E; discriminate E.
Lemma sd_space_changed : forall repr warn, changed repr warn sd_space.
Proof. change_doc sd_space. Qed.
Lemma sd_blank_changed : forall repr warn, changed repr warn sd_blank.
Proof. change_doc sd_blank. Qed.
