(** C51: the attributes of an object.  [reached] (SpecObjects.v): left by a constructor and any sequence
    of set and add methods. *)
From Coq Require Import String List Bool.
From Verif Require Import PyBase ClassTable SetterTable Setters SpecSetters ObjectTable Objects SpecObjects AttrProps.
Import ListNotations.
Open Scope string_scope.
Open Scope list_scope.

(** whatever is called on it, an object has exactly the attributes a new object of its class has.
    Missing: the methods not described ([MOther], [AOther]), one class *)
Theorem C51_same_attributes_partial : forall A (name : slot A -> string) (eqb : A -> A -> bool) c (args : list (option (slot A))) o0 o,
  is_class c -> c <> "EcucInstanceReferenceValue" -> new c args = Ok o0 -> reached name eqb c o ->
  forall a, dget o a <> None <-> dget o0 a <> None.
Proof. exact @same_attributes. Qed.
Print Assumptions C51_same_attributes_partial.

(** setValueIRef of EcucInstanceReferenceValue creates an attribute *)
Theorem C51_instance_reference_refuted : exists c m v (o0 o : @attrs (slot unit)),
  new c [] = Ok o0 /\ left_as (call (fun _ => "") c m (Some v) o0) o /\ dget o0 "valueRef" = None /\ dget o "valueRef" <> None.
Proof. exists "EcucInstanceReferenceValue", "setValueIRef", (One tt). exact extra_attribute. Qed.
Print Assumptions C51_instance_reference_refuted.

(** a connector as the reader leaves it: snake case attributes are not there *)
Example C51_case : exists o0 o : @attrs (slot nat), is_class "AssemblySwConnector" /\
  new "AssemblySwConnector" [None; Some (One 1)] = Ok o0 /\ reached (fun _ => "") Nat.eqb "AssemblySwConnector" o /\
  dget o "providerIRef" = Some (Some (One 7)) /\ dget o0 "providerIRef" = Some None /\ dget o "provider_iref" = None.
Proof.
  do 2 eexists. split; [apply MroTable.mem_In; vm_compute; reflexivity|]. split; [vm_compute; reflexivity|]. split.
  - eapply reached_set with (m := "setProviderIRef") (v := Some (One 7)).
    + eapply reached_new with (args := [None; Some (One 1)]). vm_compute. reflexivity.
    + right. vm_compute. reflexivity.
    + intro H. apply MroTable.mem_of in H. vm_compute in H. discriminate.
  - split; [vm_compute; reflexivity|]. split; vm_compute; reflexivity.
Qed.
