(** C19: None never overwrites.
    The claim as worded fails for one setter, AbstractAUTOSAR.setRootSwCompositionPrototype
    (C19_root_composition_refuted); the primitive types (ARType and its subclasses), whose value
    is a Python property, are covered by C19_none_kept only (their values: C05 to C12). *)
From Coq Require Import String List.
From Verif Require Import PyBase ClassTable SetterTable Setters SpecSetters SetterProps.
Import ListNotations.
Open Scope string_scope.
Open Scope list_scope.

(** None given to a guarded setter leaves the object as it was, whatever its state. *)
Theorem C19_none_kept : forall (V : Type) (name : V -> string) c m b (o : @attrs V),
  resolve c m = Some b -> none_guarded b -> left_as (call name c m None o) o.
Proof. exact @none_kept. Qed.
Print Assumptions C19_none_kept.

(** Any other value is returned by the getter of the same name, and only one attribute changed. *)
Theorem C19_value_returned : forall (V : Type) (name : V -> string) c x b (v : V) (o : @attrs V),
  resolve c ("set" ++ x)%string = Some b -> none_guarded b ->
  isinst c "ARType" = false -> x <> "RootSwCompositionPrototype" ->
  exists o', left_as (call name c ("set" ++ x)%string (Some v) o) o' /\
    call name c ("get" ++ x)%string None o' = Ret o' (RetVal (Some v)) /\
    exists f, dget o' f = Some (Some v) /\ forall a, a <> f -> dget o' a = dget o a.
Proof. exact @value_returned. Qed.
Print Assumptions C19_value_returned.

(** setRootSwCompositionPrototype keeps the prototype set first when the names are equal: the
    second value is dropped without an error. *)
Theorem C19_root_composition_refuted : exists (name : nat -> string) (o : @attrs nat) b v,
  resolve "AUTOSAR" "setRootSwCompositionPrototype" = Some b /\ none_guarded b /\
  exists o', left_as (call name "AUTOSAR" "setRootSwCompositionPrototype" (Some v) o) o' /\
    call name "AUTOSAR" "getRootSwCompositionPrototype" None o' <> Ret o' (RetVal (Some v)).
Proof. exact root_refuted. Qed.
Print Assumptions C19_root_composition_refuted.

(** inherited setter: EcucReferenceValue takes setIndex from EcucIndexableValue *)
Example C19_case : exists b, resolve "EcucReferenceValue" "setIndex" = Some b /\ none_guarded b /\
  isinst "EcucReferenceValue" "ARType" = false.
Proof.
  exists [MIfSome [MAssign "index"]; MReturnSelf]. split; [|split]; try (vm_compute; reflexivity).
  exists [MAssign "index"], [MReturnSelf]. eauto.
Qed.
(** how many (class, guarded setter) pairs the theorems speak about *)
Example C19_count :
  List.length (List.filter (fun p => match p with (_, MIfSome _ :: _) => true | _ => false end)
                 (flat_map snd method_table)) = 1373.
Proof. vm_compute. reflexivity. Qed.

(** C49: a setter that does not look at its argument stores it, None included, where the getter of
    the same name looks. *)
Theorem C49_stored : forall (V : Type) (name : V -> string) c x b (v : option V) (o : @attrs V),
  resolve c ("set" ++ x)%string = Some b -> stores b ->
  exists o', left_as (call name c ("set" ++ x)%string v o) o' /\
    call name c ("get" ++ x)%string None o' = Ret o' (RetVal v) /\
    exists f, dget o' f = Some v /\ forall a, a <> f -> dget o' a = dget o a.
Proof. exact @value_stored. Qed.
Print Assumptions C49_stored.

(** Every setter is of one of the two kinds, but for three names. *)
Theorem C49_kinds : forall c x b, resolve c ("set" ++ x)%string = Some b ->
  none_guarded b \/ stores b \/ In x other_setters.
Proof. exact setter_kinds. Qed.
Print Assumptions C49_kinds.

Example C49_case : exists b, resolve "EcucReferenceValue" "setDefinitionRef" = Some b /\ stores b.
Proof. eexists. split; [vm_compute; reflexivity|]. eexists _, _. reflexivity. Qed.
(** how many setters of this kind there are *)
Example C49_count :
  List.length (List.filter (fun p => match p with (_, MAssign _ :: _) => true | _ => false end)
                 (flat_map snd method_table)) = 607.
Proof. vm_compute. reflexivity. Qed.
