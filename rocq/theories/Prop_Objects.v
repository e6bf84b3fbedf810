(** C46 to C48: constructors, getters, add methods of all model classes.
    Missing: getters that compute (they are [MOther] in SetterTable.v), the ten add methods that call
    other methods ([AOther] in ObjectTable.v; registries and element lists are C05, C22 to C27). *)
From Coq Require Import String List Bool.
From Verif Require Import PyBase ClassTable SetterTable Setters SpecSetters ObjectTable Objects SpecObjects ObjectProps.
Import ListNotations.
Open Scope string_scope.
Open Scope list_scope.

(** ** C46 *)
(** a class is abstract and refuses to be constructed, or it can be constructed; named objects then
    have the parent and the short name they were given *)
Theorem C46_constructed_partial : forall A c (args : list (option (slot A))),
  is_class c -> ~ In c odd_classes -> length args = arguments c ->
  abstract c /\ new c args = Raise TypeError \/
  ~ abstract c /\ exists o, new c args = Ok o /\
    (arguments c = 2 -> dget o "parent" = Some (nth 0 args None) /\ dget o "short_name" = Some (nth 1 args None)).
Proof. exact constructed. Qed.
Print Assumptions C46_constructed_partial.

(** BswInterruptEvent passes no parent and no name on to BswEvent: it cannot be constructed at all *)
Theorem C46_interrupt_event_refuted : exists c, is_class c /\ ~ abstract c /\
  forall A (args : list (option (slot A))), new c args = Raise TypeError.
Proof. exists "BswInterruptEvent". exact interrupt_event. Qed.
Print Assumptions C46_interrupt_event_refuted.

(** two enumerations want their values as an argument, unlike all others *)
Theorem C46_enums_refuted : exists c d, c <> d /\
  (is_class c /\ ~ abstract c /\ isinst c "AREnum" = true /\ new (A := unit) c [] = Raise TypeError) /\
  (is_class d /\ ~ abstract d /\ isinst d "AREnum" = true /\ new (A := unit) d [] = Raise TypeError).
Proof.
  exists "BswEntryRelationshipEnum", "GraphicFitEnum". split; [discriminate|]. split; [exact relationship_enum|exact fit_enum].
Qed.
Print Assumptions C46_enums_refuted.

(** EcucContainerValue has two base classes and calls both constructors *)
Example C46_case : is_class "EcucContainerValue" /\ arguments "EcucContainerValue" = 2 /\ exists o,
  new "EcucContainerValue" [None; Some (One "P")] = Ok o /\ dget o "index" = Some None /\ dget o "subContainers" = Some (Some (Many [])) /\
  dget o "short_name" = Some (Some (One "P")).
Proof.
  split; [apply MroTable.mem_In; vm_compute; reflexivity|]. split; [vm_compute; reflexivity|]. eexists.
  split; [vm_compute; reflexivity|]. split; [vm_compute; reflexivity|]. split; vm_compute; reflexivity.
Qed.
Example C46_abstract : abstract "EcucIndexableValue" /\ new (A := unit) "EcucIndexableValue" [] = Raise TypeError.
Proof. split; [apply says_abstract_iff|]; vm_compute; reflexivity. Qed.

(** ** C47 *)
Theorem C47_getters_partial : forall A (name : slot A -> string) (eqb : A -> A -> bool) c m a o,
  reached name eqb c o -> resolve c m = Some [MReturnAttr a] ->
  ~ (c = "EcucInstanceReferenceValue" /\ m = "getValueIRef") ->
  exists v, dget o a = Some v /\ call name c m None o = Ret o (RetVal v).
Proof. exact @getter_answers. Qed.
Print Assumptions C47_getters_partial.

(** the constructor of EcucInstanceReferenceValue sets valueIRef, its getter reads valueRef *)
Theorem C47_instance_reference_refuted : exists c m (o : @attrs (slot unit)), new c [] = Ok o /\
  exists b, resolve c m = Some b /\ call (fun _ => "") c m None o = Err AttributeError.
Proof. exists "EcucInstanceReferenceValue", "getValueIRef". exact instance_reference. Qed.
Print Assumptions C47_instance_reference_refuted.

(** a state reached by a constructor, a setter and an add method *)
Example C47_case : exists o : @attrs (slot nat), reached (fun _ => "") Nat.eqb "EcucValueCollection" o /\
  dget o "ecuExtractRef" = Some (Some (One 7)) /\ dget o "ecucValueRefs" = Some (Some (Many [Some 8])) /\
  resolve "EcucValueCollection" "getCategory" = Some [MReturnAttr "category"].
Proof.
  eexists. split.
  - eapply reached_add with (m := "addEcucValueRef") (v := Some 8).
    + eapply reached_set with (m := "setEcuExtractRef") (v := Some (One 7)).
      * eapply reached_new with (args := [None; Some (One 1)]). vm_compute. reflexivity.
      * right. vm_compute. reflexivity.
      * intro H. apply MroTable.mem_of in H. vm_compute in H. discriminate.
    + right. vm_compute. reflexivity.
  - split; [vm_compute; reflexivity|]. split; vm_compute; reflexivity.
Qed.

(** ** C48 *)
Theorem C48_append_partial : forall A (name : slot A -> string) (eqb : A -> A -> bool) c m v o,
  reached name eqb c o -> ~ In m odd_adders -> resolve_add c m <> None -> add eqb c m (Some v) o <> Unknown ->
  exists x y f l o', (m = ("add" ++ x)%string \/ m = ("Add" ++ x)%string) /\ plural x y /\
    call name c ("get" ++ y)%string None o = Ret o (RetVal (Some (Many l))) /\
    left_as (add eqb c m (Some v) o) o' /\
    (call name c ("get" ++ y)%string None o' = Ret o' (RetVal (Some (Many (l ++ [Some v])))) /\ (forall a, a <> f -> dget o' a = dget o a) \/
     In (c, m) single_adders /\ existsb (oeqb eqb (Some v)) l = true /\ o' = o).
Proof. exact @add_appends. Qed.
Print Assumptions C48_append_partial.

(** None given to a guarded add method changes nothing *)
Theorem C48_none_ignored : forall A (eqb : A -> A -> bool) c m b r o,
  resolve_add c m = Some (AIfSome b :: r) -> (r = [] \/ r = [AReturnSelf]) -> left_as (add eqb c m None o) o.
Proof. exact @none_ignored. Qed.
Print Assumptions C48_none_ignored.

(** 141 add methods are not guarded: None gets into the list *)
Theorem C48_none_refuted : exists c m g (o o' : @attrs (slot unit)), new c [None; None] = Ok o /\
  left_as (add (fun _ _ => true) c m None o) o' /\ call (fun _ => "") c g None o' = Ret o' (RetVal (Some (Many [None]))).
Proof. exists "EcucValueCollection", "addEcucValueRef", "getEcucValueRefs". exact none_added. Qed.
Print Assumptions C48_none_refuted.

(** PduMappingDefaultValue.addDefaultValueElements replaces the list by its argument *)
Theorem C48_replaced_refuted : exists c m g (o o1 o2 : @attrs (slot nat)), new c [] = Ok o /\
  left_as (add Nat.eqb c m (Some 1) o) o1 /\ left_as (add Nat.eqb c m (Some 2) o1) o2 /\
  call (fun _ => "") c g None o2 = Ret o2 (RetVal (Some (One 2))).
Proof. exists "PduMappingDefaultValue", "addDefaultValueElements", "getDefaultValueElements". exact default_values. Qed.
Print Assumptions C48_replaced_refuted.

Example C48_case : exists o : @attrs (slot nat), reached (fun _ => "") Nat.eqb "HwPin" o /\ dget o "functionNames" = Some (Some (Many [])) /\
  resolve_add "HwPin" "addFunctionName" <> None /\ add Nat.eqb "HwPin" "addFunctionName" (Some 3) o <> Unknown.
Proof.
  eexists. split; [eapply reached_new with (args := [None; None]); vm_compute; reflexivity|]. split; [vm_compute; reflexivity|].
  split; vm_compute; discriminate.
Qed.
(** how many add methods the table describes, how many of them are unguarded *)
Example C48_count :
  length (filter (fun p => negb (existsb (fun s => match s with AOther | AIfSome (AOther :: _) => true | _ => false end) (snd p))) (flat_map snd add_table)) = 384 /\
  length (filter (fun p => match snd p with AAppend _ :: _ | AIfNew _ _ :: _ => true | _ => false end) (flat_map snd add_table)) = 141.
Proof. split; vm_compute; reflexivity. Qed.
