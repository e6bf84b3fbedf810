(** Vocabulary of the theorems about constructors, getters and add methods (C46 to C48). *)
From Coq Require Import String List Bool.
From Verif Require Import PyBase ClassTable SetterTable Setters SpecSetters ObjectTable Objects.
Import ListNotations.
Open Scope string_scope.
Open Scope list_scope.

Definition is_class (c : string) : Prop := In c (map fst class_bases).
(** named objects are made with their parent and their short name, all others without arguments *)
Definition arguments (c : string) : nat := if (isinst c "Referrable" || String.eqb c "ARPackage")%bool then 2 else 0.
(** the constructor of the class says that it is abstract *)
Definition abstract (c : string) : Prop := exists k b, lookup c ctor_table = Some (k, b) /\ In (CAbstract c) b.

(** setters that replace a list *)
Definition list_setters : list string :=
  ["setAttributes"; "setCommands"; "setIndications"; "setModeSenderPolicies"; "setServiceDependencies"; "setExpectedEntryRefs";
   "setHwAttributeLiterals"; "setFunctionNames"; "setNetworks"; "setAllowedServiceConsumerRefs"; "setLocalUnicastAddressRefs";
   "setRemoteMulticastSubscriptionAddressRefs"; "setRemoteUnicastAddressRefs"; "setSynchronizedModeGroups"; "setSynchronizedTriggers";
   "setDataPrototypeTransformationProps"].

(** the states of an object of class [c]: made by the constructor, then any calls of setters and add
    methods that did not raise; a setter that replaces a list is given a list *)
Inductive reached {A} (name : slot A -> string) (eqb : A -> A -> bool) (c : string) : @attrs (slot A) -> Prop :=
| reached_new : forall args o, new c args = Ok o -> reached name eqb c o
| reached_set : forall m v o o', reached name eqb c o -> left_as (call name c m v o) o' ->
    (In m list_setters -> exists l, v = Some (Many l)) -> reached name eqb c o'
| reached_add : forall m v o o', reached name eqb c o -> left_as (add eqb c m v o) o' -> reached name eqb c o'.

(** English plurals, and one irregular name (SwComponentType, Components/__init__.py:30) *)
Definition plural (x y : string) : Prop :=
  y = (x ++ "s")%string \/ y = (x ++ "es")%string \/ y = x \/ (exists z, x = (z ++ "y")%string /\ y = (z ++ "ies")%string) \/
  x = "SwcMappingConstraintRef" /\ y = "SwcMappingConstraintsRefs".

(** methods that do not append, or whose list has no plain getter *)
Definition odd_adders : list string := ["addArtifactDescriptor"; "addVf"; "addDefaultValueElements"].
(** classes that cannot be constructed like the others *)
Definition odd_classes : list string := ["BswInterruptEvent"; "BswEntryRelationshipEnum"; "GraphicFitEnum"; "AREnum"].
(** methods that add a value only once *)
Definition single_adders : list (string * string) :=
  [("HwAttributeDef", "addHwAttributeLiteral"); ("HwPin", "addFunctionName"); ("BulkNvDataDescriptor", "addNvBlockDataMapping");
   ("NvBlockDescriptor", "addClientServerPort"); ("NvBlockDescriptor", "addConstantValueMappingRef"); ("NvBlockDescriptor", "addDataTypeMappingRef");
   ("NvBlockDescriptor", "addInstantiationDataDefProps"); ("NvBlockDescriptor", "addModeSwitchEventTriggeredActivity");
   ("NvBlockDescriptor", "addNvBlockDataMapping"); ("NvBlockDescriptor", "addWritingStrategy")].
