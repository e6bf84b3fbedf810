(** Property C44: reading a file into a document that already has content.
    [load_parts h i ps]: the named parts [ps] of a file are read into object [i] (0 is the
    document) of the document [h]; each part is a package or is read by a creation method.
    [built h]: [h] was built by creation methods; [hrun os]: any history of creations and
    removals. *)
From Coq Require Import String List Bool Arith.
From Verif Require Import PyBase ClassTable Collection ObjHeap SpecHeap Creators SpecCreators SpecCreate
  Merge SpecMerge MergeFacts MergeProps.
Import ListNotations.
Open Scope string_scope.
Open Scope list_scope.

(** Packages p and p/q with an I-signal PDU and a mapping in it, and a parameter interface
    with one parameter. *)
Definition ex_file : list part :=
  [Part None "p" [
     Part None "q" [
       Part (Some ("ARPackage", "createISignalIPdu")) "pdu" [
         Part (Some ("ISignalIPdu", "createISignalToPduMappings")) "map" []]];
     Part (Some ("ARPackage", "createSystemSignal")) "q" []]].
Definition ex_params : list part :=
  [Part None "p" [
     Part (Some ("ARPackage", "createParameterInterface")) "if" [
       Part (Some ("ParameterInterface", "createParameterDataPrototype")) "x" []]]].
Definition ex_system : list part :=
  [Part None "p" [
     Part (Some ("ARPackage", "createSystem")) "sys" [
       Part (Some ("System", "createRootSoftwareComposition")) "root" []]]].

(** Whatever is read, and whether or not the reading fails: every object stays where it was. *)
Theorem C44_nothing_lost : forall ps h i h1 r, load_parts h i ps = (h1, r) -> kept h h1.
Proof. exact c44_kept. Qed.
Print Assumptions C44_nothing_lost.

(** Afterwards no object has two sub-packages of one name. *)
Theorem C44_packages_once : forall os ps i h1 r, load_parts (hrun os) i ps = (h1, r) ->
  forall p x y, package_of h1 p x -> package_of h1 p y -> name_of h1 x = name_of h1 y -> x = y.
Proof. exact c44_once. Qed.
Print Assumptions C44_packages_once.

(** Reading a file again, even after another file, succeeds and leaves every object as it
    was.  Missing: files with parts that are read by the 71 methods on the list
    [non_idempotent], for each of which C44_methods_refuted shows the claim to be false. *)
Theorem C44_again_partial : forall h i ps qs h1 h2 r, built h -> Forall repeatable ps -> Forall repeatable qs ->
  load_parts h i ps = (h1, Ok tt) -> load_parts h1 i qs = (h2, r) ->
  exists h3, load_parts h2 i ps = (h3, Ok tt) /\ untouched h2 h3.
Proof. exact c44_again. Qed.
Print Assumptions C44_again_partial.

(** After a file is read, and after another is read too, the document holds an object for every
    part of it, at every depth.  Missing: the same methods as above. *)
Theorem C44_present_partial : forall h i ps qs h1 h2 r, built h -> Forall repeatable ps -> Forall repeatable qs ->
  load_parts h i ps = (h1, Ok tt) -> load_parts h1 i qs = (h2, r) -> Forall (present h2 i) ps.
Proof. exact c44_present. Qed.
Print Assumptions C44_present_partial.

Theorem C44_methods_refuted : forall c m k, In (c, m, k) creators -> In (c, m) non_idempotent ->
  exists os i n h1 h2 r x, cls_of (hrun os) i = c /\ load_parts (hrun os) i [Part (Some (c, m)) n []] = (h1, Ok tt) /\
    load_parts h1 i [Part (Some (c, m)) n []] = (h2, r) /\
    call (hrun os) i (Some (c, m)) n = (h1, Ok (Some x)) /\
    (snd (call h1 i (Some (c, m)) n) <> Ok (Some x) \/ nth_error h2 i <> nth_error h1 i).
Proof. exact c44_methods. Qed.
Print Assumptions C44_methods_refuted.

(** A whole file: after the second reading the parameter is listed twice. *)
Theorem C44_twice_refuted : exists ps h1 h2 i nd1 nd2 x y,
  load_parts fresh_doc root ps = (h1, Ok tt) /\ load_parts h1 root ps = (h2, Ok tt) /\
  nth_error h1 i = Some nd1 /\ nth_error h2 i = Some nd2 /\
  node_list nd1 "parameters" = [x] /\ node_list nd2 "parameters" = [x; y] /\ name_of h2 y = name_of h2 x.
Proof.
  exists ex_params. do 2 eexists. exists 2. do 4 eexists.
  repeat (split; [vm_compute; reflexivity|]). vm_compute. reflexivity.
Qed.
Print Assumptions C44_twice_refuted.

(** A whole file: after the second reading the root composition of the system is a new object
    that is not an element of the system. *)
Theorem C44_replaced_refuted : exists ps h1 h2 i nd1 nd2 x y,
  load_parts fresh_doc root ps = (h1, Ok tt) /\ load_parts h1 root ps = (h2, Ok tt) /\
  nth_error h1 i = Some nd1 /\ nth_error h2 i = Some nd2 /\
  dget (nattrs nd1) "rootSoftwareComposition" = Some x /\ dget (nattrs nd2) "rootSoftwareComposition" = Some y /\
  elems (ncoll nd2) = [x] /\ x <> y.
Proof.
  exists ex_system. do 2 eexists. exists 2. do 4 eexists.
  repeat (split; [vm_compute; reflexivity|]). discriminate.
Qed.
Print Assumptions C44_replaced_refuted.

Example C44_case : exists h1, load_parts fresh_doc root ex_file = (h1, Ok tt) /\ List.length h1 = 6 /\
  name_of h1 2 = "q" /\ name_of h1 5 = "q" /\ load_parts h1 root ex_file = (h1, Ok tt) /\
  package_of h1 1 2 /\ Forall repeatable ex_file.
Proof.
  eexists. do 5 (split; [vm_compute; reflexivity|]). split.
  - eexists. split; [reflexivity|]. now left.
  - apply repeatable_checked. vm_compute. reflexivity.
Qed.
