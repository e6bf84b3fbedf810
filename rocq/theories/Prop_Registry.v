(** Property C62: the registries of a document after a file was loaded.
    [loaded warn x u]: loading root element [x] gives document [u]; [file_holds x l]: [l] are the
    elements of the packages of [x]; [type_map l a i], [behavior_map l i b]: the maps written in the
    file, [type_maps_in l] and [behavior_maps_in l] the same in file order, [last_right ps a b]: the
    last pair for [a] is with [b]; [lives u ns v]: object [v] has path [ns] in [u]; [after_reading x P]: [P] holds of the
    registries when [x] was read into a new document; [to_implementation_type] and so on:
    convertToImplementationDataType, convertToApplicationDataType, getBehavior, getImplementation. *)
From Coq Require Import String List Bool Sorted.
From Verif Require Import PyBase Primitives Xml Leaf ClassTable Ir IrSem SpecRoundTrip ObjHeap SpecHeap Locate SpecLocate Doc SpecListing Registry SpecRegistry ListingProps RegistryProps.
Import ListNotations.
Open Scope string_scope.
Open Scope list_scope.

(** Missing in all: name clashes while reading (C58); several files but for [C62_several_partial]. *)
Theorem C62_to_implementation_partial : forall warn x u l a i ws v, loaded warn x u -> file_holds x l -> a <> "" -> i <> "" ->
  last_right (type_maps_in l) a i -> components i ws -> lives u (nonempty_names ws) v ->
  after_reading x (fun d => to_implementation_type d u a = Done (Some v)).
Proof. exact (fun warn x u l a i ws v L F _ _ => c62_to_implementation warn x u l L F a i ws v). Qed.
Print Assumptions C62_to_implementation_partial.

Theorem C62_to_application_partial : forall warn x u l a i ws v, loaded warn x u -> file_holds x l -> a <> "" -> i <> "" ->
  last_left (type_maps_in l) a i -> components a ws -> lives u (nonempty_names ws) v ->
  after_reading x (fun d => to_application_type d u i = Done (Some v)).
Proof. exact (fun warn x u l a i ws v L F _ _ => c62_to_application warn x u l L F a i ws v). Qed.
Print Assumptions C62_to_application_partial.

Theorem C62_behavior_partial : forall warn x u l i b ws v, loaded warn x u -> file_holds x l -> b <> "" ->
  last_right (behavior_maps_in l) i b -> components b ws -> lives u (nonempty_names ws) v ->
  after_reading x (fun d => behavior_of d u i = Done (Some v)).
Proof. exact (fun warn x u l i b ws v L F _ => c62_behavior warn x u l L F i b ws v). Qed.
Print Assumptions C62_behavior_partial.

Theorem C62_implementation_partial : forall warn x u l i b ws v, loaded warn x u -> file_holds x l -> b <> "" ->
  last_left (behavior_maps_in l) i b -> components i ws -> lives u (nonempty_names ws) v ->
  after_reading x (fun d => implementation_of d u b = Done (Some v)).
Proof. exact (fun warn x u l i b ws v L F _ => c62_implementation warn x u l L F i b ws v). Qed.
Print Assumptions C62_implementation_partial.

Theorem C62_unmapped_partial : forall warn x u l t, loaded warn x u -> file_holds x l -> (forall s, ~ type_map l t s) ->
  after_reading x (fun d => to_implementation_type d u t = Exc IndexError).
Proof. exact (fun warn x u l t _ F => c62_unmapped x u l F t). Qed.
Print Assumptions C62_unmapped_partial.

Theorem C62_no_behavior_partial : forall warn x u l i, loaded warn x u -> file_holds x l -> (forall b, ~ behavior_map l i b) ->
  after_reading x (fun d => behavior_of d u i = Done None).
Proof. exact (fun warn x u l i _ F => c62_no_behavior x u l F i). Qed.
Print Assumptions C62_no_behavior_partial.

(** The lists have the maps of the file and no other. *)
Theorem C62_lists : forall l, (forall a i, In (a, i) (type_maps_in l) <-> type_map l a i) /\ (forall i b, In (i, b) (behavior_maps_in l) <-> behavior_map l i b).
Proof. exact (fun l => conj (c62_type_lists l) (c62_behavior_lists l)). Qed.
Print Assumptions C62_lists.

(** getSystems: one system for each name, sorted. *)
Theorem C62_systems_partial : forall warn x u l, loaded warn x u -> file_holds x l -> all_named (filter (tagged_in ["SYSTEM"]) l) ->
  after_reading x (fun d => NoDup (map o_name (getSystems d)) /\ StronglySorted (fun a b => str_leb a b = true) (map o_name (getSystems d)) /\
    forall n, In n (map o_name (getSystems d)) <-> In n (names_of "SYSTEM" l)).
Proof. exact (fun warn x u l _ F _ => c62_systems x l F). Qed.
Print Assumptions C62_systems_partial.

Theorem C62_compositions_partial : forall warn x u l, loaded warn x u -> file_holds x l -> all_named (filter (tagged_in ["COMPOSITION-SW-COMPONENT-TYPE"]) l) ->
  after_reading x (fun d => forall n,
    (exists c, getComposition d n = Ok c /\ o_name c = n) /\ In n (names_of "COMPOSITION-SW-COMPONENT-TYPE" l) \/
    getComposition d n = Raise KeyError /\ ~ In n (names_of "COMPOSITION-SW-COMPONENT-TYPE" l)).
Proof. exact (fun warn x u l _ F _ => c62_compositions x l F). Qed.
Print Assumptions C62_compositions_partial.

(** The root composition is the first one of the file. *)
Theorem C62_root_partial : forall warn x u l, loaded warn x u -> file_holds x l ->
  after_reading x (fun d => option_map o_name (d_root d) = hd_error (root_names l)).
Proof. exact (fun warn x u l _ F => c62_root x l F). Qed.
Print Assumptions C62_root_partial.

(** Several files loaded one after the other: the same for all of them together. *)
Theorem C62_several_partial : forall xs ls l, Forall2 file_holds xs ls -> l = concat ls ->
  all_named (filter (tagged_in ["SYSTEM"]) l) -> all_named (filter (tagged_in ["COMPOSITION-SW-COMPONENT-TYPE"]) l) ->
  after_reading_all xs (fun d =>
    (NoDup (map o_name (getSystems d)) /\ StronglySorted (fun a b => str_leb a b = true) (map o_name (getSystems d)) /\
      forall n, In n (map o_name (getSystems d)) <-> In n (names_of "SYSTEM" l)) /\
    (forall n, (exists c, getComposition d n = Ok c /\ o_name c = n) /\ In n (names_of "COMPOSITION-SW-COMPONENT-TYPE" l) \/
      getComposition d n = Raise KeyError /\ ~ In n (names_of "COMPOSITION-SW-COMPONENT-TYPE" l)) /\
    option_map o_name (d_root d) = hd_error (root_names l)).
Proof. intros xs ls l F -> _ _. exact (c62_several xs ls F). Qed.
Print Assumptions C62_several_partial.

(** Two application types with one implementation type: back from it only the last is found. *)
Theorem C62_inverse_refuted : exists x u l a i v w, loaded false x u /\ file_holds x l /\ type_map l a i /\
  doc_find_path u a = Done (Some v) /\ after_reading x (fun d => to_application_type d u i = Done (Some w)) /\ v <> w.
Proof.
  exists registered_doc, registered_u, registered_l, "/P/a", "/P/i", registered_a, registered_b.
  exact (conj registered_loaded (conj registered_holds (conj registered_first (conj registered_found (conj registered_last registered_other))))).
Qed.
Print Assumptions C62_inverse_refuted.

(** A second system with another root composition loads without the warning option, and its root is dropped. *)
Theorem C62_second_root_refuted : exists x u l r s, loaded false x u /\ file_holds x l /\ root_names l = [r; s] /\ r <> s /\
  after_reading x (fun d => option_map o_name (d_root d) = Some r).
Proof.
  exists registered_doc, registered_u, registered_l, "r", "q".
  exact (conj registered_loaded (conj registered_holds (conj (proj2 (proj2 registered_names)) (conj registered_roots registered_root)))).
Qed.
Print Assumptions C62_second_root_refuted.

(** A file with two type maps, an implementation, two systems and a composition. *)
Example C62_case : loaded false registered_doc registered_u /\ file_holds registered_doc registered_l /\
  (forall a i, type_map registered_l a i <-> (a = "/P/a" \/ a = "/P/b") /\ i = "/P/i") /\
  (forall i b, behavior_map registered_l i b <-> i = "/P/k" /\ b = "/P/w/h") /\
  (type_maps_in registered_l = [("/P/a", "/P/i"); ("/P/b", "/P/i")] /\ behavior_maps_in registered_l = [("/P/k", "/P/w/h")]) /\
  (lives registered_u ["P"; "i"] registered_i /\ lives registered_u ["P"; "w"; "h"] registered_h /\ lives registered_u ["P"; "k"] registered_k) /\
  exists d, registries 2 registered_doc = Done d /\ to_implementation_type d registered_u "/P/a" = Done (Some registered_i) /\
    behavior_of d registered_u "/P/k" = Done (Some registered_h) /\ implementation_of d registered_u "/P/w/h" = Done (Some registered_k) /\
    map o_name (getSystems d) = ["s"; "t"] /\ to_application_type d registered_u "/P/i" = Done (Some registered_b) /\ option_map o_name (d_root d) = Some "r".
Proof. exact (conj registered_loaded (conj registered_holds (conj registered_maps (conj registered_behaviors (conj registered_lists (conj registered_lives registered_run)))))). Qed.
(** Two files. *)
Example C62_files : Forall2 file_holds [listed_doc; registered_doc] [listed_l; registered_l] /\
  exists d, registries_of 3 [listed_doc; registered_doc] = Done d /\ map o_name (getSystems d) = ["s"; "t"] /\
    getComposition d "k" = Ok (mkNamed 0 "k") /\ getComposition d "c" = Ok (mkNamed 0 "c") /\ getComposition d "a" = Raise KeyError.
Proof. exact registered_files. Qed.
