(** The document object: AbstractAUTOSAR and its registries.
    TOP stands for
    /repo/src/armodel/models/M2/AUTOSARTemplates/AutosarTopLevelStructure/__init__.py,
    UUID for /repo/src/armodel/models/utils/uuid_mgr.py. *)
From Coq Require Import String Ascii List Bool Arith.
From Verif Require Import PyBase ClassTable Collection ObjHeap.
Import ListNotations.
Open Scope string_scope.
Open Scope list_scope.

(** A registered object: identity and short name (what the registries read of it). *)
Record named := mkNamed { o_id : nat; o_name : string }.

(** State of the document.  Object 0 of [d_heap] is the document itself: its element
    collection and arPackages (TOP:173).  Simplification: admin data, file info and
    introduction are opaque objects; the values of the mapped references are strings. *)
Record doc := mkDoc {
  d_heap : heap;
  d_checksum : option string; d_timestamp : option string; d_uuid : option string;  (* ArObject.py:26-30 *)
  d_releases : dict string;              (* TOP:102-119 *)
  d_schema : option string;              (* TOP:158 *)
  d_appl_impl : dict string;             (* TOP:159 *)
  d_impl_appl : dict string;             (* TOP:160 *)
  d_beh_impl : dict string;              (* TOP:162 *)
  d_impl_beh : dict string;              (* TOP:163 *)
  d_uuids : dict (list nat);             (* TOP:165, UUID:17 *)
  d_systems : dict named;                (* TOP:167 *)
  d_comps : dict named;                  (* TOP:168 *)
  d_root : option named;                 (* TOP:170 *)
  d_admin : option nat;                  (* TOP:172 *)
  d_fileinfo : option nat;               (* TOP:174 *)
  d_intro : option nat }.                (* TOP:175 *)

(** TOP:102-119 *)
Definition releases : dict string := [
  ("4.0.3", "AUTOSAR_4-0-3.xsd"); ("4.1.0", "AUTOSAR_4-1-0.xsd"); ("4.1.1", "AUTOSAR_4-1-1.xsd");
  ("4.1.2", "AUTOSAR_4-1-2.xsd"); ("4.1.3", "AUTOSAR_4-1-3.xsd"); ("4.2.1", "AUTOSAR_4-2-1.xsd");
  ("4.2.2", "AUTOSAR_4-2-2.xsd"); ("4.3.0", "AUTOSAR_00043.xsd"); ("4.3.1", "AUTOSAR_00045.xsd");
  ("4.4.0", "AUTOSAR_00047.xsd"); ("R19-11", "AUTOSAR_00048.xsd"); ("R20-11", "AUTOSAR_00049.xsd");
  ("R21-11", "AUTOSAR_00050.xsd"); ("R22-11", "AUTOSAR_00051.xsd"); ("R23-11", "AUTOSAR_00052.xsd");
  ("R24-11", "AUTOSAR_00053.xsd")].

(** Field assignments, one per statement of clear() *)
Definition set_heap (d : doc) (v : heap) : doc :=
  mkDoc v (d_checksum d) (d_timestamp d) (d_uuid d) (d_releases d) (d_schema d) (d_appl_impl d) (d_impl_appl d)
    (d_beh_impl d) (d_impl_beh d) (d_uuids d) (d_systems d) (d_comps d) (d_root d) (d_admin d) (d_fileinfo d) (d_intro d).
Definition set_arobject (d : doc) (c t u : option string) : doc :=
  mkDoc (d_heap d) c t u (d_releases d) (d_schema d) (d_appl_impl d) (d_impl_appl d)
    (d_beh_impl d) (d_impl_beh d) (d_uuids d) (d_systems d) (d_comps d) (d_root d) (d_admin d) (d_fileinfo d) (d_intro d).
Definition set_schema (d : doc) (v : option string) : doc :=
  mkDoc (d_heap d) (d_checksum d) (d_timestamp d) (d_uuid d) (d_releases d) v (d_appl_impl d) (d_impl_appl d)
    (d_beh_impl d) (d_impl_beh d) (d_uuids d) (d_systems d) (d_comps d) (d_root d) (d_admin d) (d_fileinfo d) (d_intro d).
Definition set_type_maps (d : doc) (ai ia : dict string) : doc :=
  mkDoc (d_heap d) (d_checksum d) (d_timestamp d) (d_uuid d) (d_releases d) (d_schema d) ai ia
    (d_beh_impl d) (d_impl_beh d) (d_uuids d) (d_systems d) (d_comps d) (d_root d) (d_admin d) (d_fileinfo d) (d_intro d).
Definition set_beh_maps (d : doc) (bi ib : dict string) : doc :=
  mkDoc (d_heap d) (d_checksum d) (d_timestamp d) (d_uuid d) (d_releases d) (d_schema d) (d_appl_impl d) (d_impl_appl d)
    bi ib (d_uuids d) (d_systems d) (d_comps d) (d_root d) (d_admin d) (d_fileinfo d) (d_intro d).
Definition set_uuids (d : doc) (v : dict (list nat)) : doc :=
  mkDoc (d_heap d) (d_checksum d) (d_timestamp d) (d_uuid d) (d_releases d) (d_schema d) (d_appl_impl d) (d_impl_appl d)
    (d_beh_impl d) (d_impl_beh d) v (d_systems d) (d_comps d) (d_root d) (d_admin d) (d_fileinfo d) (d_intro d).
Definition set_systems (d : doc) (v : dict named) : doc :=
  mkDoc (d_heap d) (d_checksum d) (d_timestamp d) (d_uuid d) (d_releases d) (d_schema d) (d_appl_impl d) (d_impl_appl d)
    (d_beh_impl d) (d_impl_beh d) (d_uuids d) v (d_comps d) (d_root d) (d_admin d) (d_fileinfo d) (d_intro d).
Definition set_comps (d : doc) (v : dict named) : doc :=
  mkDoc (d_heap d) (d_checksum d) (d_timestamp d) (d_uuid d) (d_releases d) (d_schema d) (d_appl_impl d) (d_impl_appl d)
    (d_beh_impl d) (d_impl_beh d) (d_uuids d) (d_systems d) v (d_root d) (d_admin d) (d_fileinfo d) (d_intro d).
Definition set_root (d : doc) (v : option named) : doc :=
  mkDoc (d_heap d) (d_checksum d) (d_timestamp d) (d_uuid d) (d_releases d) (d_schema d) (d_appl_impl d) (d_impl_appl d)
    (d_beh_impl d) (d_impl_beh d) (d_uuids d) (d_systems d) (d_comps d) v (d_admin d) (d_fileinfo d) (d_intro d).
Definition set_admin (d : doc) (v : option nat) : doc :=
  mkDoc (d_heap d) (d_checksum d) (d_timestamp d) (d_uuid d) (d_releases d) (d_schema d) (d_appl_impl d) (d_impl_appl d)
    (d_beh_impl d) (d_impl_beh d) (d_uuids d) (d_systems d) (d_comps d) (d_root d) v (d_fileinfo d) (d_intro d).
Definition set_fileinfo (d : doc) (v : option nat) : doc :=
  mkDoc (d_heap d) (d_checksum d) (d_timestamp d) (d_uuid d) (d_releases d) (d_schema d) (d_appl_impl d) (d_impl_appl d)
    (d_beh_impl d) (d_impl_beh d) (d_uuids d) (d_systems d) (d_comps d) (d_root d) (d_admin d) v (d_intro d).
Definition set_intro (d : doc) (v : option nat) : doc :=
  mkDoc (d_heap d) (d_checksum d) (d_timestamp d) (d_uuid d) (d_releases d) (d_schema d) (d_appl_impl d) (d_impl_appl d)
    (d_beh_impl d) (d_impl_beh d) (d_uuids d) (d_systems d) (d_comps d) (d_root d) (d_admin d) (d_fileinfo d) v.

(** The document's own collection and package dictionary emptied; the other objects stay
    alive in the heap, unreachable from the document. *)
Definition clear_elements (h : heap) : heap :=
  match nth_error h root with
  | Some nd => upd h root (set_coll nd coll_empty)
  | None => h end.
Definition clear_packages (h : heap) : heap :=
  match nth_error h root with
  | Some nd => upd h root (set_pkgs nd [])
  | None => h end.

(** TOP:155-175 clear() and TOP:374 AUTOSAR.new() *)
Definition doc_clear (d : doc) : doc :=
  let d := set_arobject d None None None in             (* CollectableElement.__init__ -> ARObject.__init__ *)
  let d := set_heap d (clear_elements (d_heap d)) in    (* CollectableElement.__init__ *)
  let d := set_schema d None in
  let d := set_type_maps d [] [] in
  let d := set_beh_maps d [] [] in
  let d := set_uuids d [] in
  let d := set_systems d [] in
  let d := set_comps d [] in
  let d := set_root d None in
  let d := set_admin d None in
  let d := set_heap d (clear_packages (d_heap d)) in
  let d := set_fileinfo d None in
  set_intro d None.

(** TOP:99-121: a newly constructed document *)
Definition doc_new : doc :=
  mkDoc fresh_doc None None None releases None [] [] [] [] [] [] [] None None None None.

(** TOP:347-351 *)
Definition setARRelease (d : doc) (r : string) : doc * option exn :=
  match dget (d_releases d) r with
  | None => (d, Some ValueError)
  | Some xsd => (set_schema d (Some ("http://autosar.org/schema/r4.0 " ++ xsd)%string), None)
  end.

(** TOP:271-275; [None] is a missing reference *)
Definition addDataTypeMap (d : doc) (appl impl : option string) : doc :=
  match appl, impl with
  | Some a, Some i => set_type_maps d (dset (d_appl_impl d) a i) (dset (d_impl_appl d) i a)
  | _, _ => d
  end.
(** TOP:277-287; find starts at the singleton, here the document itself *)
Definition convertToImplementationDataType (d : doc) (a : string) : res (option nat) :=
  match dget (d_appl_impl d) a with
  | None => Raise IndexError
  | Some i => find_path (d_heap d) i end.
Definition convertToApplicationDataType (d : doc) (i : string) : res (option nat) :=
  match dget (d_impl_appl d) i with
  | None => Raise IndexError
  | Some a => find_path (d_heap d) a end.

(** TOP:301-313 *)
Definition addImplementationBehaviorMap (d : doc) (impl beh : string) : doc :=
  set_beh_maps d (dset (d_beh_impl d) beh impl) (dset (d_impl_beh d) impl beh).
Definition getBehavior (d : doc) (impl : string) : res (option nat) :=
  match dget (d_impl_beh d) impl with Some b => find_path (d_heap d) b | None => Ok None end.
Definition getImplementation (d : doc) (beh : string) : res (option nat) :=
  match dget (d_beh_impl d) beh with Some i => find_path (d_heap d) i | None => Ok None end.

(** TOP:292-299 *)
Definition setRootSwCompositionPrototype (d : doc) (v : option named) : doc * option exn :=
  match v with
  | None => (d, None)
  | Some x => match d_root d with
              | Some y => if String.eqb (o_name x) (o_name y) then (d, None) else (d, Some ValueError)
              | None => (set_root d (Some x), None)
              end
  end.

(** TOP:315-321 *)
Definition addSystem (d : doc) (x : named) : doc :=
  if dmem (d_systems d) (o_name x) then d else set_systems d (dset (d_systems d) (o_name x) x).
Definition getSystems (d : doc) : list named := py_sorted o_name (dvalues (d_systems d)).
(** TOP:323-334 *)
Definition addComposition (d : doc) (v : option named) : doc :=
  match v with
  | None => d
  | Some x => if dmem (d_comps d) (o_name x) then d else set_comps d (dset (d_comps d) (o_name x) x)
  end.
Definition getComposition (d : doc) (n : string) : res named :=
  match dget (d_comps d) n with Some x => Ok x | None => Raise KeyError end.

(** UUID:19-26 addObject, TOP:339-342 addARObject; [None] for a None argument, otherwise the
    object and its uuid attribute *)
Definition addARObject (d : doc) (v : option (nat * option string)) : doc :=
  match v with
  | Some (x, Some u) =>
      let m := if dmem (d_uuids d) u then d_uuids d else dset (d_uuids d) u [] in
      set_uuids d (dset m u (match dget m u with Some l => l | None => [] end ++ [x]))
  | _ => d
  end.
(** UUID:28-32 *)
Definition getARObjectByUUID (d : doc) (u : string) : list nat :=
  match dget (d_uuids d) u with Some l => l | None => [] end.
(** UUID:34-38 *)
Definition getDuplicateUUIDs (d : doc) : list string :=
  match d_uuids d with [] => [] | m => dkeys m end.

(** /repo/src/armodel/cli/uuid_checker_cli.py:59-69: the report, as pairs of UUID and listed
    objects; [is_ref] tells whether an object is a Referrable.  Simplification: the text of
    the lines is left out; what was written before an exception is returned with it. *)
Fixpoint uuid_report_from (is_ref : nat -> bool) (d : doc) (us : list string) : list (string * list nat) * option exn :=
  match us with
  | [] => ([], None)
  | u :: us' =>
      let objs := getARObjectByUUID d u in
      if Nat.ltb 1 (List.length objs) then
        if forallb is_ref objs then
          let (rest, e) := uuid_report_from is_ref d us' in ((u, objs) :: rest, e)
        else ([], Some NotImplementedError)
      else uuid_report_from is_ref d us'
  end.
Definition uuid_report (is_ref : nat -> bool) (d : doc) : list (string * list nat) * option exn :=
  uuid_report_from is_ref d (getDuplicateUUIDs d).

(** getARPackages(): TOP:182-183, GTC/ARPackage.py:705-714: sorted by short name *)
Definition sorted_packages (h : heap) (i : nat) : list nat :=
  match nth_error h i with
  | Some nd => py_sorted (name_of h) (dvalues (npkgs nd))
  | None => [] end.

(** Histories of calls on the document *)
Inductive dop :=
| DHeap (o : hop)
| DRelease (r : string)
| DDataMap (appl impl : option string)
| DImplBeh (impl beh : string)
| DRoot (v : option named)
| DSystem (x : named)
| DComp (v : option named)
| DObj (v : option (nat * option string))
| DAdmin (v : option nat)          (* TOP:126-129 setAdminData *)
| DRemoveAdmin                     (* TOP:131 removeAdminData *)
| DFileInfo (v : option nat)       (* TOP:137 *)
| DIntro (v : option nat)          (* TOP:143 *)
| DAttrs (c t u : option string)   (* checksum, timestamp, uuid attributes set by the loader *)
| DSchema (v : option string)      (* schema_location attribute set by the loader *)
| DClear.
Definition dstep (d : doc) (o : dop) : doc :=
  match o with
  | DHeap o => set_heap d (hstep (d_heap d) o)
  | DRelease r => fst (setARRelease d r)
  | DDataMap a i => addDataTypeMap d a i
  | DImplBeh i b => addImplementationBehaviorMap d i b
  | DRoot v => fst (setRootSwCompositionPrototype d v)
  | DSystem x => addSystem d x
  | DComp v => addComposition d v
  | DObj v => addARObject d v
  | DAdmin v => match v with Some _ => set_admin d v | None => d end
  | DRemoveAdmin => set_admin d None
  | DFileInfo v => set_fileinfo d v
  | DIntro v => set_intro d v
  | DAttrs c t u => set_arobject d c t u
  | DSchema v => set_schema d v
  | DClear => doc_clear d
  end.
Definition drun (os : list dop) : doc := fold_left dstep os doc_new.
