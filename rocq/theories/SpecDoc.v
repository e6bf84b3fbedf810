(** Specification of the document registries in terms of the history of calls. *)
From Coq Require Import String Ascii List Bool Arith.
From Verif Require Import PyBase Collection ObjHeap Doc.
Import ListNotations.
Open Scope string_scope.
Open Scope list_scope.

(** Everything since the last clear() *)
Fixpoint since_clear (os : list dop) : list dop :=
  match os with
  | [] => []
  | o :: os' => if existsb (fun o => match o with DClear => true | _ => false end) os' then since_clear os'
                else match o with DClear => os' | _ => o :: os' end
  end.

(** complete data type maps (application, implementation), oldest first *)
Definition type_maps (os : list dop) : list (string * string) :=
  flat_map (fun o => match o with DDataMap (Some a) (Some i) => [(a, i)] | _ => [] end) os.
(** (implementation, behaviour) *)
Definition beh_maps (os : list dop) : list (string * string) :=
  flat_map (fun o => match o with DImplBeh i b => [(i, b)] | _ => [] end) os.
Definition swap_pair {A B} (p : A * B) : B * A := (snd p, fst p).
(** the partner of [x] in the latest pair *)
Fixpoint latest (x : string) (ps : list (string * string)) : option string :=
  match ps with
  | [] => None
  | (a, b) :: ps' => match latest x ps' with
                     | Some y => Some y
                     | None => if String.eqb a x then Some b else None end
  end.
Definition one_to_one (ps : list (string * string)) : Prop :=
  forall a b a' b', In (a, b) ps -> In (a', b') ps -> (a = a' <-> b = b').

Definition root_calls (os : list dop) : list named :=
  flat_map (fun o => match o with DRoot (Some x) => [x] | _ => [] end) os.
Definition system_calls (os : list dop) : list named :=
  flat_map (fun o => match o with DSystem x => [x] | _ => [] end) os.
Definition comp_calls (os : list dop) : list named :=
  flat_map (fun o => match o with DComp (Some x) => [x] | _ => [] end) os.
(** registrations with a UUID, oldest first *)
Definition uuid_calls (os : list dop) : list (string * nat) :=
  flat_map (fun o => match o with DObj (Some (x, Some u)) => [(u, x)] | _ => [] end) os.
Definition with_uuid (u : string) (l : list (string * nat)) : list nat :=
  map snd (filter (fun p => String.eqb (fst p) u) l).
Definition first_named (n : string) (l : list named) : option named :=
  find (fun x => String.eqb (o_name x) n) l.

(** The queries of the document API. *)
Inductive query :=
| QPackages | QElements | QTotal | QElement (n : string) | QExists (n : string) (t : option string)
| QFind (p : string) | QFindRef (v d : option string)
| QToImpl (a : string) | QToAppl (i : string) | QBehavior (i : string) | QImplementation (b : string)
| QSystems | QCompositions | QComposition (n : string) | QRoot | QObjects (u : string) | QDuplicates
| QAdmin | QFileInfo | QIntro | QSchema | QAttributes.
Inductive answer :=
| AIds (l : list nat) | AObj (r : res (option nat)) | ABool (b : bool) | ANamed (l : list named)
| AComp (r : res named) | ARoot (r : option named) | AStrings (l : list string) | AOpt (o : option nat)
| AText (o : option string) | ATexts (a b c : option string).

Definition ask (d : doc) (q : query) : answer :=
  match q with
  | QPackages => AIds (sorted_packages (d_heap d) root)
  | QElements => AIds (match nth_error (d_heap d) root with Some nd => elems (ncoll nd) | None => [] end)
  | QTotal => AIds [match nth_error (d_heap d) root with Some nd => List.length (elems (ncoll nd)) | None => 0 end]
  | QElement n => AObj (get_element (d_heap d) root n None)
  | QExists n t => ABool (match nth_error (d_heap d) root with
                          | Some nd => coll_exists (cls_of (d_heap d)) (ncoll nd) n t | None => false end)
  | QFind p => AObj (find_path (d_heap d) p)
  | QFindRef v t => AObj (find_ref (d_heap d) v t)
  | QToImpl a => AObj (convertToImplementationDataType d a)
  | QToAppl i => AObj (convertToApplicationDataType d i)
  | QBehavior i => AObj (getBehavior d i)
  | QImplementation b => AObj (getImplementation d b)
  | QSystems => ANamed (getSystems d)
  | QCompositions => ANamed (dvalues (d_comps d))
  | QComposition n => AComp (getComposition d n)
  | QRoot => ARoot (d_root d)
  | QObjects u => AIds (getARObjectByUUID d u)
  | QDuplicates => AStrings (getDuplicateUUIDs d)
  | QAdmin => AOpt (d_admin d)
  | QFileInfo => AOpt (d_fileinfo d)
  | QIntro => AOpt (d_intro d)
  | QSchema => AText (d_schema d)
  | QAttributes => ATexts (d_checksum d) (d_timestamp d) (d_uuid d)
  end.

(** The sixteen AUTOSAR releases and their schema files. *)
Definition supported : list (string * string) := [
  ("4.0.3", "AUTOSAR_4-0-3.xsd"); ("4.1.0", "AUTOSAR_4-1-0.xsd"); ("4.1.1", "AUTOSAR_4-1-1.xsd");
  ("4.1.2", "AUTOSAR_4-1-2.xsd"); ("4.1.3", "AUTOSAR_4-1-3.xsd"); ("4.2.1", "AUTOSAR_4-2-1.xsd");
  ("4.2.2", "AUTOSAR_4-2-2.xsd"); ("4.3.0", "AUTOSAR_00043.xsd"); ("4.3.1", "AUTOSAR_00045.xsd");
  ("4.4.0", "AUTOSAR_00047.xsd"); ("R19-11", "AUTOSAR_00048.xsd"); ("R20-11", "AUTOSAR_00049.xsd");
  ("R21-11", "AUTOSAR_00050.xsd"); ("R22-11", "AUTOSAR_00051.xsd"); ("R23-11", "AUTOSAR_00052.xsd");
  ("R24-11", "AUTOSAR_00053.xsd")].
