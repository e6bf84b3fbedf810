(** AUTOSAR.find on a document as the reader builds it (the values of IrSem.v).  Paths below
    /repo/src/armodel/models/M2/AUTOSARTemplates: TOP = AutosarTopLevelStructure/__init__.py,
    GTC = GenericStructure/GeneralTemplateClasses. *)
From Coq Require Import String Ascii List Bool.
From Verif Require Import PyBase Primitives ClassTable Ir Access IrSem ObjHeap Creators.
Import ListNotations.
Open Scope string_scope.
Open Scope list_scope.

Definition place_field (p : place) : string := match p with PList f => f | PSlot f => f end.

(** The attributes whose objects are entered in the collection of their owner (GTC/Identifiable.py:
    428-445 addElement): those filled by a createX method that calls addElement ([k_add] in
    Creators.v; the attribute is that of Access.v, "elements/X" standing for the X among the
    elements), and the packages of a document or package (TOP:185-189, GTC/ARPackage.py:716-730).
    Owner class and attribute. *)
Definition enrol_rows : list (string * string) :=
  ("AbstractAUTOSAR", "arPackages") :: ("ARPackage", "arPackages") ::
  flat_map (fun r => match r with
    | (k, m, cr) =>
        if k_add cr then match access_of k m with Some (ANew _ _ p) => [(k, place_field p)] | _ => [] end else []
    end) creators.
Definition enrols_in (rows : list (string * string)) (c f : string) : bool :=
  existsb (fun r => if String.eqb (snd r) f then existsb (String.eqb (fst r)) (ancestors 20 c) else false) rows.

Section Find.
Context (rows : list (string * string)).
(** the objects in the collection of [o], packages included.  Their order is that of the
    attributes, not that of the calls: see [get_element]. *)
Definition collection (o : val) : list val :=
  match o with
  | VObj c fs => flat_map (fun p => if enrols_in rows c (fst p) then items_of (snd p) else []) fs
  | _ => []
  end.

(** getElement(short_name): TOP:177-180 (document), GTC/ARPackage.py:732-747 (package),
    GTC/Identifiable.py:447-465 (other objects).  A Referrable that is not Identifiable has no such
    method; that of SignalServiceTranslationElementProps takes no name
    (CommonStructure/SignalServiceTranslation.py:80).  Of several objects with the name the code
    takes a package, else the first one entered; here it is the first in the order of
    [collection]: in a loaded document there are never several (C58_one_name_partial). *)
Definition has_collection (c : string) : bool := isinst c "CollectableElement" || isinst c "Identifiable".
Definition value_element (o : val) (n : string) : out (option val) :=
  match o with
  | VObj c fs =>
      if isinst c "SignalServiceTranslationElementProps" then Exc TypeError
      else if has_collection c then Done (List.find (name_is n) (collection o))
      else Exc AttributeError
  | _ => Stuck
  end.

(** TOP:198-206, the loop of find *)
Fixpoint value_find_from (o : val) (names : list string) : out (option val) :=
  match names with
  | [] => Done (Some o)
  | n :: r =>
      if String.eqb n "" then value_find_from o r
      else match value_element o n with
           | Done (Some w) => value_find_from w r
           | Done None => Done None
           | Exc e => Exc e
           | Stuck => Stuck
           | NoFuel => NoFuel
           end
  end.

Definition class_name (v : val) : string := match v with VObj c _ => c | _ => "" end.

(** TOP:191-214 find on the document [u], for a reference; TOP:216-238 getDestType is
    [dest_type_in].  The loop starts at AUTOSAR.getInstance(): [u] is that object (C03). *)
Definition value_find_ref (u : val) (r : reftype) : out (option val) :=
  match r_value r with
  | None => Exc AttributeError
  | Some path =>
      match value_find_from u (split_char "/" path) with
      | Done (Some w) =>
          match r_dest r with
          | None => Done (Some w)
          | Some d => if String.eqb d "" then Done (Some w)
                      else match dest_type_in dest_table (class_name w) with
                           | Ok d' => if String.eqb d' d then Done (Some w) else Exc ValueError
                           | Raise e => Exc e
                           end
          end
      | x => x
      end
  end.
End Find.

(** find(path) and find(ref) on a loaded document *)
Definition doc_find_path (u : val) (path : string) : out (option val) := value_find_from enrol_rows u (split_char "/" path).
Definition doc_find_ref (u : val) (r : reftype) : out (option val) := value_find_ref enrol_rows u r.
