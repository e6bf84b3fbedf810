(** The registries of the document filled while a file is read: data type maps, implementations and
    behaviours, compositions, systems, the root composition.  ARXML is
    /repo/src/armodel/parser/arxml_parser.py, TOP is
    /repo/src/armodel/models/M2/AUTOSARTemplates/AutosarTopLevelStructure/__init__.py.
    The calls are collected in reading order and made on a new document (Doc.v).
    Simplifications: an empty SHORT-NAME or reference, None in the program, is ""; the objects kept
    by the registries are known by their names, all with number 0; the reader is taken to reach the
    end of the file. *)
From Coq Require Import String List Bool.
From Verif Require Import PyBase Primitives Leaf Xml Ir IrSem Doc Locate.
Import ListNotations.
Open Scope string_scope.
Open Scope list_scope.

Definition text_or_none (t : option string) : string := match t with Some s => s | None => "" end.
(** getShortName of the object read from [y] (abstract_arxml_parser.py getShortName) *)
Definition object_name (y : xml) : string := match short_name y with Ok t => text_or_none t | Raise _ => "" end.
Definition object_of (y : xml) : named := mkNamed 0 (object_name y).
(** the value of getChildElementOptionalRefType (abstract_arxml_parser.py:297-301) *)
Definition child_ref (key : string) (y : xml) : option string := option_map (fun r => text_or_none (xtext r)) (find key y).

(** ARXML:3037-3041, 3047-3050 with the full name of the package in [full] *)
Definition implementation_calls (full : string) (y : xml) : list dop :=
  match child_ref "BEHAVIOR-REF" y with Some b => [DImplBeh (full ++ "/" ++ object_name y)%string b] | None => [] end.
(** ARXML:4977-4986 readDataTypeMaps *)
Definition type_map_calls (y : xml) : list dop :=
  map (fun m => DDataMap (child_ref "APPLICATION-DATA-TYPE-REF" m) (child_ref "IMPLEMENTATION-DATA-TYPE-REF" m)) (findall "DATA-TYPE-MAPS/DATA-TYPE-MAP" y).
(** ARXML:8832-8847 readRootSwCompositionPrototype (a ValueError of the setter is logged), 8851-8862 readSystem *)
Definition system_calls_of (y : xml) : list dop :=
  match find "ROOT-SOFTWARE-COMPOSITIONS/ROOT-SW-COMPOSITION-PROTOTYPE" y with Some r => [DRoot (Some (object_of r))] | None => [] end ++ [DSystem (object_of y)].
(** ARXML:9023-9394 readARPackageElements: the branches that reach a registry (9028, 9043, 9082, 9121, 9160) *)
Definition element_calls (full : string) (y : xml) : list dop :=
  if String.eqb (xtag y) "COMPOSITION-SW-COMPONENT-TYPE" then [DComp (Some (object_of y))]       (* ARXML:4966-4975 *)
  else if String.eqb (xtag y) "SWC-IMPLEMENTATION" then implementation_calls full y
  else if String.eqb (xtag y) "BSW-IMPLEMENTATION" then implementation_calls full y
  else if String.eqb (xtag y) "DATA-TYPE-MAPPING-SET" then type_map_calls y
  else if String.eqb (xtag y) "SYSTEM" then system_calls_of y
  else [].

(** ARXML:9395-9410 readARPackages, readARPackage: sub-packages before elements.  [n] bounds the depth *)
Fixpoint package_calls (n : nat) (full : string) (p : xml) : out (list dop) :=
  match n with
  | O => NoFuel
  | S n' =>
      do l <- fold_out (fun q acc => do k <- package_calls n' (full ++ "/" ++ object_name q)%string q; Done (acc ++ k))
                (filter (fun q => String.eqb (xtag q) "AR-PACKAGE") (findall "AR-PACKAGES/*" p)) [];
      Done (l ++ flat_map (element_calls full) (findall "ELEMENTS/*" p))
  end.
(** ARXML:9412-9424 load: the packages of the root; the full name of the document is "" *)
Definition file_calls (n : nat) (x : xml) : out (list dop) :=
  fold_out (fun q acc => do k <- package_calls n ("/" ++ object_name q)%string q; Done (acc ++ k))
    (filter (fun q => String.eqb (xtag q) "AR-PACKAGE") (findall "AR-PACKAGES/*" x)) [].
Definition registries (n : nat) (x : xml) : out doc := do cs <- file_calls n x; Done (drun cs).
(** the same for several files loaded one after the other into one document, as the command line
    tools do.  Simplification: an implementation that is in two files is registered again for the
    second file only if it has a BEHAVIOR-REF there (the program uses the one it has already). *)
Definition registries_of (n : nat) (xs : list xml) : out doc :=
  do cs <- fold_out (fun x acc => do k <- file_calls n x; Done (acc ++ k)) xs []; Done (drun cs).

(** TOP:277-287, 305-313 on document [u] with registries [d] *)
Definition to_implementation_type (d : doc) (u : val) (a : string) : out (option val) :=
  match dget (d_appl_impl d) a with Some i => doc_find_path u i | None => Exc IndexError end.
Definition to_application_type (d : doc) (u : val) (i : string) : out (option val) :=
  match dget (d_impl_appl d) i with Some a => doc_find_path u a | None => Exc IndexError end.
Definition behavior_of (d : doc) (u : val) (i : string) : out (option val) :=
  match dget (d_impl_beh d) i with Some b => doc_find_path u b | None => Done None end.
Definition implementation_of (d : doc) (u : val) (b : string) : out (option val) :=
  match dget (d_beh_impl d) b with Some i => doc_find_path u i | None => Done None end.
