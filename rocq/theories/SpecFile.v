(** What C35 says about files: documents that can be printed, the text of a saved document, loading
    a text. *)
From Coq Require Import String Ascii List Bool Floats.SpecFloat.
From Verif Require Import PyBase Primitives Xml Leaf Ir Access IrSem SpecDomain SpecRoundTrip Serial SpecSerial.
Import ListNotations.
Open Scope string_scope.
Open Scope list_scope.

(** ** Saving and loading a file *)

(** arxml_writer.py:9623-9628 save and abstract_arxml_writer.py:44-46: attributes of the root element.
    The schema location is an attribute of the document object (AutosarTopLevelStructure
    __init__.py:158); here it is kept beside the object. *)
Definition default_location : string := "http://autosar.org/schema/r4.0 AUTOSAR_4-0-3.xsd".
Definition location_or_default (location : option string) : string := match location with Some l => l | None => default_location end.
Definition root_attrs (location : option string) : list (string * string) :=
  [("xmlns", "http://autosar.org/schema/r4.0");
   ("xmlns:xsi", "http://www.w3.org/2001/XMLSchema-instance");
   ("xsi:schemaLocation", location_or_default location)].
Definition with_attrs (a : list (string * string)) (x : xml) : xml := El (xtag x) a (xtext x) (xkids x).

(** [saved_text repr warn decl location u s]: save of document [u] with schema location [location]
    writes the text [s]; [decl]: whether ElementTree puts a declaration first (Serial.v) *)
Definition saved_text (repr : spec_float -> string) (warn decl : bool) (location : option string) (u : val) (s : string) : Prop :=
  exists x, saved repr warn u x /\ save_text decl false (with_attrs (root_attrs location) x) = Some s.

(** arxml_parser.py:9412-9424 load and abstract_arxml_parser.py:341-346 getAUTOSARInfo: loading the
    text [s] into a new document gives [u] and the schema location; the attribute name is the one
    written in the file, with the prefix xsi (namespaces are not expanded, see Xml.v).  In warning
    mode the tag of the root element is not checked (9417-9418, raiseError). *)
Definition loaded_text (warn : bool) (s : string) (location : option string) (u : val) : Prop :=
  exists y, load_tree s = Some y /\ (warn = true \/ xtag y = "AUTOSAR") /\ location = xattr "xsi:schemaLocation" y /\ loaded warn y u.

(** ** Printable documents *)

(** attributes of model objects that are written as XML attributes *)
Definition attribute_fields : list string :=
  ["timestamp"; "uuid"; "gid"; "l"; "sup"; "sub"; "color"; "type"; "texRender"; "helpEntry"; "filename"; "itemLabelPos"; "noteType";
   "allowBreak"; "float"; "pgwide"; "si"; "level"; "validity"; "blueprintValue"; "sd"; "shortLabel"; "base"; "dest"].

(** printable characters; in a text also tabs and line feeds, in an XML attribute ([one] line) not *)
Definition line (one : bool) (s : string) : bool :=
  all_chars (fun c => if one then printable c else (printable c || char_in [9; 10] c)%bool) s.
Definition opt_line (one : bool) (s : option string) : bool := match s with Some s => line one s | None => true end.

(** timestamp, uuid, short label, interval type, base and destination of a primitive value are XML
    attributes; a number has a text (it was assigned one or read from a file) *)
Definition leaf_tidy (one : bool) (l : lval) : bool :=
  match l with
  | LLit _ l => (opt_line true (l_ts l) && opt_line true (l_uuid l) && opt_line one (l_value l))%bool
  | LNum _ n => (opt_line true (n_ts n) && opt_line true (n_uuid n) && opt_line true (n_label n) &&
                 match n_text n with Some t => line one t | None => false end)%bool
  | LBool b => (opt_line true (b_ts b) && opt_line true (b_uuid b) && opt_line one (b_text b))%bool
  | LLimit l => (opt_line true (li_ts l) && opt_line true (li_uuid l) &&
                 match li_interval l with Some i => opt_line true (l_value i) | None => true end && opt_line one (li_value l))%bool
  | LRef r => (opt_line true (r_base r) && opt_line true (r_dest r) && opt_line one (r_value r))%bool
  end.

(** every text in the object, at any depth, is printable; no xml:space *)
Fixpoint tidy (one : bool) (v : val) : bool :=
  match v with
  | VNone => true
  | VStr s => line one s
  | VLeaf l => leaf_tidy one l
  | VObj _ fs =>
      forallb (fun p => match p with (f, w) =>
        if String.eqb f "xmlSpace" then match w with VNone => true | _ => false end
        else match w with
             | VList _ => tidy one w
             | _ => tidy (one || existsb (String.eqb f) attribute_fields)%bool w
             end end) fs
  | VList l => forallb (tidy one) l
  end.
