(** What C55 and C56 say: how loading and saving can end. *)
From Coq Require Import String List Bool Floats.SpecFloat.
From Verif Require Import PyBase Primitives Xml Leaf Ir Access ClassTable IrSem SpecRoundTrip SpecTolerant.
Import ListNotations.
Open Scope string_scope.
Open Scope list_scope.

(** [inside P x]: some element of [x], at any depth, [x] itself included, has [P] *)
Inductive inside (P : xml -> Prop) : xml -> Prop :=
| inside_here : forall x, P x -> inside P x
| inside_below : forall x y, In y (xkids x) -> inside P y -> inside P x.
(** one of the tags occurs in the document *)
Definition has_any (tags : list string) : xml -> Prop := inside (fun y => In (xtag y) tags).
(** there is an element <SHORT-NAME/> without text *)
Definition nameless : xml -> Prop := inside (fun y => xtag y = "SHORT-NAME" /\ xtext y = None).

(** The exceptions a load may raise.  [NameInUse] is not an exception of the code: it marks the
    runs in which one parent gets two children of the same short name (or a single-valued place is
    filled twice by a create method); there the code goes on with the object that exists already,
    which this model does not describe. *)
Definition load_error (warn : bool) (e : exn) : Prop :=
  e = ValueError \/ e = AttributeError \/ e = TypeError \/ e = NameInUse \/ e = (if warn then UnboundLocalError else NotImplementedError).

(** elements whose reader calls a method that does not exist (arxml_parser.py:6661) or uses the
    result of a find without testing it (1086) or uses SYSTEM-SIGNAL-REF in a log message without
    testing it (8715) *)
Definition unreadable_tags : list string := ["HW-ATTRIBUTE-LITERAL-DEF"; "BULK-NV-BLOCK"; "SENDER-RECEIVER-TO-SIGNAL-MAPPING"].
(** in addition: MODE-SWITCH-POINT, whose writer uses a value without testing it
    (arxml_writer.py:3117-3122).  Two more are left out because the types used in the proof do not
    keep track of what the reader always sets: SW-RECORD-LAYOUT (the writer does not test the group
    content, 5545-5548) and ECUC-INSTANCE-REFERENCE-VALUE (getValueIRef uses an attribute that only
    setValueIRef creates, ECUCDescriptionTemplate.py:252-277); no failing document is known there. *)
Definition faulty_tags : list string :=
  ["MODE-SWITCH-POINT"; "SW-RECORD-LAYOUT"; "ECUC-INSTANCE-REFERENCE-VALUE"; "HW-ATTRIBUTE-LITERAL-DEF"; "BULK-NV-BLOCK"].

(** [part u v]: [v] is [u], or a value of an attribute or a list in [u], at any depth *)
Inductive part (u : val) : val -> Prop :=
| part_self : part u u
| part_field : forall c fs f v, part u (VObj c fs) -> In (f, v) fs -> part u v
| part_item : forall l v, part u (VList l) -> In v l -> part u v.
(** every object has all attributes that its constructors create *)
Definition complete (u : val) : Prop := forall c fs f,
  part u (VObj c fs) -> In f (map fst (attrs_of c)) -> exists v, In (f, v) fs.

(** documents: two packages, one with an empty name; a value of unknown kind; one document for
    each tag with a fault *)
Definition unnamed_package : xml :=
  tagged "AUTOSAR" [tagged "AR-PACKAGES" [named_xml "AR-PACKAGE" "P" []; tagged "AR-PACKAGE" [tagged "SHORT-NAME" []]]].
Definition unnamed_mode : xml :=
  elements_xml [named_xml "MODE-DECLARATION-GROUP" "g" [tagged "MODE-DECLARATIONS" [named_xml "MODE-DECLARATION" "m" []; tagged "MODE-DECLARATION" [tagged "SHORT-NAME" []]]]].
Definition plain_mapping : xml :=
  elements_xml [named_xml "SYSTEM" "s" [tagged "MAPPINGS" [named_xml "SYSTEM-MAPPING" "m" [tagged "DATA-MAPPINGS" [tagged "SENDER-RECEIVER-TO-SIGNAL-MAPPING" []]]]]].
Definition unnamed_implementation : xml :=
  elements_xml [tagged "SWC-IMPLEMENTATION" [tagged "SHORT-NAME" []; El "BEHAVIOR-REF" [("DEST", "SWC-INTERNAL-BEHAVIOR")] (Some "/P/a/b") []]].
Definition unnamed_behavior : xml :=
  elements_xml [tagged "BSW-MODULE-DESCRIPTION" [tagged "SHORT-NAME" []; tagged "INTERNAL-BEHAVIORS" [named_xml "BSW-INTERNAL-BEHAVIOR" "b" []]]].
Definition strange_value : xml := elements_xml [named_xml "CONSTANT-SPECIFICATION" "c" [tagged "VALUE-SPEC" [tagged "REFERENCE-VALUE-SPECIFICATION" []]]].
Definition literal_def : xml :=
  elements_xml [named_xml "HW-CATEGORY" "h" [tagged "HW-ATTRIBUTE-DEFS" [named_xml "HW-ATTRIBUTE-DEF" "d"
    [tagged "HW-ATTRIBUTE-LITERALS" [named_xml "HW-ATTRIBUTE-LITERAL-DEF" "l" []]]]]].
Definition bulk_block : xml :=
  elements_xml [named_xml "NV-BLOCK-SW-COMPONENT-TYPE" "n" [tagged "BULK-NV-DATA-DESCRIPTORS"
    [named_xml "BULK-NV-DATA-DESCRIPTOR" "d" [tagged "BULK-NV-BLOCK" []]]]].
Definition switch_point : xml :=
  elements_xml [named_xml "APPLICATION-SW-COMPONENT-TYPE" "a" [tagged "INTERNAL-BEHAVIORS" [named_xml "SWC-INTERNAL-BEHAVIOR" "b"
    [tagged "RUNNABLES" [named_xml "RUNNABLE-ENTITY" "r" [tagged "MODE-SWITCH-POINTS" [named_xml "MODE-SWITCH-POINT" "m" []]]]]]]].
(** a size that is not a number; a document in which nothing is wrong; the same element name twice *)
Definition bad_size : xml := elements_xml [named_xml "SW-BASE-TYPE" "t" [text_of "BASE-TYPE-SIZE" "eight"]].
Definition plain : xml :=
  elements_xml [named_xml "SW-BASE-TYPE" "t" [text_of "CATEGORY" "VALUE"; text_of "BASE-TYPE-SIZE" "8"];
    named_xml "APPLICATION-SW-COMPONENT-TYPE" "a" [tagged "PORTS" [named_xml "P-PORT-PROTOTYPE" "p" [ref_to "PROVIDED-INTERFACE-TREF" "SENDER-RECEIVER-INTERFACE" "/P/i"]];
      tagged "INTERNAL-BEHAVIORS" [named_xml "SWC-INTERNAL-BEHAVIOR" "b" [tagged "RUNNABLES" [named_xml "RUNNABLE-ENTITY" "r" [text_of "SYMBOL" "run"]]]]]].
Definition same_name : xml := elements_xml [named_xml "SW-BASE-TYPE" "t" []; named_xml "SW-BASE-TYPE" "t" []].
(** an element the reader does not know inside a known one *)
Definition strange_port : xml := elements_xml [named_xml "APPLICATION-SW-COMPONENT-TYPE" "a" [tagged "PORTS" [named_xml "X-PORT-PROTOTYPE" "p" []]]].
