(** XML element trees as seen through xml.etree.ElementTree, path lookup
    (/repo/src/armodel/parser/abstract_arxml_parser.py:354-365, called abstract_arxml_parser.py
    below) and what a saved tree looks like when it is parsed again.
    Simplifications: tags are local names (every AUTOSAR element is in the one namespace of
    nsmap, line 36); the tail of an element is not kept (no function of the package reads it
    except the mixed-content ones, which are not modelled). *)
From Coq Require Import String Ascii List Bool.
From Verif Require Import PyBase.
Import ListNotations.
Open Scope string_scope.
Open Scope list_scope.

(** ET.Element: tag, attrib (insertion order), text, child elements *)
Inductive xml : Type :=
| El (tag : string) (attrs : list (string * string)) (text : option string) (kids : list xml).

Definition xtag (x : xml) : string := match x with El t _ _ _ => t end.
Definition xattrs (x : xml) : list (string * string) := match x with El _ a _ _ => a end.
Definition xtext (x : xml) : option string := match x with El _ _ t _ => t end.
Definition xkids (x : xml) : list xml := match x with El _ _ _ k => k end.

Definition has_tag (t : string) (x : xml) : bool := String.eqb (xtag x) t.

(** abstract_arxml_parser.py:354-359 convert_find_key and xml.etree.ElementPath: one path
    step; "*" selects every child, "." the element itself, anything else the children with
    that tag *)
Definition step (s : string) (x : xml) : list xml :=
  if String.eqb s "*" then xkids x
  else if String.eqb s "." then [x]
  else filter (has_tag s) (xkids x).

Fixpoint steps (ss : list string) (x : xml) : list xml :=
  match ss with
  | [] => [x]
  | s :: r => flat_map (steps r) (step s x)
  end.

(** abstract_arxml_parser.py:364-365 *)
Definition findall (key : string) (x : xml) : list xml := steps (split_char "/" key) x.
(** abstract_arxml_parser.py:361-362: first match in document order *)
Definition find (key : string) (x : xml) : option xml := hd_error (findall key x).

(** element.attrib[key] / "key in element.attrib": abstract_arxml_parser.py:309-312
    readElementOptionalAttrib *)
Definition xattr (k : string) (x : xml) : option string := dget (xattrs x) k.

(** ** A tree after saveToFile and ET.parse

    minidom's toprettyxml (writer/abstract_arxml_writer.py:168-169) puts every child of an
    element that has child elements on its own line, two blanks per level; an element with
    text only is written on one line; an empty text is no text.  [reload d] is the effect on
    an element at depth [d]; Prop_Serial.v proves that parsing the saved text gives exactly
    this tree. *)
Definition nl : string := String (ascii_of_nat 10) "".
Fixpoint blanks (d : nat) : string :=
  match d with O => "" | S k => ("  " ++ blanks k)%string end.

Definition text_or_none (t : option string) : option string :=
  match t with Some "" => None | _ => t end.

Fixpoint reload (d : nat) (x : xml) : xml :=
  match x with
  | El tag attrs text [] => El tag attrs (text_or_none text) []
  | El tag attrs text kids =>
      let pad := (nl ++ blanks (S d))%string in
      El tag attrs
         (Some (match text_or_none text with Some s => (pad ++ s ++ pad)%string | None => pad end))
         (map (reload (S d)) kids)
  end.
