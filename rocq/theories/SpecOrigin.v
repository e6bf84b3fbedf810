(** What C63 says: everything a loaded document holds stands in the file. *)
From Coq Require Import String List Bool.
From Verif Require Import PyBase Primitives Xml Leaf Ir Access IrSem SpecRoundTrip SpecTolerant SpecRun.
Import ListNotations.
Open Scope string_scope.
Open Scope list_scope.

(** some element of the file has the text, or the value of the attribute *)
Definition has_text (x : xml) (s : string) : Prop := inside (fun y => xtext y = Some s) x.
Definition has_attr (x : xml) (a s : string) : Prop := inside (fun y => xattr a y = Some s) x.

(** The tables of the reader (arxml_parser.py:702-713): the words stored for the values of
    BINDING-TIME and INTERVAL-TYPE *)
Definition own_words : list (string * string) :=
  [("codeGenerationTime", "CODE-GENERATION-TIME"); ("linkTime", "LINK-TIME"); ("preCompileTime", "PRE-COMPILE-TIME");
   ("systemDesignTime", "SYSTEM-DESIGN-TIME"); ("closed", "CLOSED"); ("open", "OPEN")].
(** a text of the file, a value of one of its attributes, the word that stands for such a value, or
    the text of an element without text *)
Definition in_file (x : xml) (s : string) : Prop :=
  s = "" \/ has_text x s \/ (exists a, has_attr x a s) \/ exists a t, In (s, t) own_words /\ has_attr x a t.

(** UUID and timestamp of a value; the parser never sets those of a RefType, abstract_arxml_parser.py 282-314 *)
Definition value_uuid (v : lval) : option string :=
  match v with LLit _ l => l_uuid l | LNum _ n => n_uuid n | LBool b => b_uuid b | LLimit l => li_uuid l | LRef _ => None end.
Definition value_time (v : lval) : option string :=
  match v with LLit _ l => l_ts l | LNum _ n => n_ts n | LBool b => b_ts b | LLimit l => li_ts l | LRef _ => None end.

(** a file with a reference, a number, a limit, a boolean and an identified element *)
Definition mixed : xml :=
  elements_xml [
    El "APPLICATION-PRIMITIVE-DATA-TYPE" [("UUID", "u-1"); ("T", "2020")] None
      [text_of "SHORT-NAME" "speed"; El "CATEGORY" [("UUID", "u-2")] (Some "VALUE") [];
       tagged "SW-DATA-DEF-PROPS" [tagged "SW-DATA-DEF-PROPS-VARIANTS" [tagged "SW-DATA-DEF-PROPS-CONDITIONAL"
         [ref_to "COMPU-METHOD-REF" "COMPU-METHOD" "/P/c"]]]];
    named_xml "DATA-CONSTR" "d" [tagged "DATA-CONSTR-RULES" [tagged "DATA-CONSTR-RULE" [tagged "INTERNAL-CONSTRS"
      [El "LOWER-LIMIT" [("INTERVAL-TYPE", "CLOSED")] (Some "-7") []]]]];
    named_xml "SW-BASE-TYPE" "t" [text_of "BASE-TYPE-SIZE" "0x10"];
    named_xml "APPLICATION-SW-COMPONENT-TYPE" "a" [tagged "INTERNAL-BEHAVIORS" [named_xml "SWC-INTERNAL-BEHAVIOR" "b"
      [text_of "SUPPORTS-MULTIPLE-INSTANTIATION" "true"]]]].

(** a text of a saved file: a text or attribute value of the loaded one, the same without
    surrounding blanks (booleans), or str(None) *)
Definition kept_or_none (x : xml) (s : string) : Prop :=
  in_file x s \/ s = "None" \/ exists t, has_text x t /\ s = strip t.
(** a file with an empty value *)
Definition empty_value : xml :=
  elements_xml [named_xml "CONSTANT-SPECIFICATION" "c" [tagged "VALUE-SPEC" [tagged "APPLICATION-VALUE-SPECIFICATION"
    [tagged "SW-VALUE-CONT" [tagged "SW-VALUES-PHYS" [tagged "V" []]]]]]].
