(** format-xml: /repo/src/armodel/cli/format_xml_cli.py:11-46.
    The input and output files are their texts (characters below 256, see Serial.v); the tool exits
    with an error where the text cannot be parsed. *)
From Coq Require Import String Ascii List Bool NArith.
From Verif Require Import PyBase Xml Serial.
Import ListNotations.
Open Scope string_scope.
Open Scope list_scope.

(** the attribute declares a namespace *)
Definition ns_decl (n : string) : bool := (String.eqb n "xmlns" || prefix "xmlns:" n)%bool.
(** format_xml_cli.py:29 minidom.parse: namespace declarations come before the other attributes
    (xml/dom/expatbuilder.py, Namespaces.start_element_handler) *)
Fixpoint ns_first (n : node) : node :=
  match n with
  | NText s => NText s
  | NElem t a kids => NElem t (filter (fun p => ns_decl (fst p)) a ++ filter (fun p => negb (ns_decl (fst p))) a) (map ns_first kids)
  end.

(** characters that end a line for str.splitlines, below 256 *)
Definition line_end (c : ascii) : bool := (in_range 10 13 c || in_range 28 30 c || N.eqb (code c) 133)%bool.
(** str.splitlines; [acc]: the line so far *)
Fixpoint splitlines_from (acc s : string) : list string :=
  match s with
  | "" => if is_empty acc then [] else [acc]
  | String c r =>
      if Ascii.eqb c cr then
        match r with
        | String d r' => if Ascii.eqb d lf then acc :: splitlines_from "" r' else acc :: splitlines_from "" r
        | "" => [acc]
        end
      else if line_end c then acc :: splitlines_from "" r
      else splitlines_from (snoc acc c) r
  end.
Definition splitlines (s : string) : list string := splitlines_from "" s.

(** format_xml_cli.py:39-42: what is written for a line *)
Definition keep_line (l : string) : string := if is_empty (strip l) then "" else (l ++ str1 lf)%string.

(** format_xml_cli.py:18-46 perform_format; None: the tool exits with an error.
    Lines 22-27 also parse the file with ElementTree and print it; that result is not used. *)
Definition format_text (s : string) : option string :=
  match parse s with
  | Some n => Some (cat (map keep_line (splitlines (expand (to_pretty (ns_first n))))))
  | None => None
  end.
