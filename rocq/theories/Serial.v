(** Text of saved files and its parsing:
    /repo/src/armodel/writer/abstract_arxml_writer.py:154-179 (patch_xml, saveToFile) and
    arxml_parser.py:9415 (ET.parse), with the library functions they call, given by Python 3.12's
    xml/etree/ElementTree.py and xml/dom/minidom.py; the expat parser below them is modelled for
    the documents that occur here.
    Simplifications: a character is a code point below 256 (the UTF-8 coding of the file is not
    modelled); names are ASCII and are not resolved to namespaces (minidom puts xmlns attributes
    first, which is where the writer puts them); white space around the = of an attribute and
    hexadecimal references are not accepted (never written), "]]>" in text is not refused; the declaration is skipped without looking at it; comments, CDATA,
    processing instructions and document types are rejected (never written); writing the file
    uses the newline character of POSIX. *)
From Coq Require Import String Ascii List Bool NArith.
From Verif Require Import PyBase Xml.
Import ListNotations.
Open Scope char_scope.
Open Scope string_scope.
Open Scope list_scope.

Definition chr (n : nat) : ascii := ascii_of_nat n.
Definition tab : ascii := chr 9.
Definition lf : ascii := chr 10.
Definition cr : ascii := chr 13.
Definition quote : ascii := chr 34.
Definition str1 (c : ascii) : string := String c "".

(** ** ElementTree serialisation *)

(** ElementTree.py:1008-1022 _escape_cdata; the chain of replace calls character by character *)
Definition cdata_char (c : ascii) : string :=
  if Ascii.eqb c "&" then "&amp;" else if Ascii.eqb c "<" then "&lt;" else if Ascii.eqb c ">" then "&gt;" else str1 c.
(** ElementTree.py:1024-1050 _escape_attrib *)
Definition attrib_char (c : ascii) : string :=
  if Ascii.eqb c quote then "&quot;" else if Ascii.eqb c cr then "&#13;" else if Ascii.eqb c lf then "&#10;"
  else if Ascii.eqb c tab then "&#09;" else cdata_char c.
Fixpoint escape (f : ascii -> string) (s : string) : string :=
  match s with "" => "" | String c r => (f c ++ escape f r)%string end.

Definition cat (l : list string) : string := fold_right String.append "" l.

(** name="value" with a blank before *)
Definition attr_text (f : ascii -> string) (a : string * string) : string :=
  (" " ++ fst a ++ "=" ++ str1 quote ++ escape f (snd a) ++ str1 quote)%string.

(** ElementTree.py:850-901 _serialize_xml with short_empty_elements=False; tails are never set *)
Fixpoint et_text (x : xml) : string :=
  match x with
  | El tag attrs text kids =>
      ("<" ++ tag ++ cat (map (attr_text attrib_char) attrs) ++ ">" ++
       match text with Some s => escape cdata_char s | None => "" end ++
       cat (map et_text kids) ++ "</" ++ tag ++ ">")%string
  end.
(** abstract_arxml_writer.py:166-170: with a declaration (Python above 3.9) or without *)
Definition et_document (decl : bool) (x : xml) : string :=
  ((if decl then "<?xml version='1.0' encoding='UTF-8'?>" ++ str1 lf else "") ++ et_text x)%string.

(** ** Parsing

    Both ET.parse and minidom.parseString run expat and build a tree from its events.  [node] is
    the tree of minidom; adjacent character data is one text node. *)
Inductive node :=
| NText (s : string)
| NElem (tag : string) (attrs : list (string * string)) (kids : list node).

Definition is_ws (c : ascii) : bool := (Ascii.eqb c " " || Ascii.eqb c tab || Ascii.eqb c lf || Ascii.eqb c cr)%bool.
(** characters of XML 1.0 *)
Definition xml_char (c : ascii) : bool := (is_ws c || (32 <=? code c)%N)%bool.
Definition is_letter (c : ascii) : bool := (is_lower c || is_upper c)%bool.
Definition name_start (c : ascii) : bool := (is_letter c || Ascii.eqb c "_" || Ascii.eqb c ":")%bool.
Definition name_char (c : ascii) : bool := (name_start c || is_digit c || Ascii.eqb c "-" || Ascii.eqb c ".")%bool.

(** line ends: CR LF and CR are read as LF *)
Fixpoint newlines (s : string) : string :=
  match s with
  | "" => ""
  | String c r =>
      if Ascii.eqb c cr then
        match r with
        | String d r' => if Ascii.eqb d lf then newlines r else String lf (newlines r)
        | "" => str1 lf
        end
      else String c (newlines r)
  end.

(** value of the characters between & and ; *)
Fixpoint digits_val (acc : N) (s : string) : option N :=
  match s with
  | "" => Some acc
  | String c r => if is_digit c then digits_val (10 * acc + (code c - 48))%N r else None
  end.
Definition entity (s : string) : option ascii :=
  if String.eqb s "amp" then Some "&"%char
  else if String.eqb s "lt" then Some "<"%char
  else if String.eqb s "gt" then Some ">"%char
  else if String.eqb s "quot" then Some quote
  else if String.eqb s "apos" then Some (chr 39)
  else match s with
       | String c (String d r) =>
           if Ascii.eqb c "#" then
             match digits_val 0 (String d r) with
             | Some n => if (n <? 256)%N then let k := ascii_of_N n in if xml_char k then Some k else None else None
             | None => None
             end
           else None
       | _ => None
       end.

Definition frame := (string * list (string * string) * list node)%type.

(** where the parser is; [MRef k e]: inside a reference, with the mode to go on with *)
Inductive mode :=
| MText (acc : string)
| MLt
| MOpen (tag : string)
| MTag (tag : string) (attrs : list (string * string))
| MAttr (tag : string) (attrs : list (string * string)) (name : string)
| MAttrWs (tag : string) (attrs : list (string * string)) (name : string)
| MEq (tag : string) (attrs : list (string * string)) (name : string)
| MVal (q : ascii) (tag : string) (attrs : list (string * string)) (name v : string)
| MAfter (tag : string) (attrs : list (string * string))
| MSlash (tag : string) (attrs : list (string * string))
| MClose (tag : string)
| MCloseWs (tag : string)
| MRefText (acc e : string)
| MRefVal (q : ascii) (tag : string) (attrs : list (string * string)) (name v e : string).

(** open elements (innermost first) with their children so far, and the finished root *)
Record pstate := mkP { p_mode : mode; p_open : list frame; p_root : option node }.

Definition add_node (n : node) (st : list frame) : list frame :=
  match st with (t, a, k) :: r => (t, a, k ++ [n]) :: r | [] => [] end.
(** character data is complete: outside the root element only white space is allowed *)
Definition flush (acc : string) (p : pstate) (m : mode) : option pstate :=
  match p_open p with
  | [] => if all_chars is_ws acc then Some (mkP m [] (p_root p)) else None
  | st => Some (mkP m (if is_empty acc then st else add_node (NText acc) st) (p_root p))
  end.
Definition open_tag (t : string) (a : list (string * string)) (p : pstate) : option pstate :=
  match p_open p, p_root p with
  | [], Some _ => None
  | st, r => Some (mkP (MText "") ((t, a, []) :: st) r)
  end.
Definition close_tag (t : string) (p : pstate) : option pstate :=
  match p_open p with
  | (t', a, k) :: st =>
      if String.eqb t t' then
        match st with
        | [] => Some (mkP (MText "") [] (Some (NElem t' a k)))
        | _ => Some (mkP (MText "") (add_node (NElem t' a k) st) (p_root p))
        end
      else None
  | [] => None
  end.
Definition obind' {A B} (o : option A) (f : A -> option B) : option B := match o with Some a => f a | None => None end.
(** end of a start tag *)
Definition end_open (c : ascii) (t : string) (a : list (string * string)) (p : pstate) (k : option pstate) : option pstate :=
  if Ascii.eqb c ">" then open_tag t a p
  else if Ascii.eqb c "/" then Some (mkP (MSlash t a) (p_open p) (p_root p))
  else k.
Definition go (m : mode) (p : pstate) : option pstate := Some (mkP m (p_open p) (p_root p)).
Definition snoc (s : string) (c : ascii) : string := (s ++ str1 c)%string.

Definition pstep (c : ascii) (p : pstate) : option pstate :=
  match p_mode p with
  | MText acc =>
      if Ascii.eqb c "<" then flush acc p MLt
      else if Ascii.eqb c "&" then go (MRefText acc "") p
      else if xml_char c then go (MText (snoc acc c)) p else None
  | MRefText acc e =>
      if Ascii.eqb c ";" then match entity e with Some k => go (MText (snoc acc k)) p | None => None end
      else go (MRefText acc (snoc e c)) p
  | MLt =>
      if Ascii.eqb c "/" then go (MClose "") p
      else if name_start c then go (MOpen (str1 c)) p else None
  | MOpen t =>
      if name_char c then go (MOpen (snoc t c)) p
      else if is_ws c then go (MTag t []) p
      else end_open c t [] p None
  | MTag t a =>
      if is_ws c then go (MTag t a) p
      else if name_start c then go (MAttr t a (str1 c)) p
      else end_open c t a p None
  | MAttr t a n =>
      if name_char c then go (MAttr t a (snoc n c)) p
      else if Ascii.eqb c "=" then go (MEq t a n) p
      else if is_ws c then go (MAttrWs t a n) p else None
  | MAttrWs t a n =>
      if is_ws c then go (MAttrWs t a n) p
      else if Ascii.eqb c "=" then go (MEq t a n) p else None
  | MEq t a n =>
      if (Ascii.eqb c quote || Ascii.eqb c (chr 39))%bool then go (MVal c t a n "") p
      else if is_ws c then go (MEq t a n) p else None
  | MVal q t a n v =>
      if Ascii.eqb c q then (if dmem a n then None else go (MAfter t (a ++ [(n, v)])) p)
      else if Ascii.eqb c "<" then None
      else if Ascii.eqb c "&" then go (MRefVal q t a n v "") p
      else if is_ws c then go (MVal q t a n (snoc v " ")) p
      else if xml_char c then go (MVal q t a n (snoc v c)) p else None
  | MRefVal q t a n v e =>
      if Ascii.eqb c ";" then match entity e with Some k => go (MVal q t a n (snoc v k)) p | None => None end
      else go (MRefVal q t a n v (snoc e c)) p
  | MAfter t a => if is_ws c then go (MTag t a) p else end_open c t a p None
  | MSlash t a => if Ascii.eqb c ">" then obind' (open_tag t a p) (close_tag t) else None
  | MClose t =>
      if (if is_empty t then name_start c else name_char c) then go (MClose (snoc t c)) p
      else if Ascii.eqb c ">" then close_tag t p
      else if is_ws c then go (MCloseWs t) p else None
  | MCloseWs t =>
      if is_ws c then go (MCloseWs t) p else if Ascii.eqb c ">" then close_tag t p else None
  end.
Fixpoint prun (s : string) (p : pstate) : option pstate :=
  match s with "" => Some p | String c r => obind' (pstep c p) (prun r) end.

(** the declaration at the start of the text, up to the first ?> *)
Fixpoint after_decl (s : string) : string :=
  match s with
  | "" => ""
  | String c r => if prefix "?>" s then match r with String _ r' => r' | "" => "" end else after_decl r
  end.
Definition skip_decl (s : string) : string := if prefix "<?xml " s then after_decl s else s.

(** expat on a whole text; None stands for ExpatError / ParseError *)
Definition parse (s : string) : option node :=
  match prun (skip_decl (newlines s)) (mkP (MText "") [] None) with
  | Some p => match p_mode p, p_open p with
              | MText acc, [] => if all_chars is_ws acc then p_root p else None
              | _, _ => None
              end
  | None => None
  end.

(** the ElementTree view: text before the first child, child elements *)
Fixpoint et_of (n : node) : option xml :=
  match n with
  | NText _ => None
  | NElem t a kids =>
      Some (El t a (match kids with NText s :: _ => Some s | _ => None end)
              (flat_map (fun k => match et_of k with Some x => [x] | None => [] end) kids))
  end.
(** arxml_parser.py:9415-9416 ET.parse(filename).getroot() *)
Definition load_tree (s : string) : option xml := obind' (parse s) et_of.

(** ** minidom *)

(** minidom.py:296-301 _write_data *)
Definition data_char (c : ascii) : string := if Ascii.eqb c quote then "&quot;" else cdata_char c.

(** minidom.py:866-896 Element.writexml and 1109-1110 Text.writexml with addindent "  " and newl
    a newline, at depth [d] *)
Fixpoint pretty (d : nat) (n : node) : string :=
  match n with
  | NText s => escape data_char (blanks d ++ s ++ str1 lf)%string
  | NElem t a kids =>
      (blanks d ++ "<" ++ t ++ cat (map (attr_text data_char) a) ++
       match kids with
       | [] => "/>"
       | [NText s] => ">" ++ escape data_char s ++ "</" ++ t ++ ">"
       | _ => ">" ++ str1 lf ++ cat (map (pretty (S d)) kids) ++ blanks d ++ "</" ++ t ++ ">"
       end ++ str1 lf)%string
  end.
(** minidom.py:1811-1823 Document.writexml through toprettyxml(indent="  ", encoding="UTF-8") *)
Definition declaration : string :=
  ("<?xml version=" ++ str1 quote ++ "1.0" ++ str1 quote ++ " encoding=" ++ str1 quote ++ "UTF-8" ++ str1 quote ++ "?>" ++ str1 lf)%string.
Definition to_pretty (n : node) : string := (declaration ++ pretty 0 n)%string.

(** ** patch_xml: abstract_arxml_writer.py:154-161 *)

(** [\w-] *)
Definition tag_char (c : ascii) : bool := (is_word c || Ascii.eqb c "-")%bool.
(** \<([\w-]+)\/\> at the start of the text: group 1 *)
Definition self_closing (s : string) : option string :=
  match s with
  | String c r =>
      if Ascii.eqb c "<" then
        let (w, r') := span tag_char r in
        if (negb (is_empty w) && prefix "/>" r')%bool then Some w else None
      else None
  | "" => None
  end.
(** re.sub: leftmost matches, one after the other; [skip]: characters of the last match left *)
Fixpoint expand_from (skip : nat) (s : string) : string :=
  match s with
  | "" => ""
  | String c r =>
      match skip with
      | S k => expand_from k r
      | O => match self_closing s with
             | Some w => ("<" ++ w ++ "></" ++ w ++ ">" ++ expand_from (String.length w + 2) r)%string
             | None => String c (expand_from 0 r)
             end
      end
  end.
Definition expand (s : string) : string := expand_from 0 s.
(** str.replace *)
Fixpoint replace_from (pat rep : string) (skip : nat) (s : string) : string :=
  match s with
  | "" => ""
  | String c r =>
      match skip with
      | S k => replace_from pat rep k r
      | O => if prefix pat s then (rep ++ replace_from pat rep (String.length pat - 1) r)%string
             else String c (replace_from pat rep 0 r)
      end
  end.
Definition replace (pat rep s : string) : string := replace_from pat rep 0 s.
Definition patch_xml (unescape : bool) (s : string) : string :=
  let t := expand s in
  if unescape then replace "&apos;" (str1 (chr 39)) (replace "&quot;" (str1 quote) t) else t.

(** abstract_arxml_writer.py:163-179 saveToFile: the text written, None if parseString raises *)
Definition save_text (decl unescape : bool) (x : xml) : option string :=
  option_map (fun n => patch_xml unescape (to_pretty n)) (parse (et_document decl x)).
