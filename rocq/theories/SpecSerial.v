(** What C39-C41 say: trees that can be written, trees that agree up to layout, tags to expand. *)
From Coq Require Import String Ascii List Bool NArith.
From Verif Require Import PyBase Xml.
Import ListNotations.
Open Scope string_scope.
Open Scope list_scope.

Definition char_in (l : list nat) (c : ascii) : bool := existsb (Nat.eqb (nat_of_ascii c)) l.
Definition letter (c : ascii) : bool := (in_range 65 90 c || in_range 97 122 c)%bool.
(** ASCII names of XML: a letter, underscore or colon, then also digits, hyphens and dots *)
Definition first_char (c : ascii) : bool := (letter c || char_in [95; 58] c)%bool.
Definition next_char (c : ascii) : bool := (first_char c || in_range 48 57 c || char_in [45; 46] c)%bool.
Definition good_name (s : string) : Prop :=
  match s with "" => False | String c r => first_char c = true /\ all_chars next_char r = true end.
(** printable: 32 and above *)
Definition printable (c : ascii) : bool := in_range 32 255 c.
(** text may also contain tabs and line feeds *)
Definition good_text (s : string) : Prop := all_chars (fun c => (printable c || char_in [9; 10] c)%bool) s = true.
Definition good_value (s : string) : Prop := all_chars printable s = true.

Inductive writable : xml -> Prop :=
| writable_el : forall t a s kids,
    good_name t -> Forall (fun p => good_name (fst p) /\ good_value (snd p)) a -> NoDup (map fst a) ->
    (forall v, s = Some v -> good_text v) -> Forall writable kids -> writable (El t a s kids).

(** the same tags, attributes and texts; the text in front of child elements up to white space
    around it, an empty text as good as none *)
Definition words (t : option string) : string := match t with Some s => strip s | None => "" end.
Inductive same_tree : xml -> xml -> Prop :=
| same_leaf : forall t a s s', (s = s' \/ s = Some "" /\ s' = None) -> same_tree (El t a s []) (El t a s' [])
| same_node : forall t a s s' kids kids', kids <> [] -> words s = words s' -> Forall2 same_tree kids kids' -> same_tree (El t a s kids) (El t a s' kids').

(** no attribute value contains a double quote *)
Inductive unquoted : xml -> Prop :=
| unquoted_el : forall t a s kids, Forall (fun p => all_chars (fun c => negb (char_in [34] c)) (snd p) = true) a -> Forall unquoted kids ->
    unquoted (El t a s kids).

(** a self-closing tag without attributes *)
Definition tag_word (w : string) : Prop := w <> "" /\ all_chars (fun c => (is_word c || char_in [45] c)%bool) w = true.
Definition short_tag (w : string) : string := ("<" ++ w ++ "/>")%string.
Definition long_tag (w : string) : string := ("<" ++ w ++ "></" ++ w ++ ">")%string.
Definition has_short (s : string) : Prop := exists a w b, tag_word w /\ s = (a ++ short_tag w ++ b)%string.

(** a document with special characters, empty elements, attributes and nesting *)
Definition sample_tree : xml :=
  El "AUTOSAR" [("xmlns", "http://autosar.org/schema/r4.0"); ("xmlns:xsi", "a&b<>'")] None
    [El "AR-PACKAGES" [] None [El "SHORT-NAME" [] (Some "x & ""y"" <z> &quot;") []; El "ELEMENTS" [] None []; El "SD" [("GID", "")] (Some "") []];
     El "p.q" [] None []; El "L-4" [("L", "EN")] (Some "some text") [El "BR" [] None []]].

(** [expanded s u]: [u] is [s] with every self-closing tag without attributes, from left to right,
    written as start and end tag, and every other character kept *)
Inductive expanded : string -> string -> Prop :=
| expanded_end : expanded "" ""
| expanded_tag : forall w s u, tag_word w -> expanded s u -> expanded (short_tag w ++ s)%string (long_tag w ++ u)%string
| expanded_char : forall c s u, (forall w b, tag_word w -> String c s <> (short_tag w ++ b)%string) -> expanded s u ->
    expanded (String c s) (String c u).
