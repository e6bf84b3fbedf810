(** What C50 says: the content of a document, documents made of data only. *)
From Coq Require Import String Ascii List Bool NArith.
From Verif Require Import PyBase Xml Serial SpecSerial.
Import ListNotations.
Open Scope string_scope.
Open Scope list_scope.

(** tags, attributes (namespace declarations listed first), child elements in order, and the text of
    elements that have nothing but text *)
Definition declares (p : string * string) : bool := (String.eqb (fst p) "xmlns" || prefix "xmlns:" (fst p))%bool.
Fixpoint content (n : node) : xml :=
  match n with
  | NText s => El "" [] (Some s) []
  | NElem t a kids =>
      El t (filter declares a ++ filter (fun p => negb (declares p)) a)
        (match kids with [NText s] => Some s | _ => None end)
        (flat_map (fun k => match k with NText _ => [] | _ => [content k] end) kids)
  end.

Definition white (s : string) : Prop := all_chars (char_in [9; 10; 13; 32]) s = true.
(** values of attributes: printable, without U+0085 *)
Definition line_value (s : string) : Prop := all_chars (fun c => (printable c && negb (char_in [133] c))%bool) s = true.
(** texts: also tabs and line feeds, but no blank line inside *)
Definition lines_text (s : string) : Prop :=
  s <> "" /\ all_chars (fun c => (printable c && negb (char_in [133] c) || char_in [9; 10] c)%bool) s = true /\
  forall a w b, s = (a ++ nl ++ w ++ nl ++ b)%string -> all_chars is_space w = false.

(** every element has only text, or child elements with nothing but white space around them *)
Inductive data : node -> Prop :=
| data_empty : forall t a, Forall (fun p => line_value (snd p)) a -> data (NElem t a [])
| data_leaf : forall t a s, Forall (fun p => line_value (snd p)) a -> lines_text s -> data (NElem t a [NText s])
| data_node : forall t a kids, Forall (fun p => line_value (snd p)) a ->
    (exists t' a' k', In (NElem t' a' k') kids) -> (forall s, In (NText s) kids -> white s) ->
    (forall t' a' k', In (NElem t' a' k') kids -> data (NElem t' a' k')) -> data (NElem t a kids).
