(** Specification vocabulary for the leaf round trip (C33), sibling order (C43). *)
From Coq Require Import String Ascii List Bool.
From Verif Require Import PyBase Primitives Xml Leaf.
Import ListNotations.
Open Scope string_scope.
Open Scope list_scope.

(** an ordinary tag name: not a path, not a wildcard *)
Definition plain (tag : string) : Prop :=
  tag <> "*" /\ tag <> "." /\ all_chars (fun c => negb (Ascii.eqb c "/")) tag = true.

Definition absent (tag : string) (ks : list xml) : Prop := Forall (fun k => xtag k <> tag) ks.

(** same visible literal: timestamp, uuid and text *)
Definition lit_eq (a b : literal) : Prop :=
  l_ts a = l_ts b /\ l_uuid a = l_uuid b /\ lit_str a = lit_str b.

(** an optional text that XML can tell from an absent one *)
Definition not_blank (t : option string) : Prop := t <> Some "".

(** three dot-separated groups of digits, then anything *)
Definition RevText (s : string) : Prop := exists a b c r,
  s = (a ++ "." ++ b ++ "." ++ c ++ r)%string /\
  Forall (fun d => d <> "" /\ all_chars is_digit d = true) [a; b; c].

(** [reorder ks ks']: [ks'] is obtained by exchanging neighbours that have different tags *)
Inductive reorder : list xml -> list xml -> Prop :=
| ro_refl : forall ks, reorder ks ks
| ro_swap : forall l1 a b l2, xtag a <> xtag b -> reorder (l1 ++ a :: b :: l2) (l1 ++ b :: a :: l2)
| ro_trans : forall a b c, reorder a b -> reorder b c -> reorder a c.

(** the number object was last assigned a text, successfully *)
Definition text_assigned (n : numerical) : Prop :=
  exists k n0 s, num_setValue k n0 (PStr s) = (n, None).

(** first component of a lookup path *)
Definition head_step (key : string) : string := hd "" (split_char "/" key).

(** number reader, the writer used for the same attribute, class of the object read *)
Definition num_writer (k : rkind) : option (wkind * string) :=
  match k with
  | RNumerical => Some (WNum, "ARNumerical") | RInteger => Some (WNum, "Integer")
  | RPositive => Some (WNum, "PositiveInteger") | RFloat => Some (WText, "ARFloat")
  | RTime => Some (WText, "TimeValue") | _ => None
  end.
