(** The check behind C60: at every place where the reader makes an object, its code takes the texts from
    where the rows of SpecText.v say. *)
From Coq Require Import String Ascii List Bool Arith.
From Verif Require Import PyBase Primitives Xml Leaf ClassTable Ir Access ReaderCode IrSem Trie Term SpecRoundTrip SpecKeep SpecText Keep KeepText KeepEq KeepCheck.
Import ListNotations.
Open Scope string_scope.
Open Scope list_scope.

Definition source_eqb (a b : source) : bool :=
  match a, b with
  | SText k p, SText k' p' => if String.eqb p p' then yes (rkind_dec k k') else false
  | STexts k p, STexts k' p' => if String.eqb p p' then yes (rkind_dec k k') else false
  | SAttr a, SAttr b => String.eqb a b
  | _, _ => false
  end.
Definition trow_trie (l : list trow) : trie (list trow) :=
  fold_right (fun r t => tins (t_class r) (r :: match tfind (t_class r) t with Some l => l | None => [] end) t) t0 l.
Definition trows_in (rs : trie (list trow)) (cs : list string) : list trow :=
  flat_map (fun a => match tfind a rs with Some l => l | None => [] end) cs.
Definition tstart_ok (ats : list (string * dflt)) (f : string) (s : source) : bool :=
  match assoc f ats, s with Some DList, STexts _ _ => true | Some DNone, SText _ _ => true | Some DNone, SAttr _ => true | _, _ => false end.

Section Check.
Context (fuel : nat) (rt : trie (list ri * option vx)) (at_ : trie (list string)) (ac : trie (trie access)) (rs : trie (list trow)).
Definition untouched (c : string) (key : option string) (body : list ri) (a : string) : bool :=
  match eff (fun f => tfind f rt) (acc_in at_ ac c) a fuel key body with
  | Some None => if String.eqb a "short_name" then false else match assoc a (attrs_of c) with Some DNone => true | _ => false end
  | _ => false
  end.
Definition text_ok (c : string) (key : option string) (body : list ri) : bool :=
  let ats := attrs_of c in
  let acc := acc_in at_ ac c in
  if (if existsb (String.eqb c) bare then untouched c key body "category" else true) then
  if (if existsb (String.eqb c) stampless then if untouched c key body "timestamp" then untouched c key body "uuid" else false else true) then
  forallb (fun t =>
    if existsb (String.eqb c) (t_except t) then true
    else match text (fun f => tfind f rt) acc (t_attr t) fuel key body with
    | Some (Some (ps, s)) =>
        if String.eqb (t_attr t) "short_name" then false else
        if tstart_ok ats (t_attr t) s then
        if list_eqb String.eqb ps (t_path t) then source_eqb s (t_source t) else false else false
    | _ => false
    end) (trows_in rs (anc_in at_ c))
  else false else false.
Definition texts_ok (l : list spot) : bool := forallb (fun s => match s with (c, k, b) => text_ok c k b end) l.
End Check.
