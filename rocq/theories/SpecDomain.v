(** Which model objects the round-trip theorems C35-C38 speak about. *)
From Coq Require Import String Ascii List Bool.
From Verif Require Import PyBase Primitives SpecNum Xml Leaf SpecLeaf ClassTable Ir Access IrSem Domain.
Import ListNotations.
Open Scope string_scope.
Open Scope list_scope.

(** a number whose value was assigned as a text, as the reader does *)
Definition number (cls : string) (l : lval) (P : numerical -> Prop) : Prop :=
  exists n, l = LNum cls n /\ text_assigned n /\ P n.
Definition no_label (n : numerical) : Prop := n_label n = None.
Definition no_stamp (n : numerical) : Prop := n_ts n = None /\ n_uuid n = None.
Definition not_negative (n : numerical) : Prop := forall v, n_value n = Some v -> ~ numv_negative v.

(** objects of primitive types as the reader [k] creates them *)
Definition leaf_ok (k : rkind) (l : lval) : Prop :=
  match k with
  | RLiteral => exists t u s, l = LLit "ARLiteral" (mkLit t u (Some s))
  | RVerbatim => exists t u s, l = LLit "VerbatimString" (mkLit t u (Some s))
  | RIdentifier => exists t u s, l = LLit "Identifier" (mkLit t u (Some s))
  | RRevision => exists t u s, l = LLit "RevisionLabelString" (mkLit t u (Some s)) /\ RevText s
  | RFloat => number "ARFloat" l no_label
  | RTime => number "TimeValue" l (fun n => no_label n /\ no_stamp n)
  | RBool => exists t x s, l = LBool (mkBool t None (Some x) (Some s)) /\ strip s = s /\ BoolText s x
  | RNumerical => number "ARNumerical" l (fun _ => True)
  | RInteger => number "Integer" l no_label
  | RPositive => number "PositiveInteger" l (fun n => no_label n /\ not_negative n)
  | RLimit => exists t u i v, l = LLimit (mkLimit t u (option_map (fun s => mkLit None None (Some s)) i) v)
                              /\ not_blank v
  | RRef => exists r, l = LRef r /\ not_blank (r_value r)
  | RLitItem => exists s, l = LLit "ARLiteral" (mkLit None None (Some s)) /\ s <> ""
  | RFloatItem => number "ARFloat" l (fun n => no_label n /\ no_stamp n)
  | RNumItem => number "ARNumerical" l (fun n => no_label n /\ no_stamp n)
  end.

Definition class_of (v : val) : option string := match v with VObj c _ => Some c | _ => None end.
Definition in_class (cs : list string) (v : val) : Prop := exists c, class_of v = Some c /\ In c cs.

(** value of an attribute after construction *)
Definition default (c f : string) : option val := field (init c) f.

(** short names of the objects directly below an object *)
Definition name_of (v : val) : list string :=
  match field v "short_name" with Some (VStr s) => [s] | _ => [] end.
Definition names_below (v : val) : list string := flat_map name_of (children v).

(** [Ok_obj v]: an object of one of the classes of [domain], all attributes of the class
    present, each as described, no two objects directly below it with the same short name *)
Inductive ok : val -> Prop :=
| ok_obj : forall c fs ft,
    assoc c domain = Some ft ->
    map fst fs = map fst (attrs_of c) ->
    (forall f v t, assoc f fs = Some v -> assoc f ft = Some t -> fok t v) ->
    (forall f v, assoc f fs = Some v -> assoc f ft = None -> default c f = Some v) ->
    NoDup (names_below (VObj c fs)) ->
    ok (VObj c fs)
with fok : ftype -> val -> Prop :=
| fok_leaf_none : forall k, fok (FLeaf false k) VNone
| fok_leaf : forall m k l, leaf_ok k l -> fok (FLeaf m k) (VLeaf l)
| fok_leafs : forall k ls, Forall (leaf_ok k) ls -> fok (FLeafs k) (VList (map VLeaf ls))
| fok_wrap_none : forall c, fok (FWrap c) VNone
| fok_wrap : forall c s, fok (FWrap c) (VLeaf (LLit c (mkLit None None (Some s))))
| fok_obj_none : forall cs, fok (FObj false cs) VNone
| fok_obj_some : forall m cs v, in_class cs v -> ok v -> fok (FObj m cs) v
(* [s]: the getter sorts by short name; two or more objects then all need one *)
| fok_objs : forall s cs vs, Forall (in_class cs) vs -> Forall ok vs ->
    (s = true -> sortable vs = true /\ py_sorted sort_key vs = vs) -> fok (FObjs s cs) (VList vs)
| fok_attr_none : fok (FAttr false) VNone
| fok_attr : forall m s, fok (FAttr m) (VStr s)
| fok_attrof_none : forall c, fok (FAttrOf c) VNone
| fok_attrof : forall c s, fok (FAttrOf c) (VLeaf (LLit c (mkLit None None (Some s))))
| fok_text : forall s, fok FText (VStr s)
| fok_textof_none : forall c, fok (FTextOf c) VNone
| fok_textof : forall c s, has_word s = true -> fok (FTextOf c) (VLeaf (LLit c (mkLit None None (Some s))))
| fok_part : forall c v, class_of v = Some c -> ok v -> fok (FPart c) v
| fok_partany_none : forall c, fok (FPartAny c) VNone
| fok_partany : forall c fs f w ws, ok (VObj c fs) -> In (f, VList (w :: ws)) fs -> fok (FPartAny c) (VObj c fs)
| fok_name : forall s, s <> "" -> fok FName (VStr s).
