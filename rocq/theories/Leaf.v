(** Reading and writing of leaf elements:
    /repo/src/armodel/parser/abstract_arxml_parser.py (readers),
    /repo/src/armodel/writer/abstract_arxml_writer.py and arxml_writer.py:829-836 (writers).
    Simplification: readARObjectAttributes also registers the object in the uuid table of the
    document (abstract_arxml_parser.py:318); that table is modelled in Doc.v. *)
From Coq Require Import String Ascii List Bool ZArith.
From Coq Require Import Floats.SpecFloat.
From Verif Require Import PyBase Primitives Xml.
Import ListNotations.
Open Scope string_scope.

(** Values of leaf attributes.  The Python class is kept for literals and numbers because
    readers of different kinds create different classes. *)
Inductive lval : Type :=
| LLit (cls : string) (l : literal)
| LNum (cls : string) (n : numerical)
| LBool (b : boolean)
| LLimit (l : limit)
| LRef (r : reftype).

(** ** Writers *)

(** abstract_arxml_writer.py:70-76 writeARObjectAttributes on a new element *)
Definition ar_attrs (ts uuid : option string) : list (string * string) :=
  match ts with Some t => [("T", t)] | None => [] end ++
  match uuid with Some u => [("UUID", u)] | None => [] end.

Definition opt_attr (k : string) (v : option string) : list (string * string) :=
  match v with Some s => [(k, s)] | None => [] end.

(** The writers: one constructor per distinct body (the others only delegate).
    WNum: setChildElementOptionalNumericalValue 92-102 = ...IntegerValue 104 = ...PositiveInteger 107
    WText: setChildElementOptionalFloatValue 128 = ...TimeValue 134 = ...BooleanValue 137
           = ...Literal 144 = ...Identifier 151 = ...RevisionLabelString 110 = ...DataTime 113
    WRef: setChildElementOptionalRefType 116-126
    WLimit: arxml_writer.py:829-836 setChildLimitElement *)
Inductive wkind := WNum | WText | WRef | WLimit.

(** 98-102: the stored text, else str of the value, else no text at all *)
Definition num_text (repr : spec_float -> string) (n : numerical) : option string :=
  match n_text n with
  | Some t => Some t
  | None => match n_value n with Some v => Some (numv_str repr v) | None => None end
  end.

(** One write call with a non-None value; an object without the methods the body calls
    raises AttributeError. *)
Definition leaf_element (repr : spec_float -> string) (k : wkind) (tag : string) (v : lval)
  : res xml :=
  match k, v with
  | WNum, LNum _ n =>
      Ok (El tag (ar_attrs (n_ts n) (n_uuid n) ++ opt_attr "SHORT-LABEL" (n_label n)) (num_text repr n) [])
  | WText, LNum _ n => Ok (El tag (ar_attrs (n_ts n) (n_uuid n)) (Some (num_str repr n)) [])
  | WText, LBool b => Ok (El tag (ar_attrs (b_ts b) (b_uuid b)) (Some (bool_str b)) [])
  | WText, LLit _ l => Ok (El tag (ar_attrs (l_ts l) (l_uuid l)) (Some (lit_str l)) [])
  | WRef, LRef r => Ok (El tag (opt_attr "BASE" (r_base r) ++ opt_attr "DEST" (r_dest r)) (r_value r) [])
  | WLimit, LLimit l =>
      Ok (El tag (ar_attrs (li_ts l) (li_uuid l) ++
                  opt_attr "INTERVAL-TYPE" (option_map lit_str (li_interval l))) (li_value l) [])
  | _, _ => Raise AttributeError
  end.

(** The call appends at most one child to the parent element. *)
Definition leaf_write (repr : spec_float -> string) (k : wkind) (tag : string) (v : option lval)
  : res (list xml) :=
  match v with
  | None => Ok []
  | Some x => let* e := leaf_element repr k tag x in Ok [e]
  end.

(** ** Readers *)

(** getChildElement<kind>; the constructor names follow the method names.
    RLiteral: OptionalLiteral 106 (= OptionalDataTime 157); RVerbatim 120; RIdentifier 132;
    RRevision 145; RFloat 167; RTime 185; RBool 202; RNumerical 219; RInteger 230;
    RPositive 239; RLimit 260; RRef 284;
    list forms: RLitItem (LiteralValueList 97), RFloatItem (176), RNumItem (251). *)
Inductive rkind := RLiteral | RVerbatim | RIdentifier | RRevision | RFloat | RTime | RBool
  | RNumerical | RInteger | RPositive | RLimit | RRef | RLitItem | RFloatItem | RNumItem.

Definition text_or_empty (t : option string) : string :=
  match t with Some s => s | None => "" end.

(** 149: the re.match of the revision label succeeds: three groups of digits separated by
    dots at the start of the text; the optional tail of the pattern never fails. *)
Definition digits1 (s : string) : option string :=
  let (d, r) := span is_digit s in if is_empty d then None else Some r.
Definition dot (s : string) : option string :=
  match s with String "." r => Some r | _ => None end.
Definition opt_bind {A B} (o : option A) (f : A -> option B) : option B :=
  match o with Some a => f a | None => None end.
Definition revision_ok (s : string) : bool :=
  match opt_bind (opt_bind (opt_bind (opt_bind (digits1 s) dot) digits1) dot) digits1 with
  | Some _ => true | None => false end.

Definition opt_pstr (t : option string) : pyval :=
  match t with Some s => PStr s | None => PNone end.

(** numerical.getValue() < 0 on a value just set from a text (248) *)
Definition numv_neg (v : numv) : bool :=
  match v with
  | NInt z => (z <? 0)%Z
  | NFloat f => SFltb f (S754_zero false)
  | NBool _ => false
  end.

Definition lit_of (cls : string) (x : xml) : lval :=
  LLit cls (mkLit (xattr "T" x) (xattr "UUID" x) (Some (text_or_empty (xtext x)))).

(** a numerical read with its T/UUID attributes *)
Definition num_blank (x : xml) : numerical := mkNum (xattr "T" x) (xattr "UUID" x) None None None.

Definition set_num (set : numerical -> pyval -> numerical * option exn) (cls : string)
  (n : numerical) (v : pyval) : res (option lval) :=
  match set n v with
  | (n', None) => Ok (Some (LNum cls n'))
  | (_, Some e) => Raise e
  end.

(** The reader body once the child element [x] has been found. *)
Definition leaf_of (k : rkind) (x : xml) : res (option lval) :=
  match k with
  | RLiteral => Ok (Some (lit_of "ARLiteral" x))
  | RVerbatim => Ok (Some (lit_of "VerbatimString" x))
  | RIdentifier => Ok (Some (lit_of "Identifier" x))
  | RRevision =>
      match xtext x with
      | None => Ok None
      | Some s => if revision_ok s then Ok (Some (lit_of "RevisionLabelString" x)) else Raise ValueError
      end
  | RFloat =>
      match xtext x with
      | None => Ok None
      | Some s => set_num float_set "ARFloat" (num_blank x) (PStr s)
      end
  | RTime =>
      match xtext x with
      | None => Ok None
      | Some s => set_num float_set "TimeValue" num_new (PStr s)
      end
  | RBool =>
      let s := text_or_empty (xtext x) in
      if is_empty s then Ok None
      else match bool_set (mkBool (xattr "T" x) None None None) (PStr s) with
           | (b, None) => Ok (Some (LBool b))
           | (_, Some e) => Raise e
           end
  | RNumerical =>
      set_num num_set "ARNumerical" (num_setShortLabel (num_blank x) (xattr "SHORT-LABEL" x))
              (opt_pstr (xtext x))
  | RInteger => set_num num_set "Integer" (num_blank x) (opt_pstr (xtext x))
  | RPositive =>
      match xtext x with
      | None => Ok None
      | Some s =>
          match set_num pos_set "PositiveInteger" (num_blank x) (PStr s) with
          | Ok (Some (LNum c n)) =>
              match n_value n with
              | Some v => if numv_neg v then Raise ValueError else Ok (Some (LNum c n))
              | None => Raise TypeError
              end
          | r => r
          end
      end
  | RLimit =>
      Ok (Some (LLimit (mkLimit (xattr "T" x) (xattr "UUID" x)
        (option_map (fun s => mkLit None None (Some s)) (xattr "INTERVAL-TYPE" x)) (xtext x))))
  | RRef => Ok (Some (LRef (mkRef (xattr "BASE" x) (xattr "DEST" x) (xtext x))))
  | RLitItem => Ok (Some (LLit "ARLiteral" (mkLit None None (xtext x))))
  | RFloatItem => set_num float_set "ARFloat" num_new (opt_pstr (xtext x))
  | RNumItem => set_num num_set "ARNumerical" num_new (opt_pstr (xtext x))
  end.

(** getChildElement<kind>(element, key) *)
Definition leaf_read (k : rkind) (key : string) (e : xml) : res (option lval) :=
  match find key e with Some x => leaf_of k x | None => Ok None end.

(** the list readers: getChildElementLiteralValueList 97, FloatValueList 176,
    NumericalValueList 251, RefTypeList 289 *)
Fixpoint leaf_items (k : rkind) (xs : list xml) : res (list lval) :=
  match xs with
  | [] => Ok []
  | x :: r =>
      let* o := leaf_of k x in
      let* l := leaf_items k r in
      Ok (match o with Some v => v :: l | None => l end)
  end.
Definition leaf_list (k : rkind) (key : string) (e : xml) : res (list lval) :=
  leaf_items k (findall key e).

(** getChildElementLiteral 88-95 and getChildElementRefType 277-281: the mandatory forms;
    [warn] is the warning option, a missing child gives None in warning mode *)
Definition literal_required (warn : bool) (key : string) (e : xml) : res (option literal) :=
  match find key e with
  | Some x => Ok (Some (mkLit (xattr "T" x) (xattr "UUID" x) (xtext x)))
  | None => if warn then Ok None else Raise ValueError
  end.
Definition ref_required (warn : bool) (key : string) (e : xml) : res (option reftype) :=
  match find key e with
  | Some x => Ok (Some (mkRef (xattr "BASE" x) (xattr "DEST" x) (xtext x)))
  | None => if warn then Ok None else Raise ValueError
  end.

(** getShortName 344-348 *)
Definition short_name (e : xml) : res (option string) :=
  match find "SHORT-NAME" e with Some x => Ok (xtext x) | None => Raise ValueError end.
