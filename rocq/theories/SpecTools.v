(** Specification vocabulary for getDataType, listings, AdminData removal, file lists. *)
From Coq Require Import String Ascii List Bool Arith NArith.
From Verif Require Import PyBase ClassTable Collection ObjHeap SpecHeap Doc Tools.
Import ListNotations.
Open Scope string_scope.
Open Scope list_scope.

(** The text of a category, however it is stored. *)
Definition cat_text (v : catval) : option string :=
  match v with CNone => None | CStr s | CObj s => Some s end.
Definition is_data_type (h : heap) (x : nat) : Prop :=
  isinst (cls_of h x) "ImplementationDataType" = true \/ isinst (cls_of h x) "SwBaseType" = true.

(** The type [x] refers to, by the text of its category. *)
Inductive refers (h : heap) (ti : nat -> tinfo) : nat -> nat -> Prop :=
| refers_type : forall x v y, is_data_type h x -> cat_text (t_category (ti x)) = Some "TYPE_REFERENCE" ->
    t_impl_ref (ti x) = Some (Some v) -> find_path h v = Ok (Some y) -> refers h ti x y
| refers_data : forall x c v d y, is_data_type h x -> cat_text (t_category (ti x)) = Some "DATA_REFERENCE" ->
    t_pointer (ti x) = Some (c, Some (Some (Some v, d))) -> cat_text c = Some "VALUE" ->
    find_ref h (Some v) d = Ok (Some y) -> refers h ti x y.
(** A type that is no reference. *)
Definition plain_type (h : heap) (ti : nat -> tinfo) (x : nat) : Prop :=
  is_data_type h x /\ cat_text (t_category (ti x)) <> Some "TYPE_REFERENCE" /\
  (cat_text (t_category (ti x)) = Some "DATA_REFERENCE" ->
     exists c p, t_pointer (ti x) = Some (c, p) /\ cat_text c <> Some "VALUE").
(** A finite chain of references ending in a plain type. *)
Inductive resolves (h : heap) (ti : nat -> tinfo) : nat -> nat -> Prop :=
| res_here : forall x, plain_type h ti x -> resolves h ti x x
| res_next : forall x y z, refers h ti x y -> resolves h ti y z -> resolves h ti x z.
(** Categories assigned as plain strings. *)
Definition plain_strings (ti : nat -> tinfo) : Prop :=
  forall x, (forall s, t_category (ti x) <> CObj s) /\
            (forall c p s, t_pointer (ti x) = Some (c, p) -> c <> CObj s).
(** Categories set by setCategory or by the parser. *)
Definition api_categories (ti : nat -> tinfo) : Prop := forall x s, t_category (ti x) <> CStr s.

(** [p] is a package of the document, at any depth. *)
Inductive package_in (h : heap) : nat -> Prop :=
| pkg_top : forall nd p, nth_error h root = Some nd -> In p (map snd (npkgs nd)) -> package_in h p
| pkg_sub : forall i nd p, package_in h i -> nth_error h i = Some nd -> In p (map snd (npkgs nd)) -> package_in h p.
(** [x] is an element of a package of the document. *)
Definition element_in (h : heap) (x : nat) : Prop :=
  exists i nd, package_in h i /\ nth_error h i = Some nd /\ In x (elems (ncoll nd)).

(** [joined dir n path]: [path] is name [n] in directory [dir], with one slash between them (none
    after the empty path) *)
Inductive joined : string -> string -> string -> Prop :=
| joined_empty : forall n, joined "" n n
| joined_slash : forall d n, joined (d ++ "/")%string n (d ++ "/" ++ n)%string
| joined_plain : forall d n, d <> "" -> (forall e, d <> (e ++ "/")%string) -> joined d n (d ++ "/" ++ n)%string.
(** [path] is a file below the directory [dir] with the given name. *)
Inductive file_below : string -> fsobj -> string -> string -> Prop :=
| below_here : forall dir es n ls path, In (n, FFile ls) es -> joined dir n path -> file_below dir (FDir es) n path
| below_sub : forall dir es d o n sub path, In (d, o) es -> joined dir d sub -> file_below sub o n path ->
    file_below dir (FDir es) n path.
(** a name ending in .arxml, in any case *)
Definition arxml_file (n : string) : Prop :=
  exists a b, n = (a ++ b)%string /\ lower b = ".arxml".
Definition no_newline (n : string) : Prop := ~ In newline (list_ascii_of_string n).
(** a directory as an operating system has it: distinct, non-empty entry names without slash *)
Inductive tidy : fsobj -> Prop :=
| tidy_file : forall ls, tidy (FFile ls)
| tidy_dir : forall es, NoDup (map fst es) -> (forall n o, In (n, o) es -> n <> "" /\ slash_free n /\ tidy o) -> tidy (FDir es).
