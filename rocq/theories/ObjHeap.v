(** Object graph of a document: packages, elements, creation methods, lookup.
    Paths are relative to /repo/src/armodel/models/M2/AUTOSARTemplates; GTC stands for
    GenericStructure/GeneralTemplateClasses, TOP for AutosarTopLevelStructure/__init__.py. *)
From Coq Require Import String Ascii List Bool Arith.
From Verif Require Import PyBase ClassTable Collection.
Import ListNotations.
Open Scope string_scope.
Open Scope list_scope.

(** One Python object with a short name.  Simplification: only the attributes that take part
    in creation and lookup are kept: class, short name, parent (GTC/Identifiable.py:41-42),
    the element collection (GTC/Identifiable.py:250-251, 380-381), the sub-package dictionary
    of packages and documents (GTC/ARPackage.py:514, TOP:173), the typed child lists that
    createX methods append to, and the single-child attributes they assign. *)
Record node : Type := mkNode {
  ncls : string; nname : string; nparent : nat;
  ncoll : coll; npkgs : dict nat; nlists : dict (list nat); nattrs : dict nat }.

(** Objects are numbered in creation order; object 0 is the document. *)
Definition heap := list node.
Definition root : nat := 0.

Definition new_node (cls name : string) (parent : nat) : node :=
  mkNode cls name parent coll_empty [] [] [].
Definition CPackage : string := "ARPackage".
Definition CDocument : string := "AUTOSAR".

(** TOP:155-175 clear(): a document without content *)
Definition fresh_doc : heap := [new_node CDocument "" 0].

Definition name_of (h : heap) (i : nat) : string :=
  match nth_error h i with Some nd => nname nd | None => "" end.
Definition cls_of (h : heap) (i : nat) : string :=
  match nth_error h i with Some nd => ncls nd | None => "" end.

Fixpoint upd {A} (l : list A) (i : nat) (x : A) : list A :=
  match l, i with
  | [], _ => []
  | _ :: l', O => x :: l'
  | y :: l', S i' => y :: upd l' i' x
  end.

Definition set_coll (nd : node) (c : coll) : node :=
  mkNode (ncls nd) (nname nd) (nparent nd) c (npkgs nd) (nlists nd) (nattrs nd).
Definition set_pkgs (nd : node) (d : dict nat) : node :=
  mkNode (ncls nd) (nname nd) (nparent nd) (ncoll nd) d (nlists nd) (nattrs nd).
Definition set_lists (nd : node) (d : dict (list nat)) : node :=
  mkNode (ncls nd) (nname nd) (nparent nd) (ncoll nd) (npkgs nd) d (nattrs nd).
Definition set_attrs (nd : node) (d : dict nat) : node :=
  mkNode (ncls nd) (nname nd) (nparent nd) (ncoll nd) (npkgs nd) (nlists nd) d.

(** Objects with sub-packages: the document and packages. *)
Definition is_pkg_holder (i : nat) (nd : node) : bool :=
  (Nat.eqb i root || String.eqb (ncls nd) CPackage)%bool.
(** Objects with an element collection: additionally every Identifiable.
    SignalServiceTranslationElementProps overrides getElement with another signature
    (CommonStructure/SignalServiceTranslation.py:80) and has no createX method. *)
Definition is_collectable (i : nat) (nd : node) : bool :=
  (is_pkg_holder i nd ||
   (isinst (ncls nd) "Identifiable" && negb (String.eqb (ncls nd) "SignalServiceTranslationElementProps")))%bool.

(** getElement(short_name, type): TOP:177-180 for the document (called without type only),
    GTC/ARPackage.py:732-747 for packages, GTC/Identifiable.py:447-465 for the rest.  A
    Referrable that is not Identifiable has no such method (AttributeError). *)
Definition get_element (h : heap) (i : nat) (n : string) (t : option string) : res (option nat) :=
  match nth_error h i with
  | None => Raise AttributeError
  | Some nd =>
      if is_collectable i nd then
        let sub := if is_pkg_holder i nd
                   then match t with
                        | None => dget (npkgs nd) n
                        | Some t => if String.eqb t CPackage then dget (npkgs nd) n else None
                        end
                   else None in
        match sub with
        | Some p => Ok (Some p)
        | None => coll_get (cls_of h) (ncoll nd) n t
        end
      else Raise AttributeError
  end.

(** TOP:198-206, the loop of find starting at [i] *)
Fixpoint find_from (h : heap) (i : nat) (names : list string) : res (option nat) :=
  match names with
  | [] => Ok (Some i)
  | n :: names' =>
      if String.eqb n "" then find_from h i names'
      else match get_element h i n None with
           | Ok (Some j) => find_from h j names'
           | Ok None => Ok None
           | Raise e => Raise e
           end
  end.

(** TOP:191-206 find(path) on the document [h] *)
Definition find_path (h : heap) (path : string) : res (option nat) :=
  find_from h root (split_char "/" path).

(** TOP:216-238 getDestType *)
Definition dest_table : list (string * string) := [
  ("ImplementationDataType", "IMPLEMENTATION-DATA-TYPE");
  ("ApplicationDataType", "APPLICATION-DATA-TYPE");
  ("AtomicSwComponentType", "ATOMIC-SW-COMPONENT-TYPE");
  ("CompositionSwComponentType", "COMPOSITION-SW-COMPONENT-TYPE");
  ("SystemSignal", "SYSTEM-SIGNAL");
  ("SystemSignalGroup", "SYSTEM-SIGNAL-GROUP");
  ("RunnableEntity", "RUNNABLE-ENTITY");
  ("BswSchedulableEntity", "BSW-SCHEDULABLE-ENTITY");
  ("BswModuleEntry", "BSW-MODULE-ENTRY");
  ("BswCalledEntity", "BSW-CALLED-ENTITY")].
Fixpoint dest_type_in (tbl : list (string * string)) (cls : string) : res string :=
  match tbl with
  | [] => Raise NotImplementedError
  | (c, d) :: tbl' => if isinst cls c then Ok d else dest_type_in tbl' cls
  end.
Definition getDestType (h : heap) (i : nat) : res string := dest_type_in dest_table (cls_of h i).

(** TOP:191-214 find(ref) for a RefType with the given value and DEST: the path, then the
    DEST check.  A reference without value has no split method (AttributeError). *)
Definition find_ref (h : heap) (value dest : option string) : res (option nat) :=
  match match value with Some path => find_path h path | None => Raise AttributeError end with
  | Ok (Some x) =>
      match dest with
      | None => Ok (Some x)
      | Some d => if String.eqb d "" then Ok (Some x)
                  else match getDestType h x with
                       | Ok d' => if String.eqb d' d then Ok (Some x) else Raise ValueError
                       | Raise e => Raise e
                       end
      end
  | r => r
  end.

(** TOP:200: the loop starts at AUTOSAR.getInstance(), whatever document find is called on. *)
Definition doc_find (singleton receiver : heap) (path : string) : res (option nat) :=
  find_path singleton path.

(** full_name: GTC/Identifiable.py:76-80, GTC/ARPackage.py:546-550, TOP:151-153.  The
    recursion follows parent; [fuel] bounds its depth. *)
Fixpoint full_name_fuel (fuel : nat) (h : heap) (i : nat) : string :=
  match fuel with
  | O => ""
  | S f =>
      if Nat.eqb i root then ""
      else match nth_error h i with
           | Some nd => (full_name_fuel f h (nparent nd) ++ "/" ++ nname nd)%string
           | None => ""
           end
  end.
Definition full_name (h : heap) (i : nat) : string := full_name_fuel (S i) h i.

(** ** Creation methods *)

(** TOP:185-189 and GTC/ARPackage.py:716-730 createARPackage *)
Definition create_package (h : heap) (i : nat) (n : string) : heap * res (option nat) :=
  match nth_error h i with
  | Some nd =>
      if is_pkg_holder i nd then
        match dget (npkgs nd) n with
        | Some p => (h, Ok (Some p))
        | None => let p := List.length h in
                  (upd h i (set_pkgs nd (dset (npkgs nd) n p)) ++ [new_node CPackage n i], Ok (Some p))
        end
      else (h, Raise AttributeError)
  | None => (h, Raise AttributeError)
  end.

(** The forms of the createX methods (table in Creators.v).  Guards:
    [GTyped]    if not self.IsElementExists(name, X)
    [GUntyped]  if not self.IsElementExists(name)
    [GAlways]   no guard, or "if name not in self.<list of objects>": a str never equals an object
    [GUnset a]  if self.a is None
    [GScan l]   search self.l for an object with that short name and return it if found *)
Inductive guard := GTyped | GUntyped | GAlways | GUnset (a : string) | GScan (l : string).
(** Returned object: self.getElement(name), self.getElement(name, X), the new object, self.a *)
Inductive ret := RGet | RGetTyped | RNew | RAttr (a : string).
(** Under the guard: construct X(self, name), then self.addElement(new), self.list.append(new),
    self.attr = new, as present in the method. *)
Record creator := mkCreator {
  k_class : string; k_guard : guard; k_add : bool;
  k_list : option string; k_attr : option string; k_ret : ret }.

Definition node_list (nd : node) (l : string) : list nat :=
  match dget (nlists nd) l with Some xs => xs | None => [] end.

Definition guard_holds (h : heap) (nd : node) (k : creator) (n : string) : bool :=
  match k_guard k with
  | GTyped => negb (coll_exists (cls_of h) (ncoll nd) n (Some (k_class k)))
  | GUntyped => negb (coll_exists (cls_of h) (ncoll nd) n None)
  | GAlways => true
  | GUnset a => negb (dmem (nattrs nd) a)
  | GScan l => negb (existsb (fun e => String.eqb (name_of h e) n) (node_list nd l))
  end.

(** the container after registering the new object [e] ([h1] already holds [e]) *)
Definition register (h1 : heap) (nd : node) (k : creator) (e : nat) : node :=
  let nd1 := if k_add k then set_coll nd (coll_add (name_of h1) (cls_of h1) (ncoll nd) e) else nd in
  let nd2 := match k_list k with
             | Some l => set_lists nd1 (dset (nlists nd1) l (node_list nd1 l ++ [e]))
             | None => nd1 end in
  match k_attr k with
  | Some a => set_attrs nd2 (dset (nattrs nd2) a e)
  | None => nd2 end.

Definition creator_result (h : heap) (i : nat) (k : creator) (n : string) (new : option nat) : res (option nat) :=
  match k_ret k with
  | RGet => get_element h i n None
  | RGetTyped => get_element h i n (Some (k_class k))
  | RNew => match new with
            | Some e => Ok (Some e)
            | None => match k_guard k, nth_error h i with
                      | GScan l, Some nd => Ok (find (fun e => String.eqb (name_of h e) n) (node_list nd l))
                      | _, _ => Raise AttributeError
                      end
            end
  | RAttr a => match nth_error h i with
               | Some nd => Ok (dget (nattrs nd) a)
               | None => Raise AttributeError end
  end.

Definition create (h : heap) (i : nat) (k : creator) (n : string) : heap * res (option nat) :=
  match nth_error h i with
  | None => (h, Raise AttributeError)
  | Some nd =>
      if (k_add k && negb (is_collectable i nd))%bool then (h, Raise AttributeError) else
      if guard_holds h nd k n then
        let e := List.length h in
        let h1 := h ++ [new_node (k_class k) n i] in
        let h2 := upd h1 i (register h1 nd k e) in
        (h2, creator_result h2 i k n (Some e))
      else (h, creator_result h i k n None)
  end.

(** removeElement on an object with a collection (Identifiable.py:263-279).
    CompositionSwComponentType overrides it; see Composition.v. *)
Definition remove_element (h : heap) (i : nat) (n : string) (t : option string) : heap * option exn :=
  match nth_error h i with
  | Some nd =>
      if is_collectable i nd then
        let (c, e) := coll_remove (cls_of h) (ncoll nd) n t in
        (upd h i (set_coll nd c), e)
      else (h, Some AttributeError)
  | None => (h, Some AttributeError)
  end.

(** Histories *)
Inductive hop :=
| HPackage (i : nat) (n : string)
| HCreate (i : nat) (k : creator) (n : string)
| HRemove (i : nat) (n : string) (t : option string).
Definition hstep (h : heap) (o : hop) : heap :=
  match o with
  | HPackage i n => fst (create_package h i n)
  | HCreate i k n => fst (create h i k n)
  | HRemove i n t => fst (remove_element h i n t)
  end.
Definition hrun (os : list hop) : heap := fold_left hstep os fresh_doc.
