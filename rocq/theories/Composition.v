(** CompositionSwComponentType and the connector spreadsheet update.  COMP stands for
    /repo/src/armodel/models/M2/AUTOSARTemplates/SWComponentTemplate/Composition/__init__.py,
    XLS for /repo/src/armodel/parser/connector_xlsx_parser.py. *)
From Coq Require Import String Ascii List Bool Arith.
From Verif Require Import PyBase ClassTable Collection.
Import ListNotations.
Open Scope string_scope.
Open Scope list_scope.

(** References stored on a connector: context component and port of the provider (or inner)
    side, of the requester (or outer) side; values only.  [p_dest]: for a delegation connector the
    DEST of outer_port_ref, which also tells the class of inner_port_iref (XLS:140-165 sets both
    together). *)
Record ports := mkPorts { p_swc : option string; p_port : option string; r_swc : option string; r_port : option string; p_dest : option string }.

(** One composition.  Objects are numbered per composition; [k_objs] gives class and short
    name.  [k_snake]: attributes the spreadsheet reader assigns (provider_iref, requester_iref,
    inner_port_iref, outer_port_ref; XLS:121-171).  [k_ports]: the attributes the model class
    declares and the writer reads (providerIRef, requesterIRef, innerPortIRref, outerPortRef);
    only the setters of the model class change them. *)
Record comp := mkComp {
  k_objs : list (string * string);
  k_coll : coll;
  k_components : list nat;
  k_connectors : list nat;
  k_snake : list (nat * ports);
  k_ports : list (nat * ports) }.
Definition comp_new : comp := mkComp [] coll_empty [] [] [] [].

Definition k_ty (objs : list (string * string)) (x : nat) : string :=
  match nth_error objs x with Some (c, _) => c | None => "" end.
Definition k_nm (objs : list (string * string)) (x : nat) : string :=
  match nth_error objs x with Some (_, n) => n | None => "" end.

Inductive kind := Assembly | Delegation | PassThrough.
Definition kind_class (k : kind) : string :=
  match k with Assembly => "AssemblySwConnector" | Delegation => "DelegationSwConnector" | PassThrough => "PassThroughSwConnector" end.

(** COMP:386-401 createSwComponentPrototype ([None]), COMP:412-461 createXSwConnector.
    Result: state and returned object. *)
Definition k_create (s : comp) (k : option kind) (n : string) : comp * option nat :=
  let cls := match k with None => "SwComponentPrototype" | Some k => kind_class k end in
  let s1 :=
    if coll_exists (k_ty (k_objs s)) (k_coll s) n None then s
    else
      let x := List.length (k_objs s) in
      let objs := k_objs s ++ [(cls, n)] in
      mkComp objs (coll_add (k_nm objs) (k_ty objs) (k_coll s) x)
        (match k with None => k_components s ++ [x] | _ => k_components s end)
        (match k with Some _ => k_connectors s ++ [x] | _ => k_connectors s end)
        (k_snake s) (k_ports s) in
  (s1, match coll_get (k_ty (k_objs s1)) (k_coll s1) n (Some cls) with Ok r => r | Raise _ => None end).

(** Any other createX of the class (ports, port groups): adds an element of another class.
    Simplification: all of them are represented by addElement (GTC/Identifiable.py:290-305),
    whose own check subsumes theirs. *)
Definition k_other (s : comp) (cls n : string) : comp :=
  let x := List.length (k_objs s) in
  let objs := k_objs s ++ [(cls, n)] in
  mkComp objs (coll_add (k_nm objs) (k_ty objs) (k_coll s) x) (k_components s) (k_connectors s) (k_snake s) (k_ports s).

(** COMP:619-636 removeElement *)
Definition k_remove (s : comp) (n : string) (t : option string) : comp * option exn :=
  let ty := k_ty (k_objs s) in
  match coll_get ty (k_coll s) n t with
  | Raise e => (s, Some e)
  | Ok item =>
      let (c, e) := coll_remove ty (k_coll s) n t in
      match e with
      | Some _ => (mkComp (k_objs s) c (k_components s) (k_connectors s) (k_snake s) (k_ports s), e)
      | None =>
          match item with
          | None => (mkComp (k_objs s) c (k_components s) (k_connectors s) (k_snake s) (k_ports s), None)
          | Some x =>
              let comps := if isinst (ty x) "SwComponentPrototype"
                           then match py_remove x (k_components s) with Some l => l | None => k_components s end
                           else k_components s in
              let conns := if isinst (ty x) "SwConnector"
                           then match py_remove x (k_connectors s) with Some l => l | None => k_connectors s end
                           else k_connectors s in
              (mkComp (k_objs s) c comps conns (k_snake s) (k_ports s), None)
          end
      end
  end.

(** COMP:472-497 getAssemblySwConnectors etc. *)
Definition k_get (s : comp) (k : kind) : list nat :=
  py_sorted (k_nm (k_objs s)) (filter (fun x => isinst (k_ty (k_objs s) x) (kind_class k)) (k_connectors s)).

(** COMP:499-521 removeAllX: the name index is not touched *)
Fixpoint remove_each (xs : list nat) (s : comp) : comp * option exn :=
  match xs with
  | [] => (s, None)
  | x :: xs' =>
      match py_remove x (elems (k_coll s)) with
      | None => (s, Some ValueError)
      | Some es =>
          let s1 := mkComp (k_objs s) (mkColl es (mapp (k_coll s))) (k_components s) (k_connectors s) (k_snake s) (k_ports s) in
          match py_remove x (k_connectors s1) with
          | None => (s1, Some ValueError)
          | Some cs => remove_each xs' (mkComp (k_objs s1) (k_coll s1) (k_components s1) cs (k_snake s1) (k_ports s1))
          end
      end
  end.
Definition k_remove_all (s : comp) (k : kind) : comp * option exn := remove_each (k_get s k) s.

(** setProviderIRef/setRequesterIRef, setInnerPortIRref/setOuterPortRef on a connector *)
Definition k_set_ports (s : comp) (x : nat) (p : ports) : comp :=
  mkComp (k_objs s) (k_coll s) (k_components s) (k_connectors s) (k_snake s) ((x, p) :: k_ports s).
Definition k_set_snake (s : comp) (x : nat) (p : ports) : comp :=
  mkComp (k_objs s) (k_coll s) (k_components s) (k_connectors s) ((x, p) :: k_snake s) (k_ports s).
Definition stored (l : list (nat * ports)) (x : nat) : option ports :=
  option_map snd (find (fun p => Nat.eqb (fst p) x) l).

(** Histories of calls on a composition; the setters are called on existing connectors only *)
Inductive kop :=
| KCreate (k : option kind) (n : string)
| KOther (cls n : string)
| KRemove (n : string) (t : option string)
| KRemoveAll (k : kind)
| KPorts (x : nat) (p : ports).
Definition kstep (s : comp) (o : kop) : comp :=
  match o with
  | KCreate k n => fst (k_create s k n)
  | KOther c n => k_other s c n
  | KRemove n t => fst (k_remove s n t)
  | KRemoveAll k => fst (k_remove_all s k)
  | KPorts x p => if Nat.ltb x (List.length (k_objs s)) then k_set_ports s x p else s
  end.
Definition krun (os : list kop) : comp := fold_left kstep os comp_new.

(** Rows of the sheets (XLS:70-94); empty cells are None *)
Inductive row :=
| RowAssembly (n : string) (provider_swc pport requester_swc rport : option string)
| RowDelegation (n : string) (inner_swc inner_pport inner_rport outer_pport outer_rport : option string).
Definition row_name (r : row) : string := match r with RowAssembly n _ _ _ _ => n | RowDelegation n _ _ _ _ _ => n end.
Definition row_kind (r : row) : kind := match r with RowAssembly _ _ _ _ _ => Assembly | RowDelegation _ _ _ _ _ _ => Delegation end.

(** XLS:118-171: what the row stores on its connector; None = ValueError *)
Definition row_ports (r : row) : option ports :=
  match r with
  | RowAssembly _ ps pp rs rp => Some (mkPorts ps pp rs rp None)
  | RowDelegation _ sw ip ir op orr =>
      match ip, op with
      | Some _, Some _ => Some (mkPorts sw ip None op (Some "P-PORT-PROTOTYPE"))
      | _, _ => match ir, orr with
                | Some _, Some _ => Some (mkPorts sw ir None orr (Some "R-PORT-PROTOTYPE"))
                | _, _ => None end
      end
  end.

(** XLS:118-171 _addAssemblySwConnector, _addDelegationSwConnector; assigning an attribute of
    None raises AttributeError.  Simplification: short names are not None. *)
Definition add_row (s : comp) (r : row) : comp * option exn :=
  let (s1, x) := k_create s (Some (row_kind r)) (row_name r) in
  match row_ports r with
  | None => (s1, Some ValueError)
  | Some p => match x with
              | None => (s1, Some AttributeError)
              | Some x => (k_set_snake s1 x p, None)
              end
  end.
Fixpoint add_rows (s : comp) (rs : list row) : comp * option exn :=
  match rs with
  | [] => (s, None)
  | r :: rs' => let (s1, e) := add_row s r in
                match e with Some _ => (s1, e) | None => add_rows s1 rs' end
  end.
(** XLS:173-188 _updateCompositionSwComponent *)
Definition update_comp (s : comp) (rs : list row) : comp * option exn :=
  let (s1, e1) := k_remove_all s Assembly in
  match e1 with
  | Some _ => (s1, e1)
  | None => let (s2, e2) := k_remove_all s1 Delegation in
            match e2 with Some _ => (s2, e2) | None => add_rows s2 rs end
  end.
