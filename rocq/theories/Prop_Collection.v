(** Properties C05-C07: element collections (CollectableElement, Identifiable).
    [coll_run nm ty coll_empty os] is the collection after the history [os] of
    addElement/removeElement calls; [elems] is what getElements() lists; [nm]/[ty] give short
    name and class of every object; [isinst c d]: class [c] is [d] or derived from it. *)
From Coq Require Import String List Bool Arith.
From Verif Require Import PyBase ClassTable Collection SpecCollection CollectionFacts CollProps.
Import ListNotations.
Open Scope string_scope.
Open Scope list_scope.

(** ** C05 *)
Theorem C05_unique : forall nm ty os,
  NoDup (map (fun e => (nm e, ty e)) (elems (coll_run nm ty coll_empty os))).
Proof. exact c05_unique. Qed.
Print Assumptions C05_unique.

(** A refused entry leaves the whole collection, name index included, as it was. *)
Theorem C05_refused : forall nm ty os e x,
  In x (elems (coll_run nm ty coll_empty os)) -> nm x = nm e -> isinst (ty x) (ty e) = true ->
  coll_add nm ty (coll_run nm ty coll_empty os) e = coll_run nm ty coll_empty os.
Proof. exact c05_refused. Qed.
Print Assumptions C05_refused.

Theorem C05_accepted : forall nm ty os e,
  (forall x, In x (elems (coll_run nm ty coll_empty os)) -> nm x = nm e -> isinst (ty x) (ty e) = false) ->
  elems (coll_add nm ty (coll_run nm ty coll_empty os) e) = elems (coll_run nm ty coll_empty os) ++ [e].
Proof. exact c05_accepted. Qed.
Print Assumptions C05_accepted.

Theorem C05_exists : forall nm ty os n t,
  coll_exists ty (coll_run nm ty coll_empty os) n (Some t) = true <->
  exists x, In x (elems (coll_run nm ty coll_empty os)) /\ nm x = n /\ isinst (ty x) t = true.
Proof. exact c05_exists. Qed.
Print Assumptions C05_exists.

(** getElement(name, type) is the first listed entry of that name and type, ... *)
Theorem C05_get : forall nm ty os n t x,
  coll_get ty (coll_run nm ty coll_empty os) n (Some t) = Ok (Some x) <->
  exists l1 l2, elems (coll_run nm ty coll_empty os) = l1 ++ x :: l2 /\ (nm x = n /\ isinst (ty x) t = true) /\
    forall y, In y l1 -> ~ (nm y = n /\ isinst (ty y) t = true).
Proof. exact c05_get. Qed.
Print Assumptions C05_get.

(** ... otherwise None: it never raises. *)
Theorem C05_get_total : forall nm ty os n t, exists r, coll_get ty (coll_run nm ty coll_empty os) n (Some t) = Ok r.
Proof. exact c05_get_total. Qed.
Print Assumptions C05_get_total.

Theorem C05_get_untyped : forall nm ty os n, (exists x, In x (elems (coll_run nm ty coll_empty os)) /\ nm x = n) ->
  exists x l1 l2, coll_get ty (coll_run nm ty coll_empty os) n None = Ok (Some x) /\
    elems (coll_run nm ty coll_empty os) = l1 ++ x :: l2 /\ nm x = n /\ forall y, In y l1 -> nm y <> n.
Proof. exact c05_get_untyped. Qed.
Print Assumptions C05_get_untyped.

(** Objects 0 (SystemSignal s), 1 (SystemSignalGroup s), 2 (SystemSignal s again), 3 (SystemSignal t) *)
Definition ex_nm (e : nat) : string := match e with 3 => "t" | _ => "s" end.
Definition ex_ty (e : nat) : string := match e with 1 => "SystemSignalGroup" | _ => "SystemSignal" end.
Example C05_case : let c := coll_run ex_nm ex_ty coll_empty [CAdd 0; CAdd 1; CAdd 2; CAdd 3] in
  elems c = [0; 1; 3] /\ coll_get ex_ty c "s" (Some "SystemSignalGroup") = Ok (Some 1) /\
  coll_get ex_ty c "s" None = Ok (Some 0) /\ coll_get ex_ty c "t" (Some "SystemSignalGroup") = Ok None.
Proof. repeat split; vm_compute; reflexivity. Qed.

(** ** C06 *)
(** The listed elements are those of a plain list with append and remove-first. *)
Theorem C06_insertion_order : forall nm ty os,
  elems (coll_run nm ty coll_empty os) = spec_run nm ty os.
Proof. exact coll_run_spec. Qed.
Print Assumptions C06_insertion_order.

Example C06_case : spec_run ex_nm ex_ty [CAdd 3; CAdd 0; CAdd 1; CRemove "s" None; CAdd 2] = [3; 1; 2].
Proof. vm_compute. reflexivity. Qed.

(** ** C07 *)
(** Missing: the untyped queries and the exception of a second removal, for which the claim is
    false (see C07_refuted). *)
Theorem C07_typed_queries_partial : forall nm ty os n t,
  (forall x, In x (elems (coll_run nm ty coll_empty os)) -> nm x <> n) ->
  coll_exists ty (coll_run nm ty coll_empty os) n (Some t) = false /\
  coll_get ty (coll_run nm ty coll_empty os) n (Some t) = Ok None.
Proof. exact c07_typed. Qed.
Print Assumptions C07_typed_queries_partial.

Theorem C07_name_usable_again : forall nm ty os e,
  (forall x, In x (elems (coll_run nm ty coll_empty os)) -> nm x <> nm e) ->
  let c := coll_add nm ty (coll_run nm ty coll_empty os) e in
  elems c = elems (coll_run nm ty coll_empty os) ++ [e] /\
  coll_get ty c (nm e) None = Ok (Some e) /\ coll_exists ty c (nm e) None = true.
Proof. exact c07_readd. Qed.
Print Assumptions C07_name_usable_again.

(** What IsElementExists(name) answers instead: whether the name was ever added. *)
Theorem C07_untyped_partial : forall nm ty os n,
  coll_exists ty (coll_run nm ty coll_empty os) n None = true <-> exists e, In (CAdd e) os /\ nm e = n.
Proof. exact c07_untyped. Qed.
Print Assumptions C07_untyped_partial.

(** A further removal raises and changes nothing, with KeyError only for names never added. *)
Theorem C07_second_removal_partial : forall nm ty os n t,
  (forall x, In x (elems (coll_run nm ty coll_empty os)) -> nm x <> n) ->
  exists e, coll_remove ty (coll_run nm ty coll_empty os) n t = (coll_run nm ty coll_empty os, Some e) /\
    (e = KeyError <-> forall x, In (CAdd x) os -> nm x <> n).
Proof. exact c07_second_remove. Qed.
Print Assumptions C07_second_removal_partial.

Theorem C07_refuted : exists nm ty os n,
  (forall x, In x (elems (coll_run nm ty coll_empty os)) -> nm x <> n) /\
  coll_exists ty (coll_run nm ty coll_empty os) n None = true /\
  coll_get ty (coll_run nm ty coll_empty os) n None = Raise IndexError /\
  snd (coll_remove ty (coll_run nm ty coll_empty os) n None) = Some IndexError.
Proof. exact c07_refuted. Qed.
Print Assumptions C07_refuted.

Example C07_case : let c := coll_run ex_nm ex_ty coll_empty [CAdd 0; CAdd 3; CRemove "s" None] in
  (forall x, In x (elems c) -> ex_nm x <> "s") /\ elems c = [3].
Proof. split; [|vm_compute; reflexivity]. vm_compute. intros x [<-|[]]. discriminate. Qed.
