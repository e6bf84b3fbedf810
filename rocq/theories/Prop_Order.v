(** C43: the order of siblings with different tags.  Vocabulary: SpecOrder.v, SpecRoundTrip.v. *)
From Coq Require Import String List.
From Verif Require Import PyBase Xml Ir IrSem SpecRoundTrip SpecTolerant SpecOrder Order OrderCases.
Import ListNotations.
Open Scope string_scope.

(** Exchanging neighbours with different tags, any number of times and anywhere outside the list
    elements, does not change the document that is loaded, *)
Theorem C43_load : forall warn x y u, rearranged x y -> (loaded warn x u <-> loaded warn y u).
Proof. exact rearranged_load. Qed.
Print Assumptions C43_load.

(** nor the exception that is raised. *)
Theorem C43_errors : forall warn x y e, rearranged x y -> (load_raises warn x e <-> load_raises warn y e).
Proof. exact rearranged_raises. Qed.
Print Assumptions C43_errors.

(** Exchanges reach every order of the children that leaves those of equal tag in their order. *)
Theorem C43_every_order : forall t a s kids kids', ~ In t list_tags ->
  (forall tag, filter (has_tag tag) kids = filter (has_tag tag) kids') -> rearranged (El t a s kids) (El t a s kids').
Proof. exact reordered. Qed.
Print Assumptions C43_every_order.

(** The restriction is needed: the two ports of a component are kept in document order. *)
Theorem C43_lists_refuted : exists u v, loaded false (two_ports false) u /\ loaded false (two_ports true) v /\ u <> v.
Proof. exact ports_differ. Qed.
Print Assumptions C43_lists_refuted.

Example C43_case : rearranged (elements_xml [component_xml false]) (elements_xml [component_xml true]) /\
  loaded false (elements_xml [component_xml false]) component_doc /\ elements_xml [component_xml false] <> elements_xml [component_xml true].
Proof. split; [exact component_moved|]. split; [exact component_loaded|discriminate]. Qed.
