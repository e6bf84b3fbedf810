(** Concrete trees for C43. *)
From Coq Require Import String List Bool Relations.Relation_Operators.
From Verif Require Import PyBase Xml Leaf Ir Access IrSem SpecDomain SpecRoundTrip SpecTolerant SpecOrder Order.
Import ListNotations.
Open Scope string_scope.
Open Scope list_scope.

Lemma unlisted : forall t, existsb (String.eqb t) list_tags = false -> ~ In t list_tags.
Proof. intros t E I. assert (Q : existsb (String.eqb t) list_tags = true) by (apply existsb_exists; exists t; split; [exact I|apply String.eqb_refl]). congruence. Qed.
Ltac not_listed := apply unlisted; reflexivity.
(** lists with pairwise different tags may be reversed *)
Fixpoint distinct (l : list xml) : bool :=
  match l with [] => true | k :: r => if existsb (has_tag (xtag k)) r then false else distinct r end.
Lemma few : forall tag l, distinct l = true -> filter (has_tag tag) (rev l) = filter (has_tag tag) l.
Proof.
  induction l as [|k l IH]; intros D; [reflexivity|]. cbn [distinct] in D. destruct (existsb (has_tag (xtag k)) l) eqn:E; [discriminate|].
  cbn [rev filter]. rewrite filter_app, (IH D). cbn [filter]. destruct (has_tag tag k) eqn:Q; [|apply app_nil_r].
  unfold has_tag in Q. apply String.eqb_eq in Q. subst tag.
  assert (N : filter (has_tag (xtag k)) l = []); [|now rewrite N].
  clear -E. induction l as [|y l IH]; [reflexivity|]. cbn [existsb filter] in *. destruct (has_tag (xtag k) y); [discriminate|now apply IH].
Qed.
Lemma reversed : forall t a s kids, ~ In t list_tags -> distinct kids = true -> rearranged (El t a s kids) (El t a s (rev kids)).
Proof. intros t a s kids N D. apply reordered; [exact N|]. intros tag. symmetry. now apply few. Qed.

Lemma component_moved : rearranged (elements_xml [component_xml false]) (elements_xml [component_xml true]).
Proof.
  unfold elements_xml, package_xml, named_xml, tagged at 1 2 3 4.
  apply (rearranged_below "AUTOSAR" [] None [] _ _ []). apply (rearranged_below "AR-PACKAGES" [] None [] _ _ []).
  apply (rearranged_below "AR-PACKAGE" [] None [text_of "SHORT-NAME" "P"] _ _ []). apply (rearranged_below "ELEMENTS" [] None [] _ _ []).
  eapply rt_trans; [|apply (reversed "APPLICATION-SW-COMPONENT-TYPE" [] None [text_of "SHORT-NAME" "c"; text_of "CATEGORY" "x";
               tagged "ADMIN-DATA" [text_of "LANGUAGE" "EN"; text_of "USED-LANGUAGES" "y"];
               tagged "PORTS" [component_port true; named_xml "R-PORT-PROTOTYPE" "r" []]]); [not_listed|reflexivity]].
  apply (rearranged_below "APPLICATION-SW-COMPONENT-TYPE" [] None [text_of "SHORT-NAME" "c"; text_of "CATEGORY" "x";
               tagged "ADMIN-DATA" [text_of "LANGUAGE" "EN"; text_of "USED-LANGUAGES" "y"]] _ _ []).
  apply (rearranged_below "PORTS" [] None [] _ _ [named_xml "R-PORT-PROTOTYPE" "r" []]).
  apply (reversed "P-PORT-PROTOTYPE"); [not_listed|reflexivity].
Qed.
Definition component_doc : val := Eval vm_compute in
  match rrun false 100 load_code "" (elements_xml [component_xml false]) VNone (init "AUTOSAR") with Done u => u | _ => VNone end.
Lemma component_loaded : loaded false (elements_xml [component_xml false]) component_doc.
Proof. exists 100. vm_compute. reflexivity. Qed.
Lemma ports_differ : exists u v, loaded false (two_ports false) u /\ loaded false (two_ports true) v /\ u <> v.
Proof.
  let a := eval vm_compute in (rrun false 100 load_code "" (two_ports false) VNone (init "AUTOSAR")) in
  let b := eval vm_compute in (rrun false 100 load_code "" (two_ports true) VNone (init "AUTOSAR")) in
  match a with Done ?u => match b with Done ?v => exists u, v end end.
  split; [exists 100; vm_compute; reflexivity|]. split; [exists 100; vm_compute; reflexivity|]. intros E.
  discriminate E.
Qed.
