(** Consequences of C60 and documents for it. *)
From Coq Require Import String Ascii List Bool.
From Verif Require Import PyBase Primitives Xml Leaf ClassTable Ir Access IrSem SpecRoundTrip RoundTripLoss SpecKeep SpecText KeepSound KeepCases KeepTextSound.
Import ListNotations.
Open Scope string_scope.
Open Scope list_scope.

Section Place.
Context (warn : bool) (x : xml) (u : val) (way : list (row * nat)) (c : string) (y : xml).
Hypothesis L : loaded warn x u.
Hypothesis I : Forall (fun p => In (fst p) kept_rows) way.
Hypothesis E : element_at "AUTOSAR" way x = Some (c, y).

Lemma c60_at : forall t, In t text_rows -> t_applies t c = true ->
  exists o w, object_at way u = Some o /\ class_name o = Some c /\ field o (t_attr t) = Some w /\ held (t_path t) (t_source t) y w.
Proof.
  intros t T A. destruct (c60_all warn x u way c y L I E) as (o & O & C & H & _). destruct (H t T A) as (w & W & S). exists o, w. auto.
Qed.
Lemma c60_reference : forall b ex f p, In (mkText b ex f [] (SText RRef p)) text_rows -> t_applies (mkText b ex f [] (SText RRef p)) c = true ->
  exists o, object_at way u = Some o /\ field o f = Some (match find p y with
    | Some e => VLeaf (LRef (mkRef (xattr "BASE" e) (xattr "DEST" e) (xtext e)))
    | None => VNone end).
Proof.
  intros b ex f p T A. destruct (c60_at _ T A) as (o & w & O & _ & W & l & R & ->). exists o. split; [exact O|]. cbn [t_attr] in W. rewrite W. f_equal.
  unfold leaf_read in R. destruct (find p y) as [e|]; injection R as <-; reflexivity.
Qed.
Lemma c60_references : forall b ex f p, In (mkText b ex f [] (STexts RRef p)) text_rows -> t_applies (mkText b ex f [] (STexts RRef p)) c = true ->
  exists o, object_at way u = Some o /\
    field o f = Some (VList (map (fun e => VLeaf (LRef (mkRef (xattr "BASE" e) (xattr "DEST" e) (xtext e)))) (findall p y))).
Proof.
  intros b ex f p T A. destruct (c60_at _ T A) as (o & w & O & _ & W & l & R & ->). exists o. split; [exact O|]. cbn [t_attr] in W. rewrite W. do 2 f_equal.
  unfold leaf_list in R. clear W. revert l R. generalize (findall p y). clear. intros xs. induction xs as [|e es IH]; intros l R; cbn in R; [injection R as <-; reflexivity|].
  destruct (leaf_items RRef es) as [l'|e']; [|discriminate R]. injection R as <-. cbn [map]. now rewrite (IH l' eq_refl).
Qed.
Lemma c60_literal : forall b ex f p, In (mkText b ex f [] (SText RLiteral p)) text_rows -> t_applies (mkText b ex f [] (SText RLiteral p)) c = true ->
  exists o, object_at way u = Some o /\ field o f = Some (match find p y with
    | Some e => VLeaf (LLit "ARLiteral" (mkLit (xattr "T" e) (xattr "UUID" e) (Some (match xtext e with Some s => s | None => "" end))))
    | None => VNone end).
Proof.
  intros b ex f p T A. destruct (c60_at _ T A) as (o & w & O & _ & W & l & R & ->). exists o. split; [exact O|]. cbn [t_attr] in W. rewrite W. f_equal.
  unfold leaf_read in R. destruct (find p y) as [e|]; injection R as <-; [|reflexivity]. unfold lit_of. destruct (xtext e); reflexivity.
Qed.
Lemma c60_category : In c bare -> exists o, object_at way u = Some o /\ class_name o = Some c /\ field o "category" = Some VNone.
Proof. intros B. destruct (c60_all warn x u way c y L I E) as (o & O & C & _ & H & _). exists o. auto. Qed.
Lemma c60_stamps : In c stampless -> exists o, object_at way u = Some o /\ class_name o = Some c /\ field o "timestamp" = Some VNone /\ field o "uuid" = Some VNone.
Proof. intros B. destruct (c60_all warn x u way c y L I E) as (o & O & C & _ & _ & H). exists o. auto. Qed.
End Place.

Definition pair_in (p : string * string) (l : list (string * string)) : bool := existsb (fun q => String.eqb (fst p) (fst q) && String.eqb (snd p) (snd q)) l.
Lemma names_ok : forallb (fun t => if pair_in (t_class t, t_attr t) renamed then true else same_name t) text_rows = true.
Proof. vm_compute. reflexivity. Qed.
Lemma c60_names : forall t, In t text_rows -> ~ In (t_class t, t_attr t) renamed -> same_name t = true.
Proof.
  intros t T N. pose proof names_ok as K. rewrite forallb_forall in K. specialize (K t T). destruct (pair_in (t_class t, t_attr t) renamed) eqn:P; [|exact K].
  exfalso. apply N. apply existsb_exists in P. destruct P as ([a b] & J & Q). cbn [fst snd] in Q. apply andb_true_iff in Q. destruct Q as [Q1 Q2].
  apply String.eqb_eq in Q1, Q2. now subst.
Qed.

(** *** documents *)
Definition trow_is (c a : string) (r : trow) : bool := if String.eqb (t_class r) c then String.eqb (t_attr r) a else false.
Fixpoint trow_in (p : trow -> bool) (l : list trow) : option trow := match l with [] => None | r :: l => if p r then Some r else trow_in p l end.
Lemma trow_in_in : forall p l r, trow_in p l = Some r -> In r l.
Proof. intros p l r. induction l as [|q l IH]; intros E; [discriminate E|]. cbn in E. destruct (p q); [injection E as <-; now left|right; exact (IH E)]. Qed.

Definition package (els : list xml) : xml := tagged "AUTOSAR" [tagged "AR-PACKAGES" [named_xml "AR-PACKAGE" "P" [tagged "ELEMENTS" els]]].
Definition signal_xml : xml := named_xml "I-SIGNAL" "s" [El "I-SIGNAL-TYPE" [] (Some "PRIMITIVE") []; El "LENGTH" [] (Some "8") [];
  El "SYSTEM-SIGNAL-REF" [("DEST", "SYSTEM-SIGNAL")] (Some "/P/sig") []].
Definition signal_doc : xml := package [signal_xml].
Definition signal_u : val := Eval vm_compute in value (load_run false signal_doc).
Lemma signal_loaded : loaded false signal_doc signal_u.
Proof. apply loaded_run. vm_compute. reflexivity. Qed.
Definition element_way : list (row * nat) := Eval vm_compute in [(the_row "AUTOSAR" "arPackages", 0); (the_row "ARPackage" "elements", 0)].
Lemma element_rows : Forall (fun p => In (fst p) kept_rows) element_way.
Proof. constructor; [exact (the_row_in "AUTOSAR" "arPackages" eq_refl)|]. constructor; [exact (the_row_in "ARPackage" "elements" eq_refl)|]. constructor. Qed.
Lemma signal_at : element_at "AUTOSAR" element_way signal_doc = Some ("ISignal", signal_xml).
Proof. vm_compute. reflexivity. Qed.
Definition signal_ref : trow := mkText "ISignal" [] "systemSignalRef" [] (SText RRef "SYSTEM-SIGNAL-REF").
Definition signal_type : trow := mkText "ISignal" [] "iSignalType" [] (SText RLiteral "I-SIGNAL-TYPE").
Lemma signal_ref_in : In signal_ref text_rows.
Proof. apply (trow_in_in (trow_is "ISignal" "systemSignalRef")). vm_compute. reflexivity. Qed.
Lemma signal_type_in : In signal_type text_rows.
Proof. apply (trow_in_in (trow_is "ISignal" "iSignalType")). vm_compute. reflexivity. Qed.
Lemma signal_object : exists o, object_at element_way signal_u = Some o /\
  field o "systemSignalRef" = Some (VLeaf (LRef (mkRef None (Some "SYSTEM-SIGNAL") (Some "/P/sig")))).
Proof. eexists. split; vm_compute; reflexivity. Qed.
(** a list of references *)
Definition coll_xml : xml := named_xml "COLLECTION" "c" [tagged "ELEMENT-REFS" [El "ELEMENT-REF" [("DEST", "I-SIGNAL")] (Some "/P/b") []; El "ELEMENT-REF" [("DEST", "I-SIGNAL")] (Some "/P/a") []]].
Definition coll_doc : xml := package [signal_xml; coll_xml].
Definition coll_u : val := Eval vm_compute in value (load_run true coll_doc).
Lemma coll_loaded : loaded true coll_doc coll_u.
Proof. apply loaded_run. vm_compute. reflexivity. Qed.
Definition second_way : list (row * nat) := Eval vm_compute in [(the_row "AUTOSAR" "arPackages", 0); (the_row "ARPackage" "elements", 1)].
Lemma second_rows : Forall (fun p => In (fst p) kept_rows) second_way.
Proof. constructor; [exact (the_row_in "AUTOSAR" "arPackages" eq_refl)|]. constructor; [exact (the_row_in "ARPackage" "elements" eq_refl)|]. constructor. Qed.
Lemma coll_at : element_at "AUTOSAR" second_way coll_doc = Some ("Collection", coll_xml).
Proof. vm_compute. reflexivity. Qed.
Lemma coll_in : In (mkText "Collection" [] "elementRefs" [] (STexts RRef "ELEMENT-REFS/ELEMENT-REF")) text_rows.
Proof. apply (trow_in_in (trow_is "Collection" "elementRefs")). vm_compute. reflexivity. Qed.
Lemma coll_object : exists o, object_at second_way coll_u = Some o /\
  field o "elementRefs" = Some (VList [VLeaf (LRef (mkRef None (Some "I-SIGNAL") (Some "/P/b"))); VLeaf (LRef (mkRef None (Some "I-SIGNAL") (Some "/P/a")))]).
Proof. eexists. split; vm_compute; reflexivity. Qed.

Definition uri_doc : xml := package [El "ECUC-DESTINATION-URI-DEF-SET" [("UUID", "u-1")] None [El "SHORT-NAME" [] (Some "d") []; El "CATEGORY" [] (Some "k") []]].
Definition uri_xml : xml := El "ECUC-DESTINATION-URI-DEF-SET" [("UUID", "u-1")] None [El "SHORT-NAME" [] (Some "d") []; El "CATEGORY" [] (Some "k") []].
Definition uri_u : val := Eval vm_compute in value (load_run false uri_doc).
Lemma uri_loaded : forall warn, loaded warn uri_doc uri_u.
Proof. intros warn. apply loaded_run. destruct warn; vm_compute; reflexivity. Qed.
Definition uri_v : val := Eval vm_compute in match object_at element_way uri_u with Some o => o | None => VNone end.
Lemma uri_case : forall warn, exists x u way c y i k o, loaded warn x u /\ Forall (fun p => In (fst p) kept_rows) way /\
  element_at "AUTOSAR" way x = Some (c, y) /\ isinst c "Identifiable" = true /\ xattr "UUID" y = Some i /\ find "CATEGORY" y = Some k /\
  object_at way u = Some o /\ field o "uuid" = Some VNone /\ field o "category" = Some VNone.
Proof.
  intros warn. exists uri_doc, uri_u, element_way, "EcucDestinationUriDefSet", uri_xml, "u-1", (El "CATEGORY" [] (Some "k") []), uri_v.
  split; [apply uri_loaded|]. split; [exact element_rows|]. repeat split; vm_compute; reflexivity.
Qed.

(** the same properties in a client and in a receiver communication specification *)
Definition props_xml : xml := tagged "TRANSFORMATION-COM-SPEC-PROPSS" [tagged "END-TO-END-TRANSFORMATION-COM-SPEC-PROPS" [El "MAX-DELTA-COUNTER" [] (Some "3") []]].
Definition spec_doc : xml := package [named_xml "APPLICATION-SW-COMPONENT-TYPE" "a" [tagged "PORTS" [named_xml "R-PORT-PROTOTYPE" "p"
  [tagged "REQUIRED-COM-SPECS" [tagged "CLIENT-COM-SPEC" [props_xml]; tagged "NONQUEUED-RECEIVER-COM-SPEC" [props_xml]]]]]].
Definition spec_u : val := Eval vm_compute in value (load_run false spec_doc).
Lemma spec_loaded : forall warn, loaded warn spec_doc spec_u.
Proof. intros warn. apply loaded_run. destruct warn; vm_compute; reflexivity. Qed.
Definition spec_way (i : nat) : list (row * nat) := element_way ++ [(the_row "SwComponentType" "ports", 0); (the_row "RPortPrototype" "requiredComSpecs", i)].
Lemma spec_rows : forall i, Forall (fun p => In (fst p) kept_rows) (spec_way i).
Proof.
  intros i. apply Forall_app. split; [exact element_rows|]. constructor; [exact (the_row_in "SwComponentType" "ports" eq_refl)|].
  constructor; [exact (the_row_in "RPortPrototype" "requiredComSpecs" eq_refl)|]. constructor.
Qed.
Definition spec_v (i : nat) : val := match object_at (spec_way i) spec_u with Some o => o | None => VNone end.
Lemma spec_case : forall warn, exists x u w1 w2 y1 y2 o1 o2 v, loaded warn x u /\ Forall (fun p => In (fst p) kept_rows) w1 /\ Forall (fun p => In (fst p) kept_rows) w2 /\
  element_at "AUTOSAR" w1 x = Some ("ClientComSpec", y1) /\ element_at "AUTOSAR" w2 x = Some ("NonqueuedReceiverComSpec", y2) /\
  findall "TRANSFORMATION-COM-SPEC-PROPSS/*" y1 <> [] /\ findall "TRANSFORMATION-COM-SPEC-PROPSS/*" y2 = findall "TRANSFORMATION-COM-SPEC-PROPSS/*" y1 /\
  object_at w1 u = Some o1 /\ object_at w2 u = Some o2 /\
  field o1 "transformationComSpecProps" = Some (VList [v]) /\ field o2 "transformationComSpecProps" = Some (VList []).
Proof.
  intros warn. exists spec_doc, spec_u, (spec_way 0), (spec_way 1), (tagged "CLIENT-COM-SPEC" [props_xml]), (tagged "NONQUEUED-RECEIVER-COM-SPEC" [props_xml]), (spec_v 0), (spec_v 1).
  eexists. split; [apply spec_loaded|]. split; [apply spec_rows|]. split; [apply spec_rows|].
  split; [vm_compute; reflexivity|]. split; [vm_compute; reflexivity|]. split; [vm_compute; discriminate|]. repeat split; vm_compute; reflexivity.
Qed.
