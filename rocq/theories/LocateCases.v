(** Documents for C58. *)
From Coq Require Import String Ascii List Bool.
From Verif Require Import PyBase Primitives Xml Leaf ClassTable Ir Access IrSem ObjHeap SpecHeap HeapProps Creators SpecRoundTrip RoundTripLoss
  Locate SpecLocate LocateCheck LocateProps.
Import ListNotations.
Open Scope string_scope.
Open Scope list_scope.

Definition doc_u (x : xml) : val := value (load_run false x).
(** what a computed search finds lives there *)
Definition walked (u : val) (ns : list string) : option val :=
  match value_find_from rows u ns with Done (Some v) => Some v | _ => None end.
Lemma walked_lives : forall u ns v, walked u ns = Some v -> lives u (nonempty_names ns) v.
Proof.
  intros u ns v H. unfold walked in H. apply walk_sound. destruct (value_find_from rows u ns) as [[w|]| | |]; try discriminate. now injection H as ->.
Qed.
Lemma find_rows : forall u path, doc_find_path u path = value_find_from rows u (split_char "/" path).
Proof. intros. unfold doc_find_path. now rewrite rows_eq. Qed.
Lemma find_ref_rows : forall u r, doc_find_ref u r = value_find_ref rows u r.
Proof. intros. unfold doc_find_ref. now rewrite rows_eq. Qed.

(** a document with two nested packages, a component with a runnable, a base type *)
Definition located_doc : xml :=
  tagged "AUTOSAR" [tagged "AR-PACKAGES" [named_xml "AR-PACKAGE" "P" [
    tagged "ELEMENTS" [
      named_xml "APPLICATION-SW-COMPONENT-TYPE" "a" [tagged "INTERNAL-BEHAVIORS" [named_xml "SWC-INTERNAL-BEHAVIOR" "b"
        [tagged "RUNNABLES" [named_xml "RUNNABLE-ENTITY" "r" []]]]];
      named_xml "SW-BASE-TYPE" "t" []; named_xml "SYSTEM-SIGNAL" "s" []];
    tagged "AR-PACKAGES" [named_xml "AR-PACKAGE" "Q" []]]]].
Definition located_u : val := Eval vm_compute in doc_u located_doc.
Definition walked_to (u : val) (ns : list string) : val := match walked u ns with Some v => v | None => VNone end.
Lemma located_loaded : loaded false located_doc located_u.
Proof. apply loaded_run. vm_compute. reflexivity. Qed.
Definition located_v : val := Eval vm_compute in walked_to located_u ["P"; "a"; "b"; "r"].
Lemma located_lives : lives located_u ["P"; "a"; "b"; "r"] located_v.
Proof. apply (walked_lives located_u ["P"; "a"; "b"; "r"] located_v). vm_compute. reflexivity. Qed.
Lemma located_class : class_name located_v = "RunnableEntity".
Proof. vm_compute. reflexivity. Qed.
Lemma located_path : doc_find_path located_u "/P/a/b/r" = Done (Some located_v).
Proof. rewrite find_rows. vm_compute. reflexivity. Qed.
Lemma located_ref : doc_find_ref located_u (mkRef None (Some "RUNNABLE-ENTITY") (Some "P/a//b/r/")) = Done (Some located_v).
Proof. rewrite find_ref_rows. vm_compute. reflexivity. Qed.
Lemma located_not : doc_find_path located_u "/P/a/r" = Done None.
Proof. rewrite find_rows. vm_compute. reflexivity. Qed.

(** the RAM block of an NvBlockDescriptor has a name but is in no collection *)
Definition hidden_u : val := Eval vm_compute in doc_u ram_block.
Lemma hidden_loaded : forall warn, loaded warn ram_block hidden_u.
Proof. intros warn. apply loaded_run. destruct warn; vm_compute; reflexivity. Qed.
Definition hidden_o : val := Eval vm_compute in walked_to hidden_u ["P"; "a"; "b"].
Lemma hidden_lives : lives hidden_u ["P"; "a"; "b"] hidden_o.
Proof. apply (walked_lives hidden_u ["P"; "a"; "b"] hidden_o). vm_compute. reflexivity. Qed.
Definition hidden_v : val := Eval vm_compute in match field hidden_o "ramBlock" with Some v => v | None => VNone end.
Lemma hidden_field : field hidden_o "ramBlock" = Some hidden_v.
Proof. vm_compute. reflexivity. Qed.
Lemma hidden_named : named hidden_v "r" /\ isinst (class_name hidden_v) "Identifiable" = true.
Proof. split; vm_compute; reflexivity. Qed.
Lemma hidden_not : doc_find_path hidden_u "/P/a/b/r" = Done None.
Proof. rewrite find_rows. vm_compute. reflexivity. Qed.
Lemma hidden_case : forall warn, exists x u ns n o f v, loaded warn x u /\ lives u ns o /\ field o f = Some v /\
  isinst (class_name v) "Identifiable" = true /\ named v n /\ doc_find_path u (slash_path (ns ++ [n])) = Done None.
Proof.
  intros warn. exists ram_block, hidden_u, ["P"; "a"; "b"], "r", hidden_o, "ramBlock", hidden_v.
  split; [apply hidden_loaded|]. split; [exact hidden_lives|]. split; [exact hidden_field|]. destruct hidden_named. repeat (split; [assumption|]). exact hidden_not.
Qed.

(** hardware elements have no collection *)
Definition hw_doc : xml := elements_xml [named_xml "HW-ELEMENT" "h" [tagged "HW-PIN-GROUPS" [named_xml "HW-PIN-GROUP" "g" []]]].
Definition hw_u : val := Eval vm_compute in doc_u hw_doc.
Lemma hw_loaded : forall warn, loaded warn hw_doc hw_u.
Proof. intros warn. apply loaded_run. destruct warn; vm_compute; reflexivity. Qed.
Lemma hw_raises : doc_find_path hw_u "/P/h/g" = Exc AttributeError.
Proof. rewrite find_rows. vm_compute. reflexivity. Qed.
Lemma hw_case : forall warn, exists x u path, loaded warn x u /\ doc_find_path u path = Exc AttributeError.
Proof. intros warn. exists hw_doc, hw_u, "/P/h/g". split; [apply hw_loaded|exact hw_raises]. Qed.

Definition slash_doc : xml := elements_xml [named_xml "SW-BASE-TYPE" "a/b" []].
Definition slash_u : val := Eval vm_compute in doc_u slash_doc.
Definition slash_v : val := Eval vm_compute in walked_to slash_u ["P"; "a/b"].
Lemma slash_loaded : forall warn, loaded warn slash_doc slash_u.
Proof. intros warn. apply loaded_run. destruct warn; vm_compute; reflexivity. Qed.
Lemma slash_lives : lives slash_u ["P"; "a/b"] slash_v.
Proof. apply (walked_lives slash_u ["P"; "a/b"] slash_v). vm_compute. reflexivity. Qed.
Lemma slash_not : doc_find_path slash_u "/P/a/b" = Done None.
Proof. rewrite find_rows. vm_compute. reflexivity. Qed.
Lemma slash_case : forall warn, exists x u ns v, loaded warn x u /\ lives u ns v /\ ~ In "" ns /\ doc_find_path u (slash_path ns) = Done None.
Proof.
  intros warn. exists slash_doc, slash_u, ["P"; "a/b"], slash_v. split; [apply slash_loaded|]. split; [exact slash_lives|]. split; [|exact slash_not].
  intros [H|[H|[]]]; discriminate H.
Qed.

(** *** references whose DEST is the tag of the element they point to *)
Lemma conform_check : forallb (fun p => Bool.eqb (existsb (fun k => String.eqb (xml_name k) (fst p) && isinst (snd p) k) dest_kinds)
  (existsb (String.eqb (fst p)) conform_tags)) readable_elements = true.
Proof. vm_compute. reflexivity. Qed.
Lemma tags_filled : forallb (fun p => negb (String.eqb (fst p) "")) readable_elements = true.
Proof. vm_compute. reflexivity. Qed.
Lemma c58_conform : forall u b t c path v, In (t, c) readable_elements -> doc_find_path u path = Done (Some v) -> class_name v = c ->
  (doc_find_ref u (mkRef b (Some t) (Some path)) = Done (Some v) <-> In t conform_tags).
Proof.
  intros u b t c path v I H C.
  assert (N : t <> ""). { intros ->. pose proof tags_filled as K. rewrite forallb_forall in K. specialize (K _ I). discriminate. }
  rewrite (c58_ref u b t path v N H). pose proof conform_check as K. rewrite forallb_forall in K. specialize (K _ I). cbn [fst snd] in K.
  apply eqb_prop in K. subst c. split.
  - intros (k & A & B & D). apply (inb_in t conform_tags). unfold inb. rewrite <- K. apply existsb_exists. exists k. split; [exact A|].
    rewrite B, String.eqb_refl, D. reflexivity.
  - intros J. apply (inb_in t conform_tags) in J. unfold inb in J. rewrite J in K. apply existsb_exists in K. destruct K as (k & A & B).
    apply andb_true_iff in B. destruct B as [B D]. apply String.eqb_eq in B. now exists k.
Qed.
Definition dest_doc : xml := elements_xml [named_xml "APPLICATION-SW-COMPONENT-TYPE" "a" []; named_xml "SW-BASE-TYPE" "t" []].
Definition dest_u : val := Eval vm_compute in doc_u dest_doc.
Definition dest_v : val := Eval vm_compute in walked_to dest_u ["P"; "a"].
Definition dest_w : val := Eval vm_compute in walked_to dest_u ["P"; "t"].
Lemma dest_loaded : forall warn, loaded warn dest_doc dest_u.
Proof. intros warn. apply loaded_run. destruct warn; vm_compute; reflexivity. Qed.
Lemma dest_found : doc_find_path dest_u "/P/a" = Done (Some dest_v) /\ doc_find_path dest_u "/P/t" = Done (Some dest_w).
Proof. rewrite !find_rows. split; vm_compute; reflexivity. Qed.
Lemma dest_classes : class_name dest_v = "ApplicationSwComponentType" /\ class_name dest_w = "SwBaseType".
Proof. split; vm_compute; reflexivity. Qed.
Lemma dest_fails : doc_find_ref dest_u (mkRef None (Some "APPLICATION-SW-COMPONENT-TYPE") (Some "/P/a")) = Exc ValueError /\
  doc_find_ref dest_u (mkRef None (Some "SW-BASE-TYPE") (Some "/P/t")) = Exc NotImplementedError.
Proof. rewrite !find_ref_rows. split; vm_compute; reflexivity. Qed.
Lemma dest_case : forall warn, exists x u v w, loaded warn x u /\
  doc_find_path u "/P/a" = Done (Some v) /\ class_name v = "ApplicationSwComponentType" /\
  doc_find_ref u (mkRef None (Some "APPLICATION-SW-COMPONENT-TYPE") (Some "/P/a")) = Exc ValueError /\
  doc_find_path u "/P/t" = Done (Some w) /\ class_name w = "SwBaseType" /\
  doc_find_ref u (mkRef None (Some "SW-BASE-TYPE") (Some "/P/t")) = Exc NotImplementedError.
Proof.
  intros warn. exists dest_doc, dest_u, dest_v, dest_w. split; [apply dest_loaded|]. destruct dest_found, dest_classes, dest_fails.
  repeat (split; [assumption|]). assumption.
Qed.
