(** Concrete files for C35. *)
From Coq Require Import String Ascii List Bool Floats.SpecFloat.
From Verif Require Import PyBase Primitives Xml Leaf Ir Access IrSem SpecDomain SpecRoundTrip RoundTripParts RoundTripCases Serial SpecSerial SpecFile File.
Import ListNotations.
Open Scope string_scope.
Open Scope list_scope.

Definition sample_document : val := document VNone [tree_val RoundTripCases.sample_tree].
Lemma sample_document_ok : ok sample_document /\ class_of sample_document = Some "AUTOSAR".
Proof.
  split; [|vm_compute; reflexivity]. apply (forest_ok VNone [RoundTripCases.sample_tree]); [now left|constructor; [exact sample_tree_good|constructor]|reflexivity|].
  constructor; [intros []|constructor].
Qed.
Lemma sample_document_tidy : tidy false sample_document = true.
Proof. vm_compute. reflexivity. Qed.

(** a package with one element, as a file *)
Definition small_document : val := document VNone [package "P" [named_init "SwBaseType" (VStr "uint8")]].
Definition eol : string := String (ascii_of_nat 10) "".
Definition q : string := String (ascii_of_nat 34) "".
Definition small_text : string :=
  ("<?xml version=" ++ q ++ "1.0" ++ q ++ " encoding=" ++ q ++ "UTF-8" ++ q ++ "?>" ++ eol ++
   "<AUTOSAR xmlns=" ++ q ++ "http://autosar.org/schema/r4.0" ++ q ++ " xmlns:xsi=" ++ q ++ "http://www.w3.org/2001/XMLSchema-instance" ++ q ++
   " xsi:schemaLocation=" ++ q ++ "http://autosar.org/schema/r4.0 AUTOSAR_00048.xsd" ++ q ++ ">" ++ eol ++
   "  <AR-PACKAGES>" ++ eol ++
   "    <AR-PACKAGE>" ++ eol ++
   "      <SHORT-NAME>P</SHORT-NAME>" ++ eol ++
   "      <ELEMENTS>" ++ eol ++
   "        <SW-BASE-TYPE>" ++ eol ++
   "          <SHORT-NAME>uint8</SHORT-NAME>" ++ eol ++
   "        </SW-BASE-TYPE>" ++ eol ++
   "      </ELEMENTS>" ++ eol ++
   "    </AR-PACKAGE>" ++ eol ++
   "  </AR-PACKAGES>" ++ eol ++
   "</AUTOSAR>" ++ eol)%string.
Lemma small_saved : forall repr warn, saved_text repr warn true (Some "http://autosar.org/schema/r4.0 AUTOSAR_00048.xsd") small_document small_text.
Proof.
  intros repr warn. exists (tagged "AUTOSAR" [tagged "AR-PACKAGES" [named_xml "AR-PACKAGE" "P" [tagged "ELEMENTS" [named_xml "SW-BASE-TYPE" "uint8" []]]]]).
  split; [|vm_compute; reflexivity]. eexists. split; [exists 60; destruct warn; vm_compute; reflexivity|reflexivity].
Qed.
Lemma small_loaded : forall warn, loaded_text warn small_text (Some "http://autosar.org/schema/r4.0 AUTOSAR_00048.xsd") small_document.
Proof.
  intros warn. eexists. split; [vm_compute; reflexivity|]. split; [now right|]. split; [vm_compute; reflexivity|]. exists 60. destruct warn; vm_compute; reflexivity.
Qed.
