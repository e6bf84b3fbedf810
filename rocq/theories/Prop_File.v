(** C35 for files: from the model object to the text of the file and back.  [saved_text] composes the
    writer code with ElementTree's and minidom's printing and the patch of the printed text,
    [loaded_text] the XML parser with the reader code (SpecFile.v).

    Missing: the attributes outside the domain [ok] (C36); texts with characters that are not
    printable, with non-ASCII code points, with xml:space, and numbers without a text. *)
From Coq Require Import String Ascii List Bool Floats.SpecFloat.
From Verif Require Import PyBase Primitives Xml Leaf Ir Access IrSem SpecDomain SpecRoundTrip RoundTripCases Serial SpecSerial SpecFile File FileCases.
Import ListNotations.
Open Scope string_scope.
Open Scope list_scope.

(** every document can be saved, and loading the file gives the document back *)
Theorem C35_file_partial : forall repr warn decl location u,
  ok u -> class_of u = Some "AUTOSAR" -> tidy false u = true -> opt_line true location = true ->
  exists s, saved_text repr warn decl location u s /\ loaded_text warn s (Some (location_or_default location)) u.
Proof. exact file_round_trip. Qed.
Print Assumptions C35_file_partial.

(** nothing else can be loaded from the file *)
Theorem C35_file_unique_partial : forall repr warn decl location u s,
  ok u -> class_of u = Some "AUTOSAR" -> tidy false u = true -> opt_line true location = true ->
  saved_text repr warn decl location u s ->
  forall location' u', loaded_text warn s location' u' -> location' = Some (location_or_default location) /\ u' = u.
Proof. exact file_unique. Qed.
Print Assumptions C35_file_unique_partial.

(** saving what was loaded writes the same file, character by character *)
Theorem C35_file_stable_partial : forall repr warn decl location u s,
  ok u -> class_of u = Some "AUTOSAR" -> tidy false u = true -> opt_line true location = true ->
  saved_text repr warn decl location u s ->
  forall location' u' s', loaded_text warn s location' u' -> saved_text repr warn decl location' u' s' -> s' = s.
Proof. exact file_stable. Qed.
Print Assumptions C35_file_stable_partial.

(** a document with 94 elements of different classes *)
Example C35_file_case : ok sample_document /\ class_of sample_document = Some "AUTOSAR" /\ tidy false sample_document = true /\ length sample_elements = 94.
Proof. split; [apply sample_document_ok|]. split; [apply sample_document_ok|]. split; [exact sample_document_tidy|vm_compute; reflexivity]. Qed.

(** a small document and its file *)
Example C35_file_text : forall repr warn,
  saved_text repr warn true (Some "http://autosar.org/schema/r4.0 AUTOSAR_00048.xsd") small_document small_text /\
  loaded_text warn small_text (Some "http://autosar.org/schema/r4.0 AUTOSAR_00048.xsd") small_document.
Proof. intros repr warn. split; [apply small_saved|apply small_loaded]. Qed.
