(** C57: the arxml-format command. *)
From Coq Require Import String List Bool Floats.SpecFloat.
From Verif Require Import PyBase Primitives Xml Leaf Ir Access IrSem SpecDomain SpecRoundTrip SpecTolerant SpecFile SpecRun Serial SpecSerial ArxmlFormat SpecPipeline PipelineProps PipelineCases.
Import ListNotations.
Open Scope string_scope.
Open Scope list_scope.

(** A file that loads to a document of C36 with printable texts is formatted, with -w or without;
    the output loads to the same document, or with --remove-admin-data to the document without the
    administrative data of itself, its packages and their elements.
    Missing: documents outside C36; --unescape-entities: below. *)
Theorem C57_format_partial : forall repr decl o s location u,
  loaded_text (o_warning o) s location u -> ok u -> class_of u = Some "AUTOSAR" -> tidy false u = true -> opt_line true location = true -> o_unescape o = false ->
  exists t v, arxml_format repr decl o s t /\ (if o_remove o then document_cleared u v else v = u) /\ forall w, loaded_text w t (Some (location_or_default location)) v.
Proof. exact format_result. Qed.
Print Assumptions C57_format_partial.
(** There is one output, for any file and all options. *)
Theorem C57_one_output : forall repr decl o s t t', arxml_format repr decl o s t -> arxml_format repr decl o s t' -> t = t'.
Proof. exact format_once. Qed.
Print Assumptions C57_one_output.
(** Formatting a formatted file changes nothing. *)
Theorem C57_again_partial : forall repr decl o o' s t location u,
  loaded_text (o_warning o) s location u -> ok u -> class_of u = Some "AUTOSAR" -> tidy false u = true -> opt_line true location = true -> o_unescape o = false ->
  arxml_format repr decl o s t -> o_unescape o' = false -> (o_remove o' = true -> o_remove o = true) -> arxml_format repr decl o' t t.
Proof. exact format_again. Qed.
Print Assumptions C57_again_partial.
(** Formatting a file that was saved by the library changes nothing. *)
Theorem C57_same_text_partial : forall repr decl o location u s,
  saved_text repr false decl location u s -> ok u -> class_of u = Some "AUTOSAR" -> tidy false u = true -> opt_line true location = true -> o_unescape o = false -> o_remove o = false ->
  arxml_format repr decl o s s.
Proof. exact same_text. Qed.
Print Assumptions C57_same_text_partial.
(** --unescape-entities: the output loads to the same as without the option, if no attribute value in
    it contains a double quote.  (C40_unescape_refuted, C40_injection_refuted: not otherwise.) *)
Theorem C57_unescape_partial : forall repr decl w r s t y location u,
  loaded_text w s location u -> ok u -> class_of u = Some "AUTOSAR" -> tidy false u = true -> opt_line true location = true ->
  arxml_format repr decl (mkOptions w r false) s t -> load_tree t = Some y -> unquoted y ->
  exists t', arxml_format repr decl (mkOptions w r true) s t' /\ forall w' location' v, loaded_text w' t' location' v <-> loaded_text w' t location' v.
Proof. exact format_unescape. Qed.
Print Assumptions C57_unescape_partial.

Example C57_case : ok full_document /\ class_of full_document = Some "AUTOSAR" /\ tidy false full_document = true /\ field full_document "adminData" <> Some VNone.
Proof. exact full_fits. Qed.
Example C57_case_file : forall repr decl warn, exists s, loaded_text warn s (Some default_location) full_document /\ saved_text repr false decl None full_document s.
Proof. exact full_case. Qed.

(** -w ("skip the error and report it as warning message") reaches the parser only: a file that can
    be loaded and saved in warning mode is not formatted. *)
Theorem C57_warning_refuted : exists s, forall repr decl remove unescape,
  arxml_format_save_fails repr (mkOptions true remove unescape) s NotImplementedError /\
  (forall t, ~ arxml_format repr decl (mkOptions true remove unescape) s t) /\
  exists u x, loaded_text true s None u /\ saved repr true u x.
Proof. exact (ex_intro _ value_text warning_saves_not). Qed.
Print Assumptions C57_warning_refuted.
(** --remove-admin-data ("remove all the AdminData") leaves the data of objects inside elements. *)
Theorem C57_remove_all_refuted : exists s, forall repr decl, exists t location v,
  arxml_format repr decl (mkOptions false true false) s t /\ loaded_text false t location v /\
  exists c fs w, part v (VObj c fs) /\ In ("adminData", w) fs /\ w <> VNone.
Proof. exact nested_data. Qed.
Print Assumptions C57_remove_all_refuted.
