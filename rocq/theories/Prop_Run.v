(** C55: how loading ends; C56: saving what was loaded.  Vocabulary: SpecRun.v, SpecRoundTrip.v, SpecTolerant.v. *)
From Coq Require Import String List.
From Verif Require Import PyBase Xml Ir IrSem SpecRoundTrip SpecTolerant SpecRun TypeProps RunCases.
Import ListNotations.
Open Scope string_scope.

(** Loading any XML tree ends, in a document or in one of five exceptions; no KeyError, TypeError,
    IndexError or recursion without end.  Missing: what happens after a name clash ([NameInUse]). *)
Theorem C55_load_ends_partial : forall warn x, (exists u, loaded warn x u) \/ (exists e, load_raises warn x e /\ load_error warn e).
Proof. exact load_outcome. Qed.
Print Assumptions C55_load_ends_partial.

(** There is no other exception, and no second outcome. *)
Theorem C55_load_errors_partial : forall warn x e, load_raises warn x e -> load_error warn e.
Proof. exact load_raises_error. Qed.
Print Assumptions C55_load_errors_partial.
Theorem C55_load_once : forall warn x u v, loaded warn x u -> loaded warn x v -> u = v.
Proof. exact load_once. Qed.
Print Assumptions C55_load_once.
Theorem C55_load_either : forall warn x u e, loaded warn x u -> ~ load_raises warn x e.
Proof. exact load_either. Qed.
Print Assumptions C55_load_either.

(** AttributeError comes from three kinds of elements only. *)
Theorem C55_attribute_error : forall warn x, load_raises warn x AttributeError -> has_any unreadable_tags x.
Proof. exact attribute_error. Qed.
Print Assumptions C55_attribute_error.
(** TypeError comes from empty short names; missing: documents with one of the elements of [faulty_tags]. *)
Theorem C55_type_error_partial : forall warn x, load_raises warn x TypeError -> nameless x \/ has_any faulty_tags x.
Proof. exact type_error. Qed.
Print Assumptions C55_type_error_partial.
(** A package with an empty short name cannot be loaded, with or without the warning option, nor can
    an implementation or a BSW behaviour; a signal mapping without a signal cannot either. *)
Theorem C55_empty_name_refuted : exists x, ~ has_any faulty_tags x /\ forall warn, load_raises warn x TypeError.
Proof. exact (ex_intro _ unnamed_package (conj (proj1 (proj2 (proj2 (proj2 (proj2 type_cases))))) (proj1 type_cases))). Qed.
Print Assumptions C55_empty_name_refuted.
Theorem C55_signal_mapping_refuted : exists x, ~ nameless x /\ forall warn, load_raises warn x AttributeError.
Proof. exact (ex_intro _ plain_mapping (conj (proj1 (proj2 (proj2 (proj2 (proj2 (proj2 type_cases)))))) (proj1 (proj2 (proj2 (proj2 type_cases)))))). Qed.
Print Assumptions C55_signal_mapping_refuted.

(** In a loaded document no object lacks an attribute. *)
Theorem C55_objects_complete : forall warn x u, loaded warn x u -> complete u.
Proof. exact loaded_complete. Qed.
Print Assumptions C55_objects_complete.

(** Every one of the exceptions does occur. *)
Example C55_cases :
  (forall warn, load_raises warn bad_size ValueError) /\ (forall warn, load_raises warn literal_def AttributeError) /\ (forall warn, load_raises warn bulk_block AttributeError) /\
  load_raises true strange_value UnboundLocalError /\ load_raises false strange_value NotImplementedError /\ load_raises false strange_port NotImplementedError.
Proof. exact load_cases. Qed.
Example C55_type_cases : (forall warn, load_raises warn unnamed_package TypeError) /\ (forall warn, load_raises warn unnamed_implementation TypeError) /\
  (forall warn, load_raises warn unnamed_behavior TypeError) /\ (forall warn, load_raises warn plain_mapping AttributeError).
Proof. exact (conj (proj1 type_cases) (conj (proj1 (proj2 type_cases)) (conj (proj1 (proj2 (proj2 type_cases))) (proj1 (proj2 (proj2 (proj2 type_cases))))))). Qed.
Example C55_clash : forall warn, load_raises warn same_name NameInUse.
Proof. exact same_name_case. Qed.

(** The warning option does not make a load go on after content it does not know: an unknown kind
    of value raises UnboundLocalError.  (C34_warning_result: unknown elements of packages do no harm.) *)
Theorem C55_warning_option_refuted : exists x, load_raises true x UnboundLocalError.
Proof. exact (ex_intro _ strange_value (proj1 (proj2 (proj2 (proj2 load_cases))))). Qed.
Print Assumptions C55_warning_option_refuted.

(** A document that was loaded, in either mode, can be saved: in warning mode always, otherwise
    unless something is not implemented; if it has none of five kinds of elements and no empty
    short name.  Missing: these documents, and documents with a name clash. *)
Theorem C56_save_warning_partial : forall repr w x u, loaded w x u -> ~ has_any faulty_tags x -> ~ nameless x -> exists y, saved repr true u y.
Proof. exact save_warning. Qed.
Print Assumptions C56_save_warning_partial.
Theorem C56_save_strict_partial : forall repr w warn x u, loaded w x u -> ~ has_any faulty_tags x -> ~ nameless x ->
  (exists y, saved repr warn u y) \/ warn = false /\ saving_raises repr warn u NotImplementedError.
Proof. exact save_outcome. Qed.
Print Assumptions C56_save_strict_partial.
Theorem C56_save_errors_partial : forall repr w warn x u e, loaded w x u -> ~ has_any faulty_tags x -> ~ nameless x ->
  saving_raises repr warn u e -> warn = false /\ e = NotImplementedError.
Proof. exact save_errors. Qed.
Print Assumptions C56_save_errors_partial.
Theorem C56_save_once : forall repr warn u x y, saved repr warn u x -> saved repr warn u y -> x = y.
Proof. exact save_once. Qed.
Print Assumptions C56_save_once.

Example C56_plain : forall repr warn, ~ has_any faulty_tags plain /\ ~ nameless plain /\ exists u y, loaded warn plain u /\ saved repr warn u y /\ xkids y <> [].
Proof. exact plain_case. Qed.
Example C56_not_implemented : forall repr, save_raises repr false value_collection NotImplementedError /\ ~ has_any faulty_tags value_collection /\ ~ nameless value_collection.
Proof. exact strict_save_case. Qed.

(** Neither condition can be dropped. *)
Theorem C56_empty_name_refuted : exists x, forall repr warn, save_raises repr warn x TypeError /\ ~ has_any faulty_tags x.
Proof. exact (ex_intro _ unnamed_mode unnamed_case). Qed.
Print Assumptions C56_empty_name_refuted.
Theorem C56_mode_switch_point_refuted : exists x, forall repr warn, save_raises repr warn x AttributeError /\ ~ nameless x.
Proof. exact (ex_intro _ switch_point switch_case). Qed.
Print Assumptions C56_mode_switch_point_refuted.
