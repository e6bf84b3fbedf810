(** Property C61: what the listing tools print for a file.
    [loaded warn x u]: loading root element [x] gives document [u]; [file_holds x l]: [l] are the
    elements of the packages of [x], each with the names of the packages around it; [swc_list],
    [system_signal], [memory_section]: the lines the command line tools print for [u]; [listed]:
    one line for each element with one of the tags, sorted by name, and no exception. *)
From Coq Require Import String List Bool.
From Verif Require Import PyBase Primitives Xml Leaf ClassTable Ir IrSem SpecRoundTrip SpecKeep Listing SpecListing ListingProps.
Import ListNotations.
Open Scope string_scope.
Open Scope list_scope.

(** Missing: several files on one command line (loaded into one document), files in which the reader
    meets a name already in use, and the heading line. *)
Theorem C61_components_partial : forall warn x u l format flt, loaded warn x u -> file_holds x l -> all_named (filter (tagged_in component_tags) l) ->
  listed (if asked flt "compositionswcomponent" then ["COMPOSITION-SW-COMPONENT-TYPE"] else component_tags) (asked format "long") l
    (fun n => swc_list n format flt u).
Proof. exact c61_components. Qed.
Print Assumptions C61_components_partial.

Theorem C61_signals_partial : forall warn x u l format, loaded warn x u -> file_holds x l -> all_named (filter (tagged_in ["SYSTEM-SIGNAL"]) l) ->
  listed ["SYSTEM-SIGNAL"] (asked format "full") l (fun n => system_signal n format u).
Proof. exact c61_signals. Qed.
Print Assumptions C61_signals_partial.

(** A file whose packages have names has exactly one such list. *)
Theorem C61_elements : forall x, packages_named x -> exists l, file_holds x l /\ forall k, file_holds x k -> k = l.
Proof. intros x H. destruct (c61_exists x H) as (l & L). exists l. split; [exact L|]. intros k K. exact (c61_one _ _ _ K L). Qed.
Print Assumptions C61_elements.

(** memory-section prints the system signals, whatever the options. *)
Theorem C61_memory_section : forall n format u, memory_section n format u = system_signal n None u.
Proof. exact c61_memory. Qed.
Print Assumptions C61_memory_section.

(** memory-section --format long prints a system signal, and its short name only. *)
Theorem C61_memory_long_refuted : exists x u l e, loaded true x u /\ file_holds x l /\ In e l /\ xtag (snd e) = "SYSTEM-SIGNAL" /\
  memory_section 3 (Some "long") u = Done ([text_name (snd e)], None) /\ slashed (fst e ++ [text_name (snd e)]) <> text_name (snd e).
Proof. exact c61_memory_long. Qed.
Print Assumptions C61_memory_long_refuted.

(** swc-list does not list parameter components: the reader has no class for them. *)
Theorem C61_parameter_refuted : exists x u l e, loaded true x u /\ file_holds x l /\ In e l /\ xtag (snd e) = "PARAMETER-SW-COMPONENT-TYPE" /\
  exists lines, swc_list 3 None None u = Done (lines, None) /\ ~ In (text_name (snd e)) lines.
Proof. exact c61_parameter. Qed.
Print Assumptions C61_parameter_refuted.

(** A file with components in two packages, one inside the other, and a system signal. *)
Example C61_case : loaded true listed_doc listed_u /\ file_holds listed_doc listed_l /\ all_named (filter (tagged_in component_tags) listed_l) /\
  swc_list 3 (Some "LONG") None listed_u = Done (["/P/Q/a"; "/P/Q/k"; "/P/z"], None) /\
  swc_list 3 None (Some "CompositionSwComponent") listed_u = Done (["k"], None) /\
  system_signal 3 (Some "full") listed_u = Done (["/P/s"], None).
Proof. exact (conj listed_loaded (conj listed_holds (conj listed_named (conj listed_long (conj listed_composition listed_signals))))). Qed.
