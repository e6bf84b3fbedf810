(** C39-C41: the text of a saved file. *)
From Coq Require Import String Ascii List Bool.
From Verif Require Import PyBase Xml Serial SpecSerial SerialFacts SerialExpand SerialPatch SerialCases.
Import ListNotations.
Open Scope string_scope.
Open Scope list_scope.

(** patch_xml without unescaping expands the self-closing tags without attributes, and does nothing else *)
Theorem C39_expand : forall s u, patch_xml false s = u <-> expanded s u.
Proof. exact expand_spec. Qed.
Print Assumptions C39_expand.
(** none is left *)
Theorem C39_none_left : forall s, ~ has_short (patch_xml false s).
Proof. exact patch_none_left. Qed.
Print Assumptions C39_none_left.
Theorem C39_idempotent : forall s, patch_xml false (patch_xml false s) = patch_xml false s.
Proof. exact patch_idempotent. Qed.
Print Assumptions C39_idempotent.
Theorem C39_unchanged : forall s, ~ has_short s <-> patch_xml false s = s.
Proof. exact patch_unchanged. Qed.
Print Assumptions C39_unchanged.
(** the parser sees the same tree, or fails on both texts *)
Theorem C39_same_tree : forall s, load_tree (patch_xml false s) = load_tree s.
Proof. exact patch_load. Qed.
Print Assumptions C39_same_tree.
Example C39_case :
  patch_xml false "<A><B/><C-1/> <D x='1'/><e.f/></A>" = "<A><B></B><C-1></C-1> <D x='1'/><e.f/></A>" /\
  load_tree "<A><B/><C-1/> <D x='1'/><e.f/></A>" = Some (El "A" [] None [El "B" [] None []; El "C-1" [] None []; El "D" [("x", "1")] None []; El "e.f" [] None []]).
Proof. exact expand_case. Qed.

(** With unescape_entities, trees without double quotes in attribute values still load to the same
    tree as without the option.  Missing: values with a double quote, for which it is false. *)
Theorem C40_unescape_partial : forall decl x, writable x -> unquoted x ->
  exists s s', save_text decl true x = Some s /\ save_text decl false x = Some s' /\
               load_tree s = load_tree s' /\ exists y, load_tree s = Some y /\ same_tree x y.
Proof. exact unescape_loads. Qed.
Print Assumptions C40_unescape_partial.
Theorem C40_unescape_refuted : exists x, writable x /\ forall decl,
  (exists s y, save_text decl false x = Some s /\ load_tree s = Some y /\ same_tree x y) /\
  exists s, save_text decl true x = Some s /\ load_tree s = None.
Proof. exact unescape_breaks. Qed.
Print Assumptions C40_unescape_refuted.
(** loading can also succeed with other attributes *)
Theorem C40_injection_refuted : exists x, writable x /\ forall decl, exists s,
  save_text decl true x = Some s /\ load_tree s = Some (El "SD" [("GID", "a"); ("UUID", "b")] (Some "t") []) /\ ~ same_tree x (El "SD" [("GID", "a"); ("UUID", "b")] (Some "t") []).
Proof. exact unescape_changes. Qed.
Print Assumptions C40_injection_refuted.
Example C40_case : writable sample_tree /\ unquoted sample_tree.
Proof. exact sample_fits. Qed.

(** Saving and loading a tree gives the same tree up to layout: for trees with ASCII names, texts of
    printable characters, tabs and line feeds, and values of printable characters.  Missing: other
    names; carriage returns, and line ends and tabs in values, for which it is false. *)
Theorem C41_round_trip_partial : forall decl x, writable x ->
  exists s y, save_text decl false x = Some s /\ load_tree s = Some y /\ same_tree x y.
Proof. exact save_load_same. Qed.
Print Assumptions C41_round_trip_partial.
(** what exactly is loaded: the layout used by C35-C38 *)
Theorem C41_layout_partial : forall decl x, writable x ->
  exists s, save_text decl false x = Some s /\ load_tree s = Some (reload 0 x).
Proof. exact save_load. Qed.
Print Assumptions C41_layout_partial.
(** a carriage return in a text is loaded as a line feed *)
Theorem C41_return_refuted : exists x y decl s, save_text decl false x = Some s /\ load_tree s = Some y /\
  x = El "L-1" [] (Some (String "a" (String (Ascii.ascii_of_nat 13) "b"))) [] /\ y = El "L-1" [] (Some (String "a" (String (Ascii.ascii_of_nat 10) "b"))) [] /\ ~ same_tree x y.
Proof. exact return_lost. Qed.
Print Assumptions C41_return_refuted.
(** a line feed in an attribute value is loaded as a blank *)
Theorem C41_attribute_refuted : exists x y decl s, save_text decl false x = Some s /\ load_tree s = Some y /\
  x = El "SD" [("GID", String "a" (String (Ascii.ascii_of_nat 10) "b"))] None [] /\ y = El "SD" [("GID", "a b")] None [] /\ ~ same_tree x y.
Proof. exact attribute_line_lost. Qed.
Print Assumptions C41_attribute_refuted.
(** with a control character in a text nothing is saved: the parser of the first pass raises *)
Theorem C41_control_refuted : exists x, x = El "L-1" [] (Some (String (Ascii.ascii_of_nat 1) "")) [] /\ forall decl unescape, save_text decl unescape x = None.
Proof. exact control_raises. Qed.
Print Assumptions C41_control_refuted.
Example C41_case : writable sample_tree /\ save_text true false sample_tree <> None.
Proof. exact sample_saved. Qed.
