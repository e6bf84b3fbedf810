(** Properties C33 (leaf values round-trip), C43 (sibling order) and the reader half of C18.
    [leaf_write repr wk t v = Ok ws]: the writer call of kind [wk] appends the elements [ws];
    [reload d e] is [e] after the file was saved and parsed again (proved in Prop_Serial.v);
    [leaf_read rk t e]: what the reader call of kind [rk] returns.  [ks1], [ks2] are arbitrary
    other children of the parent, [p pa pt] its tag, attributes and text. *)
From Coq Require Import String Ascii List Bool ZArith.
From Coq Require Import Floats.SpecFloat.
From Verif Require Import PyBase Primitives SpecNum Xml Leaf SpecLeaf LeafProps.
Import ListNotations.
Open Scope string_scope.
Open Scope list_scope.

(** ** C33 *)
Theorem C33_absent : forall repr wk rk t d p pa pt ks, plain t -> absent t ks ->
  leaf_write repr wk t None = Ok [] /\ leaf_read rk t (reload d (El p pa pt ks)) = Ok None.
Proof. exact leaf_absent. Qed.
Print Assumptions C33_absent.

Theorem C33_literal : forall repr k cls c0 l t d p pa pt ks1 ks2,
  In (k, cls) [(RLiteral, "ARLiteral"); (RVerbatim, "VerbatimString"); (RIdentifier, "Identifier")] ->
  plain t -> absent t ks1 ->
  exists w l', leaf_write repr WText t (Some (LLit c0 l)) = Ok [w] /\
    leaf_read k t (reload d (El p pa pt (ks1 ++ w :: ks2))) = Ok (Some (LLit cls l')) /\ lit_eq l' l.
Proof. exact literal_back. Qed.
Print Assumptions C33_literal.

(** Missing: labels that do not start with three dotted groups of digits (next theorem). *)
Theorem C33_revision_partial : forall repr c0 l t d p pa pt ks1 ks2, plain t -> absent t ks1 ->
  RevText (lit_str l) ->
  exists w l', leaf_write repr WText t (Some (LLit c0 l)) = Ok [w] /\
    leaf_read RRevision t (reload d (El p pa pt (ks1 ++ w :: ks2)))
      = Ok (Some (LLit "RevisionLabelString" l')) /\ lit_eq l' l.
Proof. exact revision_back. Qed.
Print Assumptions C33_revision_partial.

(** Any other non-empty label is written without complaint and makes the file unreadable. *)
Theorem C33_revision_unreadable : forall repr c0 l t d p pa pt ks1 ks2, plain t -> absent t ks1 ->
  lit_str l <> "" -> ~ RevText (lit_str l) ->
  exists w, leaf_write repr WText t (Some (LLit c0 l)) = Ok [w] /\
    leaf_read RRevision t (reload d (El p pa pt (ks1 ++ w :: ks2))) = Raise ValueError.
Proof. exact revision_bad. Qed.
Print Assumptions C33_revision_unreadable.

(** Missing: a reference whose value is the empty string comes back with value None. *)
Theorem C33_reference_partial : forall repr r t d p pa pt ks1 ks2, plain t -> absent t ks1 ->
  not_blank (r_value r) ->
  exists w, leaf_write repr WRef t (Some (LRef r)) = Ok [w] /\
    leaf_read RRef t (reload d (El p pa pt (ks1 ++ w :: ks2))) = Ok (Some (LRef r)).
Proof. exact ref_back. Qed.
Print Assumptions C33_reference_partial.

(** Missing: empty value text, timestamp/uuid on the interval type (XML has no place for them). *)
Theorem C33_limit_partial : forall repr l t d p pa pt ks1 ks2, plain t -> absent t ks1 ->
  not_blank (li_value l) ->
  (forall i, li_interval l = Some i -> l_ts i = None /\ l_uuid i = None) ->
  exists w l', leaf_write repr WLimit t (Some (LLimit l)) = Ok [w] /\
    leaf_read RLimit t (reload d (El p pa pt (ks1 ++ w :: ks2))) = Ok (Some (LLimit l')) /\
    li_ts l' = li_ts l /\ li_uuid l' = li_uuid l /\ li_value l' = li_value l /\
    match li_interval l', li_interval l with
    | Some a, Some b => lit_eq a b | None, None => True | _, _ => False end.
Proof. exact limit_back. Qed.
Print Assumptions C33_limit_partial.

(** An ARNumerical assigned from a text comes back identical: value, text, label, T, UUID. *)
Theorem C33_numerical_text : forall repr cls n t d p pa pt ks1 ks2, plain t -> absent t ks1 ->
  text_assigned n ->
  exists w, leaf_write repr WNum t (Some (LNum cls n)) = Ok [w] /\
    leaf_read RNumerical t (reload d (El p pa pt (ks1 ++ w :: ks2))) = Ok (Some (LNum "ARNumerical" n)).
Proof. exact numerical_assigned_back. Qed.
Print Assumptions C33_numerical_text.

(** The other number kinds likewise.  Missing: a short label (only ARNumerical is read with
    one), timestamp/uuid of a TimeValue (written, not read), a negative PositiveInteger. *)
Theorem C33_number_text_partial : forall repr k wk cls c0 n t d p pa pt ks1 ks2,
  In (k, wk, cls) [(RInteger, WNum, "Integer"); (RPositive, WNum, "PositiveInteger");
                   (RFloat, WText, "ARFloat"); (RTime, WText, "TimeValue")] ->
  plain t -> absent t ks1 -> text_assigned n -> n_label n = None ->
  (k = RTime -> n_ts n = None /\ n_uuid n = None) ->
  (k = RPositive -> forall v, n_value n = Some v -> ~ numv_negative v) ->
  exists w, leaf_write repr wk t (Some (LNum c0 n)) = Ok [w] /\
    leaf_read k t (reload d (El p pa pt (ks1 ++ w :: ks2))) = Ok (Some (LNum cls n)).
Proof. exact typed_assigned_back. Qed.
Print Assumptions C33_number_text_partial.

(** A number assigned as an int comes back as the same number (as a float, so only up to
    2^53, see C13_refuted). *)
Theorem C33_int_partial : forall k wk cls repr c0 n z t d p pa pt ks1 ks2,
  num_writer k = Some (wk, cls) -> plain t -> absent t ks1 ->
  n_text n = None -> n_value n = Some (NInt z) -> (Z.abs z <= 2 ^ 53)%Z -> (k = RPositive -> (0 <= z)%Z) ->
  exists w n' v, leaf_write repr wk t (Some (LNum c0 n)) = Ok [w] /\
    leaf_read k t (reload d (El p pa pt (ks1 ++ w :: ks2))) = Ok (Some (LNum cls n')) /\
    n_value n' = Some v /\ numv_is v z.
Proof. exact int_back. Qed.
Print Assumptions C33_int_partial.

(** A float comes back as the same float when Python's repr of it reads back as itself. *)
Theorem C33_float_partial : forall k wk cls repr c0 n f t d p pa pt ks1 ks2,
  num_writer k = Some (wk, cls) -> plain t -> absent t ks1 ->
  n_text n = None -> n_value n = Some (NFloat f) -> convert (repr f) = Ok (NFloat f) ->
  (k = RPositive -> ~ numv_negative (NFloat f)) ->
  exists w n', leaf_write repr wk t (Some (LNum c0 n)) = Ok [w] /\
    leaf_read k t (reload d (El p pa pt (ks1 ++ w :: ks2))) = Ok (Some (LNum cls n')) /\
    n_value n' = Some (NFloat f).
Proof. exact float_back. Qed.
Print Assumptions C33_float_partial.

(** A numerical without value stays without value. *)
Theorem C33_number_unset : forall k cls repr c0 n t d p pa pt ks1 ks2,
  In (k, cls) [(RNumerical, "ARNumerical"); (RInteger, "Integer")] -> plain t -> absent t ks1 ->
  n_text n = None -> n_value n = None -> (k = RInteger -> n_label n = None) ->
  exists w, leaf_write repr WNum t (Some (LNum c0 n)) = Ok [w] /\
    leaf_read k t (reload d (El p pa pt (ks1 ++ w :: ks2))) = Ok (Some (LNum cls n)).
Proof. exact unset_back. Qed.
Print Assumptions C33_number_unset.

(** A boolean whose text says its value keeps value, text and timestamp.  Missing: the uuid. *)
Theorem C33_boolean_partial : forall repr b x t d p pa pt ks1 ks2, plain t -> absent t ks1 ->
  b_value b = Some x -> BoolText (strip (bool_str b)) x ->
  exists w b', leaf_write repr WText t (Some (LBool b)) = Ok [w] /\
    leaf_read RBool t (reload d (El p pa pt (ks1 ++ w :: ks2))) = Ok (Some (LBool b')) /\
    b_value b' = Some x /\ b_ts b' = b_ts b /\ bool_str b' = strip (bool_str b).
Proof. exact bool_back. Qed.
Print Assumptions C33_boolean_partial.

(** Boolean: the UUID is written but not read back. *)
Theorem C33_boolean_uuid_refuted : exists b w b', leaf_write (fun _ => "") WText "X" (Some (LBool b)) = Ok [w] /\
  leaf_read RBool "X" (reload 0 (El "P" [] None [w])) = Ok (Some (LBool b')) /\
  b_value b' = b_value b /\ b_uuid b' <> b_uuid b.
Proof.
  exists (mkBool None (Some "u1") (Some true) (Some "true")). eexists. eexists.
  split; [reflexivity|]. split; [reflexivity|]. split; [reflexivity|]. discriminate.
Qed.
Print Assumptions C33_boolean_uuid_refuted.

(** Boolean without value: comes back as false. *)
Theorem C33_boolean_unset_refuted : exists w b', leaf_write (fun _ => "") WText "X" (Some (LBool bool_new)) = Ok [w] /\
  leaf_read RBool "X" (reload 0 (El "P" [] None [w])) = Ok (Some (LBool b')) /\ b_value b' = Some false.
Proof. eexists. eexists. split; [reflexivity|]. split; reflexivity. Qed.
Print Assumptions C33_boolean_unset_refuted.

(** TimeValue: timestamp written but not read back. *)
Theorem C33_time_refuted : exists n w n', leaf_write (fun _ => "") WText "X" (Some (LNum "TimeValue" n)) = Ok [w] /\
  leaf_read RTime "X" (reload 0 (El "P" [] None [w])) = Ok (Some (LNum "TimeValue" n')) /\
  n_value n' = n_value n /\ n_ts n' <> n_ts n.
Proof.
  exists (mkNum (Some "2020") None (Some (NFloat (S754_zero false))) None (Some "0.0")). eexists. eexists.
  split; [reflexivity|]. split; [vm_compute; reflexivity|]. split; [reflexivity|]. discriminate.
Qed.
Print Assumptions C33_time_refuted.

(** ARFloat without value: written as the text None, which cannot be read. *)
Theorem C33_float_unset_refuted : exists w, leaf_write (fun _ => "") WText "X" (Some (LNum "ARFloat" num_new)) = Ok [w] /\
  leaf_read RFloat "X" (reload 0 (El "P" [] None [w])) = Raise ValueError.
Proof. eexists. split; [reflexivity|]. vm_compute. reflexivity. Qed.
Print Assumptions C33_float_unset_refuted.

(** Any number assigned the Python value True: written as the text True, which cannot be read. *)
Theorem C33_bool_number_refuted : exists n w, num_setValue KNum num_new (PBool true) = (n, None) /\
  leaf_write (fun _ => "") WNum "X" (Some (LNum "ARNumerical" n)) = Ok [w] /\
  leaf_read RNumerical "X" (reload 0 (El "P" [] None [w])) = Raise ValueError.
Proof. eexists. eexists. split; [reflexivity|]. split; [reflexivity|]. vm_compute. reflexivity. Qed.
Print Assumptions C33_bool_number_refuted.

(** Integer: a short label is written but not read back. *)
Theorem C33_integer_label_refuted : exists n w n', leaf_write (fun _ => "") WNum "X" (Some (LNum "Integer" n)) = Ok [w] /\
  leaf_read RInteger "X" (reload 0 (El "P" [] None [w])) = Ok (Some (LNum "Integer" n')) /\
  n_value n' = n_value n /\ n_label n' <> n_label n.
Proof.
  exists (mkNum None None (Some (NFloat (S754_zero false))) (Some "lab") (Some "0")). eexists. eexists.
  split; [reflexivity|]. split; [vm_compute; reflexivity|]. split; [reflexivity|]. discriminate.
Qed.
Print Assumptions C33_integer_label_refuted.

Example C33_case_plain : plain "LONG-NAME" /\ absent "LONG-NAME" [El "SHORT-NAME" [] (Some "a") []].
Proof. split; [repeat split; discriminate|]. constructor; [discriminate|constructor]. Qed.
Example C33_case_text : text_assigned (mkNum (Some "t") None (Some (NInt 255)) (Some "lab") (Some "0xFF")).
Proof. exists KNum, (mkNum (Some "t") None None (Some "lab") None), "0xFF". reflexivity. Qed.
Example C33_case_rev : RevText "4.2.2;x".
Proof. exists "4", "2", "2", ";x". split; [reflexivity|]. repeat constructor; discriminate. Qed.
Example C33_case_bool : BoolText (strip (bool_str (mkBool None None (Some true) (Some "TRUE")))) true.
Proof. apply BT_true. reflexivity. Qed.
Example C33_case_context :
  leaf_read RLiteral "B" (reload 3 (El "P" [] (Some "zz") [El "A" [] None [El "B" [] (Some "no") []];
    El "B" [("T", "1")] (Some "yes") []; El "B" [] (Some "late") []]))
  = Ok (Some (LLit "ARLiteral" (mkLit (Some "1") None (Some "yes")))).
Proof. reflexivity. Qed.

(** ** C18, reader *)
Theorem C18_read_never_negative : forall key e c n v,
  leaf_read RPositive key e = Ok (Some (LNum c n)) -> n_value n = Some v -> ~ numv_negative v.
Proof. exact positive_read. Qed.
Print Assumptions C18_read_never_negative.

(** an element text that denotes a negative number is refused *)
Theorem C18_read_rejects : forall key e x n s n' v, find key e = Some x -> xtext x = Some s ->
  num_setValue KPos n (PStr s) = (n', None) -> n_value n' = Some v -> numv_negative v ->
  leaf_read RPositive key e = Raise ValueError.
Proof. exact negative_text_rejected. Qed.
Print Assumptions C18_read_rejects.

Example C18_case_read : leaf_read RPositive "N" (El "P" [] None [El "N" [] (Some "-5") []]) = Raise ValueError.
Proof. vm_compute. reflexivity. Qed.

(** ** C43 *)
Theorem C43_leaf_readers_partial : forall k key p pa pt a b, head_step key <> "*" -> head_step key <> "." ->
  reorder a b ->
  leaf_read k key (El p pa pt a) = leaf_read k key (El p pa pt b) /\
  leaf_list k key (El p pa pt a) = leaf_list k key (El p pa pt b).
Proof. exact reorder_leaf. Qed.
Print Assumptions C43_leaf_readers_partial.

Example C43_case : reorder [El "A" [] None []; El "B" [] None []; El "C" [] None []]
                           [El "B" [] None []; El "C" [] None []; El "A" [] None []].
Proof.
  eapply ro_trans.
  - apply (ro_swap [] (El "A" [] None []) (El "B" [] None []) [El "C" [] None []]). discriminate.
  - apply (ro_swap [El "B" [] None []] (El "A" [] None []) (El "C" [] None []) []). discriminate.
Qed.
