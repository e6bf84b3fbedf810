(** Property C63: loading invents nothing.
    [loaded warn x u]: loading root element [x] gives document [u]; [part u v]: [v] is held
    somewhere in [u]; [inside P x]: some element of the file has [P]; [in_file x s]: [s] is a text or
    an attribute value of the file (or the word that stands for one, or empty); [saved repr w u y]:
    saving [u] gives root element [y]. *)
From Coq Require Import String List Bool ZArith Floats.SpecFloat.
From Verif Require Import PyBase Primitives Xml Leaf Ir IrSem SpecRoundTrip SpecTolerant SpecRun SpecOrigin OriginProps OriginCases.
Import ListNotations.
Open Scope string_scope.
Open Scope list_scope.

(** Missing in all: name clashes while reading (C58), where the model stops. *)
Theorem C63_reference_partial : forall warn x u r s, loaded warn x u -> part u (VLeaf (LRef r)) -> r_value r = Some s ->
  inside (fun y => xtext y = Some s /\ xattr "DEST" y = r_dest r /\ xattr "BASE" y = r_base r) x.
Proof. exact (fun warn x u r s L => c63_reference warn x u L r s). Qed.
Print Assumptions C63_reference_partial.

Theorem C63_destination_partial : forall warn x u r d, loaded warn x u -> part u (VLeaf (LRef r)) -> r_dest r = Some d -> in_file x d.
Proof. exact (fun warn x u r d L => c63_destination warn x u L r d). Qed.
Print Assumptions C63_destination_partial.

Theorem C63_text_partial : forall warn x u c l s, loaded warn x u -> part u (VLeaf (LLit c l)) -> l_value l = Some s -> in_file x s.
Proof. exact (fun warn x u c l s L => c63_text warn x u L c l s). Qed.
Print Assumptions C63_text_partial.

Theorem C63_string_partial : forall warn x u s, loaded warn x u -> part u (VStr s) -> in_file x s.
Proof. exact (fun warn x u s L => c63_string warn x u L s). Qed.
Print Assumptions C63_string_partial.

(** The value of a number is what setValue makes of a text of the file. *)
Theorem C63_number_partial : forall warn x u c n v, loaded warn x u -> part u (VLeaf (LNum c n)) -> n_value n = Some v ->
  exists s m, n_text n = Some s /\ in_file x s /\ num_set num_new (PStr s) = (m, None) /\ n_value m = Some v.
Proof. exact (fun warn x u c n v L => c63_number warn x u L c n v). Qed.
Print Assumptions C63_number_partial.

Theorem C63_boolean_partial : forall warn x u b v, loaded warn x u -> part u (VLeaf (LBool b)) -> b_value b = Some v ->
  exists s b', has_text x s /\ bool_set bool_new (PStr s) = (b', None) /\ b_value b' = Some v.
Proof. exact (fun warn x u b v L => c63_boolean warn x u L b v). Qed.
Print Assumptions C63_boolean_partial.

Theorem C63_limit_partial : forall warn x u l, loaded warn x u -> part u (VLeaf (LLimit l)) ->
  inside (fun y => xtext y = li_value l /\ xattr "INTERVAL-TYPE" y = option_map lit_str (li_interval l)) x.
Proof. exact (fun warn x u l L => c63_limit warn x u L l). Qed.
Print Assumptions C63_limit_partial.

Theorem C63_name_partial : forall warn x u c fs s, loaded warn x u -> part u (VObj c fs) -> In ("short_name", VStr s) fs ->
  inside (fun y => xtag y = "SHORT-NAME" /\ xtext y = Some s) x.
Proof. exact (fun warn x u c fs s L => c63_name warn x u L c fs s). Qed.
Print Assumptions C63_name_partial.

Theorem C63_uuid_partial : forall warn x u c fs s, loaded warn x u -> part u (VObj c fs) -> In ("uuid", VStr s) fs -> has_attr x "UUID" s.
Proof. exact (fun warn x u c fs s L => c63_uuid warn x u L c fs s). Qed.
Print Assumptions C63_uuid_partial.

Theorem C63_timestamp_partial : forall warn x u c fs s, loaded warn x u -> part u (VObj c fs) -> In ("timestamp", VStr s) fs -> has_attr x "T" s.
Proof. exact (fun warn x u c fs s L => c63_time warn x u L c fs s). Qed.
Print Assumptions C63_timestamp_partial.

Theorem C63_value_uuid_partial : forall warn x u l s, loaded warn x u -> part u (VLeaf l) -> value_uuid l = Some s -> has_attr x "UUID" s.
Proof. exact (fun warn x u l s L => c63_value_uuid warn x u L l s). Qed.
Print Assumptions C63_value_uuid_partial.

Theorem C63_value_timestamp_partial : forall warn x u l s, loaded warn x u -> part u (VLeaf l) -> value_time l = Some s -> has_attr x "T" s.
Proof. exact (fun warn x u l s L => c63_value_time warn x u L l s). Qed.
Print Assumptions C63_value_timestamp_partial.

(** Saving what was loaded writes no text of its own, but for the word None. *)
Theorem C63_saved_partial : forall warn x u repr warn' y s, loaded warn x u -> saved repr warn' u y -> has_text y s -> kept_or_none x s.
Proof. exact (fun warn x u repr warn' y s L => c63_saved warn x u L repr warn' y s). Qed.
Print Assumptions C63_saved_partial.

(** The word None appears: an empty value <V/> is saved as <V>None</V>, and that file no longer loads. *)
Theorem C63_empty_value_refuted : exists x u y, loaded false x u /\ (forall repr, saved repr false u y) /\ has_text y "None" /\ ~ in_file x "None" /\
  load_raises false (reload 0 y) ValueError.
Proof. exact (ex_intro _ empty_value empty_case). Qed.
Print Assumptions C63_empty_value_refuted.

(** A file with a reference, a text, a number, a boolean, a limit and an identified element. *)
Example C63_case : loaded false mixed mixed_u /\
  part mixed_u (VLeaf (LRef (mkRef None (Some "COMPU-METHOD") (Some "/P/c")))) /\
  part mixed_u (VLeaf (LLit "ARLiteral" (mkLit None (Some "u-2") (Some "VALUE")))) /\
  part mixed_u (VLeaf (LNum "PositiveInteger" (mkNum None None (Some (NInt 16)) None (Some "0x10")))) /\
  part mixed_u (VLeaf (LBool (mkBool None None (Some true) (Some "true")))) /\
  part mixed_u (VLeaf (LLimit (mkLimit None None (Some (mkLit None None (Some "CLOSED"))) (Some "-7")))) /\
  (exists fs, part mixed_u (VObj "ApplicationPrimitiveDataType" fs) /\ In ("short_name", VStr "speed") fs /\ In ("uuid", VStr "u-1") fs /\ In ("timestamp", VStr "2020") fs).
Proof. exact (conj mixed_loaded mixed_parts). Qed.
