(** Properties C12-C18 and C20: numbers, booleans, short reference values.
    [num_setValue k n v = (n', None)]: setValue(v) on object [n] of kind [k] succeeded with
    new state [n']; [(n', Some e)]: it raised [e] leaving state [n']. *)
From Coq Require Import String Ascii List Bool ZArith.
From Coq Require Import Floats.SpecFloat.
From Coq Require Decimal DecimalString Hexadecimal.
From Verif Require Import PyBase Primitives SpecNum NumFacts NumProps.
Import ListNotations.
Open Scope string_scope.

(** ** C12 *)
(** The text is exactly [s] until another string is assigned: label, timestamp, uuid
    changes and non-string assignments leave it alone. *)
Theorem C12_text_survives : forall repr k n s n' os,
  num_setValue k n (PStr s) = (n', None) ->
  Forall (fun o => match o with OpSetValue (PStr _) => False | _ => True end) os ->
  num_str repr (num_run k n' os) = s.
Proof. exact num_text_kept. Qed.
Print Assumptions C12_text_survives.

Example C12_case : exists n', num_setValue KFloat num_new (PStr "1.50") = (n', None)
  /\ num_str (fun _ => "?") (num_run KFloat n' [OpShortLabel (Some "x"); OpUuid None]) = "1.50".
Proof. eexists. split; reflexivity. Qed.

(** ** C13 *)
(** Missing from the full claim: decimals above 2^53, for which it is false. *)
Theorem C13_decimal_partial : forall k n sg u, u <> Decimal.Nil -> (Z.of_uint u <= 2 ^ 53)%Z ->
  exists n' v, num_setValue k n (PStr (dec_text sg u)) = (n', None) /\
    n_value n' = Some v /\ numv_is v (dec_value sg u).
Proof. exact dec_small_value. Qed.
Print Assumptions C13_decimal_partial.

Theorem C13_hexadecimal : forall k n t u, hex_text t u -> u <> Hexadecimal.Nil ->
  exists n', num_setValue k n (PStr t) = (n', None) /\ n_value n' = Some (NInt (Z.of_hex_uint u)).
Proof. exact hex_value. Qed.
Print Assumptions C13_hexadecimal.

Theorem C13_binary : forall k n x bs, x = "b"%char \/ x = "B"%char -> bs <> [] ->
  exists n', num_setValue k n (PStr (String "0" (String x (bits_text bs)))) = (n', None) /\
    n_value n' = Some (NInt (bits_value bs)).
Proof. exact bin_value. Qed.
Print Assumptions C13_binary.

(** 9007199254740993 = 2^53 + 1 is stored as the float 9007199254740992. *)
Theorem C13_refuted : exists sg u n' v, u <> Decimal.Nil /\
  num_setValue KNum num_new (PStr (dec_text sg u)) = (n', None) /\
  n_value n' = Some v /\ ~ numv_is v (dec_value sg u).
Proof.
  exists NoSign, (Pos.to_uint 9007199254740993).
  eexists. eexists. split; [discriminate|].
  split; [vm_compute; reflexivity|]. split; [reflexivity|]. vm_compute. discriminate.
Qed.
Print Assumptions C13_refuted.

Example C13_case_dec : dec_text Minus (Pos.to_uint 42) = "-42" /\ dec_value Minus (Pos.to_uint 42) = (-42)%Z.
Proof. split; reflexivity. Qed.
Example C13_case_hex : hex_text "0XfF" (Pos.to_hex_uint 255).
Proof. reflexivity. Qed.
Example C13_case_bin : bits_text [true; false; true] = "101" /\ bits_value [true; false; true] = 5%Z.
Proof. split; reflexivity. Qed.

(** ** C14 *)
(** Exact acceptance, except for texts that start with a hex or binary literal. *)
Theorem C14_partial : forall k n s, ~ NumLit s ->
  (forall lit junk, HexLit lit \/ BinLit lit -> s <> lit ++ junk) ->
  snd (num_setValue k n (PStr s)) = Some ValueError.
Proof. exact malformed_rejected. Qed.
Print Assumptions C14_partial.

Theorem C14_wellformed_accepted : forall k n s, NumLit s ->
  snd (num_setValue k n (PStr s)) = None.
Proof. exact wellformed_accepted. Qed.
Print Assumptions C14_wellformed_accepted.

(** "0x1G" is no literal of any kind but is accepted. *)
Theorem C14_refuted : exists s n', ~ NumLit s /\ num_setValue KNum num_new (PStr s) = (n', None).
Proof. exact junk_accepted. Qed.
Print Assumptions C14_refuted.

Example C14_case_reject : snd (num_setValue KNum num_new (PStr "12abc")) = Some ValueError.
Proof. reflexivity. Qed.
Example C14_case_accept : NumLit "12.5e-3" /\ NumLit " +1_000 ".
Proof. exact numlit_cases. Qed.

(** ** C15 *)
Theorem C15_boolean : forall b v b' e, bool_set b v = (b', Some e) -> b' = b.
Proof. exact bool_rejected. Qed.
Print Assumptions C15_boolean.

(** The value always survives a rejected assignment... *)
Theorem C15_value_partial : forall k n v n' e, num_setValue k n v = (n', Some e) ->
  n_value n' = n_value n.
Proof. exact rejected_value. Qed.
Print Assumptions C15_value_partial.

(** ...and the whole object does when the argument is not a string. *)
Theorem C15_nonstring_partial : forall k n v n' e, num_setValue k n v = (n', Some e) ->
  (forall s, v <> PStr s) -> n' = n.
Proof. exact rejected_nonstr. Qed.
Print Assumptions C15_nonstring_partial.

(** After the rejected setValue("abc") the text is "abc" while the value is still 5. *)
Theorem C15_refuted : exists n n' e, num_setValue KNum n (PStr "abc") = (n', Some e) /\
  num_str (fun _ => "") n = "5" /\ num_str (fun _ => "") n' = "abc" /\
  n_value n' = n_value n.
Proof. exists (fst (num_set num_new (PInt 5))). eexists. eexists. repeat split; reflexivity. Qed.
Print Assumptions C15_refuted.

Example C15_case : bool_set bool_new (PStr "maybe") = (bool_new, Some ValueError) /\
  num_setValue KPos num_new (PInt (-1)) = (num_new, Some ValueError).
Proof. split; reflexivity. Qed.

(** ** C16 *)
(** A successful string assignment determines the value whatever was stored before (the
    text is settled by C12). *)
Theorem C16_string_partial : forall k n m s,
  snd (num_setValue k n (PStr s)) = snd (num_setValue k m (PStr s)) /\
  (snd (num_setValue k n (PStr s)) = None ->
   n_value (fst (num_setValue k n (PStr s))) = n_value (fst (num_setValue k m (PStr s)))).
Proof. exact string_assignment_independent. Qed.
Print Assumptions C16_string_partial.

(** Int-only histories: value is the last int and the text its decimal notation. *)
Theorem C16_ints_partial : forall repr zs z,
  let n := num_run KNum num_new (map (fun x => OpSetValue (PInt x)) (zs ++ [z])) in
  n_value n = Some (NInt z) /\
  num_str repr n = DecimalString.NilZero.string_of_int (Z.to_int z).
Proof. exact int_history. Qed.
Print Assumptions C16_ints_partial.

(** setValue("1") then setValue(2): value 2, but the emitted text is still "1". *)
Theorem C16_refuted : exists n, n = num_run KNum num_new [OpSetValue (PStr "1"); OpSetValue (PInt 2)] /\
  n_value n = Some (NInt 2) /\ num_str (fun _ => "") n = "1".
Proof. eexists. repeat split; reflexivity. Qed.
Print Assumptions C16_refuted.

(** ** C17 *)
Theorem C17_accepts_exactly : forall b s b', bool_set b (PStr s) = (b', None) <->
  exists x, BoolText (strip s) x /\ b' = mkBool (b_ts b) (b_uuid b) (Some x) (Some (strip s)).
Proof. exact bool_set_str_iff. Qed.
Print Assumptions C17_accepts_exactly.

Theorem C17_rejects_rest : forall b s b' e, bool_set b (PStr s) = (b', Some e) ->
  e = ValueError /\ b' = b /\ forall x, ~ BoolText (strip s) x.
Proof. exact bool_set_str_reject. Qed.
Print Assumptions C17_rejects_rest.

(** Histories of string and int assignments: the emitted text denotes the value. *)
Theorem C17_text_denotes_value_partial : forall vs, Forall (fun v => forall x, v <> PBool x) vs ->
  forall x, b_value (bool_run bool_new vs) = Some x -> BoolText (bool_str (bool_run bool_new vs)) x.
Proof. exact bool_text_denotes. Qed.
Print Assumptions C17_text_denotes_value_partial.

(** Histories of bool assignments only: likewise. *)
Theorem C17_bools_partial : forall vs, Forall (fun v => forall s, v <> PStr s) vs ->
  Forall (fun v => forall z, v <> PInt z) vs ->
  forall x, b_value (bool_run bool_new vs) = Some x -> BoolText (bool_str (bool_run bool_new vs)) x.
Proof. exact bool_text_denotes_bools. Qed.
Print Assumptions C17_bools_partial.

(** setValue("true") then setValue(False): value False, emitted text "true". *)
Theorem C17_refuted : exists b, b = bool_run bool_new [PStr "true"; PBool false] /\
  b_value b = Some false /\ bool_str b = "true".
Proof. eexists. repeat split; reflexivity. Qed.
Print Assumptions C17_refuted.

Example C17_case : BoolText (strip " TRUE ") true /\ BoolText "-0_0" false.
Proof. exact boolt_cases. Qed.

(** ** C18 *)
Theorem C18_no_strings_partial : forall os, Forall (fun o => forall s, o <> OpSetValue (PStr s)) os ->
  forall v, n_value (num_run KPos num_new os) = Some v -> ~ numv_negative v.
Proof. exact pos_ints_nonneg. Qed.
Print Assumptions C18_no_strings_partial.

(** setValue("-5") is accepted by PositiveInteger. *)
Theorem C18_refuted : exists n' v, num_setValue KPos num_new (PStr "-5") = (n', None) /\
  n_value n' = Some v /\ numv_negative v.
Proof. eexists. eexists. split; [vm_compute; reflexivity|]. split; [reflexivity|]. exact I. Qed.
Print Assumptions C18_refuted.

Example C18_case : n_value (num_run KPos num_new [OpSetValue (PInt 3); OpSetValue (PInt (-1))]) = Some (NInt 3).
Proof. reflexivity. Qed.

(** ** C20 *)
(** Missing: references with a single component, for which it is false. *)
Theorem C20_partial : forall r ws w, r_value r = Some (path (ws ++ [w])) -> ws <> [] ->
  Forall ident ws -> ident w -> ref_getShortValue r = Ok w.
Proof. exact short_value_path. Qed.
Print Assumptions C20_partial.

Theorem C20_unset : forall r, r_value r = None -> ref_getShortValue r = Raise ValueError.
Proof. exact short_value_unset. Qed.
Print Assumptions C20_unset.

(** Whatever the reference string is, the short value is the string itself or a non-empty word
    that follows a slash in it. *)
Theorem C20_never_empty : forall r v s, r_value r = Some v -> ref_getShortValue r = Ok s ->
  s = v \/ (s <> "" /\ all_chars is_word s = true /\
            exists a b, v = (a ++ "/" ++ s ++ b)%string).
Proof. exact short_value_word. Qed.
Print Assumptions C20_never_empty.

(** The short value of "/Pkg" is "/Pkg", not "Pkg". *)
Theorem C20_refuted : exists r w, ident w /\ r_value r = Some (path [w]) /\
  ref_getShortValue r <> Ok w.
Proof.
  exists (mkRef None None (Some "/Pkg")), "Pkg".
  split; [split; [discriminate|reflexivity]|]. split; [reflexivity|]. vm_compute. discriminate.
Qed.
Print Assumptions C20_refuted.

Example C20_case : path ["a"; "b1"; "c_2"] = "/a/b1/c_2" /\
  ref_getShortValue (mkRef None None (Some "/a/b1/c_2")) = Ok "c_2".
Proof. split; reflexivity. Qed.
