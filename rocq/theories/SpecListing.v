(** What C61 says: the elements of a file with the names of the packages around them. *)
From Coq Require Import String List Bool Permutation Sorted.
From Verif Require Import PyBase Primitives Leaf Xml IrSem SpecKeep.
Import ListNotations.
Open Scope string_scope.
Open Scope list_scope.

(** the option was given with value [s], in upper or lower case *)
Definition asked (given : option string) (s : string) : bool := match given with Some t => String.eqb (lower t) s | None => false end.

Definition packages_of (x : xml) : list xml := filter (with_tag "AR-PACKAGE") (findall "AR-PACKAGES/*" x).
(** [holds ns p l]: [l] are the elements of package element [p], reached through the packages named
    [ns], and of the packages in it, at any depth *)
Inductive holds : list string -> xml -> list (list string * xml) -> Prop :=
| holds_intro : forall ns p ls, Forall2 (fun q l => exists n, short_name q = Ok (Some n) /\ holds (ns ++ [n]) q l) (packages_of p) ls ->
    holds ns p (concat ls ++ map (pair ns) (findall "ELEMENTS/*" p)).
(** the elements of a file *)
Definition file_holds (x : xml) (l : list (list string * xml)) : Prop :=
  exists ls, Forall2 (fun q l => exists n, short_name q = Ok (Some n) /\ holds [n] q l) (packages_of x) ls /\ l = concat ls.

Definition component_tags : list string :=
  ["APPLICATION-SW-COMPONENT-TYPE"; "COMPOSITION-SW-COMPONENT-TYPE"; "COMPLEX-DEVICE-DRIVER-SW-COMPONENT-TYPE"; "ECU-ABSTRACTION-SW-COMPONENT-TYPE";
   "NV-BLOCK-SW-COMPONENT-TYPE"; "SENSOR-ACTUATOR-SW-COMPONENT-TYPE"; "SERVICE-SW-COMPONENT-TYPE"; "SERVICE-PROXY-SW-COMPONENT-TYPE"].
Definition tagged_in (ts : list string) (e : list string * xml) : bool := existsb (String.eqb (xtag (snd e))) ts.
Definition text_name (y : xml) : string := match short_name y with Ok (Some s) => s | _ => "" end.
Definition all_named (l : list (list string * xml)) : Prop := Forall (fun e => exists n, short_name (snd e) = Ok (Some n)) l.
(** /p/q/name *)
Definition slashed (ns : list string) : string := fold_right (fun n s => ("/" ++ n ++ s)%string) "" ns.
(** the line for an element *)
Definition shown (long : bool) (e : list string * xml) : string :=
  if long then slashed (fst e ++ [text_name (snd e)]) else text_name (snd e).
(** sorted by name *)
Definition in_order (es : list (list string * xml)) : Prop := StronglySorted (fun a b => str_leb (text_name (snd a)) (text_name (snd b)) = true) es.
(** [run] with a large enough depth prints a line for each of the elements of [l] with one of the tags, once, sorted by name, and ends *)
Definition listed (tags : list string) (long : bool) (l : list (list string * xml)) (run : nat -> out (list string * option exn)) : Prop :=
  exists N, forall n, N <= n -> exists es, Permutation es (filter (tagged_in tags) l) /\ in_order es /\ run n = Done (map (shown long) es, None).
(** every package of the file, at any depth, has a SHORT-NAME *)
Inductive packages_named : xml -> Prop :=
| packages_named_intro : forall p, Forall (fun q => (exists n, short_name q = Ok (Some n)) /\ packages_named q) (packages_of p) -> packages_named p.
