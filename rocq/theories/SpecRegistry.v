(** What C62 says: the data type maps, implementations, systems, compositions and root
    compositions of a file. *)
From Coq Require Import String List Bool Sorted.
From Verif Require Import PyBase Primitives Leaf Xml IrSem SpecKeep SpecListing Doc Registry.
Import ListNotations.
Open Scope string_scope.
Open Scope list_scope.

(** child [t] of [y] is a reference with text [s]; "" without text *)
Definition ref_text (t : string) (y : xml) (s : string) : Prop :=
  exists r, find t y = Some r /\ (xtext r = Some s \/ xtext r = None /\ s = "").
(** the file maps application type [a] to implementation type [i] *)
Definition type_map (l : list (list string * xml)) (a i : string) : Prop :=
  exists e m, In e l /\ xtag (snd e) = "DATA-TYPE-MAPPING-SET" /\ In m (findall "DATA-TYPE-MAPS/DATA-TYPE-MAP" (snd e)) /\
    ref_text "APPLICATION-DATA-TYPE-REF" m a /\ ref_text "IMPLEMENTATION-DATA-TYPE-REF" m i.
(** the implementation with full name [i] refers to behaviour [b] *)
Definition behavior_map (l : list (list string * xml)) (i b : string) : Prop :=
  exists e, In e l /\ (xtag (snd e) = "SWC-IMPLEMENTATION" \/ xtag (snd e) = "BSW-IMPLEMENTATION") /\
    slashed (fst e ++ [text_name (snd e)]) = i /\ ref_text "BEHAVIOR-REF" (snd e) b.
(** the same maps as lists, in file order *)
Definition ref_or_none (t : string) (y : xml) : list string := match find t y with Some r => [match xtext r with Some s => s | None => "" end] | None => [] end.
Definition type_maps_in (l : list (list string * xml)) : list (string * string) :=
  flat_map (fun e => flat_map (fun m => list_prod (ref_or_none "APPLICATION-DATA-TYPE-REF" m) (ref_or_none "IMPLEMENTATION-DATA-TYPE-REF" m)) (findall "DATA-TYPE-MAPS/DATA-TYPE-MAP" (snd e)))
    (filter (tagged_in ["DATA-TYPE-MAPPING-SET"]) l).
Definition behavior_maps_in (l : list (list string * xml)) : list (string * string) :=
  flat_map (fun e => map (pair (slashed (fst e ++ [text_name (snd e)]))) (ref_or_none "BEHAVIOR-REF" (snd e)))
    (filter (tagged_in ["SWC-IMPLEMENTATION"; "BSW-IMPLEMENTATION"]) l).
(** [b] is the partner of [a] in the last pair with [a] on the left (right) *)
Definition last_right (ps : list (string * string)) (a b : string) : Prop := exists p q, ps = p ++ (a, b) :: q /\ forall c, ~ In (a, c) q.
Definition last_left (ps : list (string * string)) (a b : string) : Prop := exists p q, ps = p ++ (a, b) :: q /\ forall c, ~ In (c, b) q.
Definition names_of (tag : string) (l : list (list string * xml)) : list string := map (fun e => text_name (snd e)) (filter (tagged_in [tag]) l).
(** the names of the root compositions of the systems, in file order *)
Definition root_names (l : list (list string * xml)) : list string :=
  flat_map (fun e => match find "ROOT-SOFTWARE-COMPOSITIONS/ROOT-SW-COMPOSITION-PROTOTYPE" (snd e) with Some r => [text_name r] | None => [] end)
    (filter (tagged_in ["SYSTEM"]) l).
(** [P] holds of the registries after reading [x] *)
Definition after_reading (x : xml) (P : doc -> Prop) : Prop := exists N d, (forall n, N <= n -> registries n x = Done d) /\ P d.
(** the same for several files *)
Definition after_reading_all (xs : list xml) (P : doc -> Prop) : Prop := exists N d, (forall n, N <= n -> registries_of n xs = Done d) /\ P d.
