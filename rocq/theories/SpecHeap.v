(** Specification vocabulary for lookup: which object lives where.  Uses only the listed
    children (getElements(), the sub-packages), not the lookup code. *)
From Coq Require Import String Ascii List Bool Arith.
From Verif Require Import PyBase Collection ObjHeap.
Import ListNotations.
Open Scope string_scope.
Open Scope list_scope.

(** [x] is listed as a sub-package or element of [p]. *)
Definition child_of (h : heap) (p x : nat) : Prop :=
  exists nd, nth_error h p = Some nd /\
    (In x (elems (ncoll nd)) \/ In x (map snd (npkgs nd))).

(** [lives_at h ws x]: the short names on the way from the document to [x] are [ws]. *)
Inductive lives_at (h : heap) : list string -> nat -> Prop :=
| lives_root : lives_at h [] root
| lives_child : forall ws p x, lives_at h ws p -> child_of h p x ->
    lives_at h (ws ++ [name_of h x]) x.

(** No other child of [p] has the name of [x]. *)
Definition sole_name (h : heap) (p x : nat) : Prop :=
  forall y, child_of h p y -> name_of h y = name_of h x -> y = x.

(** As lives_at, and nothing on the way is shadowed by an equally named sibling. *)
Inductive lives_clear (h : heap) : list string -> nat -> Prop :=
| clear_root : lives_clear h [] root
| clear_child : forall ws p x, lives_clear h ws p -> child_of h p x -> sole_name h p x ->
    lives_clear h (ws ++ [name_of h x]) x.

Definition slash_free (s : string) : Prop := ~ In "/"%char (list_ascii_of_string s).

(** "/a/b/c" *)
Fixpoint slash_path (ws : list string) : string :=
  match ws with [] => "" | w :: ws' => String "/" (w ++ slash_path ws')%string end.

(** A path string and its '/'-separated components. *)
Inductive components : string -> list string -> Prop :=
| comp_last : forall s, slash_free s -> components s [s]
| comp_more : forall s r ws, slash_free s -> components r ws ->
    components (s ++ String "/" r)%string (s :: ws).
Definition nonempty_names (ws : list string) : list string :=
  filter (fun w => negb (is_empty w)) ws.

(** XML spelling of a class name: upper case, a hyphen before every inner capital. *)
Definition is_upper (c : ascii) : bool := Nat.leb 65 (nat_of_ascii c) && Nat.leb (nat_of_ascii c) 90.
Definition upper (c : ascii) : ascii :=
  if (Nat.leb 97 (nat_of_ascii c) && Nat.leb (nat_of_ascii c) 122)%bool
  then ascii_of_nat (nat_of_ascii c - 32) else c.
Fixpoint hyphenated (s : string) : string :=
  match s with
  | EmptyString => ""
  | String c r => if is_upper c then String "-" (String c (hyphenated r)) else String (upper c) (hyphenated r)
  end.
Definition xml_name (cls : string) : string :=
  match cls with String c r => String c (hyphenated r) | EmptyString => "" end.

(** the kinds of objects DEST can name *)
Definition dest_kinds : list string :=
  ["ImplementationDataType"; "ApplicationDataType"; "AtomicSwComponentType";
   "CompositionSwComponentType"; "SystemSignal"; "SystemSignalGroup"; "RunnableEntity";
   "BswSchedulableEntity"; "BswModuleEntry"; "BswCalledEntity"].
