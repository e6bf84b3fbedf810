(** Vocabulary for C54. *)
From Coq Require Import String Ascii List Bool Arith.
From Verif Require Import PyBase Composition Sheet.
Import ListNotations.
Open Scope string_scope.
Open Scope list_scope.

(** the title of a sheet: composition, dash, kind; anything may follow *)
Definition mark (k : kind) : string := match k with Assembly => "AC" | _ => "DC" end.
Definition names (t n : string) (k : kind) : Prop :=
  (k = Assembly \/ k = Delegation) /\
  exists b1 b2 rest, t = (n ++ b1 ++ "-" ++ b2 ++ mark k ++ rest)%string /\
    (n <> "" /\ all_chars is_word n = true) /\ (b1 <> "" /\ all_chars is_space b1 = true) /\ (b2 <> "" /\ all_chars is_space b2 = true).

(** the columns of a kind *)
Definition titles (k : kind) : list string :=
  match k with
  | Assembly => ["Short Name"; "Provide SW-C"; "PPort"; "Request SW-C"; "RPort"]
  | _ => ["Short Name"; "Inner SW-C"; "Inner PPort"; "Outer PPort"; "Inner RPort"; "Outer RPort"]
  end.
(** column c is the only one with title t *)
Definition titled (s : sheet) (t : string) (c : nat) : Prop :=
  forall c', cell_in (hd [] s) c' = Some t <-> c' = c.
(** v is the cell of row r under title t *)
Definition under (s : sheet) (r : list cell) (t : string) (v : cell) : Prop := exists c, titled s t c /\ v = cell_in r c.
Definition shows_data (s : sheet) (k : kind) (r : list cell) (d : data) : Prop :=
  match d with
  | DAssembly n ps pp rs rp => k = Assembly /\
      under s r "Short Name" n /\ under s r "Provide SW-C" ps /\ under s r "PPort" pp /\ under s r "Request SW-C" rs /\ under s r "RPort" rp
  | DDelegation n sw ip ir op orr => k = Delegation /\
      under s r "Short Name" n /\ under s r "Inner SW-C" sw /\ under s r "Inner PPort" ip /\ under s r "Inner RPort" ir /\
      under s r "Outer PPort" op /\ under s r "Outer RPort" orr
  end.
(** what a workbook says about composition n: the rows of its sheets, in order *)
Inductive says : workbook -> string -> list data -> Prop :=
| says_nil n : says [] n []
| says_sheet t s w n k ds rest : names t n k -> Forall2 (shows_data s k) (tl s) ds -> says w n rest -> says ((t, s) :: w) n (ds ++ rest)
| says_other t s w n rest : (forall k, ~ names t n k) -> says w n rest -> says ((t, s) :: w) n rest.
(** every connector sheet has all its columns, once each *)
Definition well_titled (w : workbook) : Prop :=
  forall t s n k, In (t, s) w -> names t n k -> forall c, In c (titles k) -> exists i, titled s c i.

(** a row of the report as it is read *)
Definition data_of (r : row) : data :=
  match r with
  | RowAssembly n ps pp rs rp => DAssembly (Some n) ps pp rs rp
  | RowDelegation n sw ip ir op orr => DDelegation (Some n) sw ip ir op orr
  end.
(** names without blanks and dashes *)
Definition proper_name (n : string) : Prop := n <> "" /\ all_chars is_word n = true.
