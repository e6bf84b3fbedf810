(** C54: reading connector spreadsheets.  [read_workbook] is ConnectorXlsReader.read (Sheet.v); [listed ds n]
    are the rows kept for composition n, in the order the update goes through them (C31). *)
From Coq Require Import String List Bool.
From Verif Require Import PyBase Composition Report Sheet SpecSheet SheetProps.
Import ListNotations.
Open Scope string_scope.
Open Scope list_scope.

(** columns are found by their titles, in any order and with any other columns between; rows go to the
    composition the sheet is named after; sheets with other names are ignored.
    Missing: sheets where a title is there twice. *)
Theorem C54_read_partial : forall w, well_titled w ->
  exists ds, read_workbook w = Ok ds /\ forall n, says w n (listed ds n).
Proof. exact workbook_read. Qed.
Print Assumptions C54_read_partial.

(** [says] fixes the rows *)
Theorem C54_exact : forall w n rs, says w n rs -> forall rs', says w n rs' -> rs = rs'.
Proof. exact says_unique. Qed.
Print Assumptions C54_exact.

(** a sheet that lacks a column is refused, provided it is the first of its kind *)
Theorem C54_missing_column_partial : forall w1 t s w2 n k c, well_titled w1 -> (forall t s n, In (t, s) w1 -> ~ names t n k) ->
  names t n k -> In c (titles k) -> (forall i, cell_in (hd [] s) i <> Some c) ->
  read_workbook (w1 ++ (t, s) :: w2) = Raise ValueError.
Proof. exact missing_title. Qed.
Print Assumptions C54_missing_column_partial.

(** a later sheet without the column is read with the position of the column in the earlier one *)
Theorem C54_missing_column_refuted : exists w t s n c, In (t, s) w /\ names t n Assembly /\ In c (titles Assembly) /\
  (forall i, cell_in (hd [] s) i <> Some c) /\
  exists ds, read_workbook w = Ok ds /\ listed ds n = [DAssembly (Some "n") (Some "/p") (Some "/p") (Some "x") (Some "/r")].
Proof.
  exists stale_book, "B - AC", (snd (nth 1 stale_book ("", []))), "B", "Request SW-C".
  split; [right; now left|]. split; [split; [now left|]; exists " ", " ", ""; repeat split; discriminate|]. split; [cbn; tauto|].
  split; [|exact stale_read]. intros [|[|[|i]]]; cbn; try discriminate. destruct i; discriminate.
Qed.
Print Assumptions C54_missing_column_refuted.

(** what connector2xlsx writes is read back: for every composition its assembly and delegation rows *)
Theorem C54_report_read : forall l w, NoDup (map fst l) -> Forall proper_name (map fst l) -> connector_report l = Ok w ->
  exists ds, read_workbook (report_workbook w) = Ok ds /\
    forall n s a d, In (n, s) l -> assembly_sheet s = Ok a -> delegation_sheet s = Ok d -> listed ds n = map data_of (a ++ d).
Proof. exact report_read. Qed.
Print Assumptions C54_report_read.

Definition book : workbook :=
  [("History", [[Some "When"; Some "Who"]]);
   ("Comp  - DC", [[Some "Outer RPort"; Some "Note"; Some "Inner RPort"; Some "Short Name"; Some "Inner SW-C"; Some "Inner PPort"; Some "Outer PPort"];
                   [Some "/o"; None; Some "/i"; Some "d"; Some "/c"]]);
   ("Comp - AC old", [map Some (titles Assembly); [Some "a"; Some "/c"; Some "/p"; Some "/d"; Some "/r"]])].
Example C54_case : exists ds, read_workbook book = Ok ds /\
  listed ds "Comp" = [DDelegation (Some "d") (Some "/c") None (Some "/i") None (Some "/o"); DAssembly (Some "a") (Some "/c") (Some "/p") (Some "/d") (Some "/r")].
Proof. eexists. split; vm_compute; reflexivity. Qed.
Example C54_titled : well_titled book.
Proof. apply titled_ok_sound. vm_compute. reflexivity. Qed.
Example C54_named : names "Comp  - DC" "Comp" Delegation.
Proof. split; [now right|]. exists "  ", " ", "". repeat split; discriminate. Qed.
Example C54_report_case :
  let rs := [RowAssembly "n" (Some "/c/a") (Some "/p") (Some "/c/b") (Some "/r"); RowDelegation "k" (Some "/c/a") None (Some "/r1") None (Some "/r2")] in
  exists s' w, update_comp (krun []) rs = (s', None) /\ connector_report [("C_1", s')] = Ok w /\ proper_name "C_1" /\
  exists ds, read_workbook (report_workbook w) = Ok ds /\ listed ds "C_1" = map data_of rs.
Proof. do 2 eexists. split; [vm_compute; reflexivity|]. split; [vm_compute; reflexivity|]. split; [split; [discriminate|reflexivity]|]. eexists. split; vm_compute; reflexivity. Qed.
