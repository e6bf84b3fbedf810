(** Workbooks of connectors: written by connector2xlsx, read by connector-update.  REP stands for
    /repo/src/armodel/report/connector_xls_report.py, XP for /repo/src/armodel/parser/excel_parser.py,
    XLS for /repo/src/armodel/parser/connector_xlsx_parser.py.
    Simplification: cells hold strings or nothing (no numbers, formulas, dates). *)
From Coq Require Import String Ascii List Bool Arith.
From Verif Require Import PyBase Composition Report.
Import ListNotations.
Open Scope string_scope.
Open Scope list_scope.

(** A sheet of openpyxl: the rows from row 1 on; cells beyond the end of a row are empty. *)
Definition cell := option string.
Definition sheet := list (list cell).
Definition workbook := list (string * sheet).
(** Worksheet.max_column (at most one more than the last column in use; here exactly that column) *)
Definition max_column (s : sheet) : nat := fold_right (fun r m => Nat.max (List.length r) m) 0 s.
Definition cell_in (r : list cell) (c : nat) : cell := nth c r None.

(** XLS:17-34 and 44-59: the columns looked for; [None] stands for -1 *)
Definition columns := dict (option nat).
Definition delegation_columns : columns :=
  [("Short Name", None); ("Inner SW-C", None); ("Inner PPort", None); ("Outer PPort", None); ("Inner RPort", None); ("Outer RPort", None)].
Definition assembly_columns : columns :=
  [("Short Name", None); ("Provide SW-C", None); ("PPort", None); ("Request SW-C", None); ("RPort", None)].

(** XP:16-20 getColumnTitles (row 1 is the title row) *)
Definition get_titles (s : sheet) (cols : columns) : columns :=
  fold_left (fun cols c => match cell_in (hd [] s) c with
                           | Some v => if dmem cols v then dset cols v (Some c) else cols
                           | None => cols
                           end) (seq 0 (max_column s)) cols.
(** XP:22-25 checkColumnTitles *)
Definition check_titles (cols : columns) : res unit :=
  if existsb (fun p => match snd p with None => true | Some _ => false end) cols then Raise ValueError else Ok tt.

(** row[column_list[title]] for a row of values up to max_column (XLS:72-79, 86-93); a title that is
    no key raises KeyError *)
Definition value_at (m : nat) (cols : columns) (r : list cell) (t : string) : res cell :=
  match dget cols t with
  | Some (Some c) => if Nat.ltb c m then Ok (cell_in r c) else Raise IndexError
  | Some None => Ok (cell_in r (m - 1))
  | None => Raise KeyError
  end.

(** /repo/src/armodel/data_models/sw_connector.py: a row as read; the name can be empty too *)
Inductive data :=
| DAssembly (n provider_swc pport requester_swc rport : cell)
| DDelegation (n inner_swc inner_pport inner_rport outer_pport outer_rport : cell).

Definition bind {A B} (x : res A) (f : A -> res B) : res B := match x with Ok a => f a | Raise e => Raise e end.
(** XLS:86-93, one row of readAssemblySwConnectors *)
Definition read_assembly (m : nat) (cols : columns) (r : list cell) : res data :=
  bind (value_at m cols r "Short Name") (fun n =>
  bind (value_at m cols r "Provide SW-C") (fun ps =>
  bind (value_at m cols r "PPort") (fun pp =>
  bind (value_at m cols r "Request SW-C") (fun rs =>
  bind (value_at m cols r "RPort") (fun rp => Ok (DAssembly n ps pp rs rp)))))).
(** XLS:72-80, one row of readDelegationSwConnectors *)
Definition read_delegation (m : nat) (cols : columns) (r : list cell) : res data :=
  bind (value_at m cols r "Short Name") (fun n =>
  bind (value_at m cols r "Inner SW-C") (fun sw =>
  bind (value_at m cols r "Inner PPort") (fun ip =>
  bind (value_at m cols r "Inner RPort") (fun ir =>
  bind (value_at m cols r "Outer PPort") (fun op =>
  bind (value_at m cols r "Outer RPort") (fun orr => Ok (DDelegation n sw ip ir op orr))))))).
Fixpoint read_each (f : list cell -> res data) (rs : list (list cell)) : res (list data) :=
  match rs with
  | [] => Ok []
  | r :: rs' => bind (f r) (fun d => bind (read_each f rs') (fun ds => Ok (d :: ds)))
  end.

(** The reader: columns of both kinds, kept from sheet to sheet, and sw_connectors (XLS:44-62) *)
Record xreader := mkReader { x_del : columns; x_asm : columns; x_list : dict (list data) }.
Definition reader_new : xreader := mkReader delegation_columns assembly_columns [].
(** XLS:67-70 getSwConnectorList *)
Definition listed (d : dict (list data)) (n : string) : list data := match dget d n with Some l => l | None => [] end.
(** XLS:97-110 parseDelegationSWConnectors, parseAssemblySWConnectors.  Simplification: after an
    exception the reader is not used any more, so its state is dropped. *)
Definition parse_sheet (x : xreader) (k : kind) (s : sheet) (n : string) : res xreader :=
  match k with
  | Assembly =>
      let cols := get_titles s (x_asm x) in
      bind (check_titles cols) (fun _ =>
      bind (read_each (read_assembly (max_column s) cols) (tl s)) (fun ds =>
      Ok (mkReader (x_del x) cols (dset (x_list x) n (listed (x_list x) n ++ ds)))))
  | _ =>
      let cols := get_titles s (x_del x) in
      bind (check_titles cols) (fun _ =>
      bind (read_each (read_delegation (max_column s) cols) (tl s)) (fun ds =>
      Ok (mkReader cols (x_asm x) (dset (x_list x) n (listed (x_list x) n ++ ds)))))
  end.
(** XLS:118 re.match(r"(\w+)\s+-\s+(AC|DC)", name) *)
Definition sheet_name (t : string) : option (string * kind) :=
  let (n, r1) := span is_word t in
  let (b1, r2) := span is_space r1 in
  match r2 with
  | String c r3 =>
      let (b2, r4) := span is_space r3 in
      if (is_empty n || is_empty b1 || is_empty b2 || negb (Ascii.eqb c "-"))%bool then None
      else if prefix "AC" r4 then Some (n, Assembly)
      else if prefix "DC" r4 then Some (n, Delegation) else None
  | EmptyString => None
  end.
(** XLS:112-125 read *)
Fixpoint read_sheets (x : xreader) (w : workbook) : res xreader :=
  match w with
  | [] => Ok x
  | (t, s) :: w' =>
      match sheet_name t with
      | Some (n, k) => bind (parse_sheet x k s n) (fun x' => read_sheets x' w')
      | None => read_sheets x w'
      end
  end.
Definition read_workbook (w : workbook) : res (dict (list data)) := bind (read_sheets reader_new w) (fun x => Ok (x_list x)).

(** REP:28-75: the cells of a sheet of the report *)
Definition row_cells (r : row) : list cell :=
  match r with
  | RowAssembly n ps pp rs rp => [Some n; ps; pp; rs; rp]
  | RowDelegation n sw ip ir op orr => [Some n; sw; ip; op; ir; orr]
  end.
Definition title_cells (k : kind) : list cell :=
  match k with
  | Assembly => [Some "Short Name"; Some "Provide SW-C"; Some "PPort"; Some "Request SW-C"; Some "RPort"]
  | _ => [Some "Short Name"; Some "Inner SW-C"; Some "Inner PPort"; Some "Outer PPort"; Some "Inner RPort"; Some "Outer RPort"]
  end.
Definition report_workbook (w : list (string * kind * list row)) : workbook :=
  map (fun p => match p with (t, k, rs) => (t, title_cells k :: map row_cells rs) end) w.
