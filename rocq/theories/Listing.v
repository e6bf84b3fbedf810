(** The command line tools swc-list, system-signal and memory-section: what they print for a loaded
    document.  /repo/src/armodel/cli/swc_list_cli.py, system_signal_cli.py, memory_section_cli.py and
    lib/sw_component.py, lib/system_signal.py.  GTC is
    /repo/src/armodel/models/M2/AUTOSARTemplates/GenericStructure/GeneralTemplateClasses. *)
From Coq Require Import String List Bool.
From Verif Require Import PyBase Primitives Leaf ClassTable Ir Access IrSem.
Import ListNotations.
Open Scope string_scope.
Open Scope list_scope.

(** an element with the full name of the package it is in (GTC/ARPackage.py:545-550 full_name; None
    stands for a name that cannot be formed because a package has no name, parent.full_name + "/" +
    None raises TypeError when it is asked for) *)
Definition entry : Type := option string * val.
Definition name_text (v : val) : option string := match field v "short_name" with Some (VStr s) => Some s | _ => None end.
Definition below (p : option string) (n : option string) : option string :=
  match p, n with Some p, Some n => Some (p ++ "/" ++ n)%string | _, _ => None end.

Definition values (v : val) : out (list val) := match v with VList l => Done l | _ => Stuck end.
(** GTC/ARPackage.py:1474-1475 getSwComponentTypes, 1649-1650 getSystemSignals (with [sorts]) *)
Definition selected (cls : string) (sorts : bool) (p : val) : out (list val) :=
  match field p "elements" with
  | Some w =>
      do l <- values w;
      let k := filter (fun e => match e with VObj c _ => isinst c cls | _ => false end) l in
      if sorts then if sortable k then Done (py_sorted sort_key k) else Exc TypeError else Done k
  | None => Stuck
  end.

(** lib/sw_component.py:18-22 and lib/system_signal.py:25-30 parse_pkg on package [p] with full name
    [full]; the result is what is appended to the list of the analyzer.  [n] bounds the depth. *)
Fixpoint parse_package (n : nat) (cls : string) (sorts : bool) (full : option string) (p : val) : out (list entry) :=
  match n with
  | O => NoFuel
  | S n' =>
      do ps <- get1 p (GM "getARPackages"); do ps <- values ps;
      do l <- fold_out (fun q acc => do k <- parse_package n' cls sorts (below full (name_text q)) q; Done (acc ++ k)) ps [];
      do els <- selected cls sorts p;
      Done (l ++ map (pair full) els)
  end.
(** lib/sw_component.py:24-26, lib/system_signal.py:32-34 import_data; the full name of the document
    is "" (AutosarTopLevelStructure/__init__.py:151-153) *)
Definition import_document (n : nat) (cls : string) (sorts : bool) (u : val) : out (list entry) :=
  do ps <- get1 u (GM "getARPackages"); do ps <- values ps;
  fold_out (fun q acc => do k <- parse_package n cls sorts (below (Some "") (name_text q)) q; Done (acc ++ k)) ps [].

(** "%s" % element.short_name or element.full_name *)
Definition line_of (long : bool) (e : entry) : option string :=
  if long then below (fst e) (name_text (snd e)) else Some (match name_text (snd e) with Some s => s | None => "None" end).
(** the loop of print_out: the lines logged, and the exception that ends it *)
Fixpoint print_lines (long : bool) (l : list entry) : list string * option exn :=
  match l with
  | [] => ([], None)
  | e :: r => match line_of long e with
              | Some s => let k := print_lines long r in (s :: fst k, snd k)
              | None => ([], Some TypeError)
              end
  end.
(** lib/sw_component.py:28-45 and lib/system_signal.py:36-46 print_out.
    Simplification: the heading line is left out. *)
Definition print_out (long : bool) (l : list entry) : out (list string * option exn) :=
  if sortable (map snd l) then Done (print_lines long (py_sorted (fun e => sort_key (snd e)) l)) else Exc TypeError.
Definition is_composition (e : entry) : bool :=
  match snd e with VObj c _ => isinst c "CompositionSwComponentType" | _ => false end.

(** args.format.lower() == "long" and the like *)
Definition option_is (a : option string) (s : string) : bool := match a with Some t => String.eqb (lower t) s | None => false end.
(** swc_list_cli.py:51-78, from the loaded document on: options --format and --filter *)
Definition swc_list (n : nat) (format filter_ : option string) (u : val) : out (list string * option exn) :=
  do l <- import_document n "SwComponentType" false u;
  print_out (option_is format "long") (if option_is filter_ "compositionswcomponent" then filter is_composition l else l).
(** system_signal_cli.py:48-70; print_out compares the format with "full" *)
Definition system_signal (n : nat) (format : option string) (u : val) : out (list string * option exn) :=
  do l <- import_document n "SystemSignal" true u;
  print_out (String.eqb (if option_is format "full" then "full" else "short") "full") l.
(** memory_section_cli.py:49-71: the same analyzer, format "long" or "short" *)
Definition memory_section (n : nat) (format : option string) (u : val) : out (list string * option exn) :=
  do l <- import_document n "SystemSignal" true u;
  print_out (String.eqb (if option_is format "long" then "long" else "short") "full") l.
