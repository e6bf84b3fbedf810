(** getDataType, the listing tools, the AdminData transformer and the file-list arguments.
    Paths relative to /repo/src/armodel; TOP as in Doc.v. *)
From Coq Require Import String Ascii List Bool Arith NArith.
From Verif Require Import PyBase ClassTable Collection ObjHeap Doc.
Import ListNotations.
Open Scope string_scope.
Open Scope list_scope.

(** ** getDataType *)

(** What the attribute [category] holds: a plain str (assigned directly, as the tests do) or
    a CategoryString/ARLiteral object (setCategory, GTC/Identifiable.py:561-577, and the
    parser, parser/arxml_parser.py:939).  Likewise for targetCategory (an object when parsed,
    parser/arxml_parser.py:3562). *)
Inductive catval := CNone | CStr (s : string) | CObj (s : string).

(** value == "literal": the value classes define no __eq__, so an object never equals a str *)
Definition cat_eq (v : catval) (s : string) : bool :=
  match v with CStr t => String.eqb t s | _ => false end.

(** The attributes of a type read by getDataType; the options are None attributes on the way.
    t_impl_ref: swDataDefProps.implementationDataTypeRef.value; t_pointer: target category and
    base type reference (value, DEST) of swDataDefProps.swPointerTargetProps. *)
Record tinfo := mkT {
  t_category : catval;
  t_impl_ref : option (option string);
  t_pointer : option (catval * option (option (option string * option string))) }.

(** TOP:258-269; [None] = recursion not finished within [fuel] calls. *)
Fixpoint getDataType (fuel : nat) (h : heap) (ti : nat -> tinfo) (x : option nat) : option (res nat) :=
  match fuel with
  | O => None
  | S fuel' =>
      match x with
      | None => Some (Raise ValueError)
      | Some x =>
          if (isinst (cls_of h x) "ImplementationDataType" || isinst (cls_of h x) "SwBaseType")%bool then
            let t := ti x in
            if cat_eq (t_category t) "TYPE_REFERENCE" then
              match t_impl_ref t with
              | None => Some (Raise AttributeError)
              | Some v => match find_ref h v None with
                          | Ok y => getDataType fuel' h ti y
                          | Raise e => Some (Raise e) end
              end
            else if cat_eq (t_category t) "DATA_REFERENCE" then
              match t_pointer t with
              | None => Some (Raise AttributeError)
              | Some (target, props) =>
                  if cat_eq target "VALUE" then
                    match props with
                    | None | Some None => Some (Raise AttributeError)
                    | Some (Some (v, d)) =>
                        match find_ref h v d with
                        | Ok y => getDataType fuel' h ti y
                        | Raise e => Some (Raise e) end
                    end
                  else Some (Ok x)
              end
            else Some (Ok x)
          else Some (Raise ValueError)
      end
  end.

(** ** Listings *)

(** lib/sw_component.py:20-28 and lib/system_signal.py:25-35: sub-packages first, then the
    selected elements of the package itself.  Recursion depth is bounded by [fuel]; callers
    pass the number of objects. *)
Fixpoint parse_pkg (fuel : nat) (h : heap) (sel : node -> list nat) (i : nat) : list nat :=
  match fuel with
  | O => []
  | S fuel' =>
      match nth_error h i with
      | None => []
      | Some nd => flat_map (parse_pkg fuel' h sel) (sorted_packages h i) ++ sel nd
      end
  end.
Definition import_data (h : heap) (sel : node -> list nat) : list nat :=
  flat_map (parse_pkg (List.length h) h sel) (sorted_packages h root).

(** GTC/ARPackage.py:1474-1475 getSwComponentTypes, 1649-1650 getSystemSignals *)
Definition getSwComponentTypes (h : heap) (nd : node) : list nat :=
  filter (fun e => isinst (cls_of h e) "SwComponentType") (elems (ncoll nd)).
Definition getSystemSignals (h : heap) (nd : node) : list nat :=
  py_sorted (name_of h) (filter (fun e => isinst (cls_of h e) "SystemSignal") (elems (ncoll nd))).

(** lib/sw_component.py:30-45: the listed objects and the printed lines; [composition] is the
    filter option.  Simplification: the heading line is left out. *)
Definition swc_list (h : heap) (composition : bool) : list nat :=
  let swcs := import_data h (getSwComponentTypes h) in
  py_sorted (name_of h)
    (if composition then filter (fun e => isinst (cls_of h e) "CompositionSwComponentType") swcs else swcs).
Definition swc_lines (h : heap) (composition long : bool) : list string :=
  map (fun e => if long then full_name h e else name_of h e) (swc_list h composition).
(** lib/system_signal.py:37-47 *)
Definition signal_list (h : heap) : list nat :=
  py_sorted (name_of h) (import_data h (getSystemSignals h)).
Definition signal_lines (h : heap) (full : bool) : list string :=
  map (fun e => if full then full_name h e else name_of h e) (signal_list h).

(** ** transformer/admin_data.py *)

(** The adminData attribute of every object. *)
Definition admins := nat -> option nat.
Definition remove_at (x : nat) (a : admins) : admins := fun y => if Nat.eqb y x then None else a y.

(** transformer/admin_data.py:19-32 *)
Fixpoint process_pkg (fuel : nat) (h : heap) (i : nat) (a : admins) : admins :=
  match fuel with
  | O => a
  | S fuel' =>
      match nth_error h i with
      | None => a
      | Some nd =>
          let a := fold_left (fun a p => process_pkg fuel' h p a) (sorted_packages h i) a in
          let a := remove_at i a in
          fold_left (fun a e => if isinst (cls_of h e) "Describable" then remove_at e a
                                else if isinst (cls_of h e) "Identifiable" then remove_at e a else a)
                    (elems (ncoll nd)) a
      end
  end.
(** transformer/admin_data.py:34-37 *)
Definition remove_admin (h : heap) (a : admins) : admins :=
  fold_left (fun a p => process_pkg (List.length h) h p a) (sorted_packages h root) (remove_at root a).

(** ** lib/cli_args_parser.py and parser/file_parser.py *)

(** A file is its list of lines without line ends; a directory lists its entries in the order
    os.walk meets them.  Simplification: no symbolic links, no unreadable files. *)
Inductive fsobj := FFile (lines : list string) | FDir (entries : list (string * fsobj)).
(** what the operating system finds under a path *)
Definition filesystem := string -> option fsobj.

(** re.match(".*\.arxml$", name, re.I): no newline before the suffix, at most one after it. *)
Definition newline : ascii := ascii_of_N 10.
Fixpoint arxml_name (s : string) : bool :=
  match s with
  | EmptyString => false
  | String c s' =>
      (String.eqb (lower s) ".arxml" || String.eqb (lower s) (".arxml" ++ String newline "")%string
       || (negb (Ascii.eqb c newline) && arxml_name s'))%bool
  end.

(** os.path.join(root, name) for a relative name *)
Fixpoint ends_with_slash (s : string) : bool :=
  match s with
  | EmptyString => false
  | String c EmptyString => Ascii.eqb c "/"
  | String _ s' => ends_with_slash s'
  end.
Definition path_join (dir name : string) : string :=
  if (is_empty dir || ends_with_slash dir)%bool then (dir ++ name)%string else (dir ++ String "/" name)%string.

(** os.walk(dir, topdown=False) with the file filter: the subdirectories in listing order,
    then the files of the directory itself (lib/cli_args_parser.py:23-29,
    parser/file_parser.py:31-37). *)
Fixpoint dir_files (dir : string) (o : fsobj) {struct o} : list string :=
  match o with
  | FFile _ => []
  | FDir es =>
      (fix subs (l : list (string * fsobj)) : list string :=
         match l with
         | [] => []
         | (n, o') :: l' =>
             match o' with FDir _ => dir_files (path_join dir n) o' | FFile _ => [] end ++ subs l'
         end) es
      ++ flat_map (fun p => match snd p with
                            | FFile _ => if arxml_name (fst p) then [path_join dir (fst p)] else []
                            | FDir _ => [] end) es
  end.

(** lib/cli_args_parser.py:31-42: one argument *)
Definition input_arg (fs : filesystem) (arg : string) : res (list string) :=
  match fs arg with
  | Some (FDir es) => Ok (dir_files arg (FDir es))
  | _ => match arg with
         | EmptyString => Raise IndexError
         | String c rest =>
             if Ascii.eqb c "@" then
               match fs rest with
               | Some (FFile ls) => Ok (map strip ls)
               | _ => Raise OSError
               end
             else Ok [arg]
         end
  end.
Fixpoint input_files (fs : filesystem) (args : list string) : res (list string) :=
  match args with
  | [] => Ok []
  | a :: args' => let* x := input_arg fs a in let* y := input_files fs args' in Ok (x ++ y)
  end.

(** parser/file_parser.py:39-49: as above, but lines starting with '#' are skipped and an
    unreadable list file is only logged *)
Definition starts_hash (s : string) : bool :=
  match s with String c _ => Ascii.eqb c "#" | EmptyString => false end.
Definition list_arg (fs : filesystem) (arg : string) : res (list string) :=
  match fs arg with
  | Some (FDir es) => Ok (dir_files arg (FDir es))
  | _ => match arg with
         | EmptyString => Raise IndexError
         | String c rest =>
             if Ascii.eqb c "@" then
               match fs rest with
               | Some (FFile ls) => Ok (map strip (filter (fun l => negb (starts_hash l)) ls))
               | _ => Ok []
               end
             else Ok [arg]
         end
  end.
Fixpoint list_files (fs : filesystem) (args : list string) : res (list string) :=
  match args with
  | [] => Ok []
  | a :: args' => let* x := list_arg fs a in let* y := list_files fs args' in Ok (x ++ y)
  end.
