(** Property theorems: getDataType, AdminData removal, listings, file lists (C28-C30, C42). *)
From Coq Require Import String Ascii List Bool Arith Sorted.
From Verif Require Import PyBase ClassTable Collection ObjHeap SpecHeap Doc Tools SpecTools ToolsProps.
Import ListNotations.
Open Scope string_scope.
Open Scope list_scope.

Definition mk (c : string) : creator := mkCreator c GTyped true None None RGetTyped.

(** ** C28 *)
Definition ex_types : heap := hrun [HPackage 0 "p"; HCreate 1 (mk "ImplementationDataType") "a";
  HCreate 1 (mk "ImplementationDataType") "b"; HCreate 1 (mk "SwBaseType") "c"].
(** a (TYPE_REFERENCE) -> b (DATA_REFERENCE to a value) -> c *)
Definition ex_info (wrap : string -> catval) (x : nat) : tinfo :=
  match x with
  | 2 => mkT (wrap "TYPE_REFERENCE") (Some (Some "/p/b")) None
  | 3 => mkT (wrap "DATA_REFERENCE") None (Some (wrap "VALUE", Some (Some (Some "/p/c", None))))
  | _ => mkT CNone None None
  end.

(** With categories assigned as plain strings the chain is followed to its end; missing: any
    category set through setCategory or read from a file. *)
Theorem C28_chain_partial : forall h ti x y, plain_strings ti -> resolves h ti x y ->
  exists n, forall fuel, n <= fuel -> getDataType fuel h ti (Some x) = Some (Ok y).
Proof. exact c28_resolves. Qed.
Print Assumptions C28_chain_partial.

(** With categories set through the API or the parser no reference is ever followed. *)
Theorem C28_api_partial : forall h ti x fuel, api_categories ti -> is_data_type h x ->
  getDataType (S fuel) h ti (Some x) = Some (Ok x).
Proof. exact c28_api. Qed.
Print Assumptions C28_api_partial.

Theorem C28_other_class : forall h ti x fuel, ~ is_data_type h x ->
  getDataType (S fuel) h ti (Some x) = Some (Raise ValueError).
Proof. exact c28_other. Qed.
Print Assumptions C28_other_class.

Lemma ex_resolves : forall wrap, (forall s, cat_text (wrap s) = Some s) -> resolves ex_types (ex_info wrap) 2 4.
Proof.
  intros wrap W. apply res_next with 3.
  - apply refers_type with "/p/b"; [left; vm_compute; reflexivity|apply W|reflexivity|vm_compute; reflexivity].
  - apply res_next with 4.
    + eapply refers_data; [left; vm_compute; reflexivity|apply W|reflexivity|apply W|vm_compute; reflexivity].
    + apply res_here. split; [right; vm_compute; reflexivity|]. split; simpl; discriminate.
Qed.

Theorem C28_refuted : exists h ti x y, api_categories ti /\ resolves h ti x y /\ y <> x /\
  forall fuel, getDataType (S fuel) h ti (Some x) = Some (Ok x).
Proof.
  exists ex_types, (ex_info CObj), 2, 4.
  assert (A : api_categories (ex_info CObj)) by (intros x s; destruct x as [|[|[|[|x]]]]; simpl; discriminate).
  split; [exact A|]. split; [apply ex_resolves; reflexivity|]. split; [discriminate|].
  intro fuel. apply c28_api; [exact A|]. left. vm_compute. reflexivity.
Qed.
Print Assumptions C28_refuted.

Example C28_case : plain_strings (ex_info CStr) /\ resolves ex_types (ex_info CStr) 2 4 /\
  getDataType 3 ex_types (ex_info CStr) (Some 2) = Some (Ok 4).
Proof.
  split; [|split; [apply ex_resolves; reflexivity|vm_compute; reflexivity]].
  intro x. split; destruct x as [|[|[|[|x]]]]; simpl; try discriminate; intros c p s H; inversion H; discriminate.
Qed.

(** ** C29 *)
(** Document, packages at every depth and their direct elements lose their admin data; missing:
    elements of elements (see the refutation). *)
Theorem C29_removed_partial : forall os a x,
  (x = root \/ package_in (hrun os) x \/
   (element_in (hrun os) x /\ (isinst (cls_of (hrun os) x) "Describable" = true \/ isinst (cls_of (hrun os) x) "Identifiable" = true))) ->
  remove_admin (hrun os) a x = None.
Proof. exact c29_removed. Qed.
Print Assumptions C29_removed_partial.

Theorem C29_rest_unchanged : forall os a x, x <> root -> ~ package_in (hrun os) x -> ~ element_in (hrun os) x ->
  remove_admin (hrun os) a x = a x.
Proof. exact c29_kept. Qed.
Print Assumptions C29_rest_unchanged.

Definition ex_tree : list hop := [HPackage 0 "p"; HPackage 1 "q"; HCreate 2 (mk "ApplicationSwComponentType") "z";
  HCreate 3 (mk "PPortPrototype") "port"; HCreate 1 (mk "CompositionSwComponentType") "c"; HCreate 2 (mk "SystemSignal") "s";
  HCreate 1 (mk "SystemSignal") "a"].
(** a port of a component keeps its admin data *)
Theorem C29_refuted : exists os ws x a, lives_at (hrun os) ws x /\ remove_admin (hrun os) a x <> None.
Proof.
  exists ex_tree, ["p"; "q"; "z"; "port"], 4, (fun _ => Some 1). split; [|vm_compute; discriminate].
  assert (A : lives_at (hrun ex_tree) ["p"] 1).
  { change ["p"] with ([] ++ [name_of (hrun ex_tree) 1]). eapply lives_child; [constructor|]. eexists. split; [vm_compute; reflexivity|].
    right. now left. }
  assert (B : lives_at (hrun ex_tree) ["p"; "q"] 2).
  { change ["p"; "q"] with (["p"] ++ [name_of (hrun ex_tree) 2]). eapply lives_child; [exact A|]. eexists. split; [vm_compute; reflexivity|].
    right. now left. }
  assert (C : lives_at (hrun ex_tree) ["p"; "q"; "z"] 3).
  { change ["p"; "q"; "z"] with (["p"; "q"] ++ [name_of (hrun ex_tree) 3]). eapply lives_child; [exact B|]. eexists. split; [vm_compute; reflexivity|].
    left. now left. }
  change ["p"; "q"; "z"; "port"] with (["p"; "q"; "z"] ++ [name_of (hrun ex_tree) 4]). eapply lives_child; [exact C|].
  eexists. split; [vm_compute; reflexivity|]. left. now left.
Qed.
Print Assumptions C29_refuted.

Example C29_case : map (remove_admin (hrun ex_tree) (fun x => Some x)) [0; 1; 2; 3; 4; 5; 6; 7] =
  [None; None; None; None; Some 4; None; None; None].
Proof. vm_compute. reflexivity. Qed.

(** ** C30 *)
Theorem C30_components : forall os comp long, exists objs,
  swc_lines (hrun os) comp long = map (fun x => if long then full_name (hrun os) x else name_of (hrun os) x) objs /\
  NoDup objs /\ StronglySorted (fun a b => str_leb (name_of (hrun os) a) (name_of (hrun os) b) = true) objs /\
  forall x, In x objs <-> element_in (hrun os) x /\ isinst (cls_of (hrun os) x) "SwComponentType" = true /\
    (comp = true -> isinst (cls_of (hrun os) x) "CompositionSwComponentType" = true).
Proof. exact c30_swc. Qed.
Print Assumptions C30_components.

Theorem C30_signals : forall os full, exists objs,
  signal_lines (hrun os) full = map (fun x => if full then full_name (hrun os) x else name_of (hrun os) x) objs /\
  NoDup objs /\ StronglySorted (fun a b => str_leb (name_of (hrun os) a) (name_of (hrun os) b) = true) objs /\
  forall x, In x objs <-> element_in (hrun os) x /\ isinst (cls_of (hrun os) x) "SystemSignal" = true.
Proof. exact c30_signals. Qed.
Print Assumptions C30_signals.

Example C30_case : swc_lines (hrun ex_tree) false true = ["/p/c"; "/p/q/z"] /\
  swc_lines (hrun ex_tree) true false = ["c"] /\ signal_lines (hrun ex_tree) true = ["/p/a"; "/p/q/s"].
Proof. vm_compute. auto. Qed.

(** ** C42 *)
Theorem C42_in_order : forall fs args l, input_files fs args = Ok l <->
  exists ls, Forall2 (fun a r => input_arg fs a = Ok r) args ls /\ l = List.concat ls.
Proof. exact c42_args. Qed.
Print Assumptions C42_in_order.

Theorem C42_list_parser_in_order : forall fs args l, list_files fs args = Ok l <->
  exists ls, Forall2 (fun a r => list_arg fs a = Ok r) args ls /\ l = List.concat ls.
Proof. exact c42_list_args. Qed.
Print Assumptions C42_list_parser_in_order.

(** a directory: exactly the .arxml files below it *)
Theorem C42_directory : forall fs arg es path, fs arg = Some (FDir es) ->
  (forall n p, file_below arg (FDir es) n p -> no_newline n) ->
  exists l, input_arg fs arg = Ok l /\ list_arg fs arg = Ok l /\
   (In path l <-> exists n, file_below arg (FDir es) n path /\ arxml_file n).
Proof. exact c42_dir. Qed.
Print Assumptions C42_directory.

(** none of them twice *)
Theorem C42_directory_once : forall o dir, tidy o -> NoDup (dir_files dir o).
Proof. exact c42_once. Qed.
Print Assumptions C42_directory_once.

Theorem C42_list_file : forall fs file ls, (forall es, fs ("@" ++ file)%string <> Some (FDir es)) ->
  fs file = Some (FFile ls) ->
  input_arg fs ("@" ++ file)%string = Ok (map strip ls) /\
  list_arg fs ("@" ++ file)%string = Ok (map strip (filter (fun l => negb (String.prefix "#" l)) ls)).
Proof. exact c42_list_file. Qed.
Print Assumptions C42_list_file.

Theorem C42_plain_file : forall fs c rest, (forall es, fs (String c rest) <> Some (FDir es)) -> c <> "@"%char ->
  input_arg fs (String c rest) = Ok [String c rest] /\ list_arg fs (String c rest) = Ok [String c rest].
Proof. exact c42_plain. Qed.
Print Assumptions C42_plain_file.

Definition ex_dir : list (string * fsobj) :=
  [("x.ARXML", FFile []); ("sub", FDir [("y.arxml", FFile []); ("z.txt", FFile [])]); ("d.arxml", FDir [])].
Definition ex_fs : filesystem := fun p =>
  if String.eqb p "dir" then Some (FDir ex_dir) else if String.eqb p "list" then Some (FFile [" a.arxml "; "#b"]) else None.
Example C42_case : input_files ex_fs ["f.arxml"; "dir"; "@list"] =
    Ok ["f.arxml"; "dir/sub/y.arxml"; "dir/x.ARXML"; "a.arxml"; "#b"] /\
  list_files ex_fs ["@list"; "dir"; "@none"] = Ok ["a.arxml"; "dir/sub/y.arxml"; "dir/x.ARXML"] /\
  input_files ex_fs ["@none"] = Raise OSError /\ input_files ex_fs [""] = Raise IndexError.
Proof. vm_compute. auto. Qed.
