(** Properties C01-C04, C08, C09, C21: creation and lookup.
    [hrun os]: the document after the history [os] of createARPackage, createX and
    removeElement calls (on any objects); [find_path]: AUTOSAR.find(str); [find_ref]:
    AUTOSAR.find(RefType) with its value and DEST; [create h i k n]: the creation method [k]
    called with name [n] on object [i].  [creators] is the table of the 366 createX methods. *)
From Coq Require Import String List Bool Arith.
From Verif Require Import PyBase ClassTable Collection ObjHeap SpecHeap Creators SpecCreators SpecCreate
  CreatorFacts CreatorProps HeapProps.
Import ListNotations.
Open Scope string_scope.
Open Scope list_scope.

(** Example document: packages p and p/q, a signal s and a signal group g in p/q. *)
Definition ex_sig : creator := mkCreator "SystemSignal" GTyped true None None RGetTyped.
Definition ex_grp : creator := mkCreator "SystemSignalGroup" GTyped true None None RGetTyped.
Definition ex_ops : list hop := [HPackage 0 "p"; HPackage 1 "q"; HCreate 2 ex_sig "s"; HCreate 2 ex_grp "g"].

(** ** C01 *)
Theorem C01_find_inverts_full_name : forall os ws x, lives_clear (hrun os) ws x ->
  Forall (fun w => w <> "" /\ slash_free w) ws ->
  full_name (hrun os) x = slash_path ws /\ find_path (hrun os) (full_name (hrun os) x) = Ok (Some x).
Proof. exact c01_inverse. Qed.
Print Assumptions C01_find_inverts_full_name.

Example C01_case : lives_clear (hrun ex_ops) ["p"; "q"; "s"] 3 /\ full_name (hrun ex_ops) 3 = "/p/q/s".
Proof.
  split; [|vm_compute; reflexivity].
  assert (A : lives_clear (hrun ex_ops) ["p"] 1).
  { change ["p"] with ([] ++ [name_of (hrun ex_ops) 1]). apply clear_child with root; [constructor| |].
    - exists (mkNode CDocument "" 0 coll_empty [("p", 1)] [] []). split; [reflexivity|]. right. now left.
    - intros y [nd [H1 H2]] _. vm_compute in H1. inversion H1; subst nd. vm_compute in H2. intuition. }
  assert (B : lives_clear (hrun ex_ops) ["p"; "q"] 2).
  { change ["p"; "q"] with (["p"] ++ [name_of (hrun ex_ops) 2]). apply clear_child with 1; [exact A| |].
    - eexists. split; [vm_compute; reflexivity|]. right. now left.
    - intros y [nd [H1 H2]] _. vm_compute in H1. inversion H1; subst nd. vm_compute in H2. intuition. }
  change ["p"; "q"; "s"] with (["p"; "q"] ++ [name_of (hrun ex_ops) 3]). apply clear_child with 2; [exact B| |].
  - eexists. split; [vm_compute; reflexivity|]. left. now left.
  - intros y [nd [H1 H2]] H3. vm_compute in H1. inversion H1; subst nd. vm_compute in H2.
    destruct H2 as [[H2|[H2|[]]]|[]]; auto. subst y. vm_compute in H3. discriminate.
Qed.

(** ** C02 *)
Theorem C02_found_lives_there : forall os path ws x, components path ws ->
  find_path (hrun os) path = Ok (Some x) -> lives_at (hrun os) (nonempty_names ws) x.
Proof. exact c02_sound. Qed.
Print Assumptions C02_found_lives_there.

Theorem C02_nothing_there : forall os path ws, components path ws ->
  (forall x, ~ lives_at (hrun os) (nonempty_names ws) x) ->
  find_path (hrun os) path = Ok None \/ exists e, find_path (hrun os) path = Raise e.
Proof. exact c02_nothing_there. Qed.
Print Assumptions C02_nothing_there.

(** Every path string has components, so the two theorems apply to every path. *)
Theorem C02_every_path : forall path, exists ws, components path ws.
Proof. exact components_total. Qed.
Print Assumptions C02_every_path.

Example C02_case : find_path (hrun ex_ops) "p//q/s/" = Ok (Some 3) /\
  components "p//q/s/" ["p"; ""; "q"; "s"; ""] /\ nonempty_names ["p"; ""; "q"; "s"; ""] = ["p"; "q"; "s"] /\
  find_path (hrun ex_ops) "/p/q/t" = Ok None.
Proof.
  split; [vm_compute; reflexivity|]. split; [|split; vm_compute; reflexivity].
  apply (comp_more "p"); [intros [?|[]]; discriminate|]. apply (comp_more ""); [intros []|].
  apply (comp_more "q"); [intros [?|[]]; discriminate|]. apply (comp_more "s"); [intros [?|[]]; discriminate|].
  apply comp_last. intros [].
Qed.

(** ** C03 *)
(** The only case in which the claim holds for sure: the receiver is the singleton. *)
Theorem C03_singleton_partial : forall d path, doc_find d d path = find_path d path.
Proof. intros; reflexivity. Qed.
Print Assumptions C03_singleton_partial.

(** find on an AUTOSARDoc with package p, while the singleton is empty, does not find /p. *)
Theorem C03_refuted : exists s d path, doc_find s d path <> find_path d path.
Proof. exact c03_refuted. Qed.
Print Assumptions C03_refuted.

(** ** C04 *)
(** [dest_kinds]: the ten kinds DEST can name; [xml_name]: their XML spelling. *)
Theorem C04_dest_enforced : forall h v d x, d <> "" -> find_path h v = Ok (Some x) ->
  (find_ref h (Some v) (Some d) = Ok (Some x) <->
   exists k, In k dest_kinds /\ xml_name k = d /\ isinst (cls_of h x) k = true).
Proof. exact c04_kind. Qed.
Print Assumptions C04_dest_enforced.
Theorem C04_mismatch_raises : forall h v d x, d <> "" -> find_path h v = Ok (Some x) ->
  (forall k, In k dest_kinds -> xml_name k = d -> isinst (cls_of h x) k = false) ->
  find_ref h (Some v) (Some d) = Raise ValueError \/ find_ref h (Some v) (Some d) = Raise NotImplementedError.
Proof. exact c04_other_kind. Qed.
Print Assumptions C04_mismatch_raises.

Theorem C04_missing : forall h v d, find_path h v = Ok None -> find_ref h (Some v) d = Ok None.
Proof. exact c04_missing. Qed.
Print Assumptions C04_missing.

Theorem C04_no_dest : forall h v d, d = None \/ d = Some "" -> find_ref h (Some v) d = find_path h v.
Proof. exact c04_plain. Qed.
Print Assumptions C04_no_dest.

Example C04_case : find_ref (hrun ex_ops) (Some "/p/q/s") (Some "SYSTEM-SIGNAL") = Ok (Some 3) /\
  find_ref (hrun ex_ops) (Some "/p/q/g") (Some "SYSTEM-SIGNAL") = Raise ValueError /\
  find_ref (hrun ex_ops) (Some "/p/q") (Some "AR-PACKAGE") = Raise NotImplementedError /\
  find_ref (hrun ex_ops) (Some "/p/x") (Some "SYSTEM-SIGNAL") = Ok None.
Proof. repeat split; vm_compute; reflexivity. Qed.

(** ** C08 *)
Theorem C08_package : forall h i n h1 r, create_package h i n = (h1, r) -> create_package h1 i n = (h1, r).
Proof. exact create_package_idem. Qed.
Print Assumptions C08_package.

(** The second call gives the same result and changes no existing object.  Missing: the 71
    methods on the list [non_idempotent], for which C08_refuted shows the claim to be false. *)
Theorem C08_partial : forall c m k os i n h1 r, In (c, m, k) creators -> ~ In (c, m) non_idempotent ->
  create (hrun os) i k n = (h1, r) ->
  exists h2, create h1 i k n = (h2, r) /\ forall j, j < List.length h1 -> nth_error h2 j = nth_error h1 j.
Proof. exact c08_idem. Qed.
Print Assumptions C08_partial.

(** For each of the methods on the list the second call with the same name is visible. *)
Theorem C08_refuted : forall c m k, In (c, m, k) creators -> In (c, m) non_idempotent ->
  exists os i n h1 x h2 r2, cls_of (hrun os) i = c /\ create (hrun os) i k n = (h1, Ok (Some x)) /\ create h1 i k n = (h2, r2) /\
    (r2 <> Ok (Some x) \/ nth_error h2 i <> nth_error h1 i).
Proof. exact c08_refuted. Qed.
Print Assumptions C08_refuted.

Example C08_case : List.length creators = 366 /\ List.length non_idempotent = 71 /\
  (let h1 := fst (create (hrun ex_ops) 2 ex_sig "t") in
   snd (create (hrun ex_ops) 2 ex_sig "t") = Ok (Some 5) /\ create h1 2 ex_sig "t" = (h1, Ok (Some 5))).
Proof. repeat split; vm_compute; reflexivity. Qed.

(** ** C09 *)
(** Methods with a type-aware guard and lookup: in every document, whatever was added or
    removed before. *)
Theorem C09_typed_methods : forall c m k os i n h1 r, In (c, m, k) creators -> In (c, m) typed_methods ->
  i < List.length (hrun os) -> isinst (cls_of (hrun os) i) c = true ->
  create (hrun os) i k n = (h1, r) -> good_result h1 i (k_class k) n r.
Proof. exact c09_typed. Qed.
Print Assumptions C09_typed_methods.

(** Methods whose container has no rival method: in documents built by creation methods only. *)
Theorem C09_sole_methods_partial : forall c m k h i n h1 r, In (c, m, k) creators -> In (c, m) sole_methods ->
  built h -> i < List.length h -> isinst (cls_of h i) c = true ->
  create h i k n = (h1, r) -> good_result h1 i (k_class k) n r.
Proof. exact c09_sole. Qed.
Print Assumptions C09_sole_methods_partial.

(** The other methods break the claim after one call of another creation method of the same
    container (object 2 of class [d]). *)
Theorem C09_refuted : forall c m k, In (c, m, k) creators -> In (c, m) (map fst colliding_methods) ->
  exists d c' m' k' n' h1 r, In (c', m', k') creators /\
    let h := hrun (base_ops d ++ [HCreate 2 k' n']) in
    isinst (cls_of h 2) c = true /\ isinst (cls_of h 2) c' = true /\
    create h 2 k "x" = (h1, r) /\ ~ good_result h1 2 (k_class k) "x" r.
Proof. exact c09_refuted. Qed.
Print Assumptions C09_refuted.

Theorem C09_all_methods_covered : forall c m k, In (c, m, k) creators ->
  In (c, m) typed_methods \/ In (c, m) sole_methods \/ In (c, m) (map fst colliding_methods).
Proof. exact c09_cover. Qed.
Print Assumptions C09_all_methods_covered.

Example C09_case : List.length typed_methods = 126 /\ List.length sole_methods = 40 /\
  List.length colliding_methods = 200 /\
  isinst (cls_of (hrun ex_ops) 2) "ARPackage" = true /\
  snd (create (hrun ex_ops) 2 ex_grp "s") = Ok (Some 5) /\ 
  built (hrun [HPackage 0 "p"]).
Proof.
  repeat split; try (vm_compute; reflexivity).
  apply (built_step fresh_doc (HPackage 0 "p")); [constructor|exact I].
Qed.

(** ** C21 *)
Theorem C21_full_names_unique : forall os ws vs x y, lives_clear (hrun os) ws x -> lives_clear (hrun os) vs y ->
  Forall slash_free ws -> Forall slash_free vs -> full_name (hrun os) x = full_name (hrun os) y -> x = y.
Proof. exact c21_unique. Qed.
Print Assumptions C21_full_names_unique.

Example C21_case : full_name (hrun ex_ops) 3 = "/p/q/s" /\ full_name (hrun ex_ops) 4 = "/p/q/g".
Proof. split; vm_compute; reflexivity. Qed.
