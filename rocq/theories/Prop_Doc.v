(** Property theorems: the document registries (C10, C11, C22-C27). *)
From Coq Require Import String Ascii List Bool Arith Sorted.
From Verif Require Import PyBase Collection ObjHeap Doc SpecDoc DocProps.
Import ListNotations.
Open Scope string_scope.
Open Scope list_scope.

(** A history touching every registry. *)
Definition ex_a : named := mkNamed 10 "A".
Definition ex_b : named := mkNamed 11 "B".
Definition ex_a2 : named := mkNamed 12 "A".
Definition ex_hist : list dop := [
  DHeap (HPackage 0 "p"); DHeap (HCreate 1 (mkCreator "ImplementationDataType" GTyped true None None RGetTyped) "i");
  DRelease "4.4.0"; DDataMap (Some "/p/a") (Some "/p/i"); DDataMap (Some "/p/b") (Some "/p/i"); DDataMap None (Some "/p/j");
  DImplBeh "/p/i" "/p/x"; DRoot (Some ex_a); DSystem ex_b; DSystem ex_a; DSystem ex_a2; DComp (Some ex_b);
  DObj (Some (1, Some "u")); DObj (Some (2, Some "v")); DObj (Some (3, Some "u")); DObj (Some (4, None));
  DAdmin (Some 7); DFileInfo (Some 8); DIntro (Some 9); DAttrs (Some "c") (Some "t") (Some "d")].

(** ** C10 *)
Theorem C10_clear_is_fresh : forall os q, ask (doc_clear (drun os)) q = ask doc_new q.
Proof. exact c10_clear. Qed.
Print Assumptions C10_clear_is_fresh.

Example C10_case :
  map (fun q => ask (drun ex_hist) q) [QFind "/p/i"; QToImpl "/p/a"; QRoot; QAdmin; QObjects "u"; QSchema] =
    [AObj (Ok (Some 2)); AObj (Ok (Some 2)); ARoot (Some ex_a); AOpt (Some 7); AIds [1; 3];
     AText (Some "http://autosar.org/schema/r4.0 AUTOSAR_00047.xsd")] /\
  map (fun q => ask (doc_clear (drun ex_hist)) q) [QFind "/p/i"; QToImpl "/p/a"; QRoot; QAdmin; QObjects "u"; QSchema] =
    [AObj (Ok None); AObj (Raise IndexError); ARoot None; AOpt None; AIds []; AText None].
Proof. vm_compute. auto. Qed.

(** ** C11 *)
Theorem C11_known : forall os r xsd, In (r, xsd) supported ->
  setARRelease (drun os) r = (set_schema (drun os) (Some ("http://autosar.org/schema/r4.0 " ++ xsd)%string), None).
Proof. exact c11_known. Qed.
Print Assumptions C11_known.

Theorem C11_unknown : forall os r, ~ In r (map fst supported) -> setARRelease (drun os) r = (drun os, Some ValueError).
Proof. exact c11_unknown. Qed.
Print Assumptions C11_unknown.

Theorem C11_distinct : forall os r r', In r (map fst supported) -> In r' (map fst supported) ->
  d_schema (fst (setARRelease (drun os) r)) = d_schema (fst (setARRelease (drun os) r')) -> r = r'.
Proof. exact c11_locations. Qed.
Print Assumptions C11_distinct.

Example C11_case : In ("R22-11", "AUTOSAR_00051.xsd") supported /\ ~ In "4.5.0" (map fst supported) /\
  d_schema (fst (setARRelease (drun ex_hist) "R22-11")) = Some "http://autosar.org/schema/r4.0 AUTOSAR_00051.xsd".
Proof. split; [vm_compute; tauto|]. split; [|vm_compute; reflexivity]. vm_compute. intuition discriminate. Qed.

(** ** C22 *)
Theorem C22_exact : forall os u, getARObjectByUUID (drun os) u = with_uuid u (uuid_calls (since_clear os)).
Proof. exact c22_exact. Qed.
Print Assumptions C22_exact.

Example C22_case : uuid_calls (since_clear ex_hist) = [("u", 1); ("v", 2); ("u", 3)] /\
  getARObjectByUUID (drun ex_hist) "u" = [1; 3] /\ getARObjectByUUID (drun ex_hist) "w" = [].
Proof. vm_compute. auto. Qed.

(** ** C23 *)
(** Every duplicated UUID is listed, but so is every other one: see the refutation. *)
Theorem C23_listed_partial : forall os u, In u (getDuplicateUUIDs (drun os)) <-> exists x, In (u, x) (uuid_calls (since_clear os)).
Proof. exact c23_keys. Qed.
Print Assumptions C23_listed_partial.

(** The checker reports each UUID registered at least twice, once, with its registrations in order;
    what is missing: one object registered twice counts as two. *)
Theorem C23_report_partial : forall is_ref os rep e,
  (forall u x, In (u, x) (uuid_calls (since_clear os)) -> is_ref x = true) ->
  uuid_report is_ref (drun os) = (rep, e) ->
  e = None /\ NoDup (map fst rep) /\
  forall u xs, In (u, xs) rep <-> xs = with_uuid u (uuid_calls (since_clear os)) /\ 2 <= List.length xs.
Proof. exact c23_report. Qed.
Print Assumptions C23_report_partial.

(** a UUID carried by one object only is called a duplicate *)
Theorem C23_refuted : exists os u x, In u (getDuplicateUUIDs (drun os)) /\ getARObjectByUUID (drun os) u = [x].
Proof. exists [DObj (Some (1, Some "u"))], "u", 1. vm_compute. auto. Qed.
Print Assumptions C23_refuted.

(** one object registered twice (a package present in two loaded files) is reported as a duplicate *)
Theorem C23_report_refuted : exists os u x, (forall y, In (u, y) (uuid_calls (since_clear os)) -> y = x) /\
  In u (map fst (fst (uuid_report (fun _ => true) (drun os)))).
Proof.
  exists [DObj (Some (1, Some "u")); DObj (Some (1, Some "u"))], "u", 1. split; [|vm_compute; auto].
  vm_compute. intros y [H|[H|[]]]; inversion H; reflexivity.
Qed.
Print Assumptions C23_report_refuted.

Example C23_case : uuid_report (fun _ => true) (drun ex_hist) = ([("u", [1; 3])], None) /\
  uuid_report (fun x => Nat.eqb x 1) (drun ex_hist) = ([], Some NotImplementedError).
Proof. vm_compute. auto. Qed.

(** ** C24 *)
Theorem C24_to_implementation : forall os a, convertToImplementationDataType (drun os) a =
  match latest a (type_maps (since_clear os)) with
  | Some i => find_path (d_heap (drun os)) i | None => Raise IndexError end.
Proof. exact c24_to_impl. Qed.
Print Assumptions C24_to_implementation.

Theorem C24_to_application : forall os i, convertToApplicationDataType (drun os) i =
  match latest i (map swap_pair (type_maps (since_clear os))) with
  | Some a => find_path (d_heap (drun os)) a | None => Raise IndexError end.
Proof. exact c24_to_appl. Qed.
Print Assumptions C24_to_application.

Theorem C24_incomplete : forall os a i, a = None \/ i = None -> dstep (drun os) (DDataMap a i) = drun os.
Proof. exact c24_incomplete. Qed.
Print Assumptions C24_incomplete.

(** The conversions are inverse when no type is mapped to two partners; missing: other histories. *)
Theorem C24_inverse_partial : forall os a i, one_to_one (type_maps (since_clear os)) ->
  (latest a (type_maps (since_clear os)) = Some i <-> latest i (map swap_pair (type_maps (since_clear os))) = Some a).
Proof. exact c24_inverse. Qed.
Print Assumptions C24_inverse_partial.

(** two application types mapped to one implementation type *)
Theorem C24_refuted : exists os a i, latest a (type_maps (since_clear os)) = Some i /\
  latest i (map swap_pair (type_maps (since_clear os))) <> Some a.
Proof. exists ex_hist, "/p/a", "/p/i". vm_compute. split; [reflexivity|discriminate]. Qed.
Print Assumptions C24_refuted.

Example C24_case : type_maps (since_clear ex_hist) = [("/p/a", "/p/i"); ("/p/b", "/p/i")] /\
  convertToImplementationDataType (drun ex_hist) "/p/a" = Ok (Some 2) /\
  convertToApplicationDataType (drun ex_hist) "/p/i" = Ok None /\
  convertToApplicationDataType (drun ex_hist) "/p/j" = Raise IndexError.
Proof. vm_compute. auto. Qed.

(** ** C25 *)
Theorem C25_behavior : forall os i, getBehavior (drun os) i =
  match latest i (beh_maps (since_clear os)) with Some b => find_path (d_heap (drun os)) b | None => Ok None end.
Proof. exact c25_behavior. Qed.
Print Assumptions C25_behavior.

Theorem C25_implementation : forall os b, getImplementation (drun os) b =
  match latest b (map swap_pair (beh_maps (since_clear os))) with Some i => find_path (d_heap (drun os)) i | None => Ok None end.
Proof. exact c25_implementation. Qed.
Print Assumptions C25_implementation.

Theorem C25_inverse : forall os i b, one_to_one (beh_maps (since_clear os)) ->
  (latest i (beh_maps (since_clear os)) = Some b <-> latest b (map swap_pair (beh_maps (since_clear os))) = Some i).
Proof. exact (fun os i b => one_to_one_inverse (beh_maps (since_clear os)) i b). Qed.
Print Assumptions C25_inverse.

Example C25_case : one_to_one (beh_maps (since_clear ex_hist)) /\ getImplementation (drun ex_hist) "/p/x" = Ok (Some 2) /\
  getBehavior (drun ex_hist) "/p/i" = Ok None /\ getBehavior (drun ex_hist) "/none" = Ok None.
Proof.
  split; [|vm_compute; auto]. intros a b a' b' H H'. vm_compute in H, H'.
  destruct H as [H|[]], H' as [H'|[]]. inversion H; inversion H'; subst. tauto.
Qed.

(** ** C26 *)
Theorem C26_first_set : forall os, d_root (drun os) = hd_error (root_calls (since_clear os)).
Proof. exact c26_first. Qed.
Print Assumptions C26_first_set.

Theorem C26_fixed : forall os x v d' e, d_root (drun os) = Some x ->
  setRootSwCompositionPrototype (drun os) v = (d', e) -> d' = drun os /\
  (e = Some ValueError <-> exists y, v = Some y /\ o_name y <> o_name x) /\ (e = None \/ e = Some ValueError).
Proof. exact c26_fixed. Qed.
Print Assumptions C26_fixed.

Example C26_case : d_root (drun ex_hist) = Some ex_a /\
  snd (setRootSwCompositionPrototype (drun ex_hist) (Some ex_b)) = Some ValueError /\
  snd (setRootSwCompositionPrototype (drun ex_hist) (Some ex_a2)) = None /\
  d_root (drun (ex_hist ++ [DRoot (Some ex_a2)])) = Some ex_a.
Proof. vm_compute. auto. Qed.

(** ** C27 *)
Theorem C27_first_kept : forall os x, In x (getSystems (drun os)) <->
  first_named (o_name x) (system_calls (since_clear os)) = Some x.
Proof. exact c27_listed. Qed.
Print Assumptions C27_first_kept.

Theorem C27_names_once : forall os, NoDup (map o_name (getSystems (drun os))).
Proof. exact c27_names. Qed.
Print Assumptions C27_names_once.

Theorem C27_ascending : forall os,
  StronglySorted (fun a b => str_leb (o_name a) (o_name b) = true) (getSystems (drun os)).
Proof. exact c27_sorted. Qed.
Print Assumptions C27_ascending.

Theorem C27_composition : forall os n, getComposition (drun os) n =
  match first_named n (comp_calls (since_clear os)) with Some x => Ok x | None => Raise KeyError end.
Proof. exact c27_comp. Qed.
Print Assumptions C27_composition.

Example C27_case : getSystems (drun ex_hist) = [ex_a; ex_b] /\ getComposition (drun ex_hist) "B" = Ok ex_b /\
  getComposition (drun ex_hist) "A" = Raise KeyError.
Proof. vm_compute. auto. Qed.
