(** C31, C32: compositions and the connector spreadsheet *)
From Coq Require Import String Ascii List Bool Arith.
From Verif Require Import PyBase ClassTable Collection Composition SpecComposition CompositionProps.
Import ListNotations.
Open Scope string_scope.
Open Scope list_scope.

(** *** C32 *)
Theorem C32_children_in_step : forall os, Forall proper os -> let s := krun os in
  k_components s = filter (is_comp s) (elems (k_coll s)) /\
  k_connectors s = filter (is_conn s) (elems (k_coll s)) /\
  NoDup (elems (k_coll s)) /\
  forall x, In x (elems (k_coll s)) ->
    coll_get (k_ty (k_objs s)) (k_coll s) (k_nm (k_objs s) x) (Some (k_ty (k_objs s) x)) = Ok (Some x).
Proof. exact c32_step. Qed.
Print Assumptions C32_children_in_step.

Definition ex_ops : list kop :=
  [KCreate None "c1"; KCreate (Some Assembly) "a1"; KOther "PPortPrototype" "p"; KCreate (Some Delegation) "d1";
   KCreate None "c2"; KCreate (Some PassThrough) "t1"; KRemove "c1" None; KRemoveAll Delegation].
Example C32_case : Forall proper ex_ops /\ k_components (krun ex_ops) = [4] /\ k_connectors (krun ex_ops) = [1; 5] /\
  elems (k_coll (krun ex_ops)) = [1; 2; 4; 5].
Proof.
  split; [|split; [|split]]; [|vm_compute; reflexivity..].
  unfold ex_ops. repeat (apply Forall_cons; [cbn [proper]; try exact I|]); [|apply Forall_nil]. split; vm_compute; reflexivity.
Qed.

(** *** C31.  Missing: rows whose name the composition has used before, see the refutations. *)
Theorem C31_update_partial : forall os rs, Forall proper os -> NoDup (map row_name rs) ->
  (forall r, In r rs -> ~ In (row_name r) (names_used os)) -> Forall complete rs ->
  exists s' xs, update_comp (krun os) rs = (s', None) /\
    k_components s' = k_components (krun os) /\
    k_connectors s' = filter (fun x => negb (isinst (k_ty (k_objs (krun os)) x) "AssemblySwConnector" ||
                                             isinst (k_ty (k_objs (krun os)) x) "DelegationSwConnector")%bool)
                        (k_connectors (krun os)) ++ xs /\
    Forall2 (fun r x => k_ty (k_objs s') x = row_class r /\ k_nm (k_objs s') x = row_name r /\
                        stored (k_snake s') x = Some (sheet_ports r)) rs xs.
Proof. exact c31_update. Qed.
Print Assumptions C31_update_partial.

Definition ex_rows : list row :=
  [RowAssembly "n1" (Some "/c/a") (Some "/p") (Some "/c/b") (Some "/r"); RowDelegation "n2" (Some "/c/a") None (Some "/r1") None (Some "/r2")].
Example C31_case : NoDup (map row_name ex_rows) /\ (forall r, In r ex_rows -> ~ In (row_name r) (names_used ex_ops)) /\
  Forall complete ex_rows /\ exists s', update_comp (krun ex_ops) ex_rows = (s', None) /\ k_connectors s' = [5; 6; 7].
Proof.
  split; [|split; [|split]].
  - repeat constructor; cbn; intuition discriminate.
  - intros r [<-|[<-|[]]] H; cbn in H; intuition discriminate.
  - apply Forall_cons; [exact I|]. apply Forall_cons; [|apply Forall_nil]. cbn. right. split; discriminate.
  - eexists. split; vm_compute; reflexivity.
Qed.

(** The attributes the writer reads stay empty on every connector the sheet creates. *)
Theorem C31_written_ports_empty : forall os rs, Forall proper os -> NoDup (map row_name rs) ->
  (forall r, In r rs -> ~ In (row_name r) (names_used os)) -> Forall complete rs ->
  exists s' xs kept, update_comp (krun os) rs = (s', None) /\ k_connectors s' = kept ++ xs /\ List.length xs = List.length rs /\
    Forall (fun x => stored (k_ports s') x = None) xs.
Proof. exact c31_unwritten. Qed.
Print Assumptions C31_written_ports_empty.

Theorem C31_written_ports_refuted : exists os rs s' x, Forall proper os /\
  rs = [RowAssembly "n" (Some "/c/a") (Some "/p") (Some "/c/b") (Some "/r")] /\
  update_comp (krun os) rs = (s', None) /\ k_connectors s' = [x] /\ k_nm (k_objs s') x = "n" /\
  stored (k_ports s') x = None.
Proof. exact c31_ports_bad. Qed.
Print Assumptions C31_written_ports_refuted.

(** A row that re-uses the name of a connector present before leaves the composition without it,
    without any error. *)
Theorem C31_reused_name_refuted : exists os rs s', Forall proper os /\ Forall complete rs /\ NoDup (map row_name rs) /\
  rs = [RowAssembly "a" (Some "/c/a") (Some "/p") (Some "/c/b") (Some "/r")] /\
  update_comp (krun os) rs = (s', None) /\ k_connectors s' = [] /\ elems (k_coll s') = [].
Proof. exact c31_reused_bad. Qed.
Print Assumptions C31_reused_name_refuted.
