(** C53: the connector report (connector2xlsx).  [krun]: any history of model API calls on a composition;
    [update_comp]: the update of a composition from a spreadsheet (C31). *)
From Coq Require Import String List Bool Permutation Sorted.
From Verif Require Import PyBase ClassTable Collection Composition SpecComposition Report SpecReport ReportProps.
Import ListNotations.
Open Scope string_scope.
Open Scope list_scope.

(** the report of a composition just updated gives the rows of the spreadsheet back, by name.
    Missing: rows with names used before, see C31. *)
Theorem C53_updated_partial : forall os rs, Forall proper os -> NoDup (map row_name rs) ->
  (forall r, In r rs -> ~ In (row_name r) (names_used os)) -> Forall one_pair rs ->
  exists s' ra rd, update_comp (krun os) rs = (s', None) /\ assembly_sheet s' = Ok ra /\ delegation_sheet s' = Ok rd /\
    Permutation ra (filter is_assembly rs) /\ Permutation rd (filter (fun r => negb (is_assembly r)) rs) /\
    StronglySorted (fun a b => str_leb (row_name a) (row_name b) = true) ra /\
    StronglySorted (fun a b => str_leb (row_name a) (row_name b) = true) rd.
Proof. exact report_updated. Qed.
Print Assumptions C53_updated_partial.

Example C53_case :
  let os := [KCreate (Some Assembly) "a"; KCreate (Some PassThrough) "t"] in
  let rs := [RowAssembly "n" (Some "/c/a") (Some "/p") (Some "/c/b") (Some "/r"); RowDelegation "k" (Some "/c/a") None (Some "/r1") None (Some "/r2");
             RowAssembly "m" (Some "/c/b") (Some "/p") None (Some "/r")] in
  Forall one_pair rs /\ exists s', update_comp (krun os) rs = (s', None) /\
  connector_report [("C", s')] = Ok [("C - AC", Assembly, [nth 2 rs (nth 0 rs (RowAssembly "" None None None None)); nth 0 rs (RowAssembly "" None None None None)]); ("C - DC", Delegation, [nth 1 rs (RowAssembly "" None None None None)])].
Proof.
  cbv zeta. split.
  - apply Forall_cons; [exact I|]. apply Forall_cons; [|apply Forall_cons; [exact I|apply Forall_nil]]. right. repeat split; discriminate.
  - eexists. split; vm_compute; reflexivity.
Qed.

(** but the attributes read are not those of the model: for every document with a composition that has
    an assembly or delegation connector the report stops with an AttributeError *)
Theorem C53_always_fails : forall l, (exists n os, In (n, os) l /\ connected (krun os)) ->
  connector_report (map (fun p => (fst p, krun (snd p))) l) = Raise AttributeError.
Proof. exact report_fails. Qed.
Print Assumptions C53_always_fails.

Example C53_connected : connected (krun [KCreate (Some Delegation) "d"; KPorts 0 (mkPorts (Some "/c/a") (Some "/p") None (Some "/q") (Some "P-PORT-PROTOTYPE"))]).
Proof. exists 0. split; [vm_compute; now left|right; vm_compute; reflexivity]. Qed.

Theorem C53_report_refuted : exists n os, connected (krun os) /\ connector_report [(n, krun os)] = Raise AttributeError.
Proof. exists "C", [KCreate (Some Delegation) "d"]. split; [exists 0; split; [vm_compute; now left|right; vm_compute; reflexivity]|vm_compute; reflexivity]. Qed.
Print Assumptions C53_report_refuted.
