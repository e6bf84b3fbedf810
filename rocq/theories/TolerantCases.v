(** Consequences for load and save, and concrete documents (C34, C45). *)
From Coq Require Import String List Bool.
From Verif Require Import PyBase Xml Leaf Ir Access WriterCode ReaderCode IrSem SpecDomain SpecRoundTrip RoundTripLoss Modes SpecTolerant.
Import ListNotations.
Open Scope string_scope.
Open Scope list_scope.

Local Opaque rfuns wfuns access_of init named_init.
Lemma load_quiet : forall x, ~ load_raises true x NotImplementedError.
Proof.
  intros x [n E]. refine (proj1 (quiet_reader n) 10 load_code "" x VNone (init "AUTOSAR") _ E). reflexivity.
Qed.
Lemma save_quiet : forall repr u, ~ saving_raises repr true u NotImplementedError.
Proof. intros repr u [n E]. refine (quiet_writer repr n 10 save_code "" u elem0 _ E). reflexivity. Qed.
Lemma load_modes : forall x u, loaded false x u -> loaded true x u.
Proof. intros x u [n E]. exists n. exact (proj1 (reader_modes n) _ _ _ _ _ u E). Qed.
Lemma save_modes : forall repr u x, saved repr false u x -> saved repr true u x.
Proof. intros repr u x (e & [n E] & X). exists e. split; [|exact X]. exists n. exact (writer_modes repr n _ _ _ _ e E). Qed.

Local Transparent rfuns wfuns access_of init named_init.
Lemma strange_cases : exists u,
  clean (strange [stray; stray]) = strange [] /\ unknown_in_root (strange [stray; stray]) /\
  loaded false (strange []) u /\ loaded true (strange [stray; stray]) u /\
  load_raises false (strange [stray; stray]) NotImplementedError /\ field u "arPackages" <> Some (VList []).
Proof.
  let u := eval vm_compute in (value (load_run false (strange []))) in exists u.
  split; [vm_compute; reflexivity|]. split; [apply (root_package _ stray); [left; reflexivity|reflexivity]|].
  split; [apply loaded_run; vm_compute; reflexivity|]. split; [apply loaded_run; vm_compute; reflexivity|].
  split; [exists steps_max; vm_compute; reflexivity|discriminate].
Qed.
(** an unknown element far down: only there *)
Definition deep : xml := package_xml [tagged "AR-PACKAGES" [named_xml "AR-PACKAGE" "Q" [tagged "ELEMENTS" [stray]]]].
Lemma deep_unknown : unknown_in_root deep.
Proof.
  eapply root_below; [left; reflexivity|reflexivity|]. eapply unknown_below; [left; reflexivity|reflexivity|]. eapply unknown_element; [left; reflexivity|reflexivity].
Qed.
Lemma strange_saved : forall repr, exists u x, loaded false (strange []) u /\ saved repr false u x.
Proof.
  let u := eval vm_compute in (value (load_run false (strange []))) in
  let e := eval vm_compute in (content (save_run (fun _ => "") false u)) in
  intros repr; exists u, (to_xml "AUTOSAR" e); split; [apply loaded_run; vm_compute; reflexivity|apply saved_run; vm_compute; reflexivity].
Qed.
