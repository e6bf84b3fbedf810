(** Documents for C55 and C56. *)
From Coq Require Import String Ascii List Bool Floats.SpecFloat.
From Verif Require Import PyBase Primitives Xml Leaf Ir Access IrSem SpecRoundTrip SpecTolerant SpecRun RoundTripLoss.
Import ListNotations.
Open Scope string_scope.
Open Scope list_scope.

Fixpoint everywhere (p : xml -> bool) (x : xml) : bool := p x && match x with El _ _ _ ks => forallb (everywhere p) ks end.
Lemma nowhere_inside : forall (p : xml -> bool) (P : xml -> Prop), (forall x, P x -> p x = false) -> forall x, everywhere p x = true -> ~ inside P x.
Proof.
  intros p P H x E I. revert E. induction I as [x Hx|x y K _ IH]; intros E.
  - destruct x. cbn [everywhere] in E. rewrite (H _ Hx) in E. discriminate E.
  - apply IH. destruct x as [t a s ks]. cbn [everywhere] in E. apply andb_true_iff in E. destruct E as [_ E]. rewrite forallb_forall in E. exact (E y K).
Qed.
Lemma not_any : forall tags x, everywhere (fun y => negb (existsb (String.eqb (xtag y)) tags)) x = true -> ~ has_any tags x.
Proof.
  intros tags. apply nowhere_inside. intros x I. apply negb_false_iff, existsb_exists. exists (xtag x). split; [exact I|apply String.eqb_refl].
Qed.
Lemma not_nameless : forall x, everywhere (fun y => negb (String.eqb (xtag y) "SHORT-NAME") || match xtext y with Some _ => true | None => false end) x = true -> ~ nameless x.
Proof. apply nowhere_inside. intros x [T S]. rewrite T, S. reflexivity. Qed.

Lemma raises_run : forall warn x e, load_run warn x = Exc e -> load_raises warn x e.
Proof. intros warn x e H. unfold load_run in H. exists steps_max. exact H. Qed.
Ltac raise := apply raises_run; vm_compute; reflexivity.
Lemma plain_case : forall repr warn, ~ has_any faulty_tags plain /\ ~ nameless plain /\ exists u y, loaded warn plain u /\ saved repr warn u y /\ xkids y <> [].
Proof.
  intros repr warn. split; [apply not_any; vm_compute; reflexivity|]. split; [apply not_nameless; vm_compute; reflexivity|].
  let u := eval vm_compute in (value (load_run false plain)) in
  let e := eval vm_compute in (content (save_run (fun _ => "") false u)) in
  exists u, (to_xml "AUTOSAR" e); split; [apply loaded_run; destruct warn; vm_compute; reflexivity|]; split; [apply saved_run; destruct warn; vm_compute; reflexivity|discriminate].
Qed.
Lemma load_cases :
  (forall warn, load_raises warn bad_size ValueError) /\ (forall warn, load_raises warn literal_def AttributeError) /\ (forall warn, load_raises warn bulk_block AttributeError) /\
  load_raises true strange_value UnboundLocalError /\ load_raises false strange_value NotImplementedError /\ load_raises false strange_port NotImplementedError.
Proof.
  split; [intros []; raise|]. split; [intros []; raise|]. split; [intros []; raise|]. split; [raise|]. split; raise.
Qed.
Lemma same_name_case : forall warn, load_raises warn same_name NameInUse.
Proof. intros []; raise. Qed.
Lemma type_cases : (forall warn, load_raises warn unnamed_package TypeError) /\ (forall warn, load_raises warn unnamed_implementation TypeError) /\
  (forall warn, load_raises warn unnamed_behavior TypeError) /\ (forall warn, load_raises warn plain_mapping AttributeError) /\
  ~ has_any faulty_tags unnamed_package /\ ~ nameless plain_mapping /\ ~ has_any faulty_tags plain_mapping.
Proof.
  split; [intros []; raise|]. split; [intros []; raise|]. split; [intros []; raise|]. split; [intros []; raise|].
  split; [apply not_any; vm_compute; reflexivity|]. split; [apply not_nameless; vm_compute; reflexivity|apply not_any; vm_compute; reflexivity].
Qed.
Lemma unnamed_case : forall repr warn, save_raises repr warn unnamed_mode TypeError /\ ~ has_any faulty_tags unnamed_mode.
Proof.
  intros repr warn. split; [|apply not_any; vm_compute; reflexivity].
  let u := eval vm_compute in (value (load_run false unnamed_mode)) in
  exists u, steps_max; split; [apply loaded_run; destruct warn; vm_compute; reflexivity|destruct warn; vm_compute; reflexivity].
Qed.
Lemma switch_case : forall repr warn, save_raises repr warn switch_point AttributeError /\ ~ nameless switch_point.
Proof.
  intros repr warn. split; [|apply not_nameless; vm_compute; reflexivity].
  let u := eval vm_compute in (value (load_run false switch_point)) in
  exists u, steps_max; split; [apply loaded_run; destruct warn; vm_compute; reflexivity|destruct warn; vm_compute; reflexivity].
Qed.
Lemma strict_save_case : forall repr, save_raises repr false value_collection NotImplementedError /\ ~ has_any faulty_tags value_collection /\ ~ nameless value_collection.
Proof.
  intros repr. split; [apply value_collection_raises|]. split; [apply not_any; vm_compute; reflexivity|apply not_nameless; vm_compute; reflexivity].
Qed.
