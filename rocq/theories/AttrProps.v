(** Which attributes an object has (C51). *)
From Coq Require Import String List Bool Arith.
From Verif Require Import PyBase PyBaseFacts ClassTable SetterTable Setters MroTable SpecSetters SetterProps ObjectTable Objects SpecObjects ObjectProps.
Import ListNotations.
Open Scope string_scope.
Open Scope list_scope.

Definition within (ks l : list string) : bool := forallb (fun a => mem a ks) l.
Definition closed_ok (c : string) : bool :=
  match outline c (params c) with
  | Ok sk =>
      let ks := map fst sk in
      if forallb (forallb (fun p => within ks (flat_map massigns (snd p)))) (tables (mro_of c))
      then forallb (forallb (fun p => within ks (flat_map aassigns (snd p)))) (add_tables (mro_of c)) else false
  | Raise _ => true
  end.
Lemma closed_all : forallb (fun c => if closed_ok c then true else String.eqb c "EcucInstanceReferenceValue") all_classes = true.
Proof. vm_compute. reflexivity. Qed.

Section Adders.
Context {A : Type} (eqb : A -> A -> bool).
Definition bounded (as_ : list string) (o o' : @attrs (slot A)) : Prop := forall a, dget o' a <> None -> dget o a <> None \/ In a as_.
Lemma bounded_refl : forall l o, bounded l o o.
Proof. intros l o a H. now left. Qed.
Lemma bounded_trans : forall l l' o o' o'', bounded l o o' -> bounded l' o' o'' -> bounded (l ++ l') o o''.
Proof.
  intros l l' o o' o'' H H' a D. destruct (H' a D) as [D'|I]; [|right; apply in_or_app; now right]. destruct (H a D') as [E|I]; [now left|]. right. apply in_or_app. now left.
Qed.
Lemma bounded_incl : forall l l' o o', incl l l' -> bounded l o o' -> bounded l' o o'.
Proof. intros l l' o o' I H a D. destruct (H a D) as [E|J]; [now left|right; now apply I]. Qed.
Lemma arun_bounded : forall b, (forall s, In s b -> forall v o o', final (arun1 eqb s v o) = Some o' -> bounded (aassigns s) o o') ->
  forall v o o', final (arun eqb b v o) = Some o' -> bounded (flat_map aassigns b) o o'.
Proof.
  induction b as [|s b IH]; intros H v o o' F; cbn [arun flat_map] in *.
  - injection F as <-. apply bounded_refl.
  - pose proof (H s (or_introl eq_refl) v o) as S. destruct (arun1 eqb s v o) as [o1|o1 r|e|]; cbn [final] in F; try discriminate.
    + eapply bounded_trans; [apply S; reflexivity|]. eapply IH; [|exact F]. intros s' I. apply H. now right.
    + injection F as <-. eapply bounded_incl; [|apply S; reflexivity]. apply incl_appl, incl_refl.
Qed.
Fixpoint arun1_bounded (s : astmt) : forall v o o', final (arun1 eqb s v o) = Some o' -> bounded (aassigns s) o o'.
Proof.
  destruct s as [a|a|b|a b| |]; intros v o o' F.
  - cbn in F. destruct (dget o a) as [[[x|l|c]|]|] eqn:E; try discriminate. injection F as <-. intros x D. rewrite dget_dset in D. destruct (String.eqb_spec x a) as [Q | N]; [subst x; left; rewrite E; discriminate|now left].
  - injection F as <-. intros x D. rewrite dget_dset in D. destruct (String.eqb_spec x a) as [Q | N]; [subst x; right; now left|now left].
  - cbn [arun1] in F. destruct v as [v|]; [|injection F as <-; apply bounded_refl]. rewrite arun1_block in F. cbn [aassigns]. revert F. apply arun_bounded.
    clear - arun1_bounded. induction b as [|s b IH]; [intros s []|]. intros s' [<- | I]; [apply arun1_bounded|now apply IH].
  - cbn [arun1] in F. destruct (dget o a) as [[[x|l|c]|]|]; try discriminate. destruct (existsb (oeqb eqb v) l); [injection F as <-; apply bounded_refl|].
    rewrite arun1_block in F. cbn [aassigns]. revert F. apply arun_bounded.
    clear - arun1_bounded. induction b as [|s b IH]; [intros s []|]. intros s' [<- | I]; [apply arun1_bounded|now apply IH].
  - injection F as <-. apply bounded_refl.
  - discriminate.
Qed.
Lemma adder_bounded : forall b v o o', final (arun eqb b v o) = Some o' -> bounded (flat_map aassigns b) o o'.
Proof. intros b. apply arun_bounded. intros s _. apply arun1_bounded. Qed.
End Adders.

Lemma lift_keys_iff : forall T U (h : T -> U) o a, dget (lift h o) a <> None <-> In a (map fst o).
Proof.
  intros T U h o a. split; [|apply lift_keys]. rewrite lift_get. intros D. induction o as [|[k x] o IH]; [now destruct D|]. cbn [dget map fst] in *. destruct (String.eqb_spec a k) as [Q | N]; [subst a; now left|]. right. now apply IH.
Qed.
Section Reached.
Context {A : Type} (name : slot A -> string) (eqb : A -> A -> bool).
Lemma new_listed : forall c (args : list (option (slot A))) o, In c all_classes -> new c args = Ok o -> exists sk, outline c (params c) = Ok sk /\ forall a, dget o a <> None <-> In a (map fst sk).
Proof.
  intros c args o I N. rewrite (new_outline A c args (params c) (new_params _ _ _ _ N)) in N. destruct (outline c (params c)) as [sk|]; [|discriminate].
  assert (o = lift (value_of args) sk) as -> by (cbn [rlift] in N; congruence). exists sk. split; [reflexivity|]. intros a. apply lift_keys_iff.
Qed.
Lemma within_In : forall ks l a, within ks l = true -> In a l -> In a ks.
Proof. intros ks l a W I. unfold within in W. rewrite forallb_forall in W. apply mem_In. now apply W. Qed.
Lemma reached_closed : forall c o, In c all_classes -> c <> "EcucInstanceReferenceValue" -> reached name eqb c o ->
  exists sk, outline c (params c) = Ok sk /\ forall a, dget o a <> None -> In a (map fst sk).
Proof.
  intros c o I NE R. pose proof closed_all as CA. rewrite forallb_forall in CA. specialize (CA c I). destruct (closed_ok c) eqn:CK; [|apply String.eqb_eq in CA; contradiction]. clear CA.
  induction R as [args o N|m v o o' R IH C LS|m v o o' R IH C].
  - destruct (new_listed c args o I N) as (sk & E & K). exists sk. split; [exact E|]. intros a. apply K.
  - destruct IH as (sk & E & K). exists sk. split; [exact E|]. unfold closed_ok in CK. rewrite E in CK. destruct (forallb (forallb (fun p => within (map fst sk) (flat_map massigns (snd p)))) (tables (mro_of c))) eqn:S; [|discriminate]. clear CK.
    apply left_final in C. unfold call, resolve in C. rewrite mro_stored in C. destruct (first_body (mro_of c) m) as [b|] eqn:B; [|discriminate].
    apply method_local in C. intros a D. destruct (C a) as [Q | [IN Q]]; [apply K; congruence|].
    destruct (first_body_In _ _ _ B) as (d & t & Id & L & Lm). rewrite forallb_forall in S. specialize (S t (tables_In _ _ _ Id L)). rewrite forallb_forall in S. specialize (S _ (lookup_In _ _ _ _ Lm)). cbn [snd] in S. exact (within_In _ _ _ S IN).
  - destruct IH as (sk & E & K). exists sk. split; [exact E|]. unfold closed_ok in CK. rewrite E in CK. destruct (forallb (forallb (fun p => within (map fst sk) (flat_map massigns (snd p)))) (tables (mro_of c))) eqn:S'; [|discriminate]. clear S'. rename CK into S.
    apply left_final in C. unfold add, resolve_add in C. rewrite mro_stored in C. destruct (first_add (mro_of c) m) as [b|] eqn:B; [|discriminate].
    apply adder_bounded in C. intros a D. destruct (C a D) as [Q|IN]; [now apply K|].
    destruct (first_add_In _ _ _ B) as (d & t & Id & L & Lm). rewrite forallb_forall in S. specialize (S t (add_tables_In _ _ _ Id L)). rewrite forallb_forall in S. specialize (S _ (lookup_In _ _ _ _ Lm)). cbn [snd] in S. exact (within_In _ _ _ S IN).
Qed.
Lemma same_attributes : forall c (args : list (option (slot A))) o0 o, is_class c -> c <> "EcucInstanceReferenceValue" -> new c args = Ok o0 -> reached name eqb c o ->
  forall a, dget o a <> None <-> dget o0 a <> None.
Proof.
  intros c args o0 o I NE N R a. destruct (new_listed c args o0 I N) as (sk & E & K). destruct (reached_closed c o I NE R) as (sk1 & E1 & K1). destruct (reached_whole name eqb c o I R) as (sk2 & E2 & K2 & _).
  assert (sk1 = sk) as -> by congruence. assert (sk2 = sk) as -> by congruence. rewrite K. split; [apply K1|apply K2].
Qed.
End Reached.
Lemma extra_attribute : exists o0 o : @attrs (slot unit), new "EcucInstanceReferenceValue" [] = Ok o0 /\ left_as (call (fun _ => "") "EcucInstanceReferenceValue" "setValueIRef" (Some (One tt)) o0) o /\ dget o0 "valueRef" = None /\ dget o "valueRef" <> None.
Proof. do 2 eexists. split; [vm_compute; reflexivity|]. split; [right; vm_compute; reflexivity|]. split; [reflexivity|discriminate]. Qed.
