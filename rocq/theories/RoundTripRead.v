(** Reading arbitrary package elements: which class is created for a tag (C37), and unknown tags (C34). *)
From Coq Require Import String Ascii List Bool Arith Lia.
From Verif Require Import PyBase PyBaseFacts Xml Leaf Ir Access ReaderCode IrSem IrFacts IrGo Domain SpecDomain IrCheck SpecRoundTrip RoundTripProps.
Import ListNotations.
Open Scope string_scope.
Open Scope list_scope.

Local Opaque access_of attrs_of rfuns access_table attr_table init named_init.

(** a reader never changes the class of the object it works on *)
Lemma set_field_class : forall o f w, class_of (set_field o f w) = class_of o.
Proof. intros [] f w; reflexivity. Qed.
Lemma put1_class : forall o m w o', put1 o m w = Done o' -> class_of o' = class_of o.
Proof.
  intros o m w o' H. destruct o as [| | |c l|l]; try discriminate; cbn [put1] in H.
  - destruct (access_of c m) as [[| |f g|f g|]|]; try discriminate.
    + destruct (g && _)%bool; injection H as <-; reflexivity.
    + destruct (g && _)%bool; [injection H as <-; reflexivity|]. destruct (assoc f l) as [[]|]; try discriminate. injection H as <-. reflexivity.
  - destruct (String.eqb m "append"); [injection H as <-; reflexivity|discriminate].
Qed.
Lemma store_class : forall o p w o', store o p w = Done o' -> class_of o' = class_of o.
Proof.
  intros o p w o' H. unfold store in H. destruct o as [| | |c l|l]; try discriminate. destruct (match field w "short_name" with Some (VStr n) => _ | _ => _ end); [discriminate|].
  destruct p; destruct (assoc _ _) as [[]|]; try discriminate; injection H as <-; reflexivity.
Qed.
Lemma fold_class : forall A (f : A -> val -> out val), (forall a s s', f a s = Done s' -> class_of s' = class_of s) ->
  forall l s s', fold_out f l s = Done s' -> class_of s' = class_of s.
Proof.
  intros A f H. induction l as [|a l IH]; intros s s' E; cbn [fold_out] in E; [now injection E as <-|].
  destruct (f a s) as [s1| | |] eqn:F; try discriminate. cbn [obind] in E. rewrite (IH _ _ E). eapply H. exact F.
Qed.
Ltac steps H := repeat match type of H with
  | obind ?a _ = Done _ => let E := fresh "E" in destruct a eqn:E; try discriminate H; cbn [obind] in H
  end.
Lemma rrun_class : forall warn n code key x it o o', rrun warn n code key x it o = Done o' -> class_of o' = class_of o.
Proof.
  intros warn. induction n as [|n IH]; intros code key x it o o' H; [discriminate|]. cbn [rrun] in H. destruct code as [|i rest]; [now injection H as <-|].
  steps H. rename a into o1. apply IH in H. rewrite H. clear H. rename E into H. destruct i; cbn iota beta in H; try discriminate H.
  - unfold read_attrs in H. destruct o; try discriminate. injection H as <-. reflexivity.
  - steps H. eapply put1_class. exact H.
  - steps H. destruct a0; [eapply put1_class; exact H|now injection H as <-].
  - steps H. destruct o; try discriminate. injection H as <-. reflexivity.
  - destruct (assoc f rfuns) as [[b [r|]]|]; try discriminate; steps H; injection H as <-; eapply IH; eassumption.
  - destruct o as [| | |c l|l]; try discriminate. destruct (access_of c m) as [[]|]; try discriminate. destruct (negb _); [discriminate|]. steps H. eapply store_class. exact H.
  - destruct (find (rkey key p) x); eapply IH; exact H.
  - refine (fold_class _ _ _ _ _ _ H). intros a1 s s' HH. exact (IH _ _ _ _ _ _ HH).
  - steps H. destruct a; try discriminate. refine (fold_class _ _ _ _ _ _ H). intros a1 s s' HH. exact (IH _ _ _ _ _ _ HH).
  - steps H. eapply IH; exact H.
  - destruct o as [| | |c l|l]; try discriminate. destruct g as [m|f].
    + destruct (access_of c m) as [[]|]; try discriminate. destruct (assoc f l); [|discriminate]. steps H. injection H as <-. reflexivity.
    + destruct (assoc f l); [|discriminate]. steps H. injection H as <-. reflexivity.
  - destruct (soft && warn)%bool; [now injection H as <-|discriminate].
Qed.

(** ** Dispatch by tag *)
Lemma rgo_if_inv : forall warn c a b key x it o o' t, rgo warn [RIf c a b] key x it o o' -> (forall n, crun warn (S n) c key x it o = Done t) ->
  rgo warn (if t then a else b) key x it o o'.
Proof.
  intros warn c a b key x it o o' t [n H] C. destruct n as [|[|n]]; [discriminate|discriminate|].
  change (obind (obind (crun warn (S n) c key x it o) (fun t => rrun warn (S n) (if t then a else b) key x it o)) (fun o1 => rrun warn (S n) [] key x it o1) = Done o') in H.
  rewrite C in H. cbn [obind] in H.
  match type of H with obind ?r _ = _ => destruct r as [o1| | |] eqn:R; try discriminate end. cbn [obind] in H. injection H as <-. exists (S n). exact R.
Qed.
Lemma dispatch_inv : forall warn n l t a x key it o o', dispatch n l t = Some a -> xtag x = t -> rgo warn l key x it o o' -> rgo warn a key x it o o'.
Proof.
  induction n as [|n IH]; intros l t a x key it o o' D T R; [discriminate|]. cbn [dispatch] in D.
  destruct l as [|[] [|]]; try discriminate; try (destruct c; discriminate). destruct c; try discriminate.
  apply (rgo_if_inv _ _ _ _ _ _ _ _ _ (String.eqb t s)) in R; [|intros m; cbn [crun]; now rewrite T].
  destruct (String.eqb t s); [injection D as <-; exact R|eapply IH; eassumption].
Qed.
Lemma rgo_create_inv : forall warn m b key x it c fs c' f o', access_of c m = Some (ANew c' true (PList f)) -> rgo warn [RCreate m true b] key x it (VObj c fs) o' ->
  exists s w, short_name x = Ok s /\ rgo warn b key x it (named_init c' (of_opt_str s)) w /\ store (VObj c fs) (PList f) w = Done o'.
Proof.
  intros warn m b key x it c fs c' f o' A [n H]. destruct n as [|n]; [discriminate|]. cbn [rrun] in H. rewrite A in H. cbn [Bool.eqb negb] in H.
  destruct (short_name x) as [s|] eqn:SN; [|discriminate]. cbn [of_res obind] in H.
  destruct (rrun warn n b key x it (named_init c' (of_opt_str s))) as [w| | |] eqn:R; try discriminate. cbn [obind] in H.
  destruct (store (VObj c fs) (PList f) w) as [o1| | |] eqn:ST; try discriminate. cbn [obind] in H.
  destruct n as [|n]; [discriminate|]. injection H as <-. exists s, w. split; [reflexivity|]. split; [exists (S n); exact R|exact ST].
Qed.

Definition read_check (t c : string) : bool :=
  match handler t with
  | Some (m, _) => match access_of "ARPackage" m with
                   | Some (ANew c' true (PList f)) => if String.eqb c c' then String.eqb f "elements" else false
                   | _ => false end
  | None => false
  end.
Local Transparent access_of attrs_of rfuns access_table attr_table.
Lemma read_checked : forallb (fun p => read_check (fst p) (snd p)) readable_elements = true.
Proof. vm_compute. reflexivity. Qed.
Lemma body_eq : assoc "readARPackageElements" rfuns = Some ([RFor (PLit "ELEMENTS/*") element_body], None).
Proof. vm_compute. reflexivity. Qed.
Local Opaque access_of attrs_of rfuns access_table attr_table element_body dispatch.
Lemma named_init_class : forall c w, class_of (named_init c w) = Some c.
Proof. reflexivity. Qed.

Theorem element_created : forall warn t c y x fs o', In (t, c) readable_elements -> xtag x = t -> findall "ELEMENTS/*" y = [x] ->
  read warn read_elements y (VObj "ARPackage" fs) o' ->
  exists u l, class_of u = Some c /\ assoc "elements" fs = Some (VList l) /\ o' = set_field (VObj "ARPackage" fs) "elements" (VList (l ++ [u])).
Proof.
  intros warn t c y x fs o' I T F R. pose proof read_checked as K. rewrite forallb_forall in K. specialize (K _ I). cbn [fst snd] in K. unfold read_check, handler in K.
  destruct (dispatch 200 element_body t) as [a|] eqn:D; [|discriminate K]. destruct a as [|[] [|]]; try discriminate K; try (destruct named; discriminate K). destruct named; [|discriminate K].
  destruct (access_of "ARPackage" m) as [[| | | |c' [|] [f|f]]|] eqn:AC; try discriminate K. destruct (String.eqb_spec c c'); [subst c'|discriminate K].
  apply String.eqb_eq in K. subst f.
  assert (B : rgo warn element_body "" x VNone (VObj "ARPackage" fs) o').
  { destruct R as [n R]. destruct n as [|n]; [discriminate|]. cbn [rrun read_elements] in R. rewrite body_eq in R. cbn [rtag] in R.
    match type of R with obind (obind ?r _) _ = _ => destruct r as [o1| | |] eqn:E; try discriminate R end. cbn [obind] in R.
    destruct n as [|n]; [discriminate|]. cbn [rrun] in R. injection R as <-. cbn [rrun] in E. cbn [rkey] in E. rewrite F in E. cbn [fold_out] in E.
    destruct (rrun warn n element_body "" x VNone (VObj "ARPackage" fs)) as [o2| | |] eqn:E2; try discriminate E. cbn [obind] in E.
    destruct n as [|n]; [discriminate|]. cbn [rrun] in E. injection E as <-. exists (S n). exact E2. }
  apply (dispatch_inv _ _ _ _ _ _ _ _ _ _ D T) in B. apply (rgo_create_inv _ _ _ _ _ _ _ _ _ _ _ AC) in B. destruct B as (s & u & _ & [k B] & S).
  apply rrun_class in B. rewrite named_init_class in B. unfold store in S. destruct (match field u "short_name" with Some (VStr n) => _ | _ => _ end); [discriminate|].
  destruct (assoc "elements" fs) as [[]|] eqn:A; try discriminate. injection S as <-. exists u, vs. auto.
Qed.
