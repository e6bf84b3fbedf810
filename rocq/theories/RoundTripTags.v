(** The tags of the elements a writer adds, whatever the state of the object. *)
From Coq Require Import String Ascii List Bool Floats.SpecFloat.
From Verif Require Import PyBase Xml Leaf Ir ClassTable Access WriterCode IrSem SpecDomain SpecRoundTrip.
Import ListNotations.
Open Scope string_scope.
Open Scope list_scope.

Fixpoint class_test (c : string) (w : wcond) : option bool :=
  match w with
  | CSome [] => Some true
  | CInst [] cs => Some (existsb (isinst c) cs)
  | CType [] d => Some (String.eqb c d)
  | CNot w => option_map negb (class_test c w)
  | CAnd a b => match class_test c a with Some true => class_test c b | r => r end
  | _ => None
  end.
Fixpoint emitted (n : nat) (c : string) (code : list wi) : option (list string) :=
  match n with
  | 0 => None
  | S n =>
      match code with
      | [] => Some []
      | i :: rest =>
          match match i with
                | WSub (TLit t) _ => Some [t]
                | WIf w a b => match class_test c w with Some x => emitted n c (if x then a else b) | None => None end
                | WCall f _ [] => match assoc f wfuns with Some b => emitted n c b | None => None end
                | _ => None
                end with
          | Some l => option_map (app l) (emitted n c rest)
          | None => None
          end
      end
  end.
Lemma class_test_ok : forall w c fs b, class_test c w = Some b -> wcheck (VObj c fs) w = Done b.
Proof.
  induction w; intros c0 fs b H; cbn [class_test] in H; try discriminate H.
  - destruct p; [|discriminate H]. injection H as <-. reflexivity.
  - destruct p; [|discriminate H]. injection H as <-. reflexivity.
  - destruct p; [|discriminate H]. injection H as <-. reflexivity.
  - destruct (class_test c0 w) as [x|] eqn:E; [|discriminate H]. injection H as <-. cbn [wcheck]. rewrite (IHw _ _ _ E). reflexivity.
  - cbn [wcheck]. destruct (class_test c0 w1) as [[|]|] eqn:E; try discriminate H.
    + rewrite (IHw1 _ _ _ E). cbn [obind]. now apply IHw2.
    + injection H as <-. rewrite (IHw1 _ _ _ E). reflexivity.
Qed.
Section Tags.
Context (repr : spec_float -> string) (warn : bool).
Local Opaque wfuns.
Lemma emitted_ok : forall n c code ts, emitted n c code = Some ts -> forall m key fs e e', wrun repr warn m code key (VObj c fs) e = Done e' ->
  exists xs, e' = fold_left add_kid xs e /\ map xtag xs = ts.
Proof.
  induction n as [|n IH]; intros c code ts H; [discriminate H|]. cbn [emitted] in H. destruct code as [|i rest].
  { injection H as <-. intros m key fs e e' R. destruct m; [discriminate R|]. injection R as <-. exists []. split; reflexivity. }
  match type of H with match ?x with Some _ => _ | None => _ end = _ => destruct x as [l|] eqn:L; [|discriminate H] end.
  destruct (emitted n c rest) as [l'|] eqn:ER; [|discriminate H]. injection H as <-. intros m key fs e e' R. destruct m as [|m]; [discriminate R|]. cbn [wrun] in R.
  match type of R with obind ?x _ = _ => destruct x as [e1| | |] eqn:E1; try discriminate R end. cbn [obind] in R.
  assert (X : exists xs, e1 = fold_left add_kid xs e /\ map xtag xs = l).
  { destruct i; try discriminate L.
    - destruct p; [|discriminate L]. cbn [gets obind] in E1. destruct (assoc f wfuns) as [b|]; [|discriminate E1]. exact (IH _ _ _ L _ _ _ _ _ E1).
    - destruct t; try discriminate L. injection L as <-. destruct (wrun repr warn m b key (VObj c fs) elem0) as [s1| | |]; try discriminate E1. injection E1 as <-.
      exists [to_xml s s1]. split; reflexivity.
    - destruct (class_test c c0) as [x|] eqn:CT; [|discriminate L]. rewrite (class_test_ok _ _ fs _ CT) in E1. cbn [obind] in E1. exact (IH _ _ _ L _ _ _ _ _ E1). }
  destruct X as (xs & -> & <-). destruct (IH _ _ _ ER _ _ _ _ _ R) as (ys & -> & <-). exists (xs ++ ys). split; [now rewrite fold_left_app|now rewrite map_app].
Qed.
End Tags.
Definition tags_agree : bool :=
  forallb (fun p => match emitted 600 (snd p) write_element with Some [t] => String.eqb t (fst p) | _ => false end) package_elements.
Lemma tags_checked : tags_agree = true.
Proof. vm_compute. reflexivity. Qed.
Strategy expand [written tags_agree].
Strategy opaque [emitted wrun write_element].
Theorem written_tag : forall repr warn t c fs e, In (t, c) package_elements -> written repr warn write_element (VObj c fs) e ->
  exists x, e = mkElem [] None [x] /\ xtag x = t.
Proof.
  intros repr warn t c fs e I [n W]. pose proof tags_checked as K. unfold tags_agree in K. rewrite forallb_forall in K. specialize (K _ I). cbn [fst snd] in K.
  destruct (emitted 600 c write_element) as [[|t' [|]]|] eqn:E; try discriminate K. apply String.eqb_eq in K. subst t'.
  destruct (emitted_ok repr warn _ _ _ _ E _ _ _ _ _ W) as ([|x [|]] & -> & T); try discriminate T. injection T as <-. exists x. split; reflexivity.
Qed.
