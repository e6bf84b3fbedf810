(** Facts about arxml-dump (C52). *)
From Coq Require Import String List Bool Arith Lia Permutation.
From Verif Require Import PyBase PyBaseFacts ClassTable Collection ObjHeap HeapFacts HeapProps SpecHeap Doc Tools SpecTools ToolsProps Dump SpecDump.
Import ListNotations.
Open Scope string_scope.
Open Scope list_scope.

Inductive chain (h : heap) : nat -> nat -> nat -> Prop :=
| chain_here : forall i, chain h i i 0
| chain_down : forall i c q k, In c (sorted_packages h i) -> chain h c q k -> chain h i q (S k).
Lemma under_down : forall h i c q, heap_inv h -> In c (sorted_packages h i) -> under h c q -> under h i q.
Proof.
  intros h i c q Hi A U. destruct (pkg_child _ _ _ Hi A) as [pd [X [Y [Z W]]]]. clear A. induction U as [|q nd' P Q R IHu]; [econstructor; eauto; rewrite Y; constructor|]. econstructor; eauto.
Qed.
Lemma chain_under : forall h i q k, heap_inv h -> chain h i q k -> under h i q.
Proof.
  intros h i q k Hi H. induction H as [i|i c q k A C IH]; [constructor|]. now apply (under_down h i c q).
Qed.
Lemma lines_app : forall p a b, lines_of p (a ++ b) = lines_of p a ++ lines_of p b.
Proof. intros. apply filter_app. Qed.
Lemma lines_text : forall A (f : A -> list string) p l, lines_of p (flat_map (fun e => map TextLine (f e)) l) = [].
Proof.
  intros A f p l. induction l as [|x l IH]; [reflexivity|]. cbn [flat_map]. rewrite lines_app, IH, app_nil_r. induction (f x) as [|s r IHr]; [reflexivity|exact IHr].
Qed.
Lemma lines_none : forall A (f : A -> list line) p l, (forall x, In x l -> lines_of p (f x) = []) -> lines_of p (flat_map f l) = [].
Proof. intros A f p l H. induction l as [|x l IH]; [reflexivity|]. cbn [flat_map]. rewrite lines_app, H by now left. apply IH. intros y I. apply H. now right. Qed.
Lemma lines_one : forall (f : nat -> list line) p c l, NoDup l -> In c l -> (forall x, In x l -> x <> c -> lines_of p (f x) = []) -> lines_of p (flat_map f l) = lines_of p (f c).
Proof.
  intros f p c l N I H. induction l as [|x l IH]; [destruct I|]. inversion N as [|? ? N1 N2]; subst. cbn [flat_map]. rewrite lines_app. destruct I as [->|I].
  - rewrite lines_none; [apply app_nil_r|]. intros y J. apply H; [now right|]. intros ->. contradiction.
  - rewrite H; [|now left|intros ->; contradiction]. apply IH; auto. intros y J. apply H. now right.
Qed.
Lemma show_outside : forall cs bsw f h d i q, heap_inv h -> ~ under h i q -> lines_of q (show_package cs bsw f h d i) = [].
Proof.
  intros cs bsw f. induction f as [|f IH]; intros h d i q Hi N; [reflexivity|]. cbn [show_package]. destruct (nth_error h i) as [nd|] eqn:E; [|reflexivity].
  assert (K : lines_of q (flat_map (show_package cs bsw f h (d + 2)) (sorted_packages h i)) = []).
  { apply lines_none. intros c A. apply IH; [exact Hi|]. intros U. apply N. now apply (under_down h i c q). }
  unfold lines_of in *. cbn [filter]. destruct (Nat.eqb_spec q i) as [->|D]; [destruct N; constructor|]. rewrite !filter_app, K. cbn [app]. fold (lines_of q (flat_map (fun e => map TextLine (cs (d + 2) e)) (interfaces h nd))). fold (lines_of q (flat_map (fun e => map TextLine (bsw (d + 2) e)) (descriptions h nd))). now rewrite !lines_text.
Qed.
Lemma show_chain : forall cs bsw f h d i q k, heap_inv h -> chain h i q k -> (exists nd, nth_error h q = Some nd) -> List.length h <= f + i -> lines_of q (show_package cs bsw f h d i) = repeat (PkgLine (d + 2 * k) q) (2 ^ k).
Proof.
  intros cs bsw f. induction f as [|f IH]; intros h d i q k Hi C (qd & X) F.
  - apply chain_under in C; [|exact Hi]. apply under_le in C; [|exact Hi]. assert (q < List.length h) by (apply nth_error_Some; congruence). lia.
  - cbn [show_package]. pose proof (under_le _ _ _ Hi (chain_under _ _ _ _ Hi C)) as L. assert (B : q < List.length h) by (apply nth_error_Some; congruence).
    destruct (nth_error h i) as [nd|] eqn:E; [|apply nth_error_None in E; lia].
    destruct C as [i|i c q k A C].
    + assert (K : lines_of i (flat_map (show_package cs bsw f h (d + 2)) (sorted_packages h i)) = []).
      { apply lines_none. intros c A. apply show_outside; [exact Hi|]. intros U. apply under_le in U; [|exact Hi]. destruct (pkg_child _ _ _ Hi A) as [pd [_ [_ [_ W]]]]. lia. }
      change (PkgLine d i :: flat_map (show_package cs bsw f h (d + 2)) (sorted_packages h i) ++ flat_map (fun e => map TextLine (cs (d + 2) e)) (interfaces h nd) ++ flat_map (show_package cs bsw f h (d + 2)) (sorted_packages h i) ++ flat_map (fun e => map TextLine (bsw (d + 2) e)) (descriptions h nd))
        with ([PkgLine d i] ++ flat_map (show_package cs bsw f h (d + 2)) (sorted_packages h i) ++ flat_map (fun e => map TextLine (cs (d + 2) e)) (interfaces h nd) ++ flat_map (show_package cs bsw f h (d + 2)) (sorted_packages h i) ++ flat_map (fun e => map TextLine (bsw (d + 2) e)) (descriptions h nd)).
      rewrite !lines_app, !lines_text, K. cbn [lines_of filter]. rewrite Nat.eqb_refl. cbn [app repeat Nat.pow]. do 2 f_equal. lia.
    + destruct (pkg_child _ _ _ Hi A) as [pd [P1 [P2 [P3 W]]]]. pose proof (under_le _ _ _ Hi (chain_under _ _ _ _ Hi C)) as L2.
      assert (K : lines_of q (flat_map (show_package cs bsw f h (d + 2)) (sorted_packages h i)) = repeat (PkgLine (d + 2 * S k) q) (2 ^ k)).
      { rewrite (lines_one _ _ c); [|now apply sorted_packages_NoDup|exact A|].
        - rewrite (IH h (d + 2) c q k); [|exact Hi|exact C|now exists qd|lia]. do 2 f_equal. lia.
        - intros y J D. apply show_outside; [exact Hi|]. intros U. apply D. apply (siblings_apart h i y c q); auto. now apply (chain_under _ _ _ k). }
      change (PkgLine d i :: flat_map (show_package cs bsw f h (d + 2)) (sorted_packages h i) ++ flat_map (fun e => map TextLine (cs (d + 2) e)) (interfaces h nd) ++ flat_map (show_package cs bsw f h (d + 2)) (sorted_packages h i) ++ flat_map (fun e => map TextLine (bsw (d + 2) e)) (descriptions h nd))
        with ([PkgLine d i] ++ flat_map (show_package cs bsw f h (d + 2)) (sorted_packages h i) ++ flat_map (fun e => map TextLine (cs (d + 2) e)) (interfaces h nd) ++ flat_map (show_package cs bsw f h (d + 2)) (sorted_packages h i) ++ flat_map (fun e => map TextLine (bsw (d + 2) e)) (descriptions h nd)).
      rewrite !lines_app, !lines_text, K. cbn [lines_of filter]. destruct (Nat.eqb_spec q i) as [->|_]; [lia|]. cbn [app]. rewrite app_nil_r. rewrite <- repeat_app. f_equal. cbn [Nat.pow]. lia.
Qed.
Lemma chain_last : forall h i q k p nd, chain h i q k -> nth_error h q = Some nd -> In p (map snd (npkgs nd)) -> chain h i p (S k).
Proof.
  intros h i q k p nd C. induction C as [i|i c q k A C IH]; intros E I.
  - apply chain_down with p; [|constructor]. apply sorted_packages_In. eauto.
  - apply chain_down with c; auto.
Qed.
Lemma at_chain : forall h p d, package_at h p d -> exists c, In c (sorted_packages h root) /\ chain h c p d.
Proof.
  intros h p d H. induction H as [nd p E I|i nd p d H (c & IH1 & IH2) E I].
  - exists p. split; [|constructor]. apply sorted_packages_In. eauto.
  - exists c. split; [exact IH1|]. now apply (chain_last _ _ i _ _ nd).
Qed.
Lemma at_exists : forall h p d, heap_inv h -> package_at h p d -> exists nd, nth_error h p = Some nd.
Proof.
  intros h p d Hi H. assert (A : exists i, In p (sorted_packages h i)). { destruct H as [nd p E I|i nd p d H E I]; eexists; apply sorted_packages_In; eauto. }
  destruct A as [i A]. destruct (pkg_child _ _ _ Hi A) as [pd [X _]]. eauto.
Qed.
Lemma dump_lines : forall cs bsw os p d, package_at (hrun os) p d -> lines_of p (dump cs bsw (hrun os)) = repeat (PkgLine (2 * d) p) (2 ^ d).
Proof.
  intros cs bsw os p d H. assert (Hi : heap_inv (hrun os)) by apply hrun_inv. pose proof (at_exists _ _ _ Hi H) as X. destruct (at_chain _ _ _ H) as (c & A & C). unfold dump. rewrite (lines_one _ _ c); [|now apply sorted_packages_NoDup|exact A|].
  - rewrite (show_chain cs bsw _ _ 0 c p d Hi C X) by lia. reflexivity.
  - intros y J D. apply show_outside; [exact Hi|]. intros U. apply D. apply (siblings_apart (hrun os) root y c p); auto. now apply (chain_under _ _ _ d).
Qed.
Lemma show_sound : forall cs bsw f h d i k q, In (PkgLine k q) (show_package cs bsw f h d i) -> exists m, chain h i q m /\ k = d + 2 * m.
Proof.
  intros cs bsw f. induction f as [|f IH]; intros h d i k q H; [destruct H|]. cbn [show_package] in H. destruct (nth_error h i) as [nd|]; [|destruct H].
  assert (K : In (PkgLine k q) (flat_map (show_package cs bsw f h (d + 2)) (sorted_packages h i)) -> exists m, chain h i q m /\ k = d + 2 * m).
  { intros I. apply in_flat_map in I as (c & A & B). apply IH in B as (m & C & E). exists (S m). split; [now apply chain_down with c|lia]. }
  assert (T : forall (g : nat -> list string) l, ~ In (PkgLine k q) (flat_map (fun e => map TextLine (g e)) l)).
  { intros g l I. apply in_flat_map in I as (e & _ & B). apply in_map_iff in B as (s & B & _). discriminate. }
  destruct H as [H|H]; [injection H as <- <-; exists 0; split; [constructor|lia]|]. apply in_app_or in H as [H|H]; [now apply K|]. apply in_app_or in H as [H|H]; [now apply T in H|]. apply in_app_or in H as [H|H]; [now apply K|now apply T in H].
Qed.
Lemma chain_at : forall h i q m, chain h i q m -> forall a, package_at h i a -> package_at h q (a + m).
Proof.
  intros h i q m C. induction C as [i|i c q k A C IH]; intros a P; [now rewrite Nat.add_0_r|]. replace (a + S k) with (S a + k) by lia. apply IH. apply sorted_packages_In in A as (nd & E & I). now apply at_sub with i nd.
Qed.
Lemma dump_sound : forall cs bsw h k p, In (PkgLine k p) (dump cs bsw h) -> exists d, package_at h p d /\ k = 2 * d.
Proof.
  intros cs bsw h k p H. unfold dump in H. apply in_flat_map in H as (c & A & B). apply show_sound in B as (m & C & E). exists m. split; [|lia]. apply (chain_at h c p m C 0). apply sorted_packages_In in A as (nd & X & I). now apply at_top with nd.
Qed.
Lemma dump_iff : forall cs bsw os k p, In (PkgLine k p) (dump cs bsw (hrun os)) <-> exists d, package_at (hrun os) p d /\ k = 2 * d.
Proof.
  intros cs bsw os k p. split; [apply dump_sound|]. intros (d & H & ->). assert (E : In (PkgLine (2 * d) p) (lines_of p (dump cs bsw (hrun os)))).
  { rewrite (dump_lines cs bsw os p d H). pose proof (Nat.pow_nonzero 2 d). destruct (2 ^ d); [lia|]. now left. }
  unfold lines_of in E. now apply filter_In in E.
Qed.
Lemma dump_count : forall cs bsw os p d, package_at (hrun os) p d -> List.length (lines_of p (dump cs bsw (hrun os))) = 2 ^ d.
Proof. intros cs bsw os p d H. rewrite (dump_lines cs bsw os p d H). apply repeat_length. Qed.
Definition dump_ops : list hop :=
  [HPackage 0 "s"; HPackage 0 "p"; HPackage 2 "q"; HPackage 3 "r"; HCreate 3 (mkCreator "ClientServerInterface" GTyped true None None RGetTyped) "i"].
Lemma dump_twice : exists os p, (exists d, package_at (hrun os) p d) /\ List.length (lines_of p (dump (fun _ _ => []) (fun _ _ => []) (hrun os))) = 4.
Proof.
  exists dump_ops, 4. split; [|vm_compute; reflexivity]. exists 2. eapply at_sub with (i := 3); [eapply at_sub with (i := 2); [eapply at_top|..]|..].
  all: first [vm_compute; reflexivity|now left|right; now left].
Qed.
