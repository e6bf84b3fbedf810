(** The method resolution orders of all classes, stored. *)
From Coq Require Import String List Bool.
From Verif Require Import PyBase ClassTable SetterTable Setters.
Import ListNotations.
Open Scope string_scope.
Open Scope list_scope.

Definition all_classes : list string := map fst class_bases.
Definition mro_table : list (string * list string) := Eval vm_compute in map (fun c => (c, mro 20 c)) all_classes.
Definition mro_of (c : string) : list string := match lookup c mro_table with Some l => l | None => [c] end.

Fixpoint same (a b : list string) : bool :=
  match a, b with
  | [], [] => true
  | x :: a, y :: b => if String.eqb x y then same a b else false
  | _, _ => false
  end.
Lemma same_eq : forall a b, same a b = true -> a = b.
Proof.
  induction a as [|x a IH]; intros [|y b] H; cbn [same] in H; try discriminate; auto.
  destruct (String.eqb x y) eqn:E; try discriminate. apply String.eqb_eq in E. subst. f_equal. auto.
Qed.

Definition row_ok (c : string) : bool :=
  let b := bases c in same (mro_of c) (c :: c3_merge 200 (map mro_of b ++ [b])).
Lemma rows_ok : forallb row_ok all_classes = true.
Proof. vm_compute. reflexivity. Qed.

Definition mem (c : string) (l : list string) : bool := existsb (String.eqb c) l.
Lemma mem_In : forall c l, mem c l = true -> In c l.
Proof.
  intros c l H. apply existsb_exists in H. destruct H as [x [Hx E]].
  apply String.eqb_eq in E. now subst.
Qed.
Lemma mem_of : forall c l, In c l -> mem c l = true.
Proof. intros c l H. apply existsb_exists. exists c. split; [exact H|apply String.eqb_refl]. Qed.
Lemma mem_find : forall c (l : list (string * list string)),
  mem c (map fst l) = false -> List.find (fun p => String.eqb c (fst p)) l = None.
Proof.
  induction l as [|p l IH]; cbn; intro H; auto.
  apply orb_false_elim in H. destruct H as [H1 H2]. rewrite H1. auto.
Qed.
Lemma mem_lookup : forall A c (l : list (string * A)), mem c (map fst l) = false -> lookup c l = None.
Proof.
  induction l as [|[k a] l IH]; cbn [map fst lookup mem existsb]; intro H; auto.
  apply orb_false_elim in H. destruct H as [H1 H2]. rewrite H1. auto.
Qed.
Lemma keys_listed : map fst mro_table = all_classes.
Proof. vm_compute. reflexivity. Qed.
Lemma mro_unlisted : forall n c, mem c all_classes = false -> mro n c = [c].
Proof.
  intros n c H. destruct n; cbn [mro]; auto.
  unfold bases. rewrite mem_find by exact H. reflexivity.
Qed.

Local Opaque all_classes mro_table class_bases mro_of c3_merge.
Lemma mro_step : forall c, mro_of c = c :: c3_merge 200 (map mro_of (bases c) ++ [bases c]).
Proof.
  intro c. destruct (mem c all_classes) eqn:E.
  - pose proof rows_ok as R. rewrite forallb_forall in R. specialize (R c (mem_In _ _ E)). unfold row_ok in R. now apply same_eq.
  - Local Transparent mro_of. unfold mro_of at 1. rewrite mem_lookup by (rewrite keys_listed; exact E). Local Opaque mro_of.
    unfold bases. rewrite mem_find by exact E. reflexivity.
Qed.
Lemma mro_stored_at : forall n c, depth_ok n c = true -> mro n c = mro_of c.
Proof.
  induction n as [|n IH]; intros c D; cbn [depth_ok] in D; cbn [mro]; rewrite (mro_step c).
  - destruct (bases c); [reflexivity|discriminate].
  - rewrite (map_ext_in (mro n) mro_of (bases c)); [reflexivity|]. intros b I. apply IH. rewrite forallb_forall in D. now apply D.
Qed.
Lemma mro_stored : forall c, mro 20 c = mro_of c.
Proof.
  intro c. apply mro_stored_at. destruct (mem c all_classes) eqn:E.
  - pose proof depth_enough as D. rewrite forallb_forall in D. apply mem_In in E. Local Transparent all_classes. unfold all_classes in E. apply in_map_iff in E.
    destruct E as (p & <- & I). now apply D.
  - cbn [depth_ok]. unfold bases. rewrite mem_find by exact E. reflexivity.
Qed.
