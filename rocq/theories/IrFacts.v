(** Facts about the interpreter: more fuel does not change a result. *)
From Coq Require Import String Ascii List Bool Arith Lia Floats.SpecFloat.
From Verif Require Import PyBase Primitives Xml Leaf ClassTable Ir Access WriterCode ReaderCode IrSem.
Import ListNotations.
Open Scope string_scope.
Open Scope list_scope.

Local Opaque access_of init named_init wfuns rfuns.

(** [b] is [a] unless [a] was cut short *)
Definition le_out {A} (a b : out A) : Prop := a = NoFuel \/ a = b.
Lemma le_refl : forall A (a : out A), le_out a a.
Proof. right; reflexivity. Qed.
Lemma le_nofuel : forall A (a : out A), le_out NoFuel a.
Proof. left; reflexivity. Qed.
Lemma le_bind : forall A B (a a' : out A) (f f' : A -> out B),
  le_out a a' -> (forall v, le_out (f v) (f' v)) -> le_out (obind a f) (obind a' f').
Proof.
  intros A B a a' f f' [-> | ->] H; [left; reflexivity|]. destruct a'; cbn; auto using le_refl.
Qed.
Lemma le_fold : forall A S (f g : A -> S -> out S) l s,
  (forall a s, le_out (f a s) (g a s)) -> le_out (fold_out f l s) (fold_out g l s).
Proof.
  induction l as [|a l IH]; intros s H; cbn; auto using le_refl. apply le_bind; auto.
Qed.
Lemma le_done : forall A (a b : out A) v, le_out a b -> a = Done v -> b = Done v.
Proof. intros A a b v [-> | ->] H; congruence. Qed.
Lemma le_exc : forall A (a b : out A) v, le_out a b -> a = Exc v -> b = Exc v.
Proof. intros A a b v [-> | ->] H; congruence. Qed.
Lemma le_trans : forall A (a b c : out A), le_out a b -> le_out b c -> le_out a c.
Proof. intros A a b c [-> | ->] H; auto. left; reflexivity. Qed.

Ltac le_step :=
  match goal with
  | |- le_out ?a ?a => apply le_refl
  | |- le_out NoFuel _ => apply le_nofuel
  | |- le_out (obind ?a _) (obind ?a _) => apply le_bind; [apply le_refl | intro]
  | |- le_out (obind _ _) (obind _ _) => apply le_bind; [|intro]
  | |- le_out (fold_out _ _ _) (fold_out _ _ _) => apply le_fold; intros
  | |- le_out (match ?x with _ => _ end) (match ?x with _ => _ end) => destruct x
  | H : forall _, _ |- _ => apply H
  end.

Section Mono.
Context (repr : spec_float -> string) (warn : bool).

Lemma wrun_S : forall n code key v e, le_out (wrun repr warn n code key v e) (wrun repr warn (S n) code key v e).
Proof.
  induction n as [|n IH]; intros; [apply le_nofuel|].
  destruct code as [|i rest]; [apply le_refl|].
  cbn [wrun]. fold (wrun repr warn).
  apply le_bind; [|intro; apply IH].
  destruct i; repeat le_step.
Qed.
Lemma wrun_le : forall m n code key v e, n <= m -> le_out (wrun repr warn n code key v e) (wrun repr warn m code key v e).
Proof.
  induction 1; [apply le_refl|]. eapply le_trans; [exact IHle|apply wrun_S].
Qed.

Lemma run_S : forall n,
  (forall code key x it o, le_out (rrun warn n code key x it o) (rrun warn (S n) code key x it o)) /\
  (forall v key x it o, le_out (vrun warn n v key x it o) (vrun warn (S n) v key x it o)) /\
  (forall c key x it o, le_out (crun warn n c key x it o) (crun warn (S n) c key x it o)).
Proof.
  induction n as [|n [IH1 [IH2 IH3]]]; [repeat split; intros; apply le_nofuel|].
  repeat split; intros.
  - destruct code as [|i rest]; [apply le_refl|].
    cbn [rrun]. fold (rrun warn) (vrun warn) (crun warn).
    apply le_bind; [|intro; apply IH1].
    destruct i; repeat le_step.
  - destruct v; cbn [vrun]; fold (rrun warn) (vrun warn) (crun warn); repeat le_step.
  - destruct c; cbn [crun]; fold (rrun warn) (vrun warn) (crun warn); repeat le_step.
Qed.
Lemma rrun_le : forall m n code key x it o, n <= m ->
  le_out (rrun warn n code key x it o) (rrun warn m code key x it o).
Proof. induction 1; [apply le_refl|]. eapply le_trans; [exact IHle|apply run_S]. Qed.
Lemma vrun_le : forall m n code key x it o, n <= m ->
  le_out (vrun warn n code key x it o) (vrun warn m code key x it o).
Proof. induction 1; [apply le_refl|]. eapply le_trans; [exact IHle|apply run_S]. Qed.
Lemma crun_le : forall m n code key x it o, n <= m ->
  le_out (crun warn n code key x it o) (crun warn m code key x it o).
Proof. induction 1; [apply le_refl|]. eapply le_trans; [exact IHle|apply run_S]. Qed.
End Mono.
