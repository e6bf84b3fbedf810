(** Finite maps from strings, used to make computed checks fast.  Nothing here models code. *)
From Coq Require Import String Ascii List Bool.
From Verif Require Import PyBase Ir Access IrSem ClassTable.
Import ListNotations.
Open Scope string_scope.
Open Scope list_scope.

Inductive trie (A : Type) : Type := Tr (o : option A) (kids : list (ascii * trie A)).
Arguments Tr {A}.
Section Trie.
Context {A : Type}.
Definition t0 : trie A := Tr None [].
Fixpoint kid (c : ascii) (l : list (ascii * trie A)) : option (trie A) :=
  match l with [] => None | (d, t) :: r => if Ascii.eqb c d then Some t else kid c r end.
Fixpoint kset (c : ascii) (f : option (trie A) -> trie A) (l : list (ascii * trie A)) : list (ascii * trie A) :=
  match l with
  | [] => [(c, f None)]
  | (d, t) :: r => if Ascii.eqb c d then (d, f (Some t)) :: r else (d, t) :: kset c f r
  end.
Fixpoint tfind (k : string) (t : trie A) : option A :=
  match k, t with
  | "", Tr o _ => o
  | String c r, Tr _ l => match kid c l with Some t' => tfind r t' | None => None end
  end.
Fixpoint tins (k : string) (v : A) (t : trie A) : trie A :=
  match k, t with
  | "", Tr _ l => Tr (Some v) l
  | String c r, Tr o l => Tr o (kset c (fun x => tins r v (match x with Some t' => t' | None => t0 end)) l)
  end.
Definition build (l : list (string * A)) : trie A := fold_right (fun p t => tins (fst p) (snd p) t) t0 l.

Lemma tfind_t0 : forall k, tfind k t0 = None.
Proof. intros [|c k]; reflexivity. Qed.
Lemma kid_kset : forall c f d l, kid d (kset c f l) = if Ascii.eqb d c then Some (f (kid c l)) else kid d l.
Proof.
  intros c f d. induction l as [|[e t] l IH]; cbn [kset kid].
  - destruct (Ascii.eqb d c); reflexivity.
  - destruct (Ascii.eqb_spec c e) as [Q|N]; cbn [kid].
    + subst. destruct (Ascii.eqb d e); reflexivity.
    + rewrite IH. destruct (Ascii.eqb_spec d e) as [Q|M]; [|reflexivity]. subst.
      destruct (Ascii.eqb_spec e c) as [Q|_]; [congruence|reflexivity].
Qed.
Lemma tfind_tins : forall k v k' t, tfind k' (tins k v t) = if String.eqb k' k then Some v else tfind k' t.
Proof.
  induction k as [|c k IH]; intros v [|d k'] [o l]; cbn [tins tfind]; try reflexivity.
  rewrite kid_kset. cbn [String.eqb]. destruct (Ascii.eqb_spec d c) as [Q|N]; [|reflexivity]. subst. rewrite IH.
  destruct (kid c l); [reflexivity|]. rewrite tfind_t0. reflexivity.
Qed.
Lemma tfind_build : forall l k, tfind k (build l) = assoc k l.
Proof.
  induction l as [|[k' v] l IH]; intros k; [apply tfind_t0|]. unfold build in *. cbn [fold_right assoc fst snd]. rewrite tfind_tins, IH. reflexivity.
Qed.
End Trie.

(** *** fast versions of [isinst] and [access_of] *)
Definition anc_trie : trie (list string) := build (map (fun p => (fst p, ancestors 20 (fst p))) class_bases).
Definition acc_trie : trie (trie access) := build (map (fun p => (fst p, build (snd p))) access_table).
Definition anc_in (a : trie (list string)) (c : string) : list string :=
  match tfind c a with Some l => l | None => ancestors 20 c end.
Definition isin_in (a : trie (list string)) (c d : string) : bool := existsb (String.eqb d) (anc_in a c).
Fixpoint first_in (t : trie (trie access)) (cs : list string) (m : string) : option access :=
  match cs with
  | [] => None
  | c :: r => match tfind c t with
              | Some u => match tfind m u with Some a => Some a | None => first_in t r m end
              | None => first_in t r m
              end
  end.
Definition acc_in (a : trie (list string)) (t : trie (trie access)) (c m : string) : option access := first_in t (anc_in a c) m.

Lemma assoc_map : forall A B (f : string -> A -> B) l k,
  assoc k (map (fun p => (fst p, f (fst p) (snd p))) l) = option_map (f k) (assoc k l).
Proof.
  intros A B f. induction l as [|[k' v] l IH]; intros k; [reflexivity|]. cbn [map assoc fst snd]. rewrite IH.
  destruct (String.eqb_spec k k') as [Q|N]; [now subst|reflexivity].
Qed.
Lemma anc_in_ok : forall c, anc_in anc_trie c = ancestors 20 c.
Proof.
  intros c. unfold anc_in, anc_trie. rewrite tfind_build, (assoc_map _ _ (fun k _ => ancestors 20 k)).
  destruct (assoc c class_bases); reflexivity.
Qed.
Lemma isin_in_ok : forall c d, isin_in anc_trie c d = isinst c d.
Proof. intros c d. unfold isin_in, isinst. now rewrite anc_in_ok. Qed.
Lemma acc_in_ok : forall c m, acc_in anc_trie acc_trie c m = access_of c m.
Proof.
  intros c m. unfold acc_in, access_of. rewrite anc_in_ok. induction (ancestors 20 c) as [|d l IH]; [reflexivity|].
  cbn [first_in first_access]. unfold acc_trie at 1. rewrite tfind_build, (assoc_map _ _ (fun _ v => build v)).
  destruct (assoc d access_table) as [t|]; cbn [option_map]; [|exact IH]. rewrite tfind_build. destruct (assoc m t); [reflexivity|exact IH].
Qed.
