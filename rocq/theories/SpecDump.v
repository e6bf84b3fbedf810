(** What C52 says: how deep a package is, its lines in the dump. *)
From Coq Require Import String List Bool Arith.
From Verif Require Import PyBase ClassTable Collection ObjHeap Dump.
Import ListNotations.

(** [p] is a package [d] levels below the packages of the document *)
Inductive package_at (h : heap) : nat -> nat -> Prop :=
| at_top : forall nd p, nth_error h root = Some nd -> In p (map snd (npkgs nd)) -> package_at h p 0
| at_sub : forall i nd p d, package_at h i d -> nth_error h i = Some nd -> In p (map snd (npkgs nd)) -> package_at h p (S d).
Definition lines_of (p : nat) (ls : list line) : list line :=
  filter (fun l => match l with PkgLine _ q => Nat.eqb p q | _ => false end) ls.
