(** Lemmas about lookup in element trees. *)
From Coq Require Import String Ascii List Bool Lia.
From Verif Require Import PyBase Xml SpecLeaf.
Import ListNotations.
Open Scope string_scope.
Open Scope list_scope.

(** induction over trees with the hypothesis for all children *)
Section Ind.
  Variable P : xml -> Prop.
  Hypothesis H : forall t a tx ks, Forall P ks -> P (El t a tx ks).
  Fixpoint xml_ind2 (x : xml) : P x :=
    match x with
    | El t a tx ks =>
        H t a tx ks ((fix go l : Forall P l :=
          match l with [] => Forall_nil _ | k :: r => Forall_cons _ (xml_ind2 k) (go r) end) ks)
    end.
End Ind.

Lemma split_plain : forall t, all_chars (fun c => negb (Ascii.eqb c "/")) t = true ->
  split_char "/" t = [t].
Proof.
  induction t as [|c t IH]; intro H; [reflexivity|].
  cbn [all_chars] in H. apply andb_true_iff in H. destruct H as [Hc H].
  cbn [split_char]. destruct (Ascii.eqb c "/"); [discriminate|].
  rewrite IH by assumption. reflexivity.
Qed.

Lemma flat_map_single : forall A (l : list A), flat_map (fun x => [x]) l = l.
Proof. induction l as [|a l IH]; [reflexivity|]. cbn. now rewrite IH. Qed.

Lemma step_plain : forall t x, plain t -> step t x = filter (has_tag t) (xkids x).
Proof.
  intros t x [H1 [H2 _]]. unfold step.
  destruct (String.eqb_spec t "*"); [contradiction|].
  destruct (String.eqb_spec t "."); [contradiction|]. reflexivity.
Qed.

Lemma findall_plain : forall t x, plain t -> findall t x = filter (has_tag t) (xkids x).
Proof.
  intros t x H. unfold findall. rewrite split_plain by apply H.
  cbn [steps]. rewrite flat_map_single. now apply step_plain.
Qed.

Lemma find_plain : forall t x, plain t -> find t x = hd_error (filter (has_tag t) (xkids x)).
Proof. intros. unfold find. now rewrite findall_plain. Qed.

Lemma reload_tag : forall d x, xtag (reload d x) = xtag x.
Proof. intros d [t a tx [|k ks]]; reflexivity. Qed.
Lemma reload_attrs : forall d x, xattrs (reload d x) = xattrs x.
Proof. intros d [t a tx [|k ks]]; reflexivity. Qed.
Lemma reload_kids : forall d x, xkids (reload d x) = map (reload (S d)) (xkids x).
Proof. intros d [t a tx [|k ks]]; reflexivity. Qed.
Lemma reload_leaf : forall d t a tx, reload d (El t a tx []) = El t a (text_or_none tx) [].
Proof. reflexivity. Qed.

Lemma absent_filter : forall t ks, absent t ks -> filter (has_tag t) ks = [].
Proof.
  induction ks as [|k ks IH]; intro H; [reflexivity|].
  inversion H; subst. cbn [filter]. unfold has_tag at 1.
  destruct (String.eqb_spec (xtag k) t); [contradiction|]. auto.
Qed.

Lemma filter_reload : forall t d ks,
  filter (has_tag t) (map (reload d) ks) = map (reload d) (filter (has_tag t) ks).
Proof.
  induction ks as [|k ks IH]; [reflexivity|]. cbn [map filter].
  rewrite IH. replace (has_tag t (reload d k)) with (has_tag t k)
    by (unfold has_tag; now rewrite reload_tag).
  destruct (has_tag t k); reflexivity.
Qed.

Lemma find_reload : forall t d p pa pt ks, plain t ->
  find t (reload d (El p pa pt ks)) = option_map (reload (S d)) (hd_error (filter (has_tag t) ks)).
Proof.
  intros. rewrite find_plain by assumption. rewrite reload_kids. cbn [xkids].
  rewrite filter_reload. destruct (filter (has_tag t) ks); reflexivity.
Qed.

Lemma find_written : forall t d p pa pt ks1 e ks2, plain t -> absent t ks1 -> xtag e = t ->
  find t (reload d (El p pa pt (ks1 ++ e :: ks2))) = Some (reload (S d) e).
Proof.
  intros. rewrite find_reload by assumption. rewrite filter_app, (absent_filter _ ks1) by assumption.
  cbn [app filter]. unfold has_tag at 1. subst t. rewrite String.eqb_refl. reflexivity.
Qed.

Lemma find_absent : forall t d p pa pt ks, plain t -> absent t ks ->
  find t (reload d (El p pa pt ks)) = None.
Proof. intros. rewrite find_reload by assumption. now rewrite absent_filter. Qed.

(** ** Sibling order *)
Lemma reorder_filter : forall t a b, reorder a b -> filter (has_tag t) a = filter (has_tag t) b.
Proof.
  induction 1 as [|l1 x y l2 H|]; [reflexivity| |congruence].
  rewrite !filter_app. f_equal. cbn [filter]. unfold has_tag.
  destruct (String.eqb_spec (xtag x) t), (String.eqb_spec (xtag y) t); try reflexivity. congruence.
Qed.
