(** Facts about PyBase: dictionaries, split, sort. *)
From Coq Require Import String Ascii List Bool Arith NArith Lia Permutation Sorted.
From Verif Require Import PyBase.
Import ListNotations.
Open Scope string_scope.

Lemma eqb_refl : forall s, String.eqb s s = true.
Proof. intro s. apply String.eqb_refl. Qed.

Lemma dget_dset_same : forall A (d : dict A) k v, dget (dset d k v) k = Some v.
Proof.
  induction d as [|[k' v'] d IH]; intros k v; simpl.
  - now rewrite eqb_refl.
  - destruct (String.eqb k k') eqn:E; simpl; rewrite E; auto.
Qed.

Lemma dget_dset_other : forall A (d : dict A) k k0 v,
  k0 <> k -> dget (dset d k v) k0 = dget d k0.
Proof.
  induction d as [|[k' v'] d IH]; intros k k0 v Hne; simpl.
  - destruct (String.eqb k0 k) eqn:E; auto. apply String.eqb_eq in E. congruence.
  - destruct (String.eqb k k') eqn:E; simpl.
    + apply String.eqb_eq in E. subst k'.
      destruct (String.eqb k0 k) eqn:E2; auto. apply String.eqb_eq in E2. congruence.
    + rewrite IH by assumption. reflexivity.
Qed.

Lemma dget_dset : forall A (d : dict A) k k0 v,
  dget (dset d k v) k0 = if String.eqb k0 k then Some v else dget d k0.
Proof.
  intros. destruct (String.eqb k0 k) eqn:E.
  - apply String.eqb_eq in E. subst. apply dget_dset_same.
  - apply dget_dset_other. intro. subst. rewrite eqb_refl in E. discriminate.
Qed.

Lemma dget_In : forall A (d : dict A) k v, dget d k = Some v -> In (k, v) d.
Proof.
  induction d as [|[k' v'] d IH]; intros k v H; simpl in *; [discriminate|].
  destruct (String.eqb k k') eqn:E.
  - apply String.eqb_eq in E. inversion H. subst. now left.
  - right. auto.
Qed.

Lemma dget_None_keys : forall A (d : dict A) k, dget d k = None <-> ~ In k (dkeys d).
Proof.
  induction d as [|[k' v'] d IH]; intros k; simpl; split; intro H; auto.
  - destruct (String.eqb k k') eqn:E; [discriminate|].
    intros [H1|H1]; [subst; rewrite eqb_refl in E; discriminate|]. apply IH in H. auto.
  - destruct (String.eqb k k') eqn:E.
    + apply String.eqb_eq in E. subst. exfalso. apply H. now left.
    + apply IH. intro. apply H. now right.
Qed.

Lemma In_dget : forall A (d : dict A) k v,
  NoDup (dkeys d) -> In (k, v) d -> dget d k = Some v.
Proof.
  induction d as [|[k' v'] d IH]; intros k v Hnd Hin; simpl in *; [contradiction|].
  inversion Hnd; subst. destruct Hin as [H|H].
  - inversion H; subst. now rewrite eqb_refl.
  - destruct (String.eqb k k') eqn:E; [|auto].
    apply String.eqb_eq in E; subst. exfalso. apply H1.
    change k' with (fst (k', v)). apply in_map. exact H.
Qed.

Lemma dkeys_dset : forall A (d : dict A) k v,
  dkeys (dset d k v) = if dmem d k then dkeys d else (dkeys d ++ [k])%list.
Proof.
  unfold dmem. induction d as [|[k' v'] d IH]; intros k v; simpl; auto.
  destruct (String.eqb k k') eqn:E; simpl; auto.
  rewrite IH. destruct (dget d k); reflexivity.
Qed.

Lemma NoDup_app_single : forall A (l : list A) x, NoDup l -> ~ In x l -> NoDup (l ++ [x]).
Proof.
  induction l; intros x Hnd Hn; simpl.
  - constructor; [auto|constructor].
  - inversion Hnd; subst. constructor.
    + rewrite in_app_iff. intros [H|[H|[]]]; auto. subst. apply Hn. now left.
    + apply IHl; auto. intro. apply Hn. now right.
Qed.

Lemma dset_NoDup : forall A (d : dict A) k v, NoDup (dkeys d) -> NoDup (dkeys (dset d k v)).
Proof.
  intros. rewrite dkeys_dset. unfold dmem. destruct (dget d k) eqn:E; auto.
  apply NoDup_app_single; auto. now apply dget_None_keys.
Qed.

Lemma dmem_true : forall A (d : dict A) k, dmem d k = true <-> exists v, dget d k = Some v.
Proof.
  intros. unfold dmem. destruct (dget d k).
  - split; eauto.
  - split; [discriminate|]. intros [v H]. discriminate.
Qed.

Lemma dmem_false : forall A (d : dict A) k, dmem d k = false <-> dget d k = None.
Proof. intros. unfold dmem. destruct (dget d k); split; intro H; auto; discriminate. Qed.

(** ** Order and sort *)

Lemma str_leb_refl : forall a, str_leb a a = true.
Proof. induction a; simpl; auto. rewrite N.ltb_irrefl, N.eqb_refl. auto. Qed.

Lemma str_leb_total : forall a b, str_leb a b = true \/ str_leb b a = true.
Proof.
  induction a as [|c a IH]; intros [|d b]; simpl; auto.
  destruct (N.ltb (code c) (code d)) eqn:E1; auto.
  destruct (N.eqb (code c) (code d)) eqn:E2.
  - apply N.eqb_eq in E2. rewrite E2, N.ltb_irrefl, N.eqb_refl. apply IH.
  - right. apply N.ltb_ge in E1. apply N.eqb_neq in E2.
    assert (H: (code d < code c)%N) by lia. apply N.ltb_lt in H. now rewrite H.
Qed.

Lemma str_leb_trans : forall a b c, str_leb a b = true -> str_leb b c = true -> str_leb a c = true.
Proof.
  induction a as [|x a IH]; intros [|y b] [|z c]; simpl; auto; try discriminate.
  destruct (N.ltb (code x) (code y)) eqn:E1.
  - intros _. destruct (N.ltb (code y) (code z)) eqn:E2.
    + intros _. apply N.ltb_lt in E1, E2. assert (H: (code x < code z)%N) by lia.
      apply N.ltb_lt in H. now rewrite H.
    + destruct (N.eqb (code y) (code z)) eqn:E3; [|discriminate].
      apply N.eqb_eq in E3. rewrite <- E3, E1. auto.
  - destruct (N.eqb (code x) (code y)) eqn:E2; [|discriminate].
    apply N.eqb_eq in E2. rewrite E2. intro Hab.
    destruct (N.ltb (code y) (code z)); auto.
    destruct (N.eqb (code y) (code z)); [|discriminate]. apply IH. exact Hab.
Qed.

Lemma code_inj : forall c d, code c = code d -> c = d.
Proof.
  unfold code. intros c d H. rewrite <- (ascii_N_embedding c), <- (ascii_N_embedding d).
  now rewrite H.
Qed.

Lemma str_leb_antisym : forall a b, str_leb a b = true -> str_leb b a = true -> a = b.
Proof.
  induction a as [|c a IH]; intros [|d b]; simpl; auto; try discriminate.
  destruct (N.ltb (code c) (code d)) eqn:E1.
  - destruct (N.ltb (code d) (code c)) eqn:E2.
    + apply N.ltb_lt in E1, E2. lia.
    + destruct (N.eqb (code d) (code c)) eqn:E3; [|discriminate].
      apply N.ltb_lt in E1. apply N.eqb_eq in E3. lia.
  - destruct (N.eqb (code c) (code d)) eqn:E2; [|discriminate].
    apply N.eqb_eq in E2. rewrite E2, N.ltb_irrefl, N.eqb_refl.
    intros. apply code_inj in E2. subst. f_equal. auto.
Qed.

Section SortFacts.
Context {A : Type} (key : A -> string).
Let le x y := str_leb (key x) (key y) = true.

Lemma sort_insert_perm : forall x l, Permutation (sort_insert key x l) (x :: l).
Proof.
  induction l as [|y l IH]; simpl; auto.
  destruct (str_leb (key x) (key y)); auto.
  rewrite IH. apply perm_swap.
Qed.

Lemma py_sorted_perm : forall l, Permutation (py_sorted key l) l.
Proof.
  induction l; simpl; auto.
  rewrite sort_insert_perm. now constructor.
Qed.

Lemma sort_insert_sorted : forall x l, StronglySorted le l -> StronglySorted le (sort_insert key x l).
Proof.
  induction l as [|y l IH]; simpl; intro H.
  - constructor; [auto|constructor].
  - inversion H; subst. destruct (str_leb (key x) (key y)) eqn:E.
    + constructor; auto. constructor; auto.
      eapply Forall_impl; [|exact H3]. intros z Hz. unfold le in *.
      eapply str_leb_trans; eauto.
    + constructor; auto.
      assert (Hyx : le y x).
      { unfold le. destruct (str_leb_total (key x) (key y)) as [Hc|Hc]; congruence. }
      eapply Permutation_Forall; [symmetry; apply sort_insert_perm|].
      constructor; auto.
Qed.

Lemma py_sorted_sorted : forall l, StronglySorted le (py_sorted key l).
Proof.
  induction l; simpl. constructor. now apply sort_insert_sorted.
Qed.

Lemma py_sorted_length : forall l, length (py_sorted key l) = length l.
Proof. intro. apply Permutation_length, py_sorted_perm. Qed.

Lemma py_sorted_In : forall x l, In x (py_sorted key l) <-> In x l.
Proof.
  intros; split; apply Permutation_in; [|symmetry]; apply py_sorted_perm.
Qed.
End SortFacts.

Lemma split_char_nonempty : forall sep s, split_char sep s <> [].
Proof.
  destruct s; simpl; [discriminate|].
  destruct (Ascii.eqb a sep); [discriminate|].
  destruct (split_char sep s); discriminate.
Qed.

(** A string without the separator is one piece. *)
Lemma split_char_nosep : forall sep s,
  all_chars (fun c => negb (Ascii.eqb c sep)) s = true -> split_char sep s = [s].
Proof.
  induction s; simpl; auto. intro H. apply andb_prop in H as [H1 H2].
  apply negb_true_iff in H1. rewrite H1, IHs by assumption. reflexivity.
Qed.

(** Splitting [a ++ sep ++ b] when [b] has no separator. *)
Lemma split_char_app : forall sep a b,
  all_chars (fun c => negb (Ascii.eqb c sep)) b = true ->
  split_char sep (a ++ String sep b) = (split_char sep a ++ [b])%list.
Proof.
  induction a as [|c a IH]; intros b Hb; simpl.
  - rewrite Ascii.eqb_refl. now rewrite split_char_nosep.
  - rewrite IH by assumption.
    destruct (Ascii.eqb c sep); simpl; auto.
    pose proof (split_char_nonempty sep a). destruct (split_char sep a); [congruence|reflexivity].
Qed.

Lemma append_assoc : forall a b c : string, (a ++ b) ++ c = a ++ (b ++ c).
Proof. induction a; simpl; intros; congruence. Qed.

Lemma append_nil_r : forall a : string, a ++ "" = a.
Proof. induction a; simpl; congruence. Qed.
