From Coq Require Import String Ascii List Bool Arith Lia Permutation.
From Verif Require Import PyBase PyBaseFacts ClassTable Collection CollectionFacts CreatorProps Composition SpecComposition.
Import ListNotations.
Open Scope string_scope.
Open Scope list_scope.
Local Opaque isinst ancestors anc_table.

Definition without (x : nat) (l : list nat) : list nat := filter (fun y => negb (Nat.eqb x y)) l.

Lemma without_notin : forall x l, ~ In x l -> without x l = l.
Proof.
  unfold without. induction l as [|y l IH]; intro H; [reflexivity|]. simpl.
  destruct (Nat.eqb_spec x y) as [->|Hne]; simpl.
  - exfalso. apply H. now left.
  - f_equal. apply IH. intro C. apply H. now right.
Qed.
Lemma remove_without : forall x l, NoDup l -> In x l -> py_remove x l = Some (without x l).
Proof.
  unfold without. induction l as [|y l IH]; intros Hn Hi; [contradiction|]. simpl. inversion Hn; subst.
  destruct (Nat.eqb_spec x y) as [->|Hne]; simpl.
  - f_equal. symmetry. now apply without_notin.
  - destruct Hi as [Hi|Hi]; [congruence|]. rewrite IH by assumption. reflexivity.
Qed.
Lemma remove_none : forall x l, ~ In x l -> py_remove x l = None.
Proof.
  induction l as [|y l IH]; intro H; [reflexivity|]. simpl. destruct (Nat.eqb_spec x y) as [->|Hne].
  - exfalso. apply H. now left.
  - rewrite IH; [reflexivity|]. intro C. apply H. now right.
Qed.
Lemma filter_filter : forall A (p q : A -> bool) l, filter p (filter q l) = filter (fun x => q x && p x)%bool l.
Proof.
  induction l as [|y l IH]; [reflexivity|]. simpl. destruct (q y); simpl; rewrite IH; reflexivity.
Qed.
Lemma without_filter : forall x p l, without x (filter p l) = filter p (without x l).
Proof. intros. unfold without. rewrite !filter_filter. apply filter_ext. intro a. apply andb_comm. Qed.
Lemma without_filter_no : forall x p l, p x = false -> filter p (without x l) = filter p l.
Proof.
  intros x p l H. rewrite <- without_filter. apply without_notin. intro C. apply filter_In in C as [_ C]. congruence.
Qed.
Lemma without_In : forall x y l, In y (without x l) <-> In y l /\ y <> x.
Proof.
  intros x y l. unfold without. rewrite filter_In, negb_true_iff, Nat.eqb_neq. intuition.
Qed.

(** y before x never answers to the class of x *)
Definition apart (objs : list (string * string)) (y x : nat) : Prop := isinst (k_ty objs y) (k_ty objs x) = false.
Definition tidy_list (objs : list (string * string)) (n : string) (l : list nat) : Prop :=
  ForallOrdPairs (apart objs) l /\ Forall (fun x => k_nm objs x = n /\ x < List.length objs) l.

Record kinv (s : comp) : Prop := {
  ki_nodup : NoDup (elems (k_coll s));
  ki_comps : k_components s = filter (is_comp s) (elems (k_coll s));
  ki_conns : k_connectors s = filter (is_conn s) (elems (k_coll s));
  ki_elem : forall x, In x (elems (k_coll s)) -> x < List.length (k_objs s) /\
     exists l, dget (mapp (k_coll s)) (k_nm (k_objs s) x) = Some l /\ In x l;
  ki_map : forall n l, dget (mapp (k_coll s)) n = Some l -> tidy_list (k_objs s) n l }.

Lemma isinst_refl : forall c, isinst c c = true.
Proof.
  intro c. rewrite isinst_has. Local Transparent ancestors.
  change (ancestors 20 c) with (c :: flat_map (ancestors 19) (bases c)). unfold has. cbn [existsb]. now rewrite String.eqb_refl.
Qed.
Local Opaque ancestors.

Lemma ty_app : forall objs o x, x < List.length objs -> k_ty (objs ++ [o]) x = k_ty objs x.
Proof. intros. unfold k_ty. now rewrite nth_error_app1. Qed.
Lemma nm_app : forall objs o x, x < List.length objs -> k_nm (objs ++ [o]) x = k_nm objs x.
Proof. intros. unfold k_nm. now rewrite nth_error_app1. Qed.
Lemma ty_new : forall objs c n, k_ty (objs ++ [(c, n)]) (List.length objs) = c.
Proof. intros. unfold k_ty. rewrite nth_error_app2, Nat.sub_diag by lia. reflexivity. Qed.
Lemma nm_new : forall objs c n, k_nm (objs ++ [(c, n)]) (List.length objs) = n.
Proof. intros. unfold k_nm. rewrite nth_error_app2, Nat.sub_diag by lia. reflexivity. Qed.

Lemma FOP_snoc : forall A (R : A -> A -> Prop) l x, ForallOrdPairs R l -> Forall (fun y => R y x) l -> ForallOrdPairs R (l ++ [x]).
Proof.
  induction l as [|y l IH]; intros x H1 H2; simpl; [repeat constructor|].
  inversion H1; subst. inversion H2; subst. constructor; [|now apply IH].
  apply Forall_app. split; auto.
Qed.
Lemma FOP_filter : forall A (R : A -> A -> Prop) p l, ForallOrdPairs R l -> ForallOrdPairs R (filter p l).
Proof.
  induction l as [|y l IH]; intro H; simpl; [constructor|]. inversion H; subst. destruct (p y); auto.
  constructor; auto. apply Forall_forall. intros z Hz. apply filter_In in Hz as [Hz _]. rewrite Forall_forall in H2. auto.
Qed.
Lemma FOP_impl : forall A (R S : A -> A -> Prop) l, (forall x y, In x l -> In y l -> R x y -> S x y) -> ForallOrdPairs R l -> ForallOrdPairs S l.
Proof.
  induction l as [|z l IH]; intros H1 H2; [constructor|]. inversion H2; subst. constructor.
  - rewrite Forall_forall in *. intros y Hy. apply H1; auto; [now left|now right].
  - apply IH; auto. intros. apply H1; auto; now right.
Qed.

Lemma tidy_grow : forall objs o n l, tidy_list objs n l -> tidy_list (objs ++ [o]) n l.
Proof.
  intros objs o n l [H1 H2]. rewrite Forall_forall in H2. split.
  - eapply FOP_impl; [|exact H1]. intros x y Hx Hy. unfold apart. rewrite !ty_app; auto; apply H2; auto.
  - apply Forall_forall. intros x Hx. destruct (H2 x Hx). rewrite nm_app by auto. split; auto. rewrite app_length. simpl. lia.
Qed.

Lemma filter_grow : forall objs o t l, (forall x, In x l -> x < List.length objs) ->
  filter (fun x => isinst (k_ty (objs ++ [o]) x) t) l = filter (fun x => isinst (k_ty objs x) t) l.
Proof. intros objs o t l H. apply filter_ext_in. intros x Hx. rewrite ty_app; auto. Qed.

Lemma existsb_ext_in : forall A (p q : A -> bool) l, (forall x, In x l -> p x = q x) -> existsb p l = existsb q l.
Proof.
  induction l as [|y l IH]; intro H; cbn [existsb]; [reflexivity|]. rewrite (H y) by (now left). f_equal. apply IH.
  intros. apply H. now right.
Qed.
Lemma exists_grow : forall s o n c, kinv s ->
  coll_exists (k_ty (k_objs s ++ [o])) (k_coll s) n (Some c) = coll_exists (k_ty (k_objs s)) (k_coll s) n (Some c).
Proof.
  intros s o n c Hi. unfold coll_exists. destruct (dget (mapp (k_coll s)) n) as [l|] eqn:E; [|reflexivity].
  apply existsb_ext_in. intros x Hx. unfold inst. rewrite ty_app; [reflexivity|].
  pose proof (ki_map s Hi _ _ E) as [_ F]. rewrite Forall_forall in F. now apply F.
Qed.

Lemma tidy_one : forall objs x, x < List.length objs -> tidy_list objs (k_nm objs x) [x].
Proof. intros. split; repeat constructor; auto. Qed.

(** adding a fresh object of class [c] *)
Lemma add_kinv : forall s c n (to_comp to_conn : bool), kinv s ->
  to_comp = isinst c "SwComponentPrototype" -> to_conn = isinst c "SwConnector" ->
  coll_exists (k_ty (k_objs s)) (k_coll s) n (Some c) = false ->
  let x := List.length (k_objs s) in let objs := k_objs s ++ [(c, n)] in
  let cl := coll_add (k_nm objs) (k_ty objs) (k_coll s) x in
  kinv (mkComp objs cl (if to_comp then k_components s ++ [x] else k_components s)
         (if to_conn then k_connectors s ++ [x] else k_connectors s) (k_snake s) (k_ports s)) /\
  elems cl = elems (k_coll s) ++ [x] /\
  dget (mapp cl) n = Some (match dget (mapp (k_coll s)) n with Some l => l | None => [] end ++ [x]) /\
  (forall m, m <> n -> dget (mapp cl) m = dget (mapp (k_coll s)) m).
Proof.
  intros s c n tc tn Hi Htc Htn He x objs cl.
  assert (Hlt : forall y, In y (elems (k_coll s)) -> y < List.length (k_objs s)) by (intros y Hy; now apply (ki_elem s Hi)).
  assert (Hg : coll_exists (k_ty objs) (k_coll s) n (Some c) = false).
  { unfold objs. rewrite exists_grow by assumption. exact He. }
  assert (Hx : x = List.length (k_objs s)) by reflexivity. clearbody x.
  assert (Hcl : cl = mkColl (elems (k_coll s) ++ [x])
         (dset (mapp (k_coll s)) n (match dget (mapp (k_coll s)) n with Some l => l | None => [] end ++ [x]))).
  { assert (N : k_nm objs x = n) by (rewrite Hx; apply nm_new). assert (Y : k_ty objs x = c) by (rewrite Hx; apply ty_new).
    unfold cl, coll_add. rewrite N, Y, Hg. reflexivity. }
  clearbody cl. subst cl. cbn [elems mapp].
  split; [|split; [reflexivity|split; [now rewrite dget_dset_same|intros m Hm; now rewrite dget_dset_other by auto]]].
  constructor; cbn [k_objs k_coll elems mapp k_components k_connectors].
  - eapply Permutation_NoDup; [apply Permutation_cons_append|]. constructor; [|apply (ki_nodup s Hi)].
    intro C. apply Hlt in C. lia.
  - unfold is_comp. cbn [k_objs]. rewrite filter_app. unfold objs. rewrite filter_grow by assumption.
    fold (is_comp s). cbn [filter]. rewrite Hx, ty_new, <- Htc. rewrite (ki_comps s Hi). unfold is_comp.
    destruct tc; [reflexivity|now rewrite app_nil_r].
  - unfold is_conn. cbn [k_objs]. rewrite filter_app. unfold objs. rewrite filter_grow by assumption.
    cbn [filter]. rewrite Hx, ty_new, <- Htn. rewrite (ki_conns s Hi). unfold is_conn.
    destruct tn; [reflexivity|now rewrite app_nil_r].
  - intros y Hy. apply in_app_or in Hy as [Hy|[<-|[]]].
    + pose proof (Hlt _ Hy) as L. split; [unfold objs; rewrite app_length; simpl; lia|].
      destruct (ki_elem s Hi y Hy) as [_ [l [A B]]]. unfold objs. rewrite nm_app by assumption.
      destruct (String.eqb_spec (k_nm (k_objs s) y) n) as [E|E].
      * rewrite E, dget_dset_same. rewrite E in A. rewrite A. eexists. split; [reflexivity|]. apply in_or_app. now left.
      * rewrite dget_dset_other by auto. eauto.
    + split; [unfold objs; rewrite app_length; simpl; lia|]. unfold objs. rewrite Hx, nm_new, dget_dset_same. rewrite <- Hx.
      eexists. split; [reflexivity|]. apply in_or_app. right. now left.
  - intros m l Hl. destruct (String.eqb_spec m n) as [->|E].
    + rewrite dget_dset_same in Hl. inversion Hl; subst l. clear Hl.
      assert (T : tidy_list objs n (match dget (mapp (k_coll s)) n with Some l => l | None => [] end)).
      { destruct (dget (mapp (k_coll s)) n) eqn:E; [apply tidy_grow; now apply (ki_map s Hi)|split; constructor]. }
      destruct T as [T1 T2]. split.
      * apply FOP_snoc; auto. apply Forall_forall. intros y Hy. unfold apart. unfold objs at 2. rewrite Hx, ty_new.
        unfold coll_exists in Hg. destruct (dget (mapp (k_coll s)) n); [|contradiction].
        destruct (isinst (k_ty objs y) c) eqn:G; [|reflexivity].
        assert (existsb (inst (k_ty objs) c) l = true) by (apply existsb_exists; exists y; auto). congruence.
      * apply Forall_app. split; auto. repeat constructor.
        -- unfold objs. now rewrite Hx, nm_new.
        -- unfold objs. rewrite app_length. simpl. lia.
    + rewrite dget_dset_other in Hl by auto. apply tidy_grow. now apply (ki_map s Hi).
Qed.

Lemma add_refused : forall s c n, coll_exists (k_ty (k_objs s)) (k_coll s) n (Some c) = true -> kinv s ->
  kinv (k_other s c n) /\ k_coll (k_other s c n) = k_coll s.
Proof.
  intros s c n He Hi. unfold k_other. set (objs := k_objs s ++ [(c, n)]). set (x := List.length (k_objs s)).
  assert (Hg : coll_exists (k_ty objs) (k_coll s) n (Some c) = true).
  { unfold objs. rewrite exists_grow by assumption. exact He. }
  assert (Hcl : coll_add (k_nm objs) (k_ty objs) (k_coll s) x = k_coll s).
  { assert (N : k_nm objs x = n) by apply nm_new. assert (Y : k_ty objs x = c) by apply ty_new.
    unfold coll_add. rewrite N, Y, Hg. reflexivity. }
  rewrite Hcl. split; [|reflexivity].
  assert (Hlt : forall y, In y (elems (k_coll s)) -> y < List.length (k_objs s)) by (intros y Hy; now apply (ki_elem s Hi)).
  constructor; cbn [k_objs k_coll k_components k_connectors].
  - apply (ki_nodup s Hi).
  - rewrite (ki_comps s Hi). unfold is_comp. cbn [k_objs]. symmetry. now apply filter_grow.
  - rewrite (ki_conns s Hi). unfold is_conn. cbn [k_objs]. symmetry. now apply filter_grow.
  - intros y Hy. pose proof (Hlt _ Hy). destruct (ki_elem s Hi y Hy) as [_ [l [A B]]].
    unfold objs. rewrite nm_app by assumption. split; [rewrite app_length; simpl; lia|eauto].
  - intros m l Hl. apply tidy_grow. now apply (ki_map s Hi).
Qed.

Definition create_class (k : option kind) : string := match k with None => "SwComponentPrototype" | Some k => kind_class k end.

Lemma class_comp : forall k, isinst (create_class k) "SwComponentPrototype" = match k with None => true | _ => false end.
Proof. intros [[]|]; vm_compute; reflexivity. Qed.
Lemma class_conn : forall k, isinst (create_class k) "SwConnector" = match k with None => false | _ => true end.
Proof. intros [[]|]; vm_compute; reflexivity. Qed.

Lemma exists_none : forall ty c n t, coll_exists ty c n None = false -> coll_exists ty c n (Some t) = false.
Proof. intros ty c n t H. unfold coll_exists, dmem in *. destruct (dget (mapp c) n); [discriminate|reflexivity]. Qed.

Lemma create_kinv : forall s k n, kinv s -> kinv (fst (k_create s k n)).
Proof.
  intros s k n Hi. unfold k_create. cbn [fst]. destruct (coll_exists _ _ _ None) eqn:E; [exact Hi|].
  pose proof (add_kinv s (create_class k) n _ _ Hi eq_refl eq_refl (exists_none _ _ _ _ E)) as [H _].
  rewrite class_comp, class_conn in H. destruct k as [k|]; exact H.
Qed.

Lemma other_kinv : forall s c n, kinv s -> isinst c "SwComponentPrototype" = false -> isinst c "SwConnector" = false ->
  kinv (k_other s c n).
Proof.
  intros s c n Hi H1 H2. destruct (coll_exists (k_ty (k_objs s)) (k_coll s) n (Some c)) eqn:E.
  - now apply add_refused.
  - pose proof (add_kinv s c n _ _ Hi eq_refl eq_refl E) as [H _]. rewrite H1, H2 in H. exact H.
Qed.

Lemma FOP_NoDup : forall objs l, ForallOrdPairs (apart objs) l -> NoDup l.
Proof.
  induction l as [|x l IH]; intro H; [constructor|]. inversion H; subst. constructor; auto.
  intro C. rewrite Forall_forall in H2. specialize (H2 _ C). unfold apart in H2. rewrite isinst_refl in H2. discriminate.
Qed.

Lemma tidy_without : forall objs n l x, tidy_list objs n l -> tidy_list objs n (without x l).
Proof.
  intros objs n l x [H1 H2]. split; [now apply FOP_filter|]. rewrite Forall_forall in *. intros y Hy.
  apply without_In in Hy as [Hy _]. auto.
Qed.

(** taking [x] out of the element list, of its own list, and of the name index or not *)
Lemma drop_kinv : forall s x m, kinv s -> In x (elems (k_coll s)) ->
  (m = mapp (k_coll s) \/ exists l, dget (mapp (k_coll s)) (k_nm (k_objs s) x) = Some l /\ m = dset (mapp (k_coll s)) (k_nm (k_objs s) x) (without x l)) ->
  kinv (mkComp (k_objs s) (mkColl (without x (elems (k_coll s))) m)
     (if is_comp s x then without x (k_components s) else k_components s)
     (if is_conn s x then without x (k_connectors s) else k_connectors s) (k_snake s) (k_ports s)).
Proof.
  intros s x m Hi Hx Hm. constructor; cbn [k_objs k_coll elems mapp k_components k_connectors].
  - apply NoDup_filter. apply (ki_nodup s Hi).
  - unfold is_comp at 2. cbn [k_objs]. fold (is_comp s). rewrite (ki_comps s Hi). destruct (is_comp s x) eqn:E.
    + apply without_filter.
    + symmetry. now apply without_filter_no.
  - unfold is_conn at 2. cbn [k_objs]. fold (is_conn s). rewrite (ki_conns s Hi). destruct (is_conn s x) eqn:E.
    + apply without_filter.
    + symmetry. now apply without_filter_no.
  - intros y Hy. apply without_In in Hy as [Hy Hne]. destruct (ki_elem s Hi y Hy) as [L [l [A B]]]. split; auto.
    destruct Hm as [->|[l' [C ->]]]; [eauto|].
    destruct (String.eqb_spec (k_nm (k_objs s) y) (k_nm (k_objs s) x)) as [E|E].
    + rewrite E, dget_dset_same. eexists. split; [reflexivity|]. apply without_In. rewrite E in A.
      assert (l = l') by congruence. subst. auto.
    + rewrite dget_dset_other by auto. eauto.
  - intros n l Hl. destruct Hm as [->|[l' [C ->]]]; [now apply (ki_map s Hi)|].
    destruct (String.eqb_spec n (k_nm (k_objs s) x)) as [->|E].
    + rewrite dget_dset_same in Hl. inversion Hl; subst. apply tidy_without. now apply (ki_map s Hi).
    + rewrite dget_dset_other in Hl by auto. now apply (ki_map s Hi).
Qed.

Lemma remove_cases : forall s n t, kinv s ->
  (exists e, k_remove s n t = (s, Some e)) \/
  (exists x l, coll_get (k_ty (k_objs s)) (k_coll s) n t = Ok (Some x) /\ In x (elems (k_coll s)) /\
     dget (mapp (k_coll s)) n = Some l /\ In x l /\
     k_remove s n t = (mkComp (k_objs s) (mkColl (without x (elems (k_coll s))) (dset (mapp (k_coll s)) n (without x l)))
        (if is_comp s x then without x (k_components s) else k_components s)
        (if is_conn s x then without x (k_connectors s) else k_connectors s) (k_snake s) (k_ports s), None)).
Proof.
  intros s n t Hi. unfold k_remove. set (ty := k_ty (k_objs s)).
  assert (Eta : forall c, c = k_coll s -> mkComp (k_objs s) c (k_components s) (k_connectors s) (k_snake s) (k_ports s) = s)
    by (intros c ->; destruct s; reflexivity).
  unfold coll_get, coll_remove.
  destruct (dget (mapp (k_coll s)) n) as [l|] eqn:E; [|left; exists KeyError; now rewrite Eta].
  pose proof (ki_map s Hi _ _ E) as T.
  assert (Main : forall x, In x l ->
    (let (c, e) := match py_remove x (elems (k_coll s)) with
          | None => (k_coll s, Some ValueError)
          | Some es => match py_remove x l with None => (mkColl es (mapp (k_coll s)), Some ValueError)
                       | Some l' => (mkColl es (dset (mapp (k_coll s)) n l'), None) end end in
     match e with
      | Some _ => (mkComp (k_objs s) c (k_components s) (k_connectors s) (k_snake s) (k_ports s), e)
      | None =>
              (mkComp (k_objs s) c (if isinst (ty x) "SwComponentPrototype"
                           then match py_remove x (k_components s) with Some l => l | None => k_components s end
                           else k_components s)
                (if isinst (ty x) "SwConnector"
                           then match py_remove x (k_connectors s) with Some l => l | None => k_connectors s end
                           else k_connectors s) (k_snake s) (k_ports s), None)
      end) = (if existsb (Nat.eqb x) (elems (k_coll s)) then
        (mkComp (k_objs s) (mkColl (without x (elems (k_coll s))) (dset (mapp (k_coll s)) n (without x l)))
        (if is_comp s x then without x (k_components s) else k_components s)
        (if is_conn s x then without x (k_connectors s) else k_connectors s) (k_snake s) (k_ports s), None)
        else (s, Some ValueError))).
  { intros x Hx. destruct (existsb (Nat.eqb x) (elems (k_coll s))) eqn:Ex.
    - apply existsb_exists in Ex as [y [Hy Ey]]. apply Nat.eqb_eq in Ey. subst y.
      rewrite (remove_without x (elems (k_coll s)) (ki_nodup s Hi) Hy).
      rewrite (remove_without x l (FOP_NoDup _ _ (proj1 T)) Hx). cbn iota beta.
      f_equal. f_equal.
      + unfold is_comp. fold ty. destruct (isinst (ty x) "SwComponentPrototype") eqn:C; [|reflexivity].
        rewrite remove_without; [reflexivity| |]; rewrite (ki_comps s Hi).
        * apply NoDup_filter, (ki_nodup s Hi).
        * apply filter_In. auto.
      + unfold is_conn. fold ty. destruct (isinst (ty x) "SwConnector") eqn:C; [|reflexivity].
        rewrite remove_without; [reflexivity| |]; rewrite (ki_conns s Hi).
        * apply NoDup_filter, (ki_nodup s Hi).
        * apply filter_In. auto.
    - rewrite remove_none.
      + now rewrite Eta.
      + intro C. assert (existsb (Nat.eqb x) (elems (k_coll s)) = true) by (apply existsb_exists; exists x; split; auto; apply Nat.eqb_refl).
        congruence. }
  assert (Fin : forall x, In x l -> let r := if existsb (Nat.eqb x) (elems (k_coll s)) then
        (mkComp (k_objs s) (mkColl (without x (elems (k_coll s))) (dset (mapp (k_coll s)) n (without x l)))
        (if is_comp s x then without x (k_components s) else k_components s)
        (if is_conn s x then without x (k_connectors s) else k_connectors s) (k_snake s) (k_ports s), None)
        else (s, Some ValueError) in
     (exists e, r = (s, Some e)) \/ (exists x0 l0, Ok (Some x) = Ok (Some x0) /\ In x0 (elems (k_coll s)) /\
       Some l = Some l0 /\ In x0 l0 /\ r = (mkComp (k_objs s) (mkColl (without x0 (elems (k_coll s))) (dset (mapp (k_coll s)) n (without x0 l0)))
        (if is_comp s x0 then without x0 (k_components s) else k_components s)
        (if is_conn s x0 then without x0 (k_connectors s) else k_connectors s) (k_snake s) (k_ports s), None))).
  { intros x Hx r. unfold r. clear r. destruct (existsb _ _) eqn:Ex; [|left; eauto].
    right. exists x, l. repeat split; auto. apply existsb_exists in Ex as [y [Hy Ey]]. apply Nat.eqb_eq in Ey. now subst y. }
  destruct t as [t|].
  - destruct (filter (inst ty t) l) as [|x l'] eqn:F.
    + left. exists StopIteration. now rewrite Eta.
    + assert (Hx : In x l) by (assert (In x (filter (inst ty t) l)) as G by (rewrite F; now left); now apply filter_In in G).
      rewrite (Main x Hx). apply Fin. exact Hx.
  - destruct l as [|x l'].
    + left. eauto.
    + rewrite (Main x (or_introl eq_refl)). apply Fin. now left.
Qed.

Lemma remove_kinv : forall s n t, kinv s -> kinv (fst (k_remove s n t)).
Proof.
  intros s n t Hi. destruct (remove_cases s n t Hi) as [[e ->]|[x [l [A [B [C [D ->]]]]]]]; [exact Hi|]. cbn [fst].
  apply drop_kinv; auto. right. pose proof (ki_map s Hi _ _ C) as [_ T]. rewrite Forall_forall in T.
  destruct (T x D) as [<- _]. eauto.
Qed.

(** ** removeAllX *)
Definition drop (xs : list nat) (l : list nat) : list nat := filter (fun y => negb (existsb (Nat.eqb y) xs)) l.

Lemma drop_cons : forall x xs l, drop xs (without x l) = drop (x :: xs) l.
Proof.
  intros x xs l. unfold drop, without. rewrite filter_filter. apply filter_ext. intro y. simpl.
  rewrite (Nat.eqb_sym y x). destruct (Nat.eqb x y); reflexivity.
Qed.

Lemma remove_each_spec : forall xs s, kinv s -> NoDup xs -> (forall x, In x xs -> In x (k_connectors s) /\ is_comp s x = false) ->
  remove_each xs s = (mkComp (k_objs s) (mkColl (drop xs (elems (k_coll s))) (mapp (k_coll s))) (k_components s)
     (drop xs (k_connectors s)) (k_snake s) (k_ports s), None) /\
  kinv (fst (remove_each xs s)).
Proof.
  induction xs as [|x xs IH]; intros s Hi Hn Hx.
  - simpl. unfold drop. simpl. assert (F : forall l : list nat, filter (fun _ => true) l = l) by (induction l; simpl; congruence).
    rewrite !F. destruct s as [o [e m] a b c d]; auto.
  - inversion Hn; subst. destruct (Hx x (or_introl eq_refl)) as [Hc Hcomp].
    assert (He : In x (elems (k_coll s)) /\ is_conn s x = true) by (rewrite (ki_conns s Hi) in Hc; now apply filter_In in Hc).
    destruct He as [He Hcn].
    pose proof (drop_kinv s x (mapp (k_coll s)) Hi He (or_introl eq_refl)) as Hk. rewrite Hcomp, Hcn in Hk.
    simpl. rewrite (remove_without x _ (ki_nodup s Hi) He). cbn [k_connectors].
    assert (Hnc : NoDup (k_connectors s)) by (rewrite (ki_conns s Hi); apply NoDup_filter, (ki_nodup s Hi)).
    rewrite (remove_without x _ Hnc Hc). cbn [k_objs k_coll k_components k_snake k_ports].
    match goal with |- context[remove_each xs ?s'] => destruct (IH s' Hk H2) as [E K] end.
    + intros y Hy. cbn [k_connectors]. destruct (Hx y (or_intror Hy)) as [A B]. split; [|exact B].
      apply without_In. split; auto. intros ->. contradiction.
    + split; [|exact K]. rewrite E. cbn [k_objs k_coll elems mapp k_components k_connectors k_snake k_ports].
      now rewrite !drop_cons.
Qed.

Lemma kind_only : forall k c, isinst c (kind_class k) = true -> c = kind_class k.
Proof.
  intros k c H.
  pose proof (fun A B => isinst_enum (fun d _ => String.eqb d (kind_class k)) (kind_class k) A B c H) as G.
  cbv beta in G. apply String.eqb_eq. apply G; destruct k; vm_compute; reflexivity.
Qed.
Lemma kind_not_comp : forall k c, isinst c (kind_class k) = true -> isinst c "SwComponentPrototype" = false.
Proof. intros k c H. rewrite (kind_only k c H). destruct k; vm_compute; reflexivity. Qed.

Definition of_kind (s : comp) (k : kind) (x : nat) : bool := isinst (k_ty (k_objs s) x) (kind_class k).

Lemma get_spec : forall s k x, In x (k_get s k) <-> In x (k_connectors s) /\ of_kind s k x = true.
Proof.
  intros s k x. unfold k_get. rewrite <- filter_In.
  pose proof (py_sorted_perm (k_nm (k_objs s)) (filter (of_kind s k) (k_connectors s))) as P.
  split; apply Permutation_in; [exact P|now apply Permutation_sym].
Qed.
Lemma get_NoDup : forall s k, kinv s -> NoDup (k_get s k).
Proof.
  intros s k Hi. unfold k_get. eapply Permutation_NoDup; [apply Permutation_sym, py_sorted_perm|].
  apply NoDup_filter. rewrite (ki_conns s Hi). apply NoDup_filter, (ki_nodup s Hi).
Qed.

Lemma remove_all_spec : forall s k, kinv s ->
  k_remove_all s k = (mkComp (k_objs s) (mkColl (filter (fun x => negb (of_kind s k x)) (elems (k_coll s))) (mapp (k_coll s)))
     (k_components s) (filter (fun x => negb (of_kind s k x)) (k_connectors s)) (k_snake s) (k_ports s), None) /\
  kinv (fst (k_remove_all s k)).
Proof.
  intros s k Hi. unfold k_remove_all.
  destruct (remove_each_spec (k_get s k) s Hi (get_NoDup s k Hi)) as [E K].
  - intros x Hx. apply get_spec in Hx as [A B]. split; auto. unfold of_kind in B. unfold is_comp. now apply (kind_not_comp k).
  - split; [|exact K]. rewrite E. f_equal.
    assert (D : forall x l, In x l -> (forall y, In y l -> of_kind s k y = true -> In y (k_connectors s)) ->
       negb (existsb (Nat.eqb x) (k_get s k)) = negb (of_kind s k x)).
    { intros x l Hx Hl. f_equal. destruct (existsb (Nat.eqb x) (k_get s k)) eqn:G.
      - apply existsb_exists in G as [y [G1 G2]]. apply Nat.eqb_eq in G2. subst y. apply get_spec in G1 as [_ G1]. now rewrite G1.
      - destruct (of_kind s k x) eqn:F; [|reflexivity].
        assert (In x (k_get s k)) by (apply get_spec; auto).
        assert (existsb (Nat.eqb x) (k_get s k) = true) by (apply existsb_exists; exists x; split; auto; apply Nat.eqb_refl).
        congruence. }
    f_equal; [f_equal|]; unfold drop; apply filter_ext_in; intros x Hx.
    + apply (D x (elems (k_coll s)) Hx). intros y Hy Fy. rewrite (ki_conns s Hi). apply filter_In. split; auto.
      unfold is_conn. unfold of_kind in Fy. rewrite (kind_only k _ Fy). destruct k; vm_compute; reflexivity.
    + apply (D x (k_connectors s) Hx). auto.
Qed.

Lemma step_kinv : forall s o, proper o -> kinv s -> kinv (kstep s o).
Proof.
  intros s [k n|c n|n t|k|x p] Hp Hi; cbn [kstep].
  - now apply create_kinv.
  - destruct Hp. now apply other_kinv.
  - now apply remove_kinv.
  - now apply remove_all_spec.
  - destruct (Nat.ltb x _); [|exact Hi]. destruct Hi. constructor; assumption.
Qed.
Lemma new_kinv : kinv comp_new.
Proof. constructor; cbn; try constructor; try contradiction; discriminate. Qed.
Lemma fold_kinv : forall os s, Forall proper os -> kinv s -> kinv (fold_left kstep os s).
Proof.
  induction os as [|o os IH]; intros s H Hi; [exact Hi|]. inversion H; subst. cbn [fold_left]. apply IH; auto. now apply step_kinv.
Qed.
Lemma run_kinv : forall os, Forall proper os -> kinv (krun os).
Proof. intros. apply fold_kinv; auto. apply new_kinv. Qed.

Lemma found_first : forall objs n l x, tidy_list objs n l -> In x l ->
  exists r, filter (inst (k_ty objs) (k_ty objs x)) l = x :: r.
Proof.
  intros objs n l x [T _] Hx. induction l as [|y l IH]; [contradiction|]. inversion T; subst. cbn [filter]. unfold inst at 1.
  destruct Hx as [->|Hx].
  - rewrite isinst_refl. eauto.
  - rewrite Forall_forall in H1. pose proof (H1 _ Hx) as A. unfold apart in A. rewrite A. auto.
Qed.
Lemma kinv_found : forall s x, kinv s -> In x (elems (k_coll s)) ->
  coll_get (k_ty (k_objs s)) (k_coll s) (k_nm (k_objs s) x) (Some (k_ty (k_objs s) x)) = Ok (Some x).
Proof.
  intros s x Hi Hx. destruct (ki_elem s Hi x Hx) as [L [l [A B]]]. unfold coll_get. rewrite A.
  destruct (found_first _ _ _ _ (ki_map s Hi _ _ A) B) as [r E]. now rewrite E.
Qed.

Lemma c32_step : forall os, Forall proper os -> let s := krun os in
  k_components s = filter (is_comp s) (elems (k_coll s)) /\
  k_connectors s = filter (is_conn s) (elems (k_coll s)) /\
  NoDup (elems (k_coll s)) /\
  forall x, In x (elems (k_coll s)) ->
    coll_get (k_ty (k_objs s)) (k_coll s) (k_nm (k_objs s) x) (Some (k_ty (k_objs s) x)) = Ok (Some x).
Proof.
  intros os H s. pose proof (run_kinv os H) as Hi. repeat split.
  - apply (ki_comps _ Hi).
  - apply (ki_conns _ Hi).
  - apply (ki_nodup _ Hi).
  - intros x Hx. now apply kinv_found.
Qed.

(** ** names in the index were used before *)
Definition idx_in (s : comp) (ns : list string) : Prop := forall n, dget (mapp (k_coll s)) n <> None -> In n ns.

Lemma create_idx : forall s k n ns, kinv s -> idx_in s ns -> idx_in (fst (k_create s k n)) (ns ++ [n]).
Proof.
  intros s k n ns Hi H m. unfold k_create. cbn [fst]. destruct (coll_exists _ _ _ None) eqn:E.
  - intro C. apply in_or_app. left. now apply H.
  - pose proof (add_kinv s (create_class k) n _ _ Hi eq_refl eq_refl (exists_none _ _ _ _ E)) as [_ [_ [_ O]]].
    unfold create_class in O. cbn [k_coll]. destruct (String.eqb_spec m n) as [->|Hne].
    + intros _. apply in_or_app. right. now left.
    + rewrite O by assumption. intro C. apply in_or_app. left. now apply H.
Qed.
Lemma other_idx : forall s c n ns, kinv s -> idx_in s ns -> idx_in (k_other s c n) (ns ++ [n]).
Proof.
  intros s c n ns Hi H m. destruct (coll_exists (k_ty (k_objs s)) (k_coll s) n (Some c)) eqn:E.
  - rewrite (proj2 (add_refused s c n E Hi)). intro C. apply in_or_app. left. now apply H.
  - pose proof (add_kinv s c n _ _ Hi eq_refl eq_refl E) as [_ [_ [_ O]]]. unfold k_other. cbn [k_coll].
    destruct (String.eqb_spec m n) as [->|Hne].
    + intros _. apply in_or_app. right. now left.
    + rewrite O by assumption. intro C. apply in_or_app. left. now apply H.
Qed.
Lemma remove_idx : forall s n t ns, kinv s -> idx_in s ns -> idx_in (fst (k_remove s n t)) ns.
Proof.
  intros s n t ns Hi H. destruct (remove_cases s n t Hi) as [[e ->]|[x [l [A [B [C [D ->]]]]]]]; [exact H|].
  intros m. cbn [fst k_coll mapp]. destruct (String.eqb_spec m n) as [->|Hne].
  - intros _. apply H. rewrite C. discriminate.
  - rewrite dget_dset_other by auto. apply H.
Qed.
Definition op_names (o : kop) : list string := match o with KCreate _ n => [n] | KOther _ n => [n] | _ => [] end.
Lemma step_idx : forall s o ns, kinv s -> idx_in s ns -> idx_in (kstep s o) (ns ++ op_names o).
Proof.
  intros s [k n|c n|n t|k|x p] ns Hi H; cbn [kstep op_names]; try rewrite app_nil_r.
  - now apply create_idx.
  - now apply other_idx.
  - now apply remove_idx.
  - rewrite (proj1 (remove_all_spec s k Hi)). exact H.
  - destruct (Nat.ltb x _); exact H.
Qed.
Lemma run_idx : forall os, Forall proper os -> idx_in (krun os) (names_used os).
Proof.
  intros os H. unfold krun, names_used.
  assert (G : forall os s ns, Forall proper os -> kinv s -> idx_in s ns ->
     idx_in (fold_left kstep os s) (ns ++ flat_map op_names os)).
  { clear. induction os as [|o os IH]; intros s ns H Hi Hs.
    - cbn [fold_left flat_map]. now rewrite app_nil_r.
    - inversion H; subst. cbn [fold_left flat_map]. rewrite app_assoc. apply IH; auto.
      + now apply step_kinv.
      + now apply step_idx. }
  apply (G os comp_new []); auto; [apply new_kinv|]. intros n C. cbn in C. congruence.
Qed.

(** ** ports given through the setters belong to existing objects *)
Definition ports_old (s : comp) : Prop := Forall (fun p => fst p < List.length (k_objs s)) (k_ports s).
Lemma ports_le : forall s s', ports_old s -> k_ports s' = k_ports s -> List.length (k_objs s) <= List.length (k_objs s') -> ports_old s'.
Proof. intros s s' H E L. unfold ports_old. rewrite E. eapply Forall_impl; [|exact H]. intros a Ha. simpl in Ha. lia. Qed.
Lemma step_ports : forall s o, kinv s -> ports_old s -> ports_old (kstep s o).
Proof.
  intros s [k n|c n|n t|k|x p] Hi H; cbn [kstep].
  - unfold k_create. cbn [fst]. destruct (coll_exists _ _ _ None); [exact H|]. eapply ports_le; [exact H|reflexivity|].
    cbn [k_objs]. rewrite app_length. lia.
  - eapply ports_le; [exact H|reflexivity|]. cbn [k_other k_objs]. rewrite app_length. lia.
  - destruct (remove_cases s n t Hi) as [[e ->]|[x [l [A [B [C [D ->]]]]]]]; [exact H|exact H].
  - rewrite (proj1 (remove_all_spec s k Hi)). exact H.
  - destruct (Nat.ltb_spec x (List.length (k_objs s))); [|exact H]. constructor; [assumption|exact H].
Qed.
Lemma run_ports : forall os, Forall proper os -> ports_old (krun os).
Proof.
  intros os H. unfold krun. assert (G : forall os s, Forall proper os -> kinv s -> ports_old s -> ports_old (fold_left kstep os s)).
  { clear. induction os as [|o os IH]; intros s H Hi Hs; [exact Hs|]. inversion H; subst. cbn [fold_left]. apply IH; auto.
    - now apply step_kinv.
    - now apply step_ports. }
  apply G; auto; [apply new_kinv|constructor].
Qed.

(** ** the rows of the sheet *)
Definition row_done (s : comp) (r : row) (x : nat) : Prop :=
  k_ty (k_objs s) x = row_class r /\ k_nm (k_objs s) x = row_name r /\ stored (k_snake s) x = Some (sheet_ports r) /\
  stored (k_ports s) x = None.

Lemma stored_none : forall l x, Forall (fun p : nat * ports => fst p < x) l -> stored l x = None.
Proof.
  intros l x H. unfold stored. destruct (find _ l) as [p|] eqn:E; [|reflexivity].
  apply find_some in E as [A B]. rewrite Forall_forall in H. specialize (H _ A). apply Nat.eqb_eq in B. lia.
Qed.
Lemma row_ports_complete : forall r, complete r -> row_ports r = Some (sheet_ports r).
Proof.
  intros [n a b c d|n sw [ip|] [ir|] [op|] [orr|]] H; cbn in *; try reflexivity; destruct H as [[]|[]]; congruence.
Qed.

Lemma add_row_spec : forall s r, kinv s -> ports_old s -> dget (mapp (k_coll s)) (row_name r) = None -> complete r ->
  let x := List.length (k_objs s) in
  exists s', add_row s r = (s', None) /\ kinv s' /\ ports_old s' /\
    k_objs s' = k_objs s ++ [(row_class r, row_name r)] /\
    elems (k_coll s') = elems (k_coll s) ++ [x] /\
    k_components s' = k_components s /\ k_connectors s' = k_connectors s ++ [x] /\
    k_ports s' = k_ports s /\ k_snake s' = (x, sheet_ports r) :: k_snake s /\
    (forall m, m <> row_name r -> dget (mapp (k_coll s')) m = dget (mapp (k_coll s)) m).
Proof.
  intros s r Hi Hp Hn Hc x.
  assert (E : coll_exists (k_ty (k_objs s)) (k_coll s) (row_name r) None = false) by (unfold coll_exists, dmem; now rewrite Hn).
  assert (Ec : create_class (Some (row_kind r)) = row_class r) by (destruct r; reflexivity).
  pose proof (add_kinv s (create_class (Some (row_kind r))) (row_name r) _ _ Hi eq_refl eq_refl (exists_none _ _ _ _ E)) as [K [A [B O]]].
  rewrite class_comp, class_conn in K. rewrite Ec in *. fold x in K, A, B, O.
  unfold add_row, k_create. rewrite E. rewrite (row_ports_complete r Hc).
  change (kind_class (row_kind r)) with (create_class (Some (row_kind r))). rewrite Ec. fold x.
  set (objs := k_objs s ++ [(row_class r, row_name r)]) in *.
  set (cl := coll_add (k_nm objs) (k_ty objs) (k_coll s) x) in *.
  cbn [k_objs k_coll].
  assert (G : coll_get (k_ty objs) cl (row_name r) (Some (row_class r)) = Ok (Some x)).
  { unfold coll_get. rewrite B, Hn. cbn [app filter]. unfold inst. unfold objs, x. rewrite ty_new, isinst_refl. reflexivity. }
  rewrite G. eexists. split; [reflexivity|]. unfold k_set_snake. cbn [k_objs k_coll k_components k_connectors k_snake k_ports].
  repeat split; auto.
  - apply (ki_nodup _ K).
  - apply (ki_comps _ K).
  - apply (ki_conns _ K).
  - now apply (ki_elem _ K x0).
  - now apply (ki_elem _ K x0).
  - now apply (ki_map _ K n l).
  - now apply (ki_map _ K n l).
  - eapply ports_le; [exact Hp|reflexivity|]. cbn [k_objs]. unfold objs. rewrite app_length. lia.
Qed.

Lemma row_done_keep : forall s s' r x, row_done s r x -> x < List.length (k_objs s) ->
  (exists o, k_objs s' = k_objs s ++ o) -> k_ports s' = k_ports s ->
  (exists sn, k_snake s' = sn ++ k_snake s /\ Forall (fun p => List.length (k_objs s) <= fst p) sn) -> row_done s' r x.
Proof.
  intros s s' r x [A [B [C D]]] L [o Ho] Hp [sn [Hs Hf]]. unfold row_done, k_ty, k_nm in *.
  rewrite Ho, nth_error_app1 by assumption. rewrite Hp, Hs. repeat split; auto.
  unfold stored in *. clear Hs. induction sn as [|p sn IH]; [exact C|]. inversion Hf; subst. cbn [app find].
  destruct (Nat.eqb_spec (fst p) x); [lia|]. auto.
Qed.

Lemma add_rows_spec : forall rs s, kinv s -> ports_old s -> NoDup (map row_name rs) ->
  (forall r, In r rs -> dget (mapp (k_coll s)) (row_name r) = None) -> Forall complete rs ->
  exists s' xs, add_rows s rs = (s', None) /\
    elems (k_coll s') = elems (k_coll s) ++ xs /\
    k_components s' = k_components s /\ k_connectors s' = k_connectors s ++ xs /\
    (exists o, k_objs s' = k_objs s ++ o) /\ k_ports s' = k_ports s /\
    (exists sn, k_snake s' = sn ++ k_snake s /\ Forall (fun p => List.length (k_objs s) <= fst p) sn) /\
    Forall2 (row_done s') rs xs.
Proof.
  induction rs as [|r rs IH]; intros s Hi Hp Hn Hd Hc.
  - exists s, []. rewrite !app_nil_r. repeat split; auto.
    + exists []. now rewrite app_nil_r.
    + exists []. auto.
  - inversion Hn; subst. inversion Hc; subst.
    destruct (add_row_spec s r Hi Hp (Hd r (or_introl eq_refl)) H3) as [s1 [E [K [P [O [A [B [C [D [F G]]]]]]]]]].
    destruct (IH s1 K P H2) as [s2 [xs [E2 [A2 [B2 [C2 [[o O2] [D2 [[sn [S1 S2]] R]]]]]]]]]; auto.
    { intros r' Hr. rewrite G; [apply Hd; now right|]. intro X. apply H1. rewrite <- X. now apply in_map. }
    exists s2, (List.length (k_objs s) :: xs). cbn [add_rows]. rewrite E. cbn iota. rewrite A in A2. rewrite C in C2.
    rewrite <- app_assoc in A2, C2. repeat split; auto.
    + congruence.
    + exists ((row_class r, row_name r) :: o). rewrite O2, O, <- app_assoc. reflexivity.
    + congruence.
    + exists (sn ++ [(List.length (k_objs s), sheet_ports r)]). rewrite S1, F, <- app_assoc. split; [reflexivity|].
      apply Forall_app. split; [|constructor; auto]. eapply Forall_impl; [|exact S2]. intros p Hp2. simpl in Hp2.
      rewrite O, app_length in Hp2. lia.
    + constructor; [|exact R]. eapply row_done_keep; eauto.
      * repeat split; rewrite ?O, ?ty_new, ?nm_new; auto.
        -- rewrite F. unfold stored. cbn. now rewrite Nat.eqb_refl.
        -- rewrite D. now apply stored_none.
      * rewrite O, app_length. simpl. lia.
Qed.

Definition replaced (s : comp) (x : nat) : bool := (of_kind s Assembly x || of_kind s Delegation x)%bool.

Lemma update_spec : forall s rs ns, kinv s -> ports_old s -> idx_in s ns -> NoDup (map row_name rs) ->
  (forall r, In r rs -> ~ In (row_name r) ns) -> Forall complete rs ->
  exists s' xs, update_comp s rs = (s', None) /\
    elems (k_coll s') = filter (fun x => negb (replaced s x)) (elems (k_coll s)) ++ xs /\
    k_components s' = k_components s /\
    k_connectors s' = filter (fun x => negb (replaced s x)) (k_connectors s) ++ xs /\
    Forall2 (row_done s') rs xs /\ exists o, k_objs s' = k_objs s ++ o.
Proof.
  intros s rs ns Hi Hp Hx Hn Hd Hc. unfold update_comp.
  destruct (remove_all_spec s Assembly Hi) as [E1 K1]. rewrite E1 in *. cbn [fst] in K1.
  match type of K1 with kinv ?s' => set (s1 := s') in *; destruct (remove_all_spec s1 Delegation K1) as [E2 K2] end.
  rewrite E2 in *. cbn [fst] in K2. match type of K2 with kinv ?s' => set (s2 := s') in * end.
  assert (F : forall l, filter (fun x => negb (of_kind s1 Delegation x)) (filter (fun x => negb (of_kind s Assembly x)) l)
     = filter (fun x => negb (replaced s x)) l).
  { intro l. rewrite filter_filter. apply filter_ext. intro a. unfold replaced. rewrite negb_orb. reflexivity. }
  destruct (add_rows_spec rs s2 K2) as [s3 [xs [E3 [A [B [C [O [_ [_ R]]]]]]]]]; auto.
  - intros r Hr. unfold s2, s1. cbn [k_coll mapp]. destruct (dget (mapp (k_coll s)) (row_name r)) eqn:G; [|reflexivity].
    exfalso. apply (Hd r Hr). apply Hx. congruence.
  - exists s3, xs. rewrite E3. unfold s2 in A, C. cbn [k_coll elems k_connectors] in A, C. unfold s1 in A, C.
    cbn [k_coll elems k_connectors] in A, C. fold s1 in A, C. rewrite F in A, C. repeat split; auto.
Qed.

Lemma c31_run : forall os rs, Forall proper os -> NoDup (map row_name rs) ->
  (forall r, In r rs -> ~ In (row_name r) (names_used os)) -> Forall complete rs ->
  exists s' xs, update_comp (krun os) rs = (s', None) /\
    elems (k_coll s') = filter (fun x => negb (replaced (krun os) x)) (elems (k_coll (krun os))) ++ xs /\
    k_components s' = k_components (krun os) /\
    k_connectors s' = filter (fun x => negb (replaced (krun os) x)) (k_connectors (krun os)) ++ xs /\
    Forall2 (row_done s') rs xs /\ exists o, k_objs s' = k_objs (krun os) ++ o.
Proof.
  intros os rs H Hn Hd Hc. apply (update_spec (krun os) rs (names_used os)); auto.
  - now apply run_kinv.
  - now apply run_ports.
  - now apply run_idx.
Qed.

Lemma c31_update : forall os rs, Forall proper os -> NoDup (map row_name rs) ->
  (forall r, In r rs -> ~ In (row_name r) (names_used os)) -> Forall complete rs ->
  exists s' xs, update_comp (krun os) rs = (s', None) /\
    k_components s' = k_components (krun os) /\
    k_connectors s' = filter (fun x => negb (isinst (k_ty (k_objs (krun os)) x) "AssemblySwConnector" ||
                                             isinst (k_ty (k_objs (krun os)) x) "DelegationSwConnector")%bool)
                        (k_connectors (krun os)) ++ xs /\
    Forall2 (fun r x => k_ty (k_objs s') x = row_class r /\ k_nm (k_objs s') x = row_name r /\
                        stored (k_snake s') x = Some (sheet_ports r)) rs xs.
Proof.
  intros os rs H Hn Hd Hc. destruct (c31_run os rs H Hn Hd Hc) as [s' [xs [A [_ [C [D [E _]]]]]]].
  exists s', xs. repeat split; auto. clear - E. induction E as [|r x rs xs R E IH]; constructor; auto.
  destruct R as [? [? [? _]]]. auto.
Qed.
Lemma c31_unwritten : forall os rs, Forall proper os -> NoDup (map row_name rs) ->
  (forall r, In r rs -> ~ In (row_name r) (names_used os)) -> Forall complete rs ->
  exists s' xs kept, update_comp (krun os) rs = (s', None) /\ k_connectors s' = kept ++ xs /\ List.length xs = List.length rs /\
    Forall (fun x => stored (k_ports s') x = None) xs.
Proof.
  intros os rs H Hn Hd Hc. destruct (c31_run os rs H Hn Hd Hc) as [s' [xs [A [_ [C [D [E _]]]]]]].
  exists s', xs. eexists. repeat split; [exact A|exact D| |].
  - clear - E. induction E; cbn [List.length]; congruence.
  - clear - E. induction E as [|r x rs xs R E IH]; constructor; auto. now destruct R as [_ [_ [_ R]]].
Qed.
Lemma c31_ports_bad : exists os rs s' x, Forall proper os /\
  rs = [RowAssembly "n" (Some "/c/a") (Some "/p") (Some "/c/b") (Some "/r")] /\
  update_comp (krun os) rs = (s', None) /\ k_connectors s' = [x] /\ k_nm (k_objs s') x = "n" /\
  stored (k_ports s') x = None.
Proof.
  exists [], [RowAssembly "n" (Some "/c/a") (Some "/p") (Some "/c/b") (Some "/r")]. eexists. exists 0.
  repeat split; [constructor|vm_compute; reflexivity..].
Qed.
Lemma c31_reused_bad : exists os rs s', Forall proper os /\ Forall complete rs /\ NoDup (map row_name rs) /\
  rs = [RowAssembly "a" (Some "/c/a") (Some "/p") (Some "/c/b") (Some "/r")] /\
  update_comp (krun os) rs = (s', None) /\ k_connectors s' = [] /\ elems (k_coll s') = [].
Proof.
  exists [KCreate (Some Assembly) "a"], [RowAssembly "a" (Some "/c/a") (Some "/p") (Some "/c/b") (Some "/r")]. eexists.
  split; [repeat constructor|]. split; [repeat constructor|]. split; [repeat constructor; intros []|].
  split; [reflexivity|]. split; [vm_compute; reflexivity|]. split; vm_compute; reflexivity.
Qed.
