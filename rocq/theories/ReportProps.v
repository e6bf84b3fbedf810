(** Proofs for C53. *)
From Coq Require Import String Ascii List Bool Arith Lia Permutation Sorted.
From Verif Require Import PyBase PyBaseFacts ClassTable Collection Composition SpecComposition CompositionProps Report SpecReport.
Import ListNotations.
Open Scope string_scope.
Open Scope list_scope.

(** no method of the model class sets the attributes the report reads *)
Lemma remove_each_snake : forall xs s, k_snake (fst (remove_each xs s)) = k_snake s.
Proof.
  induction xs as [|x xs IH]; intros s; [reflexivity|]. cbn [remove_each]. destruct (py_remove x (elems (k_coll s))) as [es|]; [|reflexivity].
  cbn [k_connectors]. destruct (py_remove x (k_connectors s)) as [cs|]; [|reflexivity]. rewrite IH. reflexivity.
Qed.
Lemma step_snake : forall s o, k_snake s = [] -> k_snake (kstep s o) = [].
Proof.
  intros s [k n|c n|n t|k|x p] H; cbn [kstep].
  - unfold k_create. destruct (coll_exists _ _ _ _); exact H.
  - exact H.
  - unfold k_remove. destruct (coll_get _ _ _ _) as [it|]; [|exact H]. destruct (coll_remove _ _ _ _) as [c [e|]]; [exact H|]. destruct it; exact H.
  - unfold k_remove_all. now rewrite remove_each_snake.
  - destruct (Nat.ltb _ _); exact H.
Qed.
Lemma run_snake : forall os, k_snake (krun os) = [].
Proof.
  intros os. unfold krun. assert (G : forall s, k_snake s = [] -> k_snake (fold_left kstep os s) = []); [|now apply G].
  induction os as [|o os IH]; intros s H; [exact H|]. cbn [fold_left]. apply IH. now apply step_snake.
Qed.

Lemma connected_get : forall s, connected s <-> k_get s Assembly <> [] \/ k_get s Delegation <> [].
Proof.
  intros s. split.
  - intros (x & I & [K|K]); [left|right]; intros E.
    + assert (J : In x (k_get s Assembly)) by (apply get_spec; split; assumption). rewrite E in J. destruct J.
    + assert (J : In x (k_get s Delegation)) by (apply get_spec; split; assumption). rewrite E in J. destruct J.
  - intros [H|H].
    + destruct (k_get s Assembly) as [|x l] eqn:E; [contradiction|]. assert (J : In x (k_get s Assembly)) by (rewrite E; now left).
      apply get_spec in J as [I K]. exists x. split; [exact I|now left].
    + destruct (k_get s Delegation) as [|x l] eqn:E; [contradiction|]. assert (J : In x (k_get s Delegation)) by (rewrite E; now left).
      apply get_spec in J as [I K]. exists x. split; [exact I|now right].
Qed.
Lemma run_sheets : forall os, 
  assembly_sheet (krun os) = match k_get (krun os) Assembly with [] => Ok [] | _ => Raise AttributeError end /\
  delegation_sheet (krun os) = match k_get (krun os) Delegation with [] => Ok [] | _ => Raise AttributeError end.
Proof.
  intros os. unfold assembly_sheet, delegation_sheet. split.
  - destruct (k_get (krun os) Assembly) as [|x l]; [reflexivity|]. cbn [rows_of]. unfold assembly_row. now rewrite run_snake.
  - destruct (k_get (krun os) Delegation) as [|x l]; [reflexivity|]. cbn [rows_of]. unfold delegation_row. now rewrite run_snake.
Qed.
Lemma sheets_fail : forall l, (exists n os, In (n, os) l /\ connected (krun os)) -> sheets (map (fun p => (fst p, krun (snd p))) l) = Raise AttributeError.
Proof.
  induction l as [|[n os] l IH]; intros (m & os' & I & C); [destruct I|]. cbn [map sheets fst snd]. destruct (run_sheets os) as [-> ->].
  destruct (k_get (krun os) Assembly) eqn:A; [|reflexivity]. destruct (k_get (krun os) Delegation) eqn:D; [|reflexivity].
  destruct I as [E|I].
  - assert (os' = os) as -> by congruence. apply connected_get in C. rewrite A, D in C. destruct C as [C|C]; now destruct C.
  - rewrite IH; [reflexivity|]. now exists m, os'.
Qed.
Lemma sorted_map : forall (l : list (string * list kop)),
  py_sorted fst (map (fun p => (fst p, krun (snd p))) l) = map (fun p => (fst p, krun (snd p))) (py_sorted fst l).
Proof.
  assert (I : forall (a : string * list kop) l, sort_insert fst (fst a, krun (snd a)) (map (fun p => (fst p, krun (snd p))) l) = map (fun p => (fst p, krun (snd p))) (sort_insert fst a l)).
  { intros a. induction l as [|b l IH]; [reflexivity|]. cbn [map sort_insert fst snd]. match goal with |- context [if ?c then _ else _] => destruct c end; [reflexivity|]. cbn [map]. f_equal. exact IH. }
  induction l as [|a l IH]; [reflexivity|]. unfold py_sorted in *. cbn [map fold_right]. rewrite IH. exact (I a _).
Qed.
Lemma report_fails : forall l, (exists n os, In (n, os) l /\ connected (krun os)) ->
  connector_report (map (fun p => (fst p, krun (snd p))) l) = Raise AttributeError.
Proof.
  intros l (n & os & I & C). unfold connector_report. rewrite sorted_map. apply sheets_fail. exists n, os. split; [|exact C]. now apply py_sorted_In.
Qed.

Lemma filter_none : forall A (p : A -> bool) l, (forall x, In x l -> p x = false) -> filter p l = [].
Proof. induction l as [|x l IH]; intros H; [reflexivity|]. cbn [filter]. rewrite (H x (or_introl eq_refl)). apply IH. intros y I. apply H. now right. Qed.

(** after an update from a spreadsheet *)
Lemma rows_of_map : forall f xs rs, Forall2 (fun x r => f x = Ok r) xs rs -> rows_of f xs = Ok rs.
Proof. intros f xs rs H. induction H as [|x r xs rs H _ IH]; [reflexivity|]. cbn [rows_of]. now rewrite H, IH. Qed.

Definition shows (s : comp) (f : nat -> res row) (r : row) (x : nat) : Prop := f x = Ok r /\ k_nm (k_objs s) x = row_name r.
Lemma rows_sorted : forall s f xs rs, Forall2 (shows s f) rs xs ->
  exists rs', rows_of f (py_sorted (k_nm (k_objs s)) xs) = Ok rs' /\ Permutation rs' rs /\ StronglySorted (fun a b => str_leb (row_name a) (row_name b) = true) rs'.
Proof.
  intros s f xs rs F.
  pose proof (Permutation_sym (py_sorted_perm (k_nm (k_objs s)) xs)) as P. pose proof (py_sorted_sorted (k_nm (k_objs s)) xs) as S.
  assert (F' : Forall2 (fun x r => shows s f r x) xs rs) by (clear - F; induction F; constructor; auto).
  destruct (Permutation_Forall2 P F') as (rs' & P' & F2). exists rs'. split; [|split].
  - apply rows_of_map. clear - F2. induction F2 as [|x r ys qs [H _] _ IH]; constructor; auto.
  - now apply Permutation_sym.
  - clear - S F2. induction F2 as [|x r ys qs [H N] F2 IH]; [constructor|]. inversion S as [|? ? S1 A]; subst. constructor; [now apply IH|].
    clear - A F2 N. induction F2 as [|x' r' ys qs [H' N'] F2 IH]; [constructor|]. inversion A as [|? ? L A']; subst. constructor; [|now apply IH].
    rewrite <- N, <- N'. exact L.
Qed.

Lemma filter_rows : forall s (b : bool) rs xs, Forall2 (fun r x => row_done s r x) rs xs ->
  filter (fun x => isinst (k_ty (k_objs s) x) (kind_class (if b then Assembly else Delegation))) xs = 
  map snd (filter (fun p => Bool.eqb (is_assembly (fst p)) b) (combine rs xs)).
Proof.
  intros s b rs xs F. induction F as [|r x rs xs R F IH]; [reflexivity|]. cbn [filter combine map fst]. destruct R as (T & _). rewrite T.
  assert (Q : isinst (row_class r) (kind_class (if b then Assembly else Delegation)) = Bool.eqb (is_assembly r) b) by (destruct r, b; vm_compute; reflexivity).
  rewrite Q. destruct (Bool.eqb (is_assembly r) b); cbn [map snd]; now rewrite IH.
Qed.
Lemma filter_fst : forall (b : bool) rs (xs : list nat), List.length rs = List.length xs ->
  map fst (filter (fun p => Bool.eqb (is_assembly (fst p)) b) (combine rs xs)) = filter (fun r => Bool.eqb (is_assembly r) b) rs.
Proof.
  induction rs as [|r rs IH]; intros [|x xs] L; try discriminate; [reflexivity|]. injection L as L. cbn [combine filter fst].
  destruct (Bool.eqb (is_assembly r) b); cbn [map fst]; now rewrite IH.
Qed.
Lemma Forall2_pairs : forall A B (P : A -> B -> Prop) (l : list (A * B)), Forall (fun p => P (fst p) (snd p)) l -> Forall2 P (map fst l) (map snd l).
Proof. induction l as [|[a b] l IH]; intros H; [constructor|]. inversion H; subst. constructor; auto. Qed.
Lemma Forall2_combine : forall A B (P : A -> B -> Prop) l l', Forall2 P l l' -> Forall (fun p => P (fst p) (snd p)) (combine l l').
Proof. intros A B P l l' F. induction F; constructor; auto. Qed.

Lemma assembly_shows : forall s r x, row_done s r x -> is_assembly r = true -> shows s (assembly_row s) r x.
Proof.
  intros s r x (T & N & S & _) A. split; [|exact N]. unfold assembly_row. rewrite S, N. destruct r; [reflexivity|discriminate].
Qed.
Lemma delegation_shows : forall s r x, row_done s r x -> is_assembly r = false -> one_pair r -> shows s (delegation_row s) r x.
Proof.
  intros s r x (T & N & S & _) A O. split; [|exact N]. unfold delegation_row. rewrite S, N. destruct r as [|n sw ip ir op orr]; [discriminate|].
  cbn [one_pair] in O. destruct O as [(P & Q & -> & ->)|(P & Q & -> & ->)].
  - destruct ip, op; try contradiction. reflexivity.
  - reflexivity.
Qed.
Lemma one_pair_complete : forall r, one_pair r -> complete r.
Proof. intros [|n sw ip ir op orr]; cbn; [auto|]. tauto. Qed.

Lemma report_updated : forall os rs, Forall proper os -> NoDup (map row_name rs) ->
  (forall r, In r rs -> ~ In (row_name r) (names_used os)) -> Forall one_pair rs ->
  exists s' ra rd, update_comp (krun os) rs = (s', None) /\ assembly_sheet s' = Ok ra /\ delegation_sheet s' = Ok rd /\
    Permutation ra (filter is_assembly rs) /\ Permutation rd (filter (fun r => negb (is_assembly r)) rs) /\
    StronglySorted (fun a b => str_leb (row_name a) (row_name b) = true) ra /\ StronglySorted (fun a b => str_leb (row_name a) (row_name b) = true) rd.
Proof.
  intros os rs H Hn Hd Ho. assert (Hc : Forall complete rs) by (eapply Forall_impl; [|exact Ho]; exact one_pair_complete).
  destruct (c31_run os rs H Hn Hd Hc) as (s' & xs & E & _ & _ & C & F & o & O). exists s'.
  assert (L : List.length rs = List.length xs) by (clear - F; induction F; cbn; congruence).
  assert (G : forall b : bool, k_get s' (if b then Assembly else Delegation) =
    py_sorted (k_nm (k_objs s')) (map snd (filter (fun p => Bool.eqb (is_assembly (fst p)) b) (combine rs xs)))).
  { intros b. unfold k_get. f_equal. rewrite C, filter_app, (filter_rows s' b rs xs F).
    replace (filter _ (filter _ _)) with (@nil nat); [reflexivity|]. symmetry. rewrite filter_filter.
    apply filter_none. intros x I.
    assert (B : x < List.length (k_objs (krun os))). { pose proof (run_kinv os H) as K. rewrite (ki_conns _ K) in I. apply filter_In in I as [I _]. now apply (ki_elem _ K). }
    unfold replaced, of_kind, k_ty. rewrite O, nth_error_app1 by exact B. destruct b; cbn [kind_class]; destruct (isinst _ "AssemblySwConnector"), (isinst _ "DelegationSwConnector"); reflexivity. }
  assert (SA : Forall2 (shows s' (assembly_row s')) (filter is_assembly rs) (map snd (filter (fun p => Bool.eqb (is_assembly (fst p)) true) (combine rs xs)))).
  { replace (filter is_assembly rs) with (filter (fun r => Bool.eqb (is_assembly r) true) rs) by (apply filter_ext; intros r; now destruct (is_assembly r)).
    rewrite <- (filter_fst true rs xs L). apply Forall2_pairs. apply Forall_forall. intros p I. apply filter_In in I as [I J]. apply eqb_prop in J.
    pose proof (Forall2_combine _ _ _ _ _ F) as Q. rewrite Forall_forall in Q. now apply assembly_shows; [apply Q|]. }
  assert (SD : Forall2 (shows s' (delegation_row s')) (filter (fun r => negb (is_assembly r)) rs) (map snd (filter (fun p => Bool.eqb (is_assembly (fst p)) false) (combine rs xs)))).
  { replace (filter (fun r => negb (is_assembly r)) rs) with (filter (fun r => Bool.eqb (is_assembly r) false) rs) by (apply filter_ext; intros r; now destruct (is_assembly r)).
    rewrite <- (filter_fst false rs xs L). apply Forall2_pairs. apply Forall_forall. intros p I. apply filter_In in I as [I J]. apply eqb_prop in J.
    pose proof (Forall2_combine _ _ _ _ _ F) as Q. rewrite Forall_forall in Q. apply delegation_shows; [now apply Q|exact J|].
    rewrite Forall_forall in Ho. apply Ho. destruct p as [r x]. now apply in_combine_l in I. }
  destruct (rows_sorted _ _ _ _ SA) as (ra & RA & PA & OA). destruct (rows_sorted _ _ _ _ SD) as (rd & RD & PD & OD).
  exists ra, rd. unfold assembly_sheet, delegation_sheet. rewrite (G true), (G false). repeat split; assumption.
Qed.
