From Coq Require Import String Ascii List Bool.
From Verif Require Import PyBase PyBaseFacts ClassTable SetterTable Setters SpecSetters MroTable.
Import ListNotations.
Open Scope string_scope.
Open Scope list_scope.

(** ** Every class that can define a method is listed *)
Lemma lookup_mem : forall A c (l : list (string * A)) t, lookup c l = Some t -> mem c (map fst l) = true.
Proof.
  induction l as [|[k a] l IH]; cbn; intros t H; try discriminate.
  destruct (String.eqb c k) eqn:E; cbn; auto. eauto.
Qed.
Lemma lookup_In : forall A c (l : list (string * A)) t, lookup c l = Some t -> In (c, t) l.
Proof.
  induction l as [|[k a] l IH]; cbn; intros t H; try discriminate.
  destruct (String.eqb c k) eqn:E; auto.
  apply String.eqb_eq in E. injection H as ->. subst. auto.
Qed.
Lemma tables_agree : forallb (fun p => mem (fst p) all_classes) method_table = true.
Proof. vm_compute. reflexivity. Qed.

Lemma first_body_In : forall cs m b, first_body cs m = Some b ->
  exists d t, In d cs /\ lookup d method_table = Some t /\ lookup m t = Some b.
Proof.
  induction cs as [|c cs IH]; cbn [first_body]; intros m b H; try discriminate.
  destruct (lookup c method_table) as [t|] eqn:E.
  - destruct (lookup m t) as [b'|] eqn:E2.
    + injection H as ->. exists c, t. split; [left; reflexivity|split; assumption].
    + destruct (IH _ _ H) as [d [t' [A B]]]. exists d, t'. split; [right; exact A|exact B].
  - destruct (IH _ _ H) as [d [t' [A B]]]. exists d, t'. split; [right; exact A|exact B].
Qed.
Local Opaque all_classes method_table mro isinst.
Lemma resolve_listed : forall c m b, resolve c m = Some b -> In c all_classes.
Proof.
  intros c m b H. apply mem_In. destruct (mem c all_classes) eqn:E; auto.
  unfold resolve in H. rewrite (mro_unlisted 20 c E) in H.
  apply first_body_In in H. destruct H as [d [t [[-> | []] [A B]]]].
  pose proof tables_agree as T. rewrite forallb_forall in T.
  specialize (T _ (lookup_In _ _ _ _ A)). cbv beta in T.
  cbn [fst] in T. rewrite E in T. discriminate.
Qed.

(** ** The recursion bounds of [mro] suffice: in every linearisation each ancestor occurs *)
Definition subset (a b : list string) : bool := forallb (fun x => mem x b) a.
Local Transparent all_classes method_table mro isinst.
Lemma mro_enough : forallb (fun c => let m := mro_of c in let a := ancestors 20 c in
                               if subset m a then subset a m else false) all_classes = true.
Proof. vm_compute. reflexivity. Qed.

(** ** Setters and getters agree on the attribute *)
Definition split_set (m : string) : option string :=
  match m with
  | String "s"%char (String "e"%char (String "t"%char x)) => Some x
  | _ => None
  end.
Lemma split_set_eq : forall m x, split_set m = Some x -> m = ("set" ++ x)%string.
Proof.
  intros m x H.
  destruct m as [|c1 [|c2 [|c3 r]]]; cbn in H; try discriminate;
    repeat match type of H with context [match ?a with Ascii.Ascii _ _ _ _ _ _ _ _ => _ end] => destruct a end;
    repeat match type of H with context [if ?b then _ else _] => destruct b; try discriminate end;
    try discriminate; now injection H as ->.
Qed.
Definition reads (b : option (list mstmt)) (f : string) : bool :=
  match b with Some [MReturnAttr g] => String.eqb f g | _ => false end.
Definition rest_ok (r : list mstmt) : bool :=
  match r with [] | MReturnSelf :: _ => true | _ => false end.

Definition pair_ok (find : string -> option (list mstmt)) (art : bool) (m : string) : bool :=
  match find m with
  | Some (MIfSome w :: rest) =>
      match split_set m with
      | Some x =>
          match w with
          | [MAssign f] => reads (find ("get" ++ x)%string) f
          | [MOther] => art
          | _ => String.eqb m "setRootSwCompositionPrototype"
          end
      | None => false
      end
  | Some (MAssign f :: rest) =>
      match split_set m with
      | Some x => if rest_ok rest then reads (find ("get" ++ x)%string) f else false
      | None => false
      end
  | _ => true
  end.
(** the method tables of the classes [cs], looked up once *)
Definition tables (cs : list string) : list (list (string * list mstmt)) :=
  flat_map (fun c => match lookup c method_table with Some t => [t] | None => [] end) cs.
Fixpoint first_in (ts : list (list (string * list mstmt))) (m : string) : option (list mstmt) :=
  match ts with
  | [] => None
  | t :: r => match lookup m t with Some b => Some b | None => first_in r m end
  end.
Definition class_ok (c : string) : bool :=
  let cs := mro_of c in let ts := tables cs in
  let art := mem "ARType" cs in
  forallb (fun t => forallb (fun p => pair_ok (first_in ts) art (fst p)) t) ts.
Lemma classes_ok : forallb class_ok all_classes = true.
Proof. vm_compute. reflexivity. Qed.

Local Opaque method_table.
Lemma first_in_body : forall m cs, first_in (tables cs) m = first_body cs m.
Proof.
  intro m. induction cs as [|c cs IH]; cbn [tables flat_map first_body]; auto. fold (tables cs).
  destruct (lookup c method_table) as [t|]; cbn [app first_in]; [|exact IH]. now rewrite IH.
Qed.
Lemma tables_In : forall cs d t, In d cs -> lookup d method_table = Some t -> In t (tables cs).
Proof. intros cs d t I L. apply in_flat_map. exists d. split; [exact I|]. rewrite L. now left. Qed.
Local Opaque all_classes method_table mro isinst.
Lemma resolve_pair : forall c m b, resolve c m = Some b -> pair_ok (first_body (mro 20 c)) (mem "ARType" (mro 20 c)) m = true.
Proof.
  intros c m b H. pose proof classes_ok as K. rewrite forallb_forall in K.
  specialize (K c (resolve_listed _ _ _ H)). unfold class_ok in K. rewrite forallb_forall in K.
  unfold resolve in H. rewrite mro_stored in H |- *. destruct (first_body_In _ _ _ H) as [d [t [A [B C]]]].
  specialize (K t (tables_In _ _ _ A B)). rewrite forallb_forall in K. specialize (K _ (lookup_In _ _ _ _ C)). cbn [fst] in K.
  unfold pair_ok in *. rewrite first_in_body in K. destruct (first_body (mro_of c) m) as [[|[f| w | | | | | |] rest]|]; try exact K;
    (destruct (split_set m) as [x|]; [|exact K]); rewrite first_in_body in K; exact K.
Qed.

Lemma mro_isinst : forall c, In c all_classes -> mem "ARType" (mro 20 c) = true -> isinst c "ARType" = true.
Proof.
  intros c Hc H. pose proof mro_enough as K. rewrite forallb_forall in K. specialize (K c Hc).
  cbv beta zeta in K. rewrite mro_stored in H. destruct (subset (mro_of c) (ancestors 20 c)) eqn:E; try discriminate.
  unfold subset in E. rewrite forallb_forall in E. apply mem_In in H. apply E in H. exact H.
Qed.

Section Props.
Context {V : Type} (name : V -> string).

Lemma none_kept : forall c m b (o : @attrs V),
  resolve c m = Some b -> none_guarded b -> left_as (call name c m None o) o.
Proof.
  intros c m b o H [w [rest [-> R]]]. unfold call. rewrite H. cbn [mrun mrun1].
  destruct R as [-> | [dead ->]]; cbn; red; auto.
Qed.

Lemma value_returned : forall c x b (v : V) (o : @attrs V),
  resolve c ("set" ++ x)%string = Some b -> none_guarded b ->
  isinst c "ARType" = false -> x <> "RootSwCompositionPrototype" ->
  exists o', left_as (call name c ("set" ++ x)%string (Some v) o) o' /\
    call name c ("get" ++ x)%string None o' = Ret o' (RetVal (Some v)) /\
    exists f, dget o' f = Some (Some v) /\ forall a, a <> f -> dget o' a = dget o a.
Proof.
  intros c x b v o H [w [rest [-> R]]] NT NR.
  pose proof (resolve_pair _ _ _ H) as K. pose proof (resolve_listed _ _ _ H) as L.
  unfold pair_ok in K. unfold resolve in H. rewrite H in K.
  destruct (split_set ("set" ++ x)%string) as [y|] eqn:S; [|discriminate].
  apply split_set_eq in S. change ("set" ++ x)%string with (String "s"%char (String "e"%char (String "t"%char x))) in S.
  change ("set" ++ y)%string with (String "s"%char (String "e"%char (String "t"%char y))) in S. injection S as <-.
  assert (K2 : exists f, w = [MAssign f] /\ reads (first_body (mro 20 c) ("get" ++ x)%string) f = true).
  { assert (F : String.eqb ("set" ++ x)%string "setRootSwCompositionPrototype" = false).
    { apply String.eqb_neq. intro E.
      change ("set" ++ x)%string with (String "s"%char (String "e"%char (String "t"%char x))) in E.
      injection E as E. exact (NR E). }
    destruct w as [|[f| | | | | | |] [|]]; try (rewrite F in K; discriminate).
    - exists f. auto.
    - exfalso. apply mro_isinst in K; [|exact L]. rewrite K in NT. discriminate. }
  destruct K2 as [f [-> G]].
  exists (dset o f (Some v)). split; [|split].
  - unfold call, resolve. rewrite H. cbn [mrun mrun1]. destruct R as [-> | [dead ->]]; cbn; red; auto.
  - unfold call, resolve. destruct (first_body (mro 20 c) ("get" ++ x)%string) as [[|[]  [|]]|]; cbn in G; try discriminate.
    apply String.eqb_eq in G. subst. cbn [mrun mrun1]. now rewrite dget_dset_same.
  - exists f. split; [apply dget_dset_same|]. intros a Ha. now apply dget_dset_other.
Qed.

(** plain setters *)
Lemma value_set : forall c x f rest (v : option V) (o : @attrs V),
  resolve c ("set" ++ x)%string = Some (MAssign f :: rest) ->
  exists o', left_as (call name c ("set" ++ x)%string v o) o' /\
    call name c ("get" ++ x)%string None o' = Ret o' (RetVal v) /\
    dget o' f = Some v /\ forall a, a <> f -> dget o' a = dget o a.
Proof.
  intros c x f rest v o H. pose proof (resolve_pair _ _ _ H) as K. unfold pair_ok in K. unfold resolve in H. rewrite H in K.
  destruct (split_set ("set" ++ x)%string) as [y|] eqn:S; [|discriminate].
  apply split_set_eq in S. change ("set" ++ x)%string with (String "s"%char (String "e"%char (String "t"%char x))) in S.
  change ("set" ++ y)%string with (String "s"%char (String "e"%char (String "t"%char y))) in S. injection S as <-.
  destruct (rest_ok rest) eqn:R; [|discriminate].
  exists (dset o f v). split; [|split; [|split]].
  - unfold call, resolve. rewrite H. destruct rest as [|[] ?]; try discriminate; cbn; red; auto.
  - unfold call, resolve. destruct (first_body (mro 20 c) ("get" ++ x)%string) as [[|[]  [|]]|]; cbn in K; try discriminate.
    apply String.eqb_eq in K. subst. cbn [mrun mrun1]. now rewrite dget_dset_same.
  - apply dget_dset_same.
  - intros a Ha. now apply dget_dset_other.
Qed.
Lemma value_stored : forall c x b (v : option V) (o : @attrs V),
  resolve c ("set" ++ x)%string = Some b -> stores b ->
  exists o', left_as (call name c ("set" ++ x)%string v o) o' /\
    call name c ("get" ++ x)%string None o' = Ret o' (RetVal v) /\
    exists f, dget o' f = Some v /\ forall a, a <> f -> dget o' a = dget o a.
Proof.
  intros c x b v o H [f [rest ->]]. destruct (value_set _ _ _ _ v o H) as [o' [A [B C]]]. eauto.
Qed.
End Props.

Local Transparent method_table mro.
Lemma root_refuted : exists (name : nat -> string) (o : @attrs nat) b v,
  resolve "AUTOSAR" "setRootSwCompositionPrototype" = Some b /\ none_guarded b /\
  exists o', left_as (call name "AUTOSAR" "setRootSwCompositionPrototype" (Some v) o) o' /\
    call name "AUTOSAR" "getRootSwCompositionPrototype" None o' <> Ret o' (RetVal (Some v)).
Proof.
  exists (fun _ => "RootSwComposition"), [("rootSwCompositionPrototype", Some 1)],
    [MIfSome [MIfAttr "rootSwCompositionPrototype"
                [MIfOtherName "rootSwCompositionPrototype" [MRaise]]
                [MAssign "rootSwCompositionPrototype"]]; MReturnSelf], 2.
  split; [vm_compute; reflexivity|]. split; [eexists _, _; split; [reflexivity|eauto]|].
  exists [("rootSwCompositionPrototype", Some 1)]. split.
  - right. vm_compute. reflexivity.
  - vm_compute. discriminate.
Qed.

(** ** Two kinds of setters *)
Definition kind_ok (p : string * list mstmt) : bool :=
  match split_set (fst p) with
  | None => true
  | Some x =>
      match snd p with
      | MIfSome _ :: rest => rest_ok rest
      | MAssign _ :: _ => true
      | _ => mem x other_setters
      end
  end.
Lemma kinds_ok : forallb (fun t => forallb kind_ok (snd t)) method_table = true.
Proof. vm_compute. reflexivity. Qed.
Lemma setter_kinds : forall c x b, resolve c ("set" ++ x)%string = Some b ->
  none_guarded b \/ stores b \/ In x other_setters.
Proof.
  intros c x b H. unfold resolve in H. destruct (first_body_In _ _ _ H) as [d [t [_ [A B]]]].
  apply lookup_In in A, B. pose proof kinds_ok as K. rewrite forallb_forall in K. specialize (K _ A).
  cbn [snd] in K. rewrite forallb_forall in K. specialize (K _ B). unfold kind_ok in K. cbn [fst snd] in K.
  change (split_set ("set" ++ x)%string) with (Some x) in K.
  assert (M : mem x other_setters = true -> In x other_setters) by (intro M; now apply mem_In).
  destruct b as [|[f|w| | | | | |] rest]; auto.
  - right. left. exists f, rest. reflexivity.
  - left. exists w, rest. split; [reflexivity|]. destruct rest as [|[] dead]; try discriminate; eauto.
Qed.
