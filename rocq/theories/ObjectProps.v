(** Proofs about constructors, getters and add methods. *)
From Coq Require Import String Ascii List Bool Arith.
From Verif Require Import PyBase PyBaseFacts ClassTable SetterTable Setters SpecSetters MroTable SetterProps ObjectTable Objects SpecObjects.
Import ListNotations.
Open Scope string_scope.
Open Scope list_scope.

(** ** The values do not influence a constructor *)
Definition lift {T U} (h : T -> U) (o : list (string * T)) : list (string * U) := map (fun p => (fst p, h (snd p))) o.
Definition rlift {T U} (h : T -> U) (r : res (list (string * T))) : res (list (string * U)) :=
  match r with Ok o => Ok (lift h o) | Raise e => Raise e end.
Lemma lift_set : forall T U (h : T -> U) o a v, lift h (dset o a v) = dset (lift h o) a (h v).
Proof.
  intros T U h o a v. induction o as [|[k w] o IH]; cbn; auto.
  destruct (String.eqb a k); cbn; auto. f_equal. exact IH.
Qed.
Lemma lift_get : forall T U (h : T -> U) o a, dget (lift h o) a = option_map h (dget o a).
Proof. intros T U h o a. induction o as [|[k w] o IH]; cbn; auto. destruct (String.eqb a k); auto. Qed.
Section Natural.
Local Opaque next_ctor ctor_owner from_class first_clear const_known.
Context (order : string -> list string) {T U : Type} (none empty : T) (fresh : string -> T) (none' empty' : U) (fresh' : string -> U) (h : T -> U).
Hypothesis Hn : h none = none'.
Hypothesis He : h empty = empty'.
Hypothesis Hf : forall c, h (fresh c) = fresh' c.
Lemma ceval_lift : forall args v, h (ceval none empty fresh args v) = ceval none' empty' fresh' (map h args) v.
Proof. intros args [| |i|c]; cbn; auto. rewrite <- Hn. now rewrite map_nth. Qed.
Lemma crun_lift : forall n own rest args b o,
  rlift h (crun order none empty fresh n own rest args b o) = crun order none' empty' fresh' n own rest (map h args) b (lift h o).
Proof.
  induction n as [|n IH]; intros own rest args b o; [reflexivity|]. cbn [crun]. destruct b as [|s r]; [reflexivity|].
  assert (E : forall cs vs o,
    rlift h match next_ctor cs with
      | Some (k, body, rest') => if Nat.eqb (List.length vs) k then crun order none empty fresh n own rest' vs body o else Raise TypeError
      | None => match vs with [] => Ok o | _ => Raise TypeError end
      end =
    match next_ctor cs with
      | Some (k, body, rest') => if Nat.eqb (List.length (map h vs)) k then crun order none' empty' fresh' n own rest' (map h vs) body (lift h o) else Raise TypeError
      | None => match map h vs with [] => Ok (lift h o) | _ => Raise TypeError end
      end).
  { intros cs vs o'. destruct (next_ctor cs) as [[[k body] rest']|]; [|destruct vs; reflexivity].
    rewrite map_length. destruct (Nat.eqb (List.length vs) k); [apply IH|reflexivity]. }
  assert (M : forall vs, map h (map (ceval none empty fresh args) vs) = map (ceval none' empty' fresh' (map h args)) vs).
  { intro vs. rewrite map_map. apply map_ext. intro v. apply ceval_lift. }
  assert (K : forall x x', rlift h x = x' ->
    rlift h match x with Ok o' => crun order none empty fresh n own rest args r o' | Raise e => Raise e end =
    match x' with Ok o' => crun order none' empty' fresh' n own rest (map h args) r o' | Raise e => Raise e end).
  { intros x x' <-. destruct x; cbn [rlift]; [apply IH|reflexivity]. }
  apply K. destruct s as [a v|vs ks|c vs|c| | |]; cbn [rlift]; try reflexivity.
  - rewrite lift_set. now rewrite ceval_lift.
  - destruct (forallb (const_known order) ks); [|reflexivity]. rewrite <- M. apply E.
  - destruct (ctor_owner (order c)); rewrite <- M; apply E.
  - destruct (String.eqb own c); reflexivity.
  - destruct (first_clear (order own)); [|reflexivity]. apply IH.
Qed.
Lemma construct_lift : forall c args,
  rlift h (construct order none empty fresh c args) = construct order none' empty' fresh' c (map h args).
Proof.
  intros c args. unfold construct. destruct (next_ctor (order c)) as [[[k b] r]|]; [|destruct args; reflexivity].
  rewrite map_length. destruct (Nat.eqb (List.length args) k); [|reflexivity]. apply crun_lift.
Qed.
End Natural.

(** two method resolution orders that agree give the same objects *)
Section Orders.
Local Opaque next_ctor ctor_owner from_class first_clear.
Context (order order' : string -> list string) {T : Type} (none empty : T) (fresh : string -> T).
Hypothesis S : forall c, order c = order' c.
Lemma known_order : forall ks, forallb (const_known order) ks = forallb (const_known order') ks.
Proof. induction ks as [|k ks IH]; auto. cbn [forallb]. rewrite IH. unfold const_known. now rewrite S. Qed.
Lemma crun_order : forall n own rest args b o, crun order none empty fresh n own rest args b o = crun order' none empty fresh n own rest args b o.
Proof.
  induction n as [|n IH]; intros own rest args b o; [reflexivity|]. cbn [crun]. destruct b as [|s r]; [reflexivity|].
  assert (K : forall x x', x = x' ->
    match x with Ok o' => crun order none empty fresh n own rest args r o' | Raise e => Raise e end =
    match x' with Ok o' => crun order' none empty fresh n own rest args r o' | Raise e => Raise e end).
  { intros x x' <-. destruct x; [apply IH|reflexivity]. }
  apply K. destruct s as [a v|vs ks|c vs|c| | |]; try reflexivity.
  - rewrite known_order. destruct (forallb (const_known order') ks); [|reflexivity]. destruct (next_ctor rest) as [[[k body] rest']|]; [|reflexivity].
    rewrite IH. reflexivity.
  - rewrite S. destruct (ctor_owner (order' c)); rewrite ?S;
      match goal with |- context [next_ctor ?x] => destruct (next_ctor x) as [[[k body] rest']|] end; try reflexivity; now rewrite IH.
  - rewrite S. destruct (first_clear (order' own)); [|reflexivity]. apply IH.
Qed.
Lemma construct_order : forall c args, construct order none empty fresh c args = construct order' none empty fresh c args.
Proof.
  intros c args. unfold construct. rewrite S. destruct (next_ctor (order' c)) as [[[k b] r]|]; [|reflexivity]. now rewrite crun_order.
Qed.
End Orders.

(** the object as a function of the arguments *)
Definition outline (c : string) (k : nat) : res (list (string * cval)) :=
  construct mro_of CNone CList CFresh c (map CArg (seq 0 k)).
Lemma args_seq : forall T (none : T) args k, length args = k -> map (fun i => nth i args none) (seq 0 k) = args.
Proof.
  intros T none args k <-. induction args as [|a args IH]; [reflexivity|]. cbn [length seq map nth]. f_equal.
  rewrite <- seq_shift, map_map. exact IH.
Qed.
Definition value_of {A} (args : list (option (slot A))) : cval -> option (slot A) :=
  ceval None (Some (Many [])) (fun c => Some (Fresh c)) args.
Lemma new_outline : forall A c (args : list (option (slot A))) k, length args = k -> new c args = rlift (value_of args) (outline c k).
Proof.
  intros A c args k L. unfold outline. rewrite (construct_lift mro_of CNone CList CFresh None (Some (Many [])) (fun c => Some (Fresh c)) (value_of args)); try reflexivity.
  rewrite map_map. cbn [value_of ceval]. rewrite (args_seq _ None args k L). apply construct_order. exact mro_stored.
Qed.

(** ** What a method can change *)
Definition final {V} (x : @mout V) : option (@attrs V) := match x with Fall o | Ret o _ => Some o | _ => None end.
Lemma left_final : forall V (x : @mout V) o, left_as x o -> final x = Some o.
Proof. intros V x o [-> | ->]; reflexivity. Qed.
Fixpoint massigns (s : mstmt) : list string :=
  match s with
  | MAssign a => [a]
  | MIfSome b => flat_map massigns b
  | MIfAttr _ b c => flat_map massigns b ++ flat_map massigns c
  | MIfOtherName _ b => flat_map massigns b
  | _ => []
  end.
Section Methods.
Context {V : Type} (name : V -> string).
Definition local (as_ : list string) (v : option V) (o o' : @attrs V) : Prop :=
  forall a, dget o' a = dget o a \/ In a as_ /\ dget o' a = Some v.
Lemma local_refl : forall l v o, local l v o o.
Proof. intros l v o a. now left. Qed.
Lemma local_trans : forall l l' l'' v o o' o'', incl l l'' -> incl l' l'' -> local l v o o' -> local l' v o' o'' -> local l'' v o o''.
Proof.
  intros l l' l'' v o o' o'' I I' H H' a. destruct (H' a) as [E | [N E]].
  - destruct (H a) as [E2 | [N E2]]; [left; congruence|right; split; [now apply I|congruence]].
  - right. split; [now apply I'|exact E].
Qed.
Lemma local_incl : forall l l' v o o', incl l l' -> local l v o o' -> local l' v o o'.
Proof. intros l l' v o o' I H a. destruct (H a) as [E | [N E]]; [now left|right; split; [now apply I|exact E]]. Qed.
Lemma mrun1_some : forall b v o, mrun1 name (MIfSome b) (Some v) o = mrun name b (Some v) o.
Proof. intros b v. induction b as [|s b IH]; intro o; [reflexivity|]. cbn in *. destruct (mrun1 name s (Some v) o); auto. Qed.
Lemma mrun1_attr : forall a b c v o, mrun1 name (MIfAttr a b c) v o =
  match dget o a with Some (Some _) => mrun name b v o | Some None => mrun name c v o | None => Err AttributeError end.
Proof.
  intros a b c v o. assert (B : forall b o, (fix block (b : list mstmt) (o : attrs) {struct b} : mout :=
    match b with [] => Fall o | s :: r => match mrun1 name s v o with Fall o' => block r o' | x => x end end) b o = mrun name b v o).
  { clear. intro b. induction b as [|s b IH]; intro o; [reflexivity|]. cbn [mrun]. destruct (mrun1 name s v o); auto. }
  cbn [mrun1]. destruct (dget o a) as [[w|]|]; auto.
Qed.
Lemma mrun1_other : forall a b v o, mrun1 name (MIfOtherName a b) v o =
  match v, dget o a with
  | Some w, Some (Some w') => if String.eqb (name w) (name w') then Fall o else mrun name b v o
  | _, _ => Err AttributeError
  end.
Proof.
  intros a b v o. assert (B : forall b o, (fix block (b : list mstmt) (o : attrs) {struct b} : mout :=
    match b with [] => Fall o | s :: r => match mrun1 name s v o with Fall o' => block r o' | x => x end end) b o = mrun name b v o).
  { clear. intro b. induction b as [|s b IH]; intro o; [reflexivity|]. cbn [mrun]. destruct (mrun1 name s v o); auto. }
  cbn [mrun1]. destruct v as [w|]; auto. destruct (dget o a) as [[w'|]|]; auto. destruct (String.eqb (name w) (name w')); auto.
Qed.
Lemma mrun_local : forall b, (forall s, In s b -> forall v o o', final (mrun1 name s v o) = Some o' -> local (massigns s) v o o') ->
  forall v o o', final (mrun name b v o) = Some o' -> local (flat_map massigns b) v o o'.
Proof.
  induction b as [|s b IH]; intros H v o o' F; cbn [mrun flat_map] in *.
  - injection F as <-. apply local_refl.
  - pose proof (H s (or_introl eq_refl) v o) as S. destruct (mrun1 name s v o) as [o1|o1 r|e|]; cbn [final] in F; try discriminate.
    + eapply local_trans; [| |apply S; reflexivity|apply IH; [|exact F]].
      * apply incl_appl, incl_refl.
      * apply incl_appr, incl_refl.
      * intros s' I. apply H. now right.
    + injection F as <-. eapply local_incl; [|apply S; reflexivity]. apply incl_appl, incl_refl.
Qed.
Fixpoint mrun1_local (s : mstmt) : forall v o o', final (mrun1 name s v o) = Some o' -> local (massigns s) v o o'.
Proof.
  destruct s as [a|b|a b c|a b| | |a|]; intros v o o' F.
  - injection F as <-. intro x. destruct (String.eqb_spec x a) as [-> | N]; [right|left].
    + split; [now left|apply dget_dset_same].
    + now apply dget_dset_other.
  - destruct v as [v|]; [|injection F as <-; apply local_refl]. rewrite mrun1_some in F. cbn [massigns]. revert F. apply mrun_local.
    clear - mrun1_local. induction b as [|s b IH]; [intros s []|]. intros s' [<- | I]; [apply mrun1_local|now apply IH].
  - rewrite mrun1_attr in F. cbn [massigns]. destruct (dget o a) as [[w|]|]; [| |discriminate].
    + eapply local_incl; [apply incl_appl, incl_refl|]. revert F. apply mrun_local.
      clear - mrun1_local. induction b as [|s b IH]; [intros s []|]. intros s' [<- | I]; [apply mrun1_local|now apply IH].
    + eapply local_incl; [apply incl_appr, incl_refl|]. revert F. apply mrun_local.
      clear - mrun1_local. induction c as [|s c IH]; [intros s []|]. intros s' [<- | I]; [apply mrun1_local|now apply IH].
  - rewrite mrun1_other in F. cbn [massigns]. destruct v as [v|]; [|discriminate]. destruct (dget o a) as [[w|]|]; try discriminate.
    destruct (String.eqb (name v) (name w)); [injection F as <-; apply local_refl|]. revert F. apply mrun_local.
    clear - mrun1_local. induction b as [|s b IH]; [intros s []|]. intros s' [<- | I]; [apply mrun1_local|now apply IH].
  - discriminate.
  - injection F as <-. apply local_refl.
  - cbn in F. destruct (dget o a); [injection F as <-; apply local_refl|discriminate].
  - discriminate.
Qed.
Lemma method_local : forall b v o o', final (mrun name b v o) = Some o' -> local (flat_map massigns b) v o o'.
Proof. intros b. apply mrun_local. intros s _. apply mrun1_local. Qed.
End Methods.

Definition listed {A} (o : @attrs (slot A)) (a : string) : Prop := exists l, dget o a = Some (Some (Many l)).
Definition keeps {A} (as_ : list string) (o o' : @attrs (slot A)) : Prop :=
  forall a, (dget o a <> None -> dget o' a <> None) /\ (~ In a as_ -> listed o a -> listed o' a).
Lemma keeps_refl : forall A l (o : @attrs (slot A)), keeps l o o.
Proof. intros A l o a. split; auto. Qed.
Lemma keeps_trans : forall A l l' (o o' o'' : @attrs (slot A)), keeps l o o' -> keeps l' o' o'' -> keeps (l ++ l') o o''.
Proof.
  intros A l l' o o' o'' H H' a. destruct (H a) as [P Q]. destruct (H' a) as [P' Q']. split; [auto|].
  intros N L. apply Q'; [intro I; apply N; apply in_or_app; now right|]. apply Q; [intro I; apply N; apply in_or_app; now left|exact L].
Qed.
Lemma keeps_incl : forall A l l' (o o' : @attrs (slot A)), incl l l' -> keeps l o o' -> keeps l' o o'.
Proof. intros A l l' o o' I H a. destruct (H a) as [P Q]. split; [exact P|]. intros N. apply Q. intro M. apply N. now apply I. Qed.
Fixpoint aassigns (s : astmt) : list string :=
  match s with
  | AAssign a => [a]
  | AIfSome b => flat_map aassigns b
  | AIfNew _ b => flat_map aassigns b
  | _ => []
  end.
Section Adders.
Context {A : Type} (eqb : A -> A -> bool).
Lemma arun1_block : forall v b o, (fix block (b : list astmt) (o : @attrs (slot A)) {struct b} : mout :=
    match b with [] => Fall o | s :: r => match arun1 eqb s v o with Fall o' => block r o' | x => x end end) b o = arun eqb b v o.
Proof. intros v b. induction b as [|s b IH]; intro o; [reflexivity|]. cbn [arun]. destruct (arun1 eqb s v o); auto. Qed.
Lemma arun_keeps : forall b, (forall s, In s b -> forall v o o', final (arun1 eqb s v o) = Some o' -> keeps (aassigns s) o o') ->
  forall v o o', final (arun eqb b v o) = Some o' -> keeps (flat_map aassigns b) o o'.
Proof.
  induction b as [|s b IH]; intros H v o o' F; cbn [arun flat_map] in *.
  - injection F as <-. apply keeps_refl.
  - pose proof (H s (or_introl eq_refl) v o) as S. destruct (arun1 eqb s v o) as [o1|o1 r|e|]; cbn [final] in F; try discriminate.
    + eapply keeps_trans; [apply S; reflexivity|]. eapply IH; [|exact F]. intros s' I. apply H. now right.
    + injection F as <-. eapply keeps_incl; [|apply S; reflexivity]. apply incl_appl, incl_refl.
Qed.
Lemma set_keeps : forall (o : @attrs (slot A)) a v, keeps [a] o (dset o a v).
Proof.
  intros o a v x. unfold listed. rewrite dget_dset. destruct (String.eqb_spec x a) as [-> | N]; [|split; auto].
  split; [discriminate|]. intros N. exfalso. apply N. now left.
Qed.
Lemma many_keeps : forall (o : @attrs (slot A)) a l, keeps [] o (dset o a (Some (Many l))).
Proof.
  intros o a l x. unfold listed. rewrite dget_dset. destruct (String.eqb_spec x a) as [-> | N]; [|split; auto].
  split; [discriminate|]. intros _ _. now exists l.
Qed.
Fixpoint arun1_keeps (s : astmt) : forall v o o', final (arun1 eqb s v o) = Some o' -> keeps (aassigns s) o o'.
Proof.
  destruct s as [a|a|b|a b| |]; intros v o o' F.
  - cbn in F. destruct (dget o a) as [[[x|l|c]|]|]; try discriminate. injection F as <-. apply many_keeps.
  - injection F as <-. apply set_keeps.
  - cbn [arun1] in F. destruct v as [v|]; [|injection F as <-; apply keeps_refl]. rewrite arun1_block in F. cbn [aassigns]. revert F. apply arun_keeps.
    clear - arun1_keeps. induction b as [|s b IH]; [intros s []|]. intros s' [<- | I]; [apply arun1_keeps|now apply IH].
  - cbn [arun1] in F. destruct (dget o a) as [[[x|l|c]|]|]; try discriminate. destruct (existsb (oeqb eqb v) l); [injection F as <-; apply keeps_refl|].
    rewrite arun1_block in F. cbn [aassigns]. revert F. apply arun_keeps.
    clear - arun1_keeps. induction b as [|s b IH]; [intros s []|]. intros s' [<- | I]; [apply arun1_keeps|now apply IH].
  - injection F as <-. apply keeps_refl.
  - discriminate.
Qed.
Lemma adder_keeps : forall b v o o', final (arun eqb b v o) = Some o' -> keeps (flat_map aassigns b) o o'.
Proof. intros b. apply arun_keeps. intros s _. apply arun1_keeps. Qed.
End Adders.

(** ** The checks *)
Definition says_abstract (c : string) : bool :=
  match lookup c ctor_table with Some (_, b) => existsb (fun s => match s with CAbstract d => String.eqb d c | _ => false end) b | None => false end.
Definition params (c : string) : nat := match next_ctor (mro_of c) with Some (k, _, _) => k | None => 0 end.
Definition is_arg (i : nat) (v : option cval) : bool := match v with Some (CArg j) => Nat.eqb i j | _ => false end.
Definition is_list (v : option cval) : bool := match v with Some CList => true | _ => false end.
Definition made_ok (c : string) (k : nat) (o : res (list (string * cval))) : bool :=
  if mem c odd_classes then true
  else if negb (Nat.eqb k (arguments c)) then false
  else match o with
       | Ok l => if says_abstract c then false
                 else if Nat.eqb k 2 then (if is_arg 0 (dget l "parent") then is_arg 1 (dget l "short_name") else false) else true
       | Raise TypeError => says_abstract c
       | Raise _ => false
       end.
(** methods that only return an attribute *)
Definition gets_ok (c : string) (keys : list string) (ts : list (list (string * list mstmt))) : bool :=
  forallb (fun t => forallb (fun p => match first_in ts (fst p) with
                                      | Some [MReturnAttr a] => if mem a keys then true
                                                                else if String.eqb c "EcucInstanceReferenceValue" then String.eqb (fst p) "getValueIRef" else false
                                      | _ => true
                                      end) t) ts.
Definition add_tables (cs : list string) : list (list (string * list astmt)) :=
  flat_map (fun c => match lookup c add_table with Some t => [t] | None => [] end) cs.
Fixpoint first_add_in (ts : list (list (string * list astmt))) (m : string) : option (list astmt) :=
  match ts with
  | [] => None
  | t :: r => match lookup m t with Some b => Some b | None => first_add_in r m end
  end.
Definition target (b : list astmt) : option string :=
  match b with
  | [AAppend f] | [AAppend f; AReturnSelf] | [AIfSome [AAppend f]; AReturnSelf] => Some f
  | [AIfSome [AIfNew f [AAppend g]]; AReturnSelf] | [AIfNew f [AAppend g]; AReturnSelf] => if String.eqb f g then Some f else None
  | _ => None
  end.
Definition unclear (b : list astmt) : bool := match b with AOther :: _ | AIfSome (AOther :: _) :: _ => true | _ => false end.
Definition split_add (m : string) : option string :=
  match m with
  | String "a"%char (String "d"%char (String "d"%char x)) => Some x
  | String "A"%char (String "d"%char (String "d"%char x)) => Some x
  | _ => None
  end.
(** x without a final y *)
Fixpoint without_y (x : string) : option string :=
  match x with
  | EmptyString => None
  | String "y"%char EmptyString => Some EmptyString
  | String c r => match without_y r with Some z => Some (String c z) | None => None end
  end.
Definition plurals (x : string) : list string :=
  (x ++ "s")%string :: (x ++ "es")%string :: x :: match without_y x with Some z => [(z ++ "ies")%string] | None => [] end ++
  (if String.eqb x "SwcMappingConstraintRef" then ["SwcMappingConstraintsRefs"] else []).
Definition getter_for (ts : list (list (string * list mstmt))) (f x : string) : bool :=
  existsb (fun y => match first_in ts ("get" ++ y)%string with Some [MReturnAttr g] => String.eqb f g | _ => false end) (plurals x).
Definition once (b : list astmt) : bool :=
  match b with [AIfSome [AIfNew _ _]; _] | [AIfNew _ _; _] => true | _ => false end.
Definition add_ok (c : string) (o : list (string * cval)) (ts : list (list (string * list mstmt))) (m : string) (b : list astmt) : bool :=
  if unclear b then true else if mem m odd_adders then true
  else if (if once b then negb (existsb (fun p => if String.eqb (fst p) c then String.eqb (snd p) m else false) single_adders) else false) then false
  else match target b, split_add m with
       | Some f, Some x => if is_list (dget o f) then getter_for ts f x else false
       | _, _ => false
       end.
Definition targets (ats : list (list (string * list astmt))) : list string :=
  flat_map (fun t => flat_map (fun p => if mem (fst p) odd_adders then [] else match target (snd p) with Some f => [f] | None => [] end) t) ats.
Definition sets_ok (fs : list string) (ts : list (list (string * list mstmt))) : bool :=
  forallb (fun t => forallb (fun p => if forallb (fun a => negb (mem a fs)) (flat_map massigns (snd p)) then true else mem (fst p) list_setters) t) ts.
Definition object_ok (c : string) : bool :=
  let cs := mro_of c in
  let k := params c in
  let r := outline c k in
  if made_ok c k r then
    match r with
    | Raise _ => true
    | Ok o =>
      let ts := tables cs in
      let ats := add_tables cs in
      let fs := targets ats in
      if gets_ok c (map fst o) ts then
        if sets_ok fs ts then
          if forallb (fun f => is_list (dget o f)) fs then
            forallb (fun t => forallb (fun p => if forallb (fun a => negb (mem a fs)) (flat_map aassigns (snd p)) then
                                                  match first_add_in ats (fst p) with Some b => add_ok c o ts (fst p) b | None => false end
                                                else false) t) ats
          else false
        else false
      else false
    end
  else false.
Lemma objects_ok : forallb object_ok all_classes = true.
Proof. vm_compute. reflexivity. Qed.
Local Opaque all_classes method_table add_table ctor_table mro_table mro_of mro object_ok outline list_setters odd_adders single_adders.
Lemma object_of : forall c, In c all_classes -> object_ok c = true.
Proof. intros c I. pose proof objects_ok as K. rewrite forallb_forall in K. now apply K. Qed.
Local Transparent object_ok.
Lemma object_parts : forall c, In c all_classes ->
  made_ok c (params c) (outline c (params c)) = true /\
  forall o, outline c (params c) = Ok o -> let ts := tables (mro_of c) in let ats := add_tables (mro_of c) in let fs := targets ats in
    gets_ok c (map fst o) ts = true /\ sets_ok fs ts = true /\ forallb (fun f => is_list (dget o f)) fs = true /\
    forallb (fun t => forallb (fun p => if forallb (fun a => negb (mem a fs)) (flat_map aassigns (snd p)) then
                                                  match first_add_in ats (fst p) with Some b => add_ok c o ts (fst p) b | None => false end
                                                else false) t) ats = true.
Proof.
  intros c I. pose proof (object_of c I) as K. unfold object_ok in K. cbv zeta in K. destruct (made_ok c (params c) (outline c (params c))) eqn:M; [|discriminate].
  split; [reflexivity|]. intros o E. cbv zeta. rewrite E in K.
  destruct (gets_ok c (map fst o) (tables (mro_of c))); [|discriminate]. split; [reflexivity|].
  destruct (sets_ok (targets (add_tables (mro_of c))) (tables (mro_of c))); [|discriminate]. split; [reflexivity|].
  destruct (forallb (fun f => is_list (dget o f)) (targets (add_tables (mro_of c)))); [|discriminate]. split; [reflexivity|]. exact K.
Qed.
Local Opaque object_ok.

Lemma new_params : forall A c (args : list (option (slot A))) o, new c args = Ok o -> length args = params c.
Proof.
  intros A c args o H. unfold new, construct in H. rewrite mro_stored in H. unfold params. destruct (next_ctor (mro_of c)) as [[[k b] r]|].
  - destruct (Nat.eqb_spec (length args) k); [assumption|discriminate].
  - destruct args; [reflexivity|discriminate].
Qed.
Lemma first_add_In : forall m cs b, first_add cs m = Some b -> exists d t, In d cs /\ lookup d add_table = Some t /\ lookup m t = Some b.
Proof.
  intro m. induction cs as [|c cs IH]; cbn [first_add]; intros b H; [discriminate|]. destruct (lookup c add_table) as [t|] eqn:E.
  - destruct (lookup m t) as [b'|] eqn:E2.
    + injection H as ->. exists c, t. split; [now left|split; assumption].
    + destruct (IH _ H) as (d & t' & I & P). exists d, t'. split; [now right|exact P].
  - destruct (IH _ H) as (d & t' & I & P). exists d, t'. split; [now right|exact P].
Qed.
Lemma add_tables_In : forall cs d t, In d cs -> lookup d add_table = Some t -> In t (add_tables cs).
Proof. intros cs d t I L. apply in_flat_map. exists d. split; [exact I|]. rewrite L. now left. Qed.
Lemma first_add_in_body : forall m cs, first_add_in (add_tables cs) m = first_add cs m.
Proof.
  intro m. induction cs as [|c cs IH]; cbn [add_tables flat_map first_add]; auto. fold (add_tables cs).
  destruct (lookup c add_table) as [t|]; cbn [app first_add_in]; [|exact IH]. now rewrite IH.
Qed.
Local Transparent all_classes add_table.
Lemma add_tables_agree : forallb (fun p => mem (fst p) all_classes) add_table = true.
Proof. vm_compute. reflexivity. Qed.
Local Opaque all_classes add_table.
Lemma resolve_add_listed : forall c m b, resolve_add c m = Some b -> In c all_classes.
Proof.
  intros c m b H. apply mem_In. destruct (mem c all_classes) eqn:E; auto.
  unfold resolve_add in H. rewrite (mro_unlisted 20 c E) in H. apply first_add_In in H. destruct H as (d & t & [<- | []] & L & _).
  pose proof add_tables_agree as T. rewrite forallb_forall in T. specialize (T _ (lookup_In _ _ _ _ L)). cbn [fst] in T. congruence.
Qed.

Lemma lift_keys : forall T U (h : T -> U) o a, In a (map fst o) -> dget (lift h o) a <> None.
Proof.
  intros T U h o a I. rewrite lift_get. destruct (dget o a) as [v|] eqn:E; [discriminate|]. exfalso.
  apply dget_None_keys in E. now apply E.
Qed.

Section Reached.
Context {A : Type} (name : slot A -> string) (eqb : A -> A -> bool).
Definition whole (c : string) (sk : list (string * cval)) (o : @attrs (slot A)) : Prop :=
  (forall a, In a (map fst sk) -> dget o a <> None) /\ (forall f, In f (targets (add_tables (mro_of c))) -> listed o f).
Lemma negb_mem : forall fs l a, forallb (fun a => negb (mem a fs)) l = true -> In a l -> In a fs -> False.
Proof.
  intros fs l a F I J. rewrite forallb_forall in F. specialize (F a I). rewrite (mem_of _ _ J) in F. discriminate.
Qed.
Lemma reached_whole : forall c o, In c all_classes -> reached name eqb c o -> exists sk, outline c (params c) = Ok sk /\ whole c sk o.
Proof.
  intros c o I R. destruct (object_parts c I) as [_ P]. induction R as [args o N|m v o o' R IH C LS|m v o o' R IH C].
  - rewrite (new_outline A c args (params c) (new_params _ _ _ _ N)) in N. destruct (outline c (params c)) as [sk|]; [|discriminate].
    assert (o = lift (value_of args) sk) as -> by (cbn [rlift] in N; congruence). exists sk. split; [reflexivity|].
    destruct (P sk eq_refl) as (_ & _ & L & _). split; [intros a J; now apply lift_keys|].
    intros f J. rewrite forallb_forall in L. specialize (L f J). unfold listed. rewrite lift_get. destruct (dget sk f) as [[]|]; try discriminate. exists []. reflexivity.
  - destruct IH as (sk & E & K & F). exists sk. split; [exact E|]. destruct (P sk E) as (_ & S & _).
    apply left_final in C. unfold call, resolve in C. rewrite mro_stored in C. destruct (first_body (mro_of c) m) as [b|] eqn:B; [|discriminate].
    apply method_local in C. split.
    + intros a J D. destruct (C a) as [Q | [_ Q]]; [apply (K a J); congruence|congruence].
    + intros f J. destruct (C f) as [Q | [IN Q]]; [destruct (F f J) as [l Q']; exists l; congruence|].
      assert (M : In m list_setters).
      { destruct (first_body_In _ _ _ B) as (d & t & Id & L & Lm). unfold sets_ok in S. rewrite forallb_forall in S. specialize (S t (tables_In _ _ _ Id L)).
        rewrite forallb_forall in S. specialize (S _ (lookup_In _ _ _ _ Lm)). cbn [fst snd] in S.
        destruct (forallb (fun a => negb (mem a (targets (add_tables (mro_of c))))) (flat_map massigns b)) eqn:NB; [exfalso; exact (negb_mem _ _ _ NB IN J)|].
        now apply mem_In. }
      destruct (LS M) as [l ->]. exists l. exact Q.
  - destruct IH as (sk & E & K & F). exists sk. split; [exact E|]. destruct (P sk E) as (_ & _ & _ & S).
    apply left_final in C. unfold add, resolve_add in C. rewrite mro_stored in C. destruct (first_add (mro_of c) m) as [b|] eqn:B; [|discriminate].
    apply adder_keeps in C. split.
    + intros a J. apply (C a). now apply K.
    + intros f J. apply (C f); [|now apply F]. intro IN.
      destruct (first_add_In _ _ _ B) as (d & t & Id & L & Lm). rewrite forallb_forall in S. specialize (S t (add_tables_In _ _ _ Id L)).
      rewrite forallb_forall in S. specialize (S _ (lookup_In _ _ _ _ Lm)). cbn [fst snd] in S.
      destruct (forallb (fun a => negb (mem a (targets (add_tables (mro_of c))))) (flat_map aassigns b)) eqn:NB; [|discriminate].
      exact (negb_mem _ _ _ NB IN J).
Qed.

(** ** Getters *)
Lemma getter_answers : forall c m a o, reached name eqb c o -> resolve c m = Some [MReturnAttr a] ->
  ~ (c = "EcucInstanceReferenceValue" /\ m = "getValueIRef") -> exists v, dget o a = Some v /\ call name c m None o = Ret o (RetVal v).
Proof.
  intros c m a o R H N. pose proof (resolve_listed _ _ _ H) as I. destruct (reached_whole c o I R) as (sk & E & K & _).
  destruct (object_parts c I) as [_ P]. destruct (P sk E) as (G & _). unfold resolve in H. rewrite mro_stored in H.
  assert (J : In a (map fst sk)).
  { destruct (first_body_In _ _ _ H) as (d & t & Id & L & Lm). unfold gets_ok in G. rewrite forallb_forall in G. specialize (G t (tables_In _ _ _ Id L)).
    rewrite forallb_forall in G. specialize (G _ (lookup_In _ _ _ _ Lm)). cbn [fst] in G. rewrite first_in_body, H in G.
    destruct (mem a (map fst sk)) eqn:M; [now apply mem_In|]. exfalso. apply N.
    destruct (String.eqb_spec c "EcucInstanceReferenceValue"); [|discriminate]. split; [assumption|]. now apply String.eqb_eq. }
  specialize (K a J). destruct (dget o a) as [v|] eqn:D; [|now destruct K]. exists v. split; [reflexivity|].
  unfold call, resolve. rewrite mro_stored, H. cbn [mrun mrun1]. now rewrite D.
Qed.
End Reached.

(** ** Add methods *)
Lemma without_y_eq : forall x z, without_y x = Some z -> x = (z ++ "y")%string.
Proof.
  induction x as [|c x IH]; intros z H; [discriminate|]. assert (G : forall w, without_y x = Some w -> String c x = (String c w ++ "y")%string).
  { intros w E. cbn [append]. f_equal. now apply IH. }
  cbn [without_y] in H. destruct (without_y x) as [w|].
  - assert (z = String c w \/ c = "y"%char /\ x = EmptyString /\ z = EmptyString) as [-> | (-> & -> & ->)]; [|now apply G|reflexivity].
    destruct (ascii_dec c "y"%char) as [-> | N].
    + destruct x; [right; split; [reflexivity|split; [reflexivity|congruence]]|left; congruence].
    + left. destruct c as [[] [] [] [] [] [] [] []]; try congruence; destruct x; congruence.
  - destruct (ascii_dec c "y"%char) as [-> | N].
    + destruct x; [injection H as <-; reflexivity|discriminate].
    + destruct c as [[] [] [] [] [] [] [] []]; try discriminate; congruence.
Qed.
Lemma plurals_plural : forall x y, In y (plurals x) -> plural x y.
Proof.
  intros x y H. unfold plurals in H. unfold plural. cbn [In] in H. destruct H as [<- | [<- | [<- | H]]]; auto. apply in_app_or in H. destruct H as [H | H].
  - destruct (without_y x) as [z|] eqn:E; [|destruct H]. destruct H as [<- | []]. right. right. right. left. exists z. split; [now apply without_y_eq|reflexivity].
  - destruct (String.eqb_spec x "SwcMappingConstraintRef") as [-> | N]; [|destruct H]. destruct H as [<- | []]. now do 4 right.
Qed.
Lemma split_add_eq : forall m x, split_add m = Some x -> m = ("add" ++ x)%string \/ m = ("Add" ++ x)%string.
Proof.
  intros m x H. destruct m as [|c1 [|c2 [|c3 r]]]; cbn in H; try discriminate;
    repeat match type of H with context [match ?a with Ascii.Ascii _ _ _ _ _ _ _ _ => _ end] => destruct a end;
    repeat match type of H with context [if ?b then _ else _] => destruct b; try discriminate end;
    try discriminate; injection H as ->; auto.
Qed.
Definition fresh_value {A} (eqb : A -> A -> bool) (v : A) (l : list (option A)) : bool := negb (existsb (oeqb eqb (Some v)) l).
Lemma target_run : forall A (eqb : A -> A -> bool) b f v (o : @attrs (slot A)) l, target b = Some f -> dget o f = Some (Some (Many l)) ->
  left_as (arun eqb b (Some v) o) (dset o f (Some (Many (l ++ [Some v])))) \/
  once b = true /\ existsb (oeqb eqb (Some v)) l = true /\ left_as (arun eqb b (Some v) o) o.
Proof.
  intros A eqb b f v o l T D. unfold target in T.
  repeat match type of T with
         | (if String.eqb ?x ?y then _ else _) = Some _ => destruct (String.eqb_spec x y); [subst|discriminate]
         | match ?x with _ => _ end = Some _ => destruct x; try discriminate
         end;
  injection T as <-; cbn; rewrite D; try (left; unfold left_as; auto; fail);
  (destruct (existsb (oeqb eqb (Some v)) l) eqn:X; [right; unfold left_as; auto|left; rewrite ?D; unfold left_as; auto]).
Qed.
Section Append.
Context {A : Type} (name : slot A -> string) (eqb : A -> A -> bool).
Lemma unclear_run : forall b v (o : @attrs (slot A)), unclear b = true -> arun eqb b (Some v) o = Unknown.
Proof. intros [|[a|a|[|[] ?]|a ?| |] r] v o U; try discriminate; reflexivity. Qed.
Lemma add_appends : forall c m v o, reached name eqb c o -> ~ In m odd_adders -> resolve_add c m <> None -> add eqb c m (Some v) o <> Unknown ->
  exists x y f l o', (m = ("add" ++ x)%string \/ m = ("Add" ++ x)%string) /\ plural x y /\
    call name c ("get" ++ y)%string None o = Ret o (RetVal (Some (Many l))) /\
    left_as (add eqb c m (Some v) o) o' /\
    (call name c ("get" ++ y)%string None o' = Ret o' (RetVal (Some (Many (l ++ [Some v])))) /\ (forall a, a <> f -> dget o' a = dget o a) \/
     In (c, m) single_adders /\ existsb (oeqb eqb (Some v)) l = true /\ o' = o).
Proof.
  intros c m v o R NO H U. destruct (resolve_add c m) as [b|] eqn:B; [|now destruct H]. pose proof (resolve_add_listed _ _ _ B) as I.
  destruct (reached_whole name eqb c o I R) as (sk & E & _ & F). destruct (object_parts c I) as [_ P]. destruct (P sk E) as (_ & _ & _ & S). clear P.
  unfold resolve_add in B. rewrite mro_stored in B. unfold add, resolve_add in *. rewrite mro_stored, B in *.
  destruct (first_add_In _ _ _ B) as (d & t & Id & L & Lm). pose proof (add_tables_In _ _ _ Id L) as IT.
  rewrite forallb_forall in S. specialize (S t IT). rewrite forallb_forall in S. specialize (S _ (lookup_In _ _ _ _ Lm)). cbn [fst snd] in S.
  destruct (forallb (fun a => negb (mem a (targets (add_tables (mro_of c))))) (flat_map aassigns b)); [|discriminate].
  rewrite first_add_in_body, B in S. unfold add_ok in S.
  destruct (unclear b) eqn:UB; [exfalso; apply U; now apply unclear_run|].
  destruct (mem m odd_adders) eqn:MO; [exfalso; apply NO; now apply mem_In|].
  assert (SI : once b = true -> In (c, m) single_adders).
  { intro O. rewrite O in S. destruct (existsb _ single_adders) eqn:X in S; [|discriminate]. apply existsb_exists in X. destruct X as ([c' m'] & J & X). cbn [fst snd] in X.
    destruct (String.eqb_spec c' c); [subst|discriminate]. apply String.eqb_eq in X. now subst. }
  match type of S with (if ?x then false else _) = true => destruct x; [discriminate|] end.
  destruct (target b) as [f|] eqn:T; [|discriminate]. destruct (split_add m) as [x|] eqn:SP; [|discriminate].
  destruct (is_list (dget sk f)); [|discriminate]. unfold getter_for in S. apply existsb_exists in S. destruct S as (y & Y & G). rewrite first_in_body in G.
  assert (TF : In f (targets (add_tables (mro_of c)))).
  { unfold targets. apply in_flat_map. exists t. split; [exact IT|]. apply in_flat_map. exists (m, b). split; [now apply lookup_In|]. cbn [fst snd]. rewrite MO, T. now left. }
  destruct (F f TF) as [l D].
  assert (CALL : forall o' v', dget o' f = Some v' -> call name c ("get" ++ y)%string None o' = Ret o' (RetVal v')).
  { intros o' v' D'. unfold call, resolve. rewrite mro_stored. destruct (first_body (mro_of c) ("get" ++ y)%string) as [[|[] [|]]|]; try discriminate.
    apply String.eqb_eq in G. subst. cbn [mrun mrun1]. now rewrite D'. }
  exists x, y, f, l. destruct (target_run A eqb b f v o l T D) as [RUN | (O & X & RUN)].
  - exists (dset o f (Some (Many (l ++ [Some v])))). split; [now apply split_add_eq|]. split; [now apply plurals_plural|]. split; [now apply CALL|]. split; [exact RUN|].
    left. split; [apply CALL, dget_dset_same|]. intros a N. now apply dget_dset_other.
  - exists o. split; [now apply split_add_eq|]. split; [now apply plurals_plural|]. split; [now apply CALL|]. split; [exact RUN|]. right. auto.
Qed.
End Append.

(** ** Constructors *)
Lemma says_abstract_iff : forall c, says_abstract c = true <-> abstract c.
Proof.
  intro c. unfold says_abstract, abstract. split.
  - destruct (lookup c ctor_table) as [[k b]|]; [|discriminate]. intro H. apply existsb_exists in H. destruct H as ([] & I & E); try discriminate.
    apply String.eqb_eq in E. subst. exists k, b. auto.
  - intros (k & b & -> & I). apply existsb_exists. exists (CAbstract c). split; [exact I|apply String.eqb_refl].
Qed.
Lemma constructed : forall A c (args : list (option (slot A))), In c all_classes -> ~ In c odd_classes -> length args = arguments c ->
  abstract c /\ new c args = Raise TypeError \/
  ~ abstract c /\ exists o, new c args = Ok o /\
    (arguments c = 2 -> dget o "parent" = Some (nth 0 args None) /\ dget o "short_name" = Some (nth 1 args None)).
Proof.
  intros A c args I N L. destruct (object_parts c I) as [M _]. unfold made_ok in M. destruct (mem c odd_classes) eqn:MO; [exfalso; apply N; now apply mem_In|].
  destruct (Nat.eqb_spec (params c) (arguments c)) as [PA|]; [|discriminate]. cbn [negb] in M. rewrite <- PA in L. rewrite (new_outline A c args _ L).
  rewrite <- says_abstract_iff. destruct (outline c (params c)) as [sk|e]; cbn [rlift].
  - right. destruct (says_abstract c); [discriminate|]. split; [discriminate|]. eexists. split; [reflexivity|]. intro E2. rewrite PA, E2 in M. cbn [Nat.eqb] in M.
    rewrite !lift_get. unfold is_arg in M. destruct (dget sk "parent") as [[| |[|]|]|]; try discriminate. destruct (dget sk "short_name") as [[| |i|]|]; try discriminate.
    apply Nat.eqb_eq in M. subst i. split; reflexivity.
  - left. destruct e; try discriminate. auto.
Qed.

(** ** Findings *)
Local Transparent all_classes method_table add_table ctor_table mro_table mro_of mro object_ok outline list_setters odd_adders.
Lemma interrupt_event : is_class "BswInterruptEvent" /\ ~ abstract "BswInterruptEvent" /\
  forall A (args : list (option (slot A))), new "BswInterruptEvent" args = Raise TypeError.
Proof.
  split; [apply mem_In; vm_compute; reflexivity|]. split; [rewrite <- says_abstract_iff; vm_compute; discriminate|]. intros A args.
  destruct args as [|a args].
  - rewrite (new_outline A _ [] 0 eq_refl). assert (E : outline "BswInterruptEvent" 0 = Raise TypeError) by (vm_compute; reflexivity). now rewrite E.
  - unfold new, construct. assert (E : option_map (fun p => fst (fst p)) (next_ctor (mro 20 "BswInterruptEvent")) = Some 0) by (vm_compute; reflexivity).
    destruct (next_ctor (mro 20 "BswInterruptEvent")) as [[[k b] r]|]; [|discriminate]. injection E as ->. reflexivity.
Qed.
Definition unmakeable (c : string) : Prop := is_class c /\ ~ abstract c /\ isinst c "AREnum" = true /\ new (A := unit) c [] = Raise TypeError.
Lemma relationship_enum : unmakeable "BswEntryRelationshipEnum".
Proof.
  split; [apply mem_In; vm_compute; reflexivity|]. split; [rewrite <- says_abstract_iff; vm_compute; discriminate|].
  split; vm_compute; reflexivity.
Qed.
Lemma fit_enum : unmakeable "GraphicFitEnum".
Proof.
  split; [apply mem_In; vm_compute; reflexivity|]. split; [rewrite <- says_abstract_iff; vm_compute; discriminate|].
  split; vm_compute; reflexivity.
Qed.
Lemma instance_reference : exists o : @attrs (slot unit), new "EcucInstanceReferenceValue" [] = Ok o /\
  exists b, resolve "EcucInstanceReferenceValue" "getValueIRef" = Some b /\
  call (fun _ => "") "EcucInstanceReferenceValue" "getValueIRef" None o = Err AttributeError.
Proof. eexists. split; [vm_compute; reflexivity|]. eexists. split; vm_compute; reflexivity. Qed.
Lemma none_added : exists o o' : @attrs (slot unit), new "EcucValueCollection" [None; None] = Ok o /\
  left_as (add (fun _ _ => true) "EcucValueCollection" "addEcucValueRef" None o) o' /\
  call (fun _ => "") "EcucValueCollection" "getEcucValueRefs" None o' = Ret o' (RetVal (Some (Many [None]))).
Proof. eexists. eexists. split; [vm_compute; reflexivity|]. split; [right; vm_compute; reflexivity|vm_compute; reflexivity]. Qed.
Lemma default_values : exists o o1 o2 : @attrs (slot nat), new "PduMappingDefaultValue" [] = Ok o /\
  left_as (add Nat.eqb "PduMappingDefaultValue" "addDefaultValueElements" (Some 1) o) o1 /\
  left_as (add Nat.eqb "PduMappingDefaultValue" "addDefaultValueElements" (Some 2) o1) o2 /\
  call (fun _ => "") "PduMappingDefaultValue" "getDefaultValueElements" None o2 = Ret o2 (RetVal (Some (One 2))).
Proof. do 3 eexists. split; [vm_compute; reflexivity|]. split; [right; vm_compute; reflexivity|]. split; [right; vm_compute; reflexivity|vm_compute; reflexivity]. Qed.
Lemma none_ignored : forall A (eqb : A -> A -> bool) c m b r o, resolve_add c m = Some (AIfSome b :: r) -> (r = [] \/ r = [AReturnSelf]) -> left_as (add eqb c m None o) o.
Proof. intros A eqb c m b r o H R. unfold add. rewrite H. destruct R as [-> | ->]; cbn; red; auto. Qed.
