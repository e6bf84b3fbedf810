(** Equality of reader code. *)
From Coq Require Import String Ascii List Bool Arith.
From Verif Require Import PyBase Primitives Xml Leaf ClassTable Ir.
Import ListNotations.
Open Scope string_scope.
Open Scope list_scope.

Definition tagx_dec (a b : tagx) : {a = b} + {a <> b}.
Proof. decide equality; apply string_dec. Defined.
Definition otag_dec (a b : option tagx) : {a = b} + {a <> b}.
Proof. decide equality; apply tagx_dec. Defined.
Definition rpth_dec (a b : rpth) : {a = b} + {a <> b}.
Proof. decide equality; apply string_dec. Defined.
Definition rkind_dec (a b : rkind) : {a = b} + {a <> b}.
Proof. decide equality. Defined.
Definition gstep_dec (a b : gstep) : {a = b} + {a <> b}.
Proof. decide equality; apply string_dec. Defined.
Definition exn_dec (a b : exn) : {a = b} + {a <> b}.
Proof. decide equality. Defined.
Definition strs_dec (a b : list string) : {a = b} + {a <> b} := list_eq_dec string_dec a b.
Definition gsteps_dec (a b : list gstep) : {a = b} + {a <> b} := list_eq_dec gstep_dec a b.
Definition pairs_dec (a b : list (string * string)) : {a = b} + {a <> b}.
Proof. apply list_eq_dec. decide equality; apply string_dec. Defined.
Definition yes {A B} (d : {A} + {B}) : bool := if d then true else false.

Section List.
Context {A : Type} (e : A -> A -> bool).
Fixpoint list_eqb (a b : list A) : bool :=
  match a, b with
  | [], [] => true
  | x :: a, y :: b => if e x y then list_eqb a b else false
  | _, _ => false
  end.
End List.

Fixpoint ri_eqb (n : nat) (a b : ri) {struct n} : bool :=
  match n with
  | O => false
  | S n =>
    match a, b with
    | RAttrs, RAttrs => true
    | RPut m v, RPut m' v' => if String.eqb m m' then vx_eqb n v v' else false
    | RPutAny m g v, RPutAny m' g' v' => if String.eqb m m' then if yes (strs_dec g g') then vx_eqb n v v' else false else false
    | RSet m v, RSet m' v' => if String.eqb m m' then vx_eqb n v v' else false
    | RCall f t, RCall f' t' => if String.eqb f f' then yes (otag_dec t t') else false
    | RCreate m b1 b2, RCreate m' b1' b2' => if String.eqb m m' then if Bool.eqb b1 b1' then list_eqb (ri_eqb n) b2 b2' else false else false
    | RFind p x y, RFind p' x' y' => if yes (rpth_dec p p') then if list_eqb (ri_eqb n) x x' then list_eqb (ri_eqb n) y y' else false else false
    | RFor p x, RFor p' x' => if yes (rpth_dec p p') then list_eqb (ri_eqb n) x x' else false
    | RForVal v x, RForVal v' x' => if vx_eqb n v v' then list_eqb (ri_eqb n) x x' else false
    | RIf c x y, RIf c' x' y' => if rc_eqb n c c' then if list_eqb (ri_eqb n) x x' then list_eqb (ri_eqb n) y y' else false else false
    | RSub g x, RSub g' x' => if yes (gstep_dec g g') then list_eqb (ri_eqb n) x x' else false
    | RFail e s, RFail e' s' => if yes (exn_dec e e') then Bool.eqb s s' else false
    | RUnknown, RUnknown => true
    | _, _ => false
    end
  end
with vx_eqb (n : nat) (a b : vx) {struct n} : bool :=
  match n with
  | O => false
  | S n =>
    match a, b with
    | VNoneX, VNoneX => true
    | VLeafX k p, VLeafX k' p' => if yes (rkind_dec k k') then yes (rpth_dec p p') else false
    | VReqX k p, VReqX k' p' => if yes (rkind_dec k k') then yes (rpth_dec p p') else false
    | VLeafsX k p, VLeafsX k' p' => if yes (rkind_dec k k') then yes (rpth_dec p p') else false
    | VTextX, VTextX => true
    | VTextOrX, VTextOrX => true
    | VAttrX s, VAttrX s' => String.eqb s s'
    | VUnmapX s m, VUnmapX s' m' => if String.eqb s s' then yes (pairs_dec m m') else false
    | VNameX, VNameX => true
    | VTagX, VTagX => true
    | VWrapX c m v, VWrapX c' m' v' => if String.eqb c c' then if String.eqb m m' then vx_eqb n v v' else false else false
    | VValueX v, VValueX v' => vx_eqb n v v'
    | VNewX c m x, VNewX c' m' x' => if String.eqb c c' then if Bool.eqb m m' then list_eqb (ri_eqb n) x x' else false else false
    | VListX x, VListX x' => list_eqb (ri_eqb n) x x'
    | VGetX f t, VGetX f' t' => if String.eqb f f' then yes (otag_dec t t') else false
    | VFindX p x y, VFindX p' x' y' => if yes (rpth_dec p p') then if vx_eqb n x x' then vx_eqb n y y' else false else false
    | VLastX p x, VLastX p' x' => if yes (rpth_dec p p') then vx_eqb n x x' else false
    | VIfX c x y, VIfX c' x' y' => if rc_eqb n c c' then if vx_eqb n x x' then vx_eqb n y y' else false else false
    | VOrX x y, VOrX x' y' => if vx_eqb n x x' then vx_eqb n y y' else false
    | VItemX, VItemX => true
    | VFailX e, VFailX e' => yes (exn_dec e e')
    | VUnknown, VUnknown => true
    | _, _ => false
    end
  end
with rc_eqb (n : nat) (a b : rcond) {struct n} : bool :=
  match n with
  | O => false
  | S n =>
    match a, b with
    | CTrue, CTrue => true
    | CTag s, CTag s' => String.eqb s s'
    | CKeyIs s, CKeyIs s' => String.eqb s s'
    | CHasAttr s, CHasAttr s' => String.eqb s s'
    | CHasText, CHasText => true
    | CHasWord, CHasWord => true
    | CAt p c, CAt p' c' => if yes (rpth_dec p p') then rc_eqb n c c' else false
    | CGot v, CGot v' => vx_eqb n v v'
    | CEmpty v, CEmpty v' => vx_eqb n v v'
    | CIsA s, CIsA s' => String.eqb s s'
    | CObjHas p, CObjHas p' => yes (gsteps_dec p p')
    | CNeg c, CNeg c' => rc_eqb n c c'
    | CBoth x y, CBoth x' y' => if rc_eqb n x x' then rc_eqb n y y' else false
    | CEither x y, CEither x' y' => if rc_eqb n x x' then rc_eqb n y y' else false
    | _, _ => false
    end
  end.
Definition code_eqb (a b : list ri) : bool := list_eqb (ri_eqb 60) a b.

Lemma list_eqb_ok : forall A (e : A -> A -> bool), (forall a b, e a b = true -> a = b) -> forall a b, list_eqb e a b = true -> a = b.
Proof.
  intros A e E. induction a as [|x a IH]; intros [|y b] H; try discriminate H; [reflexivity|]. cbn [list_eqb] in H. destruct (e x y) eqn:Q; [|discriminate H].
  now rewrite (E x y Q), (IH b H).
Qed.
Lemma yes_ok : forall A B (d : {A} + {B}), yes d = true -> A.
Proof. intros A B [a|b] H; [exact a|discriminate H]. Qed.
Lemma both_true : forall a b : bool, (if a then b else false) = true -> a = true /\ b = true.
Proof. intros [|] b H; [auto|discriminate H]. Qed.
Lemma eqb_all : forall n, (forall a b, ri_eqb n a b = true -> a = b) /\ (forall a b, vx_eqb n a b = true -> a = b) /\ (forall a b, rc_eqb n a b = true -> a = b).
Proof.
  induction n as [|n (IR & IV & IC)]; [repeat split; intros a b H; discriminate H|].
  pose proof (list_eqb_ok _ _ IR) as IL.
  repeat split; intros a b H; destruct a, b; cbn [ri_eqb vx_eqb rc_eqb] in H; try discriminate H; try reflexivity;
    repeat (match goal with
    | K : (if _ then _ else false) = true |- _ => apply both_true in K; destruct K
    | K : String.eqb _ _ = true |- _ => apply String.eqb_eq in K; subst
    | K : yes _ = true |- _ => apply yes_ok in K; subst
    | K : Bool.eqb _ _ = true |- _ => apply eqb_prop in K; subst
    | K : list_eqb _ _ _ = true |- _ => apply IL in K; subst
    | K : vx_eqb n _ _ = true |- _ => apply IV in K; subst
    | K : rc_eqb n _ _ = true |- _ => apply IC in K; subst
    end); reflexivity.
Qed.
Lemma code_eqb_ok : forall a b, code_eqb a b = true -> a = b.
Proof. exact (list_eqb_ok _ _ (proj1 (eqb_all 60))). Qed.
