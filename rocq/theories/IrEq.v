(** Equality of transcribed code, decided with a bound on the depth. *)
From Coq Require Import String Ascii List Bool Arith.
From Verif Require Import PyBase Leaf Ir.
Import ListNotations.
Open Scope string_scope.
Open Scope list_scope.

(** [ands a b]: [b] is only computed if [a] holds *)
Notation "a &&& b" := (if a then b else false) (at level 40, left associativity).

Fixpoint list_eqb {A} (eq : A -> A -> bool) (l m : list A) : bool :=
  match l, m with
  | [], [] => true
  | a :: l, b :: m => eq a b &&& list_eqb eq l m
  | _, _ => false
  end.
Definition opt_eqb {A} (eq : A -> A -> bool) (a b : option A) : bool :=
  match a, b with None, None => true | Some a, Some b => eq a b | _, _ => false end.
Definition pair_eqb (a b : string * string) : bool := String.eqb (fst a) (fst b) &&& String.eqb (snd a) (snd b).
Definition gst_eqb (a b : gstep) : bool :=
  match a, b with GM x, GM y | GA x, GA y => String.eqb x y | _, _ => false end.
Definition pth_eqb := list_eqb gst_eqb.
Definition tagx_eqb (a b : tagx) : bool :=
  match a, b with TLit x, TLit y => String.eqb x y | TKey, TKey | TOwn, TOwn => true | _, _ => false end.
Definition wkind_eqb (a b : wkind) : bool :=
  match a, b with WNum, WNum | WText, WText | WRef, WRef | WLimit, WLimit => true | _, _ => false end.
Definition rkd_eqb (a b : rkind) : bool :=
  match a, b with
  | RLiteral, RLiteral | RVerbatim, RVerbatim | RIdentifier, RIdentifier | RRevision, RRevision
  | RFloat, RFloat | RTime, RTime | RBool, RBool | RNumerical, RNumerical | RInteger, RInteger
  | RPositive, RPositive | RLimit, RLimit | RRef, RRef | RLitItem, RLitItem
  | RFloatItem, RFloatItem | RNumItem, RNumItem => true
  | _, _ => false
  end.
Definition exn_eqb (a b : exn) : bool :=
  match a, b with
  | ValueError, ValueError | KeyError, KeyError | IndexError, IndexError | StopIteration, StopIteration
  | AttributeError, AttributeError | NotImplementedError, NotImplementedError | TypeError, TypeError
  | RecursionError, RecursionError | OverflowError, OverflowError | OSError, OSError
  | UnboundLocalError, UnboundLocalError => true
  | _, _ => false
  end.
Fixpoint wcond_eqb (a b : wcond) : bool :=
  match a, b with
  | CSome p, CSome q | CNonEmpty p, CNonEmpty q | CTruthy p, CTruthy q => pth_eqb p q
  | CInst p cs, CInst q ds => pth_eqb p q &&& list_eqb String.eqb cs ds
  | CType p c, CType q d => pth_eqb p q &&& String.eqb c d
  | CNot a, CNot b => wcond_eqb a b
  | CAnd a a', CAnd b b' => wcond_eqb a b &&& wcond_eqb a' b'
  | _, _ => false
  end.
Fixpoint wi_eqb (n : nat) (a b : wi) : bool :=
  match n with
  | O => false
  | S n =>
    match a, b with
    | WAttrs p, WAttrs q | WShort p, WShort q | WSetText p, WSetText q => pth_eqb p q
    | WLeaf k t p, WLeaf k' t' q => wkind_eqb k k' &&& tagx_eqb t t' &&& pth_eqb p q
    | WCall f t p, WCall f' t' q => String.eqb f f' &&& opt_eqb tagx_eqb t t' &&& pth_eqb p q
    | WSub t b, WSub t' b' => tagx_eqb t t' &&& list_eqb (wi_eqb n) b b'
    | WIf c a b, WIf c' a' b' => wcond_eqb c c' &&& list_eqb (wi_eqb n) a a' &&& list_eqb (wi_eqb n) b b'
    | WFor p b, WFor p' b' => pth_eqb p p' &&& list_eqb (wi_eqb n) b b'
    | WXAttr a p, WXAttr b q => String.eqb a b &&& pth_eqb p q
    | WXConst a p, WXConst b q => String.eqb a b &&& String.eqb p q
    | WXMap a m p, WXMap b m' q => String.eqb a b &&& list_eqb pair_eqb m m' &&& pth_eqb p q
    | WFail e s, WFail e' s' => exn_eqb e e' &&& Bool.eqb s s'
    | WUnknown, WUnknown => true
    | _, _ => false
    end
  end.
Definition rpth_eqb (a b : rpth) : bool :=
  match a, b with
  | PLit s, PLit t | PKeyThen s, PKeyThen t => String.eqb s t
  | PKey, PKey => true
  | _, _ => false
  end.
Fixpoint rcond_eqb (n : nat) (a b : rcond) : bool :=
  match n with
  | O => false
  | S n =>
    match a, b with
    | CTrue, CTrue | CHasText, CHasText | CHasWord, CHasWord => true
    | CTag s, CTag t | CKeyIs s, CKeyIs t | CHasAttr s, CHasAttr t | CIsA s, CIsA t => String.eqb s t
    | CAt p c, CAt q d => rpth_eqb p q &&& rcond_eqb n c d
    | CGot v, CGot w | CEmpty v, CEmpty w => vx_eqb n v w
    | CObjHas p, CObjHas q => pth_eqb p q
    | CNeg c, CNeg d => rcond_eqb n c d
    | CBoth c c', CBoth d d' | CEither c c', CEither d d' => rcond_eqb n c d &&& rcond_eqb n c' d'
    | _, _ => false
    end
  end
with vx_eqb (n : nat) (a b : vx) : bool :=
  match n with
  | O => false
  | S n =>
    match a, b with
    | VNoneX, VNoneX | VTextX, VTextX | VTextOrX, VTextOrX | VNameX, VNameX | VTagX, VTagX
    | VItemX, VItemX | VUnknown, VUnknown => true
    | VLeafX k p, VLeafX k' q | VReqX k p, VReqX k' q | VLeafsX k p, VLeafsX k' q => rkd_eqb k k' &&& rpth_eqb p q
    | VAttrX s, VAttrX t => String.eqb s t
    | VUnmapX s m, VUnmapX t m' => String.eqb s t &&& list_eqb pair_eqb m m'
    | VWrapX c m v, VWrapX d m' w => String.eqb c d &&& String.eqb m m' &&& vx_eqb n v w
    | VValueX v, VValueX w => vx_eqb n v w
    | VNewX c nm b, VNewX d nm' b' => String.eqb c d &&& Bool.eqb nm nm' &&& list_eqb (ri_eqb n) b b'
    | VListX b, VListX b' => list_eqb (ri_eqb n) b b'
    | VGetX f t, VGetX f' t' => String.eqb f f' &&& opt_eqb tagx_eqb t t'
    | VFindX p v w, VFindX q v' w' => rpth_eqb p q &&& vx_eqb n v v' &&& vx_eqb n w w'
    | VLastX p v, VLastX q v' => rpth_eqb p q &&& vx_eqb n v v'
    | VIfX c v w, VIfX d v' w' => rcond_eqb n c d &&& vx_eqb n v v' &&& vx_eqb n w w'
    | VOrX v w, VOrX v' w' => vx_eqb n v v' &&& vx_eqb n w w'
    | VFailX e, VFailX e' => exn_eqb e e'
    | _, _ => false
    end
  end
with ri_eqb (n : nat) (a b : ri) : bool :=
  match n with
  | O => false
  | S n =>
    match a, b with
    | RAttrs, RAttrs | RUnknown, RUnknown => true
    | RPut m v, RPut m' w | RSet m v, RSet m' w => String.eqb m m' &&& vx_eqb n v w
    | RPutAny m gs v, RPutAny m' gs' w => String.eqb m m' &&& list_eqb String.eqb gs gs' &&& vx_eqb n v w
    | RCall f t, RCall f' t' => String.eqb f f' &&& opt_eqb tagx_eqb t t'
    | RCreate m nm b, RCreate m' nm' b' => String.eqb m m' &&& Bool.eqb nm nm' &&& list_eqb (ri_eqb n) b b'
    | RFind p a b, RFind q a' b' => rpth_eqb p q &&& list_eqb (ri_eqb n) a a' &&& list_eqb (ri_eqb n) b b'
    | RFor p b, RFor q b' => rpth_eqb p q &&& list_eqb (ri_eqb n) b b'
    | RForVal v b, RForVal w b' => vx_eqb n v w &&& list_eqb (ri_eqb n) b b'
    | RIf c a b, RIf d a' b' => rcond_eqb n c d &&& list_eqb (ri_eqb n) a a' &&& list_eqb (ri_eqb n) b b'
    | RSub g b, RSub g' b' => gst_eqb g g' &&& list_eqb (ri_eqb n) b b'
    | RFail e s, RFail e' s' => exn_eqb e e' &&& Bool.eqb s s'
    | _, _ => false
    end
  end.

(** ** Soundness *)
Definition sound {A} (eq : A -> A -> bool) : Prop := forall a b, eq a b = true -> a = b.
Lemma and_split : forall a b : bool, (a &&& b) = true -> a = true /\ b = true.
Proof. intros [] []; cbn; auto. Qed.
Lemma str_sound : sound String.eqb.
Proof. intros a b. apply String.eqb_eq. Qed.
Lemma bool_sound : sound Bool.eqb.
Proof. intros a b. apply Bool.eqb_prop. Qed.
Lemma list_sound : forall A (eq : A -> A -> bool), sound eq -> sound (list_eqb eq).
Proof.
  intros A eq H. intros l. induction l as [|a l IH]; intros [|b m]; cbn; intros E; try discriminate; [reflexivity|].
  apply and_split in E as [E1 E2]. f_equal; [apply H; exact E1 | apply IH; exact E2].
Qed.
Lemma opt_sound : forall A (eq : A -> A -> bool), sound eq -> sound (opt_eqb eq).
Proof. intros A eq H [a|] [b|]; cbn; intros E; try discriminate; [f_equal; auto|reflexivity]. Qed.
Lemma pair_sound : sound pair_eqb.
Proof. intros [a b] [c d] E. apply and_split in E as [E1 E2]. apply str_sound in E1. apply str_sound in E2. cbn in *; congruence. Qed.
Lemma gst_sound : sound gst_eqb.
Proof. intros [] []; cbn; intros E; try discriminate; apply str_sound in E; congruence. Qed.
Lemma pth_sound : sound pth_eqb. Proof. apply list_sound, gst_sound. Qed.
Lemma tagx_sound : sound tagx_eqb.
Proof. intros [] []; cbn; intros E; try discriminate; try reflexivity; apply str_sound in E; congruence. Qed.
Lemma wkind_sound : sound wkind_eqb. Proof. intros [] []; cbn; congruence. Qed.
Lemma rkd_sound : sound rkd_eqb. Proof. intros [] []; cbn; congruence. Qed.
Lemma exn_sound : sound exn_eqb. Proof. intros [] []; cbn; congruence. Qed.
Lemma rpth_sound : sound rpth_eqb.
Proof. intros [] []; cbn; intros E; try discriminate; try reflexivity; apply str_sound in E; congruence. Qed.

Ltac eq_step :=
  match goal with
  | H : (if ?a then ?b else false) = true |- _ => apply and_split in H as [? ?]
  | H : String.eqb _ _ = true |- _ => apply str_sound in H
  | H : Bool.eqb _ _ = true |- _ => apply bool_sound in H
  | H : pth_eqb _ _ = true |- _ => apply pth_sound in H
  | H : gst_eqb _ _ = true |- _ => apply gst_sound in H
  | H : tagx_eqb _ _ = true |- _ => apply tagx_sound in H
  | H : opt_eqb tagx_eqb _ _ = true |- _ => apply (opt_sound _ _ tagx_sound) in H
  | H : wkind_eqb _ _ = true |- _ => apply wkind_sound in H
  | H : rkd_eqb _ _ = true |- _ => apply rkd_sound in H
  | H : exn_eqb _ _ = true |- _ => apply exn_sound in H
  | H : rpth_eqb _ _ = true |- _ => apply rpth_sound in H
  | H : list_eqb String.eqb _ _ = true |- _ => apply (list_sound _ _ str_sound) in H
  | H : list_eqb pair_eqb _ _ = true |- _ => apply (list_sound _ _ pair_sound) in H
  end.
Ltac eqs := repeat eq_step; subst; try congruence.

Lemma wcond_sound : sound wcond_eqb.
Proof.
  intros a. induction a; intros [] E; cbn in E; try discriminate; eqs.
  - rewrite (IHa _ E). reflexivity.
  - match goal with H1 : wcond_eqb a1 _ = true, H2 : wcond_eqb a2 _ = true |- _ => rewrite (IHa1 _ H1), (IHa2 _ H2) end. reflexivity.
Qed.
Lemma wi_sound : forall n, sound (wi_eqb n).
Proof.
  induction n as [|n IH]; intros a b E; [discriminate|].
  destruct a, b; cbn [wi_eqb] in E; try discriminate; eqs;
  repeat match goal with
  | H : list_eqb (wi_eqb n) _ _ = true |- _ => apply (list_sound _ _ IH) in H
  | H : wcond_eqb _ _ = true |- _ => apply wcond_sound in H
  end; congruence.
Qed.
Lemma r_sound : forall n, sound (rcond_eqb n) /\ sound (vx_eqb n) /\ sound (ri_eqb n).
Proof.
  induction n as [|n (IH1 & IH2 & IH3)]; [repeat split; intros a b E; discriminate|].
  repeat split; intros a b E; destruct a, b; cbn [rcond_eqb vx_eqb ri_eqb] in E; try discriminate; eqs;
  repeat match goal with
  | H : list_eqb (ri_eqb n) _ _ = true |- _ => apply (list_sound _ _ IH3) in H
  | H : rcond_eqb n _ _ = true |- _ => apply IH1 in H
  | H : vx_eqb n _ _ = true |- _ => apply IH2 in H
  end; congruence.
Qed.
Lemma ri_sound : forall n, sound (ri_eqb n).
Proof. intros n. apply r_sound. Qed.
