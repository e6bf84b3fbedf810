(** Terminating runs of transcribed code as relations, without fuel. *)
From Coq Require Import String Ascii List Bool Arith Lia Floats.SpecFloat.
From Verif Require Import PyBase Primitives Xml Leaf ClassTable Ir Access WriterCode ReaderCode IrSem IrFacts.
Import ListNotations.
Open Scope string_scope.
Open Scope list_scope.

Local Opaque access_of init named_init wfuns rfuns.

Lemma obind_assoc : forall A B C (a : out A) (f : A -> out B) (g : B -> out C),
  obind (obind a f) g = obind a (fun x => obind (f x) g).
Proof. intros A B C [] f g; reflexivity. Qed.
Lemma obind_done : forall A (a : out A), obind a (fun x => Done x) = a.
Proof. intros A []; reflexivity. Qed.
Lemma obind_inv : forall A B (a : out A) (f : A -> out B) b, obind a f = Done b -> exists x, a = Done x /\ f x = Done b.
Proof. intros A B [] f b H; try discriminate. eauto. Qed.

Section Writer.
Context (repr : spec_float -> string) (warn : bool).
Notation wrun := (wrun repr warn).

Definition wgo (code : list wi) (key : string) (v : val) (e e' : elem) : Prop :=
  exists n, wrun n code key v e = Done e'.

Lemma wup : forall n m code key v e e', wrun n code key v e = Done e' -> n <= m -> wrun m code key v e = Done e'.
Proof. intros. eapply le_done; [apply wrun_le; eassumption|assumption]. Qed.

Lemma wgo_det : forall code key v e e1 e2, wgo code key v e e1 -> wgo code key v e e2 -> e1 = e2.
Proof.
  intros code key v e e1 e2 [n H] [m H'].
  apply (wup _ (n + m)) in H; [|lia]. apply (wup _ (n + m)) in H'; [|lia]. congruence.
Qed.

Lemma wgo_nil : forall key v e, wgo [] key v e e.
Proof. intros. exists 1. reflexivity. Qed.

Lemma wrun_cons : forall n i rest key v e,
  wrun (S (S n)) (i :: rest) key v e = (do e' <- wrun (S (S n)) [i] key v e; wrun (S n) rest key v e').
Proof.
  intros. set (m := S n). cbn [IrSem.wrun]. fold (IrSem.wrun repr warn). subst m.
  rewrite obind_assoc. match goal with |- obind ?a ?f = obind ?a' ?g => assert (E : forall x, f x = g x) by (intro; reflexivity) end.
  match goal with |- obind ?a _ = _ => destruct a; try reflexivity end.
Qed.

Lemma wgo_cons : forall i rest key v e e1 e2, wgo [i] key v e e1 -> wgo rest key v e1 e2 -> wgo (i :: rest) key v e e2.
Proof.
  intros i rest key v e e1 e2 [n H] [m H']. exists (S (S (n + m))).
  rewrite wrun_cons. rewrite (wup _ (S (S (n + m))) _ _ _ _ _ H) by lia. cbn [obind].
  apply (wup _ _ _ _ _ _ _ H'). lia.
Qed.
Lemma wgo_cons_inv : forall i rest key v e e2, wgo (i :: rest) key v e e2 ->
  exists e1, wgo [i] key v e e1 /\ wgo rest key v e1 e2.
Proof.
  intros i rest key v e e2 [n H]. apply (wup _ (S (S n))) in H; [|lia]. rewrite wrun_cons in H.
  apply obind_inv in H. destruct H as (e1 & H1 & H2). exists e1. split; eexists; eassumption.
Qed.
Lemma wgo_app : forall a b key v e e1 e2, wgo a key v e e1 -> wgo b key v e1 e2 -> wgo (a ++ b) key v e e2.
Proof.
  induction a as [|i a IH]; intros b key v e e1 e2 H1 H2.
  - destruct H1 as [[|n] H]; [discriminate|]. inversion H; subst. exact H2.
  - apply wgo_cons_inv in H1. destruct H1 as (e0 & H0 & H1). cbn [app]. eapply wgo_cons; [exact H0|].
    eapply IH; eassumption.
Qed.

(** single statements *)
Lemma wrun_end : forall n key v e, 1 <= n -> wrun n [] key v e = Done e.
Proof. intros [|n] key v e H; [lia|reflexivity]. Qed.
Ltac wfuel H :=
  match type of H with IrSem.wrun _ _ ?n _ _ _ _ = _ =>
    let m := fresh "m" in let L := fresh "L" in let E := fresh "E" in
    apply (wup _ (S n)) in H; [|lia]; assert (L : 1 <= S n) by lia;
    exists (S (S n)); remember (S n) as m eqn:E; clear E n end.
Ltac one := cbn [IrSem.wrun]; fold (IrSem.wrun repr warn); cbn [obind].
Lemma wgo_attrs : forall key v p x e e', gets v p = Done x -> write_attrs e x = Done e' -> wgo [WAttrs p] key v e e'.
Proof. intros. exists 2. one. rewrite H. one. rewrite H0. reflexivity. Qed.
Lemma wgo_short : forall key v p s e, gets v p = Done (VStr s) ->
  wgo [WShort p] key v e (add_kid e (El "SHORT-NAME" [] (Some s) [])).
Proof. intros. exists 2. one. rewrite H. reflexivity. Qed.
Lemma wgo_leaf : forall k t key v p l e x, gets v p = Done (VLeaf l) -> leaf_element repr k (wtag key t) l = Ok x ->
  wgo [WLeaf k t p] key v e (add_kid e x).
Proof. intros. exists 2. one. rewrite H. cbn [obind as_leaf leaf_write]. rewrite H0. reflexivity. Qed.
Lemma wgo_leaf_none : forall k t key v p e, gets v p = Done VNone -> wgo [WLeaf k t p] key v e e.
Proof. intros. exists 2. one. rewrite H. reflexivity. Qed.
Lemma wgo_call : forall f t key v p x b e e', gets v p = Done x -> assoc f wfuns = Some b ->
  wgo b (match t with Some t => wtag key t | None => "" end) x e e' -> wgo [WCall f t p] key v e e'.
Proof. intros f t key v p x b e e' H H0 [n H1]. wfuel H1. one. rewrite H. one. rewrite H0, H1. cbn [obind]. now apply wrun_end. Qed.
Lemma wgo_sub : forall t b key v e s, wgo b key v elem0 s -> wgo [WSub t b] key v e (add_kid e (to_xml (wtag key t) s)).
Proof. intros t b key v e s [n H]. wfuel H. one. rewrite H. cbn [obind]. now apply wrun_end. Qed.
Lemma wgo_if : forall c a b key v x e e', wcheck v c = Done x -> wgo (if x then a else b) key v e e' -> wgo [WIf c a b] key v e e'.
Proof. intros c a b key v x e e' H [n H1]. wfuel H1. one. rewrite H. one. rewrite H1. cbn [obind]. now apply wrun_end. Qed.
Lemma wgo_xattr : forall a p key v s e, gets v p = Done (VStr s) -> wgo [WXAttr a p] key v e (add_attr e a s).
Proof. intros. exists 2. one. rewrite H. reflexivity. Qed.
Lemma wgo_settext : forall p key v s e, gets v p = Done (VStr s) -> wgo [WSetText p] key v e (set_text e (Some s)).
Proof. intros. exists 2. one. rewrite H. reflexivity. Qed.

(** a loop *)
Inductive wchain (b : list wi) (key : string) : list val -> elem -> elem -> Prop :=
| wc_nil : forall e, wchain b key [] e e
| wc_cons : forall v l e e1 e2, wgo b key v e e1 -> wchain b key l e1 e2 -> wchain b key (v :: l) e e2.
Lemma wchain_fold : forall b key l e e', wchain b key l e e' ->
  exists n, forall m, n <= m -> fold_out (fun y s => wrun m b key y s) l e = Done e'.
Proof.
  induction 1 as [|v l e e1 e2 [n H] _ [m IH]].
  - exists 0. reflexivity.
  - exists (n + m). intros k Hk. cbn [fold_out]. rewrite (wup _ k _ _ _ _ _ H) by lia. cbn [obind]. apply IH. lia.
Qed.
Lemma wgo_for : forall p b key v l e e', gets v p = Done (VList l) -> wchain b key l e e' -> wgo [WFor p b] key v e e'.
Proof.
  intros p b key v l e e' H H1. apply wchain_fold in H1. destruct H1 as [n H1]. exists (S (S n)).
  specialize (H1 (S n) (Nat.le_succ_diag_r n)). assert (L : 1 <= S n) by lia. remember (S n) as m. clear Heqm.
  one. rewrite H. one. rewrite H1. cbn [obind]. now apply wrun_end.
Qed.
End Writer.

Section Reader.
Context (warn : bool).
Notation rrun := (rrun warn).
Notation vrun := (vrun warn).
Notation crun := (crun warn).

Definition rgo (code : list ri) (key : string) (x : xml) (it o o' : val) : Prop := exists n, rrun n code key x it o = Done o'.
Definition vgo (v : vx) (key : string) (x : xml) (it o w : val) : Prop := exists n, vrun n v key x it o = Done w.
Definition cgo (c : rcond) (key : string) (x : xml) (it o : val) (b : bool) : Prop := exists n, crun n c key x it o = Done b.

Lemma rup : forall n m code key x it o o', rrun n code key x it o = Done o' -> n <= m -> rrun m code key x it o = Done o'.
Proof. intros. eapply le_done; [apply rrun_le; eassumption|assumption]. Qed.
Lemma vup : forall n m v key x it o w, vrun n v key x it o = Done w -> n <= m -> vrun m v key x it o = Done w.
Proof. intros. eapply le_done; [apply vrun_le; eassumption|assumption]. Qed.
Lemma cup : forall n m c key x it o b, crun n c key x it o = Done b -> n <= m -> crun m c key x it o = Done b.
Proof. intros. eapply le_done; [apply crun_le; eassumption|assumption]. Qed.

Lemma rgo_nil : forall key x it o, rgo [] key x it o o.
Proof. intros. exists 1. reflexivity. Qed.
Lemma rrun_cons : forall n i rest key x it o,
  rrun (S (S n)) (i :: rest) key x it o = (do o' <- rrun (S (S n)) [i] key x it o; rrun (S n) rest key x it o').
Proof.
  intros. set (m := S n). cbn [IrSem.rrun]. fold (IrSem.rrun warn) (IrSem.vrun warn) (IrSem.crun warn). subst m.
  rewrite obind_assoc. match goal with |- obind ?a _ = _ => destruct a; try reflexivity end.
Qed.
Lemma rgo_cons : forall i rest key x it o o1 o2, rgo [i] key x it o o1 -> rgo rest key x it o1 o2 -> rgo (i :: rest) key x it o o2.
Proof.
  intros i rest key x it o o1 o2 [n H] [m H']. exists (S (S (n + m))).
  rewrite rrun_cons. rewrite (rup _ (S (S (n + m))) _ _ _ _ _ _ H) by lia. cbn [obind].
  apply (rup _ _ _ _ _ _ _ _ H'). lia.
Qed.

Lemma rrun_end : forall n key x it o, 1 <= n -> rrun n [] key x it o = Done o.
Proof. intros [|n] key x it o H; [lia|reflexivity]. Qed.
(** raise the fuel in H to m and make m abstract *)
Ltac lift_to H m := first [apply (rup _ m) in H; [|lia] | apply (vup _ m) in H; [|lia] | apply (cup _ m) in H; [|lia]].
Ltac rfuel n := let m := fresh "m" in let L := fresh "L" in let E := fresh "E" in
  assert (L : 1 <= S n) by lia; exists (S (S n)); remember (S n) as m eqn:E; clear E.
Ltac one := cbn [IrSem.rrun IrSem.vrun IrSem.crun]; fold (IrSem.rrun warn) (IrSem.vrun warn) (IrSem.crun warn); cbn [obind].
Ltac fuel1 H := let n := fresh "n" in destruct H as [n H]; lift_to H (S n); rfuel n; one; rewrite H; cbn [obind].

Lemma rgo_attrs : forall key x it o o', read_attrs o x = Done o' -> rgo [RAttrs] key x it o o'.
Proof. intros. exists 2. one. rewrite H. reflexivity. Qed.
Lemma rgo_put : forall m v key x it o w o', vgo v key x it o w -> put1 o m w = Done o' -> rgo [RPut m v] key x it o o'.
Proof. intros m v key x it o w o' H H1. fuel1 H. rewrite H1. now apply rrun_end. Qed.
Lemma rgo_set : forall f v key x it c fs w, vgo v key x it (VObj c fs) w ->
  rgo [RSet f v] key x it (VObj c fs) (set_field (VObj c fs) f w).
Proof. intros f v key x it c fs w H. fuel1 H. now apply rrun_end. Qed.
Lemma rgo_putany : forall m gs v key x it o w b o', vgo v key x it o w ->
  fold_out (fun g s => do l <- get1 w (GM g); match l with VList [] => Done s | VList _ => Done true | _ => Stuck end) gs false = Done b ->
  (if b then put1 o m w else Done o) = Done o' -> rgo [RPutAny m gs v] key x it o o'.
Proof. intros m gs v key x it o w b o' H H1 H2. fuel1 H. rewrite H1. cbn [obind]. rewrite H2. now apply rrun_end. Qed.
Lemma rgo_call : forall f t key x it o b o', assoc f rfuns = Some (b, None) -> rgo b (rtag key x t) x VNone o o' ->
  rgo [RCall f t] key x it o o'.
Proof. intros f t key x it o b o' H0 [n H]. lift_to H (S n). rfuel n. one. rewrite H0, H. cbn [obind]. now apply rrun_end. Qed.
Lemma rgo_call_val : forall f t key x it o b r o' w, assoc f rfuns = Some (b, Some r) -> rgo b (rtag key x t) x VNone o o' ->
  vgo r (rtag key x t) x VNone o' w -> rgo [RCall f t] key x it o o'.
Proof. intros f t key x it o b r o' w H0 [n H] [m H1]. lift_to H (S (n + m)). lift_to H1 (S (n + m)). rfuel (n + m). one. rewrite H0, H. cbn [obind]. rewrite H1. cbn [obind]. now apply rrun_end. Qed.
Lemma rgo_create : forall m b key x it c fs c' p w o', access_of c m = Some (ANew c' false p) ->
  rgo b key x it (init c') w -> store (VObj c fs) p w = Done o' -> rgo [RCreate m false b] key x it (VObj c fs) o'.
Proof. intros m b key x it c fs c' p w o' H0 [n H] H1. lift_to H (S n). rfuel n. one. rewrite H0. cbn [Bool.eqb negb obind]. rewrite H. cbn [obind]. rewrite H1. now apply rrun_end. Qed.
Lemma rgo_create_named : forall m b key x it c fs c' p s w o', access_of c m = Some (ANew c' true p) ->
  short_name x = Ok (Some s) ->
  rgo b key x it (named_init c' (VStr s)) w -> store (VObj c fs) p w = Done o' -> rgo [RCreate m true b] key x it (VObj c fs) o'.
Proof. intros m b key x it c fs c' p s w o' H0 Hs [n H] H1. lift_to H (S n). rfuel n. one. rewrite H0. cbn [Bool.eqb negb].
  rewrite Hs. cbn [of_res obind of_opt_str]. rewrite H. cbn [obind]. rewrite H1. now apply rrun_end. Qed.
Lemma rgo_find : forall p a b key x y it o o', find (rkey key p) x = Some y -> rgo a key y it o o' -> rgo [RFind p a b] key x it o o'.
Proof. intros p a b key x y it o o' H0 [n H]. lift_to H (S n). rfuel n. one. rewrite H0, H. cbn [obind]. now apply rrun_end. Qed.
Lemma rgo_find_none : forall p a b key x it o o', find (rkey key p) x = None -> rgo b key x it o o' -> rgo [RFind p a b] key x it o o'.
Proof. intros p a b key x it o o' H0 [n H]. lift_to H (S n). rfuel n. one. rewrite H0, H. cbn [obind]. now apply rrun_end. Qed.
Lemma rgo_if : forall c a b key x it o t o', cgo c key x it o t -> rgo (if t then a else b) key x it o o' -> rgo [RIf c a b] key x it o o'.
Proof. intros c a b key x it o t o' [n H] [m H1]. lift_to H (S (n + m)). lift_to H1 (S (n + m)). rfuel (n + m). one. rewrite H. cbn [obind]. rewrite H1. cbn [obind]. now apply rrun_end. Qed.
Lemma rgo_sub_m : forall m b key x it c fs f w w', access_of c m = Some (AGet f) -> assoc f fs = Some w ->
  rgo b key x it w w' -> rgo [RSub (GM m) b] key x it (VObj c fs) (set_field (VObj c fs) f w').
Proof. intros m b key x it c fs f w w' H0 H1 [n H]. lift_to H (S n). rfuel n. one. rewrite H0, H1, H. cbn [obind]. now apply rrun_end. Qed.
Lemma rgo_sub_a : forall b key x it c fs f w w', assoc f fs = Some w ->
  rgo b key x it w w' -> rgo [RSub (GA f) b] key x it (VObj c fs) (set_field (VObj c fs) f w').
Proof. intros b key x it c fs f w w' H1 [n H]. lift_to H (S n). rfuel n. one. rewrite H1, H. cbn [obind]. now apply rrun_end. Qed.

Inductive rchain (b : list ri) (key : string) (it : val) : list xml -> val -> val -> Prop :=
| rc_nil : forall o, rchain b key it [] o o
| rc_cons : forall x l o o1 o2, rgo b key x it o o1 -> rchain b key it l o1 o2 -> rchain b key it (x :: l) o o2.
Lemma rchain_fold : forall b key it l o o', rchain b key it l o o' ->
  exists n, forall m, n <= m -> fold_out (fun y s => rrun m b key y it s) l o = Done o'.
Proof.
  induction 1 as [|v l e e1 e2 [n H] _ [m IH]].
  - exists 0. reflexivity.
  - exists (n + m). intros k Hk. cbn [fold_out]. rewrite (rup _ k _ _ _ _ _ _ H) by lia. cbn [obind]. apply IH. lia.
Qed.
Lemma rgo_for : forall p b key x it o o', rchain b key it (findall (rkey key p) x) o o' -> rgo [RFor p b] key x it o o'.
Proof.
  intros p b key x it o o' H1. apply rchain_fold in H1. destruct H1 as [n H1]. specialize (H1 (S n) (Nat.le_succ_diag_r n)). rfuel n. one.
  rewrite H1. cbn [obind]. now apply rrun_end.
Qed.
Lemma rchain_app : forall b key it l l' o o1 o2, rchain b key it l o o1 -> rchain b key it l' o1 o2 -> rchain b key it (l ++ l') o o2.
Proof. induction 1; intros; cbn [app]; auto. econstructor; eauto. Qed.
Inductive ichain (b : list ri) (key : string) (x : xml) : list val -> val -> val -> Prop :=
| ic_nil : forall o, ichain b key x [] o o
| ic_cons : forall i l o o1 o2, rgo b key x i o o1 -> ichain b key x l o1 o2 -> ichain b key x (i :: l) o o2.
Lemma rgo_forval : forall v b key x it o l o', vgo v key x it o (VList l) -> ichain b key x l o o' -> rgo [RForVal v b] key x it o o'.
Proof.
  intros v b key x it o l o' [n H] H1.
  assert (F : exists k, forall m, k <= m -> fold_out (fun y s => rrun m b key x y s) l o = Done o').
  { clear H. induction H1 as [|i l e e1 e2 [k H] _ [m IH]]; [exists 0; reflexivity|].
    exists (k + m). intros q Hq. cbn [fold_out]. rewrite (rup _ q _ _ _ _ _ _ H) by lia. cbn [obind]. apply IH. lia. }
  destruct F as [k F]. lift_to H (S (n + k)). assert (F' := F (S (n + k)) ltac:(lia)). rfuel (n + k). one. rewrite H. cbn [obind].
  rewrite F'. cbn [obind]. now apply rrun_end.
Qed.

(** expressions *)
Ltac vone H := let n := fresh "n" in destruct H as [n H]; exists (S n); one; first [rewrite H | idtac].
Lemma vgo_none : forall key x it o, vgo VNoneX key x it o VNone.
Proof. intros. exists 1. reflexivity. Qed.
Lemma vgo_item : forall key x it o, vgo VItemX key x it o it.
Proof. intros. exists 1. reflexivity. Qed.
Lemma vgo_leaf : forall k p key x it o l, leaf_read k (rkey key p) x = Ok l -> vgo (VLeafX k p) key x it o (of_leaf l).
Proof. intros. exists 1. one. rewrite H. reflexivity. Qed.
Lemma vgo_req_ref : forall p key x it o l, ref_required warn (rkey key p) x = Ok (Some l) -> vgo (VReqX RRef p) key x it o (VLeaf (LRef l)).
Proof. intros. exists 1. one. rewrite H. reflexivity. Qed.
Lemma vgo_leafs : forall k p key x it o l, leaf_list k (rkey key p) x = Ok l -> vgo (VLeafsX k p) key x it o (VList (map VLeaf l)).
Proof. intros. exists 1. one. rewrite H. reflexivity. Qed.
Lemma vgo_text : forall key x it o, vgo VTextX key x it o (of_opt_str (xtext x)).
Proof. intros. exists 1. reflexivity. Qed.
Lemma vgo_attr : forall a key x it o, vgo (VAttrX a) key x it o (of_opt_str (xattr a x)).
Proof. intros. exists 1. reflexivity. Qed.
Lemma vgo_wrap : forall c m v key x it o w w', vgo v key x it o w -> wrap c m w = Done w' -> vgo (VWrapX c m v) key x it o w'.
Proof. intros c m v key x it o w w' H H1. vone H. exact H1. Qed.
Lemma vgo_value : forall v key x it o w w', vgo v key x it o w -> get1 w (GM "getValue") = Done w' -> vgo (VValueX v) key x it o w'.
Proof. intros v key x it o w w' H H1. vone H. exact H1. Qed.
Lemma vgo_new : forall c b key x it o w, rgo b key x it (init c) w -> vgo (VNewX c false b) key x it o w.
Proof. intros c b key x it o w [n H]. exists (S n). one. exact H. Qed.
Lemma vgo_new_named : forall c b key x it o s w, short_name x = Ok (Some s) -> rgo b key x it (named_init c (VStr s)) w ->
  vgo (VNewX c true b) key x it o w.
Proof. intros c b key x it o s w H0 [n H]. exists (S n). one. rewrite H0. cbn [of_res obind of_opt_str]. exact H. Qed.
Lemma vgo_list : forall b key x it o w, rgo b key x it (VList []) w -> vgo (VListX b) key x it o w.
Proof. intros b key x it o w [n H]. exists (S n). one. exact H. Qed.
Lemma vgo_get : forall f t key x it o b r o1 w, assoc f rfuns = Some (b, Some r) ->
  rgo b (rtag key x t) x VNone (VObj "" []) o1 -> vgo r (rtag key x t) x VNone o1 w -> vgo (VGetX f t) key x it o w.
Proof. intros f t key x it o b r o1 w H0 [n H] [m H1]. exists (S (n + m)). one. rewrite H0.
  rewrite (rup _ (n + m) _ _ _ _ _ _ H) by lia. cbn [obind]. rewrite (vup _ (n + m) _ _ _ _ _ _ H1) by lia. reflexivity. Qed.
Lemma vgo_find : forall p a b key x y it o w, find (rkey key p) x = Some y -> vgo a key y it o w -> vgo (VFindX p a b) key x it o w.
Proof. intros p a b key x y it o w H0 [n H]. exists (S n). one. rewrite H0. exact H. Qed.
Lemma vgo_find_none : forall p a b key x it o w, find (rkey key p) x = None -> vgo b key x it o w -> vgo (VFindX p a b) key x it o w.
Proof. intros p a b key x it o w H0 [n H]. exists (S n). one. rewrite H0. exact H. Qed.
Lemma vgo_last_none : forall p a key x it o, findall (rkey key p) x = [] -> vgo (VLastX p a) key x it o VNone.
Proof. intros. exists 1. one. rewrite H. reflexivity. Qed.
Lemma vgo_last_one : forall p a key x y it o w, findall (rkey key p) x = [y] -> vgo a key y it o w -> vgo (VLastX p a) key x it o w.
Proof. intros p a key x y it o w H0 [n H]. exists (S n). one. rewrite H0. cbn [fold_out]. rewrite H. cbn [obind]. destruct w; reflexivity. Qed.
Lemma vgo_if : forall c a b key x it o t w, cgo c key x it o t -> vgo (if t then a else b) key x it o w -> vgo (VIfX c a b) key x it o w.
Proof. intros c a b key x it o t w [n H] [m H1]. exists (S (n + m)). one.
  rewrite (cup _ (n + m) _ _ _ _ _ _ H) by lia. cbn [obind]. rewrite (vup _ (n + m) _ _ _ _ _ _ H1) by lia. reflexivity. Qed.
Lemma vgo_or : forall a b key x it o w, vgo a key x it o w ->
  match w with VLeaf (LRef _) | VObj _ _ => True | _ => False end -> vgo (VOrX a b) key x it o w.
Proof. intros a b key x it o w H H1. vone H. cbn [obind]. destruct w as [| |[]| |]; try contradiction; reflexivity. Qed.

(** conditions *)
Lemma cgo_at : forall p c key x y it o t, find (rkey key p) x = Some y -> cgo c key y it o t -> cgo (CAt p c) key x it o t.
Proof. intros p c key x y it o t H0 [n H]. exists (S n). one. rewrite H0. exact H. Qed.
Lemma cgo_at_none : forall p c key x it o, find (rkey key p) x = None -> cgo (CAt p c) key x it o false.
Proof. intros. exists 1. one. rewrite H. reflexivity. Qed.
Lemma cgo_got : forall v key x it o w, vgo v key x it o w -> cgo (CGot v) key x it o (negb (is_none w)).
Proof. intros v key x it o w H. vone H. reflexivity. Qed.
Lemma cgo_empty : forall v key x it o l, vgo v key x it o (VList l) -> cgo (CEmpty v) key x it o (match l with [] => true | _ => false end).
Proof. intros v key x it o l H. vone H. reflexivity. Qed.
Lemma cgo_neg : forall a key x it o t, cgo a key x it o t -> cgo (CNeg a) key x it o (negb t).
Proof. intros a key x it o t H. vone H. reflexivity. Qed.
Lemma cgo_both_false : forall a b key x it o, cgo a key x it o false -> cgo (CBoth a b) key x it o false.
Proof. intros a b key x it o H. vone H. reflexivity. Qed.
Lemma cgo_both_true : forall a b key x it o t, cgo a key x it o true -> cgo b key x it o t -> cgo (CBoth a b) key x it o t.
Proof. intros a b key x it o t [n H] [m H1]. exists (S (n + m)). one.
  rewrite (cup _ (n + m) _ _ _ _ _ _ H) by lia. cbn [obind]. rewrite (cup _ (n + m) _ _ _ _ _ _ H1) by lia. reflexivity. Qed.
Lemma cgo_either_true : forall a b key x it o, cgo a key x it o true -> cgo (CEither a b) key x it o true.
Proof. intros a b key x it o H. vone H. reflexivity. Qed.
Lemma cgo_either_false : forall a b key x it o t, cgo a key x it o false -> cgo b key x it o t -> cgo (CEither a b) key x it o t.
Proof. intros a b key x it o t [n H] [m H1]. exists (S (n + m)). one.
  rewrite (cup _ (n + m) _ _ _ _ _ _ H) by lia. cbn [obind]. rewrite (cup _ (n + m) _ _ _ _ _ _ H1) by lia. reflexivity. Qed.
End Reader.
