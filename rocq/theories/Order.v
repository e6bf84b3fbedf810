(** Reading does not depend on the order of siblings with different tags, except inside the
    elements of [list_tags].  Method: every reader function is checked once for every way it is
    called (key argument, tag of the element where it matters); the check makes sure that a "*"
    in a path is only ever applied to an element of [list_tags]. *)
From Coq Require Import String Ascii List Bool Arith Lia Relations.Relation_Operators.
From Verif Require Import PyBase Primitives Xml Leaf ClassTable Ir Access WriterCode ReaderCode IrSem SpecDomain SpecRoundTrip SpecTolerant SpecOrder.
Import ListNotations.
Open Scope string_scope.
Open Scope list_scope.

(** ** Trees that agree up to order *)
Inductive shuffled : xml -> xml -> Prop :=
| Shuffled : forall t a s kids kids',
    (forall tag, Forall2 shuffled (filter (has_tag tag) kids) (filter (has_tag tag) kids')) ->
    (In t list_tags -> Forall2 shuffled kids kids') ->
    shuffled (El t a s kids) (El t a s kids').

Lemma xml_ind' : forall P : xml -> Prop, (forall t a s kids, Forall P kids -> P (El t a s kids)) -> forall x, P x.
Proof.
  intros P H. fix IH 1. intros [t a s kids]. apply H. induction kids as [|k kids IHk]; constructor; [apply IH|exact IHk].
Qed.
Lemma Forall2_same : forall A (R : A -> A -> Prop) l, Forall (fun x => R x x) l -> Forall2 R l l.
Proof. induction 1; constructor; auto. Qed.
Lemma shuffled_refl : forall x, shuffled x x.
Proof.
  induction x as [t a s kids F] using xml_ind'. constructor.
  - intros tag. apply Forall2_same. apply Forall_forall. intros y Hy. apply filter_In in Hy. rewrite Forall_forall in F. now apply F.
  - intros _. now apply Forall2_same.
Qed.
Lemma shuffled_tag : forall x x', shuffled x x' -> xtag x = xtag x'.
Proof. now destruct 1. Qed.
Lemma filter_pair : forall tag k k', shuffled k k' -> Forall2 shuffled (filter (has_tag tag) [k]) (filter (has_tag tag) [k']).
Proof. intros tag k k' H. cbn [filter]. unfold has_tag. rewrite (shuffled_tag _ _ H). destruct (String.eqb (xtag k') tag); repeat constructor. exact H. Qed.
Lemma refl_list : forall l, Forall2 shuffled l l.
Proof. intros. apply Forall2_same. apply Forall_forall. intros. apply shuffled_refl. Qed.
Lemma exchanged_shuffled : forall x y, exchanged x y -> shuffled x y.
Proof.
  induction 1 as [t a s l k k' r N D | t a s l k k' r E IH].
  - constructor.
    + intros tag. rewrite !filter_app. apply Forall2_app; [apply refl_list|]. cbn [filter].
      destruct (has_tag tag k) eqn:A; destruct (has_tag tag k') eqn:B; try apply refl_list.
      unfold has_tag in A, B. apply String.eqb_eq in A, B. congruence.
    + intros I. contradiction.
  - assert (H : Forall2 shuffled (l ++ [k] ++ r) (l ++ [k'] ++ r)) by (repeat apply Forall2_app; try apply refl_list; repeat constructor; exact IH).
    constructor; [|intros _; exact H].
    intros tag. change (k :: r) with ([k] ++ r). change (k' :: r) with ([k'] ++ r). rewrite !filter_app. repeat apply Forall2_app; try apply refl_list. now apply filter_pair.
Qed.

(** ** Paths *)
Definition fits (a : option string) (s : string) : Prop := match a with Some t => s = t | None => True end.
(** the tag of what a path leads to, if known; fails at a "*" below something not in [list_tags] *)
Fixpoint path_end (tag : option string) (ss : list string) : option (option string) :=
  match ss with
  | [] => Some tag
  | s :: r =>
      if String.eqb s "*" then match tag with Some t => if existsb (String.eqb t) list_tags then path_end None r else None | None => None end
      else if String.eqb s "." then path_end tag r
      else path_end (Some s) r
  end.
Definition near (e : option string) (x x' : xml) : Prop := shuffled x x' /\ fits e (xtag x).
Lemma Forall2_flat : forall A B (R : A -> A -> Prop) (Q : B -> B -> Prop) f g l l', Forall2 R l l' -> (forall a a', R a a' -> Forall2 Q (f a) (g a')) -> Forall2 Q (flat_map f l) (flat_map g l').
Proof. induction 1; intros H'; cbn; [constructor|]. apply Forall2_app; auto. Qed.
Lemma Forall2_and : forall A (R : A -> A -> Prop) (P : A -> Prop) l l', Forall2 R l l' -> Forall P l -> Forall2 (fun a b => R a b /\ P a) l l'.
Proof. induction 1; intros F; constructor; inversion F; subst; auto. Qed.
Lemma path_ok : forall ss tag e x x', near tag x x' -> path_end tag ss = Some e -> Forall2 (near e) (steps ss x) (steps ss x').
Proof.
  induction ss as [|s r IH]; intros tag e x x' [H T] P; cbn [path_end steps] in *.
  - injection P as <-. constructor; [now split|constructor].
  - unfold step. destruct (String.eqb_spec s "*") as [->|N1].
    + destruct tag as [t|]; [|discriminate]. destruct (existsb (String.eqb t) list_tags) eqn:I; [|discriminate]. apply existsb_exists in I. destruct I as [t' [I Q]]. apply String.eqb_eq in Q. subst t'.
      destruct H as [t' a s kids kids' F K]. cbn in T. subst t'. specialize (K I). cbn [xkids]. eapply Forall2_flat; [exact K|]. intros y y' Hy. apply (IH None); [now split|exact P].
    + destruct (String.eqb_spec s ".") as [->|N2].
      * cbn [flat_map]. rewrite !app_nil_r. now apply (IH tag).
      * destruct H as [t a s' kids kids' F K]. cbn [xkids]. eapply Forall2_flat.
        -- apply Forall2_and with (P := fun y => xtag y = s); [exact (F s)|]. apply Forall_forall. intros y Hy. apply filter_In in Hy. destruct Hy as [_ Hy]. now apply String.eqb_eq in Hy.
        -- intros y y' Hy. apply (IH (Some s)); [exact Hy|exact P].
Qed.

(** ** Static check *)
Definition akey (key tag : option string) (t : option tagx) : option string :=
  match t with Some (TLit s) => Some s | Some TKey => key | Some TOwn => tag | None => Some "" end.
Definition apath (key : option string) (p : rpth) : option string :=
  match p with PLit s => Some s | PKey => key | PKeyThen s => match key with Some k => Some (k ++ s)%string | None => None end end.
Definition leads (key tag : option string) (p : rpth) : option (option string) :=
  match apath key p with Some s => path_end tag (split_char "/" s) | None => None end.
Definition narrow_key (c : rcond) (key : option string) : option string := match c with CKeyIs s => Some s | _ => key end.
Definition narrow_tag (c : rcond) (tag : option string) : option string := match c with CTag s => Some s | _ => tag end.

(** the ways functions are called, by name *)
Definition ways := list (option string * option string).
Inductive trie := Trie (v : ways) (kids : list (ascii * trie)).
Definition tval (t : trie) : ways := match t with Trie v _ => v end.
Definition tkids (t : trie) : list (ascii * trie) := match t with Trie _ k => k end.
Fixpoint aget (c : ascii) (l : list (ascii * trie)) : option trie :=
  match l with [] => None | (c', t) :: r => if Ascii.eqb c c' then Some t else aget c r end.
Fixpoint tget (s : string) (t : trie) : ways :=
  match s with
  | "" => tval t
  | String c r => match aget c (tkids t) with Some t' => tget r t' | None => [] end
  end.
Definition allows (a b : option string) : bool :=
  match a, b with None, _ => true | Some s, Some s' => String.eqb s s' | Some _, None => false end.
Definition covered (T : trie) (f : string) (key tag : option string) : bool :=
  existsb (fun w => if allows (fst w) key then allows (snd w) tag else false) (tget f T).

Fixpoint steady_r (T : trie) (n : nat) (key tag : option string) (code : list ri) : bool :=
  match n with
  | 0 => false
  | S n =>
      match code with
      | [] => true
      | i :: rest =>
          if match i with
             | RAttrs | RFail _ _ | RUnknown => true
             | RPut _ v | RPutAny _ _ v | RSet _ v => steady_v T n key tag v
             | RCall f t => covered T f (akey key tag t) tag
             | RCreate _ _ b => steady_r T n key tag b
             | RFind p a b => match leads key tag p with Some e => if steady_r T n key e a then steady_r T n key tag b else false | None => false end
             | RFor p b => match leads key tag p with Some e => steady_r T n key e b | None => false end
             | RForVal v b => if steady_v T n key tag v then steady_r T n key tag b else false
             | RIf c a b => if steady_c T n key tag c then if steady_r T n (narrow_key c key) (narrow_tag c tag) a then steady_r T n key tag b else false else false
             | RSub _ b => steady_r T n key tag b
             end then steady_r T n key tag rest else false
      end
  end
with steady_v (T : trie) (n : nat) (key tag : option string) (v : vx) : bool :=
  match n with
  | 0 => false
  | S n =>
      match v with
      | VLeafX _ p | VReqX _ p | VLeafsX _ p => match leads key tag p with Some _ => true | None => false end
      | VNoneX | VTextX | VTextOrX | VAttrX _ | VUnmapX _ _ | VNameX | VTagX | VItemX | VFailX _ | VUnknown => true
      | VWrapX _ _ a | VValueX a => steady_v T n key tag a
      | VNewX _ _ b | VListX b => steady_r T n key tag b
      | VGetX f t => covered T f (akey key tag t) tag
      | VFindX p a b => match leads key tag p with Some e => if steady_v T n key e a then steady_v T n key tag b else false | None => false end
      | VLastX p a => match leads key tag p with Some e => steady_v T n key e a | None => false end
      | VIfX c a b => if steady_c T n key tag c then if steady_v T n (narrow_key c key) (narrow_tag c tag) a then steady_v T n key tag b else false else false
      | VOrX a b => if steady_v T n key tag a then steady_v T n key tag b else false
      end
  end
with steady_c (T : trie) (n : nat) (key tag : option string) (c : rcond) : bool :=
  match n with
  | 0 => false
  | S n =>
      match c with
      | CTrue | CTag _ | CKeyIs _ | CHasAttr _ | CHasText | CHasWord | CIsA _ | CObjHas _ => true
      | CAt p a => match leads key tag p with Some e => steady_c T n key e a | None => false end
      | CGot v | CEmpty v => steady_v T n key tag v
      | CNeg a => steady_c T n key tag a
      | CBoth a b | CEither a b => if steady_c T n key tag a then steady_c T n key tag b else false
      end
  end.
Definition steady_fun (T : trie) (p : string * (list ri * option vx)) : bool :=
  match p with (f, (b, r)) =>
    forallb (fun w => if steady_r T 400 (fst w) (snd w) b then match r with Some r => steady_v T 400 (fst w) (snd w) r | None => true end else false) (tget f T)
  end.

(** ** The check is right *)
Section Same.
Context (T : trie) (ALL : forallb (steady_fun T) rfuns = true) (warn : bool).
Local Opaque access_of init named_init wfuns rfuns list_tags.

Lemma assoc_in : forall A k (l : list (string * A)) a, assoc k l = Some a -> In (k, a) l.
Proof. induction l as [|[k' a'] l IH]; cbn; intros a H; [discriminate|]. destruct (String.eqb_spec k k') as [->|]; [injection H as ->; now left|right; auto]. Qed.
Lemma allows_ok : forall a b s, allows a b = true -> fits b s -> fits a s.
Proof. intros [a|] [b|] s H F; cbn in *; try discriminate; try exact I. apply String.eqb_eq in H. congruence. Qed.
Lemma covered_ok : forall f key tag b r ky x, covered T f key tag = true -> assoc f rfuns = Some (b, r) -> fits key ky -> fits tag (xtag x) ->
  exists key' tag', fits key' ky /\ fits tag' (xtag x) /\ steady_r T 400 key' tag' b = true /\ match r with Some r => steady_v T 400 key' tag' r = true | None => True end.
Proof.
  intros f key tag b r ky x C A FK FT. apply assoc_in in A. pose proof ALL as H. rewrite forallb_forall in H. specialize (H _ A). cbn [steady_fun] in H. rewrite forallb_forall in H.
  unfold covered in C. apply existsb_exists in C. destruct C as [[key' tag'] [I C]]. cbn [fst snd] in C. specialize (H _ I). cbn [fst snd] in H.
  destruct (allows key' key) eqn:AK; [|discriminate]. exists key', tag'. split; [eapply allows_ok; eauto|]. split; [eapply allows_ok; eauto|].
  destruct (steady_r T 400 key' tag' b); [|discriminate]. split; [reflexivity|]. destruct r; auto.
Qed.
Lemma akey_ok : forall key tag t ky x, fits key ky -> fits tag (xtag x) -> fits (akey key tag t) (rtag ky x t).
Proof. intros key tag [[]|] ky x K F; cbn; auto. Qed.
Lemma rtag_same : forall ky x x' t, shuffled x x' -> rtag ky x t = rtag ky x' t.
Proof. intros ky x x' [[]|] H; cbn; auto. now apply shuffled_tag. Qed.
Lemma leads_ok : forall key tag p e ky x x', near tag x x' -> fits key ky -> leads key tag p = Some e ->
  Forall2 (near e) (findall (rkey ky p) x) (findall (rkey ky p) x').
Proof.
  intros key tag p e ky x x' N K L. unfold leads in L. destruct (apath key p) as [s|] eqn:P; [|discriminate].
  assert (E : rkey ky p = s). { destruct p; cbn in *; try congruence; destruct key; cbn in *; congruence. }
  rewrite E. unfold findall. eapply path_ok; eauto.
Qed.
Lemma leads_find : forall key tag p e ky x x', near tag x x' -> fits key ky -> leads key tag p = Some e ->
  (find (rkey ky p) x = None /\ find (rkey ky p) x' = None) \/ exists y y', find (rkey ky p) x = Some y /\ find (rkey ky p) x' = Some y' /\ near e y y'.
Proof.
  intros key tag p e ky x x' N K L. pose proof (leads_ok _ _ _ _ _ _ _ N K L) as F. unfold find. destruct F as [|y y' l l' H F]; [now left|right]. exists y, y'. now cbn.
Qed.
Lemma bind_same2 : forall A B (a a' : out A) (f f' : A -> out B), a = a' -> (forall v, a = Done v -> f v = f' v) -> obind a f = obind a' f'.
Proof. intros A B a a' f f' -> H. destruct a'; cbn; auto. Qed.
Lemma fold_same2 : forall A S (R : A -> A -> Prop) (f g : A -> S -> out S) l l', Forall2 R l l' -> (forall a a' s, R a a' -> f a s = g a' s) -> forall s, fold_out f l s = fold_out g l' s.
Proof. induction 1; intros H' s; [reflexivity|]. cbn [fold_out]. apply bind_same2; auto. Qed.
Lemma fold_each : forall A S (f g : A -> S -> out S) l s, (forall a s, f a s = g a s) -> fold_out f l s = fold_out g l s.
Proof. induction l as [|a l IH]; intros s H; [reflexivity|]. cbn [fold_out]. apply bind_same2; auto. Qed.
Lemma xattr_near : forall x x' a, shuffled x x' -> xattr a x = xattr a x'.
Proof. now destruct 1. Qed.
Lemma xtext_near : forall x x', shuffled x x' -> xtext x = xtext x'.
Proof. now destruct 1. Qed.
Lemma short_near : forall x x', shuffled x x' -> short_name x = short_name x'.
Proof.
  intros x x' H. assert (F : Forall2 (near (Some "SHORT-NAME")) (findall "SHORT-NAME" x) (findall "SHORT-NAME" x')).
  { unfold findall. apply (path_ok _ None); [now split|reflexivity]. }
  unfold short_name, find. destruct F as [|y y' l l' [H' _] F]; [reflexivity|]. cbn. now rewrite (xtext_near _ _ H').
Qed.
Lemma leaf_near : forall k x x', shuffled x x' -> leaf_of k x = leaf_of k x'.
Proof. intros k x x' H. destruct H as [t a s kids kids' _ _]. destruct k; reflexivity. Qed.
Lemma items_near : forall k e l l', Forall2 (near e) l l' -> leaf_items k l = leaf_items k l'.
Proof. induction 1 as [|y y' l l' [H _] F IH]; [reflexivity|]. cbn [leaf_items]. now rewrite (leaf_near k _ _ H), IH. Qed.

Ltac ifs H := repeat match type of H with (if ?b then _ else false) = true => let E := fresh "K" in destruct b eqn:E; [|discriminate H] end.
Ltac at_path HI NR FK := match type of HI with match leads ?key ?tag ?p with _ => _ end = true =>
  let e := fresh "e" in let L := fresh "L" in destruct (leads key tag p) as [e|] eqn:L; [|discriminate HI] end.
Lemma order_same : forall n,
  (forall k key tag code ky x x' it o, near tag x x' -> fits key ky -> steady_r T k key tag code = true -> rrun warn n code ky x it o = rrun warn n code ky x' it o) /\
  (forall k key tag v ky x x' it o, near tag x x' -> fits key ky -> steady_v T k key tag v = true -> vrun warn n v ky x it o = vrun warn n v ky x' it o) /\
  (forall k key tag c ky x x' it o, near tag x x' -> fits key ky -> steady_c T k key tag c = true -> crun warn n c ky x it o = crun warn n c ky x' it o).
Proof.
  induction n as [|n [IHr [IHv IHc]]]; [repeat split; reflexivity|].
  assert (CALL : forall key tag f t ky x x' b r, near tag x x' -> fits key ky -> covered T f (akey key tag t) tag = true -> assoc f rfuns = Some (b, r) ->
    rtag ky x t = rtag ky x' t /\ (forall o, rrun warn n b (rtag ky x' t) x VNone o = rrun warn n b (rtag ky x' t) x' VNone o) /\
    match r with Some r => forall o, vrun warn n r (rtag ky x' t) x VNone o = vrun warn n r (rtag ky x' t) x' VNone o | None => True end).
  { intros key tag f t ky x x' b r NR FK C A. destruct NR as [SH FT]. split; [now apply rtag_same|].
    destruct (covered_ok f _ _ b r (rtag ky x t) x C A (akey_ok _ _ t _ _ FK FT) FT) as (key' & tag' & K1 & K2 & K3 & K4). rewrite (rtag_same ky x x' t SH) in K1.
    split; [intros; apply (IHr 400 key' tag'); [now split|exact K1|exact K3]|]. destruct r as [r|]; [|exact I]. intros. apply (IHv 400 key' tag'); [now split|exact K1|exact K4]. }
  assert (NC : forall c m ky x it o key, fits key ky -> crun warn m c ky x it o = Done true -> fits (narrow_key c key) ky).
  { intros c m ky x it o key K C. destruct c; cbn [narrow_key]; auto. destruct m; [discriminate C|]. cbn [crun] in C. injection C as C. now apply String.eqb_eq in C. }
  assert (NT : forall c m ky x x' it o tag, near tag x x' -> crun warn m c ky x it o = Done true -> near (narrow_tag c tag) x x').
  { intros c m ky x x' it o tag [SH FT] C. split; [exact SH|]. destruct c; cbn [narrow_tag]; auto. destruct m; [discriminate C|]. cbn [crun] in C. injection C as C. now apply String.eqb_eq in C. }
  repeat split.
  - intros k key tag code ky x x' it o NR FK H. destruct k as [|k]; [discriminate|]. cbn [steady_r] in H. destruct code as [|i rest]; [reflexivity|].
    match type of H with (if ?b then _ else false) = true => destruct b eqn:HI; [|discriminate H] end.
    cbn [rrun]. fold (rrun warn) (vrun warn) (crun warn). apply bind_same2; [|intros; now apply (IHr k key tag)].
    pose proof (proj1 NR) as SH.
    destruct i.
    + unfold read_attrs. now rewrite !(xattr_near x x' _ SH).
    + apply bind_same2; [now apply (IHv k key tag)|reflexivity].
    + apply bind_same2; [now apply (IHv k key tag)|reflexivity].
    + apply bind_same2; [now apply (IHv k key tag)|reflexivity].
    + destruct (assoc f rfuns) as [[b r]|] eqn:A; [|reflexivity]. destruct (CALL _ _ _ _ _ _ _ _ _ NR FK HI A) as (-> & C1 & C2).
      apply bind_same2; [apply C1|]. intros v _. destruct r as [r|]; [|reflexivity]. apply bind_same2; [apply C2|reflexivity].
    + destruct o; try reflexivity. destruct (access_of cls m) as [[]|]; try reflexivity. destruct (negb _); [reflexivity|].
      rewrite (short_near x x' SH). apply bind_same2; [reflexivity|]. intros v _. apply bind_same2; [now apply (IHr k key tag)|reflexivity].
    + at_path HI NR FK. ifs HI. destruct (leads_find _ _ _ _ _ _ _ NR FK L) as [[-> ->] | (y & y' & -> & -> & NY)]; [now apply (IHr k key tag)|now apply (IHr k key e)].
    + at_path HI NR FK. eapply fold_same2; [exact (leads_ok _ _ _ _ _ _ _ NR FK L)|]. intros y y' s NY. cbn beta. now apply (IHr k key e).
    + ifs HI. apply bind_same2; [now apply (IHv k key tag)|]. intros w _. destruct w; try reflexivity. apply fold_each. intros. now apply (IHr k key tag).
    + ifs HI. apply bind_same2; [now apply (IHc k key tag)|]. intros w W. destruct w; [|now apply (IHr k key tag)]. apply (IHr k (narrow_key c key) (narrow_tag c tag)); eauto.
    + destruct o; try reflexivity. destruct g.
      * destruct (access_of cls m) as [[]|]; try reflexivity. destruct (assoc f fields); [|reflexivity]. apply bind_same2; [now apply (IHr k key tag)|reflexivity].
      * destruct (assoc a fields); [|reflexivity]. apply bind_same2; [now apply (IHr k key tag)|reflexivity].
    + reflexivity.
    + reflexivity.
  - intros k key tag v ky x x' it o NR FK H. destruct k as [|k]; [discriminate|]. cbn [steady_v] in H. pose proof (proj1 NR) as SH.
    destruct v; cbn [vrun]; fold (rrun warn) (vrun warn) (crun warn); try reflexivity.
    + at_path H NR FK. unfold leaf_read. destruct (leads_find _ _ _ _ _ _ _ NR FK L) as [[-> ->] | (y & y' & -> & -> & NY)]; [reflexivity|]. now rewrite (leaf_near _ _ _ (proj1 NY)).
    + at_path H NR FK. unfold literal_required, ref_required. destruct (leads_find _ _ _ _ _ _ _ NR FK L) as [[-> ->] | (y & y' & -> & -> & NY)]; [reflexivity|].
      now rewrite !(xattr_near _ _ _ (proj1 NY)), (xtext_near _ _ (proj1 NY)).
    + at_path H NR FK. unfold leaf_list. now rewrite (items_near _ _ _ _ (leads_ok _ _ _ _ _ _ _ NR FK L)).
    + now rewrite (xtext_near _ _ SH).
    + now rewrite (xtext_near _ _ SH).
    + now rewrite (xattr_near _ _ _ SH).
    + now rewrite (xattr_near _ _ _ SH).
    + now rewrite (short_near _ _ SH).
    + now rewrite (shuffled_tag _ _ SH).
    + apply bind_same2; [now apply (IHv k key tag)|reflexivity].
    + apply bind_same2; [now apply (IHv k key tag)|reflexivity].
    + rewrite (short_near x x' SH). apply bind_same2; [reflexivity|]. intros. now apply (IHr k key tag).
    + now apply (IHr k key tag).
    + destruct (assoc f rfuns) as [[b r]|] eqn:A; [|reflexivity]. destruct (CALL _ _ _ _ _ _ _ _ _ NR FK H A) as (-> & C1 & C2).
      apply bind_same2; [apply C1|]. intros v _. destruct r as [r|]; [apply C2|reflexivity].
    + at_path H NR FK. ifs H. destruct (leads_find _ _ _ _ _ _ _ NR FK L) as [[-> ->] | (y & y' & -> & -> & NY)]; [now apply (IHv k key tag)|now apply (IHv k key e)].
    + at_path H NR FK. eapply fold_same2; [exact (leads_ok _ _ _ _ _ _ _ NR FK L)|]. intros y y' s NY. cbn beta. apply bind_same2; [now apply (IHv k key e)|reflexivity].
    + ifs H. apply bind_same2; [now apply (IHc k key tag)|]. intros w W. destruct w; [|now apply (IHv k key tag)]. apply (IHv k (narrow_key c key) (narrow_tag c tag)); eauto.
    + ifs H. apply bind_same2; [now apply (IHv k key tag)|]. intros w _. destruct w; try reflexivity. now apply (IHv k key tag).
  - intros k key tag c ky x x' it o NR FK H. destruct k as [|k]; [discriminate|]. cbn [steady_c] in H. pose proof (proj1 NR) as SH.
    destruct c; cbn [crun]; fold (rrun warn) (vrun warn) (crun warn); try reflexivity.
    + now rewrite (shuffled_tag _ _ SH).
    + now rewrite (xattr_near _ _ _ SH).
    + now rewrite (xtext_near _ _ SH).
    + now rewrite (xtext_near _ _ SH).
    + at_path H NR FK. destruct (leads_find _ _ _ _ _ _ _ NR FK L) as [[-> ->] | (y & y' & -> & -> & NY)]; [reflexivity|now apply (IHc k key e)].
    + apply bind_same2; [now apply (IHv k key tag)|reflexivity].
    + apply bind_same2; [now apply (IHv k key tag)|reflexivity].
    + apply bind_same2; [now apply (IHc k key tag)|reflexivity].
    + ifs H. apply bind_same2; [now apply (IHc k key tag)|]. intros [|] _; [now apply (IHc k key tag)|reflexivity].
    + ifs H. apply bind_same2; [now apply (IHc k key tag)|]. intros [|] _; [reflexivity|now apply (IHc k key tag)].
Qed.
End Same.

(** ** The table of the ways functions are called, starting from [load]: computed here, checked below *)
Inductive event := Called (f : string) (key tag : option string) | Lost.
Definition end_or (key tag : option string) (p : rpth) : option string := match leads key tag p with Some e => e | None => None end.
Fixpoint calls_r (n : nat) (key tag : option string) (code : list ri) : list event :=
  match n with
  | 0 => [Lost]
  | S n =>
      match code with
      | [] => []
      | i :: rest =>
          match i with
          | RAttrs | RFail _ _ | RUnknown => []
          | RPut _ v | RPutAny _ _ v | RSet _ v => calls_v n key tag v
          | RCall f t => [Called f (akey key tag t) tag]
          | RCreate _ _ b | RSub _ b => calls_r n key tag b
          | RFind p a b => calls_r n key (end_or key tag p) a ++ calls_r n key tag b
          | RFor p b => calls_r n key (end_or key tag p) b
          | RForVal v b => calls_v n key tag v ++ calls_r n key tag b
          | RIf c a b => calls_c n key tag c ++ calls_r n (narrow_key c key) (narrow_tag c tag) a ++ calls_r n key tag b
          end ++ calls_r n key tag rest
      end
  end
with calls_v (n : nat) (key tag : option string) (v : vx) : list event :=
  match n with
  | 0 => [Lost]
  | S n =>
      match v with
      | VWrapX _ _ a | VValueX a => calls_v n key tag a
      | VNewX _ _ b | VListX b => calls_r n key tag b
      | VGetX f t => [Called f (akey key tag t) tag]
      | VFindX p a b => calls_v n key (end_or key tag p) a ++ calls_v n key tag b
      | VLastX p a => calls_v n key (end_or key tag p) a
      | VIfX c a b => calls_c n key tag c ++ calls_v n (narrow_key c key) (narrow_tag c tag) a ++ calls_v n key tag b
      | VOrX a b => calls_v n key tag a ++ calls_v n key tag b
      | _ => []
      end
  end
with calls_c (n : nat) (key tag : option string) (c : rcond) : list event :=
  match n with
  | 0 => [Lost]
  | S n =>
      match c with
      | CAt p a => calls_c n key (end_or key tag p) a
      | CGot v | CEmpty v => calls_v n key tag v
      | CNeg a => calls_c n key tag a
      | CBoth a b | CEither a b => calls_c n key tag a ++ calls_c n key tag b
      | _ => []
      end
  end.
(** functions for which the tag of the element they are called on matters *)
Definition tag_matters : list string :=
  ["readLLongName"; "readEmphasisText"; "readVariationPointProxy"; "getTransformationComSpecProps"; "getCompuConstContent"].
Fixpoint tput (s : string) (w : option string * option string) (t : trie) : trie :=
  match s with
  | "" => Trie (w :: tval t) (tkids t)
  | String c r =>
      let fix go (l : list (ascii * trie)) := match l with
        | [] => [(c, tput r w (Trie [] []))]
        | (c', t') :: l' => if Ascii.eqb c c' then (c', tput r w t') :: l' else (c', t') :: go l' end in
      Trie (tval t) (go (tkids t))
  end.
Fixpoint close (n : nat) (todo : list event) (T : trie) {struct n} : trie :=
  match n, todo with
  | S n, Called f key tag :: r =>
      let tag := if existsb (String.eqb f) tag_matters then tag else None in
      if covered T f key tag then close n r T
      else close n (match assoc f rfuns with
                    | Some (b, v) => calls_r 400 key tag b ++ match v with Some v => calls_v 400 key tag v | None => [] end
                    | None => [] end ++ r) (tput f (key, tag) T)
  | _, _ => T
  end.
Definition call_table : trie := Eval vm_compute in close (40 * 500) (calls_r 100 (Some "") (Some "AUTOSAR") load_code) (Trie [] []).

Lemma table_checked : forallb (steady_fun call_table) rfuns = true.
Proof. vm_compute. reflexivity. Qed.
Lemma root_checked : steady_r call_table 100 (Some "") None load_code = true.
Proof. vm_compute. reflexivity. Qed.

(** ** Loading *)
Local Opaque access_of init named_init wfuns rfuns list_tags.
Lemma exchange_run : forall warn x y n, exchanged x y -> rrun warn n load_code "" x VNone (init "AUTOSAR") = rrun warn n load_code "" y VNone (init "AUTOSAR").
Proof.
  intros warn x y n E. apply exchanged_shuffled in E.
  destruct (order_same call_table table_checked warn n) as [R _].
  (* the tag of the root element does not matter *)
  eapply (R 100 (Some "") None); [split; [exact E|exact I]|reflexivity|exact root_checked].
Qed.
Lemma rearranged_run : forall warn x y n, rearranged x y -> rrun warn n load_code "" x VNone (init "AUTOSAR") = rrun warn n load_code "" y VNone (init "AUTOSAR").
Proof. intros warn x y n R. induction R as [x y E | x | x y z _ IH1 _ IH2]; [now apply exchange_run|reflexivity|congruence]. Qed.
Lemma rearranged_load : forall warn x y u, rearranged x y -> (loaded warn x u <-> loaded warn y u).
Proof. intros warn x y u R. unfold loaded, read. split; intros [n H]; exists n; [now rewrite <- (rearranged_run warn x y n R)|now rewrite (rearranged_run warn x y n R)]. Qed.
Lemma rearranged_raises : forall warn x y e, rearranged x y -> (load_raises warn x e <-> load_raises warn y e).
Proof. intros warn x y e R. unfold load_raises. split; intros [n H]; exists n; [now rewrite <- (rearranged_run warn x y n R)|now rewrite (rearranged_run warn x y n R)]. Qed.

(** ** Which orders can be reached *)
Lemma bubble : forall t a s k l1 l l2, ~ In t list_tags -> Forall (fun y => xtag y <> xtag k) l1 ->
  rearranged (El t a s (l ++ k :: l1 ++ l2)) (El t a s (l ++ l1 ++ k :: l2)).
Proof.
  induction l1 as [|y l1 IH]; intros l l2 N F; [apply rt_refl|]. inversion F as [|? ? D F']; subst.
  eapply rt_trans; [apply rt_step; apply (exchange_here t a s l k y (l1 ++ l2) N); congruence|].
  specialize (IH (l ++ [y]) l2 N F'). rewrite <- !app_assoc in IH. exact IH.
Qed.
Lemma split_first : forall tag k r l, filter (has_tag tag) l = k :: r ->
  exists l1 l2, l = l1 ++ k :: l2 /\ filter (has_tag tag) l1 = [] /\ filter (has_tag tag) l2 = r.
Proof.
  induction l as [|y l IH]; cbn [filter]; intros H; [discriminate|]. destruct (has_tag tag y) eqn:E.
  - injection H as -> <-. exists [], l. auto.
  - destruct (IH H) as (l1 & l2 & -> & A & B). exists (y :: l1), l2. cbn [filter]. rewrite E. auto.
Qed.
Lemma any_order : forall t a s kids l kids', ~ In t list_tags ->
  (forall tag, filter (has_tag tag) kids = filter (has_tag tag) kids') -> rearranged (El t a s (l ++ kids)) (El t a s (l ++ kids')).
Proof.
  induction kids as [|k kids IH]; intros l kids' N F.
  - destruct kids' as [|k' kids']; [apply rt_refl|]. specialize (F (xtag k')). cbn [filter] in F. unfold has_tag at 1 in F. rewrite String.eqb_refl in F. discriminate.
  - assert (T : has_tag (xtag k) k = true) by apply String.eqb_refl.
    pose proof (F (xtag k)) as Fk. cbn [filter] in Fk. rewrite T in Fk. symmetry in Fk. destruct (split_first _ _ _ _ Fk) as (l1 & l2 & -> & A & B).
    eapply rt_trans; [|apply bubble; [exact N|]].
    + specialize (IH (l ++ [k]) (l1 ++ l2) N). rewrite <- !app_assoc in IH. apply IH.
      intros tag. specialize (F tag). rewrite filter_app in F |- *. cbn [filter] in F. destruct (has_tag tag k) eqn:Q; [|exact F].
      unfold has_tag in Q. apply String.eqb_eq in Q. subst tag. rewrite A in *. cbn [app] in *. congruence.
    + apply Forall_forall. intros y Hy Q. assert (C : In y (filter (has_tag (xtag k)) l1)) by (apply filter_In; split; [exact Hy|unfold has_tag; rewrite Q; apply String.eqb_refl]).
      rewrite A in C. destruct C.
Qed.
Lemma reordered : forall t a s kids kids', ~ In t list_tags ->
  (forall tag, filter (has_tag tag) kids = filter (has_tag tag) kids') -> rearranged (El t a s kids) (El t a s kids').
Proof. intros t a s kids kids' N F. exact (any_order t a s kids [] kids' N F). Qed.
Lemma rearranged_below : forall t a s l k k' r, rearranged k k' -> rearranged (El t a s (l ++ k :: r)) (El t a s (l ++ k' :: r)).
Proof. intros t a s l k k' r R. induction R as [x y E | x | x y z _ IH1 _ IH2]; [apply rt_step; now apply exchange_below|apply rt_refl|eapply rt_trans; eauto]. Qed.
