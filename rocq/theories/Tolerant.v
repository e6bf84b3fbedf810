(** Reading does not depend on unknown elements in warning mode, and stops at them otherwise. *)
From Coq Require Import String Ascii List Bool Arith Lia.
From Verif Require Import PyBase Primitives Xml Leaf ClassTable Ir Access WriterCode ReaderCode IrSem IrFacts SpecDomain SpecRoundTrip RoundTripProps RoundTripRead SpecTolerant.
Import ListNotations.
Open Scope string_scope.
Open Scope list_scope.

(** ** Code that does not look below ELEMENTS and AR-PACKAGES *)
Definition apart (s : string) : bool :=
  if String.eqb s "*" then false else if String.eqb s "." then false
  else if String.eqb s "ELEMENTS" then false else negb (String.eqb s "AR-PACKAGES").
Definition path_apart (key : string) : bool := match split_char "/" key with s :: _ => apart s | [] => false end.
Definition outside (x : xml) : bool := if String.eqb (xtag x) "ELEMENTS" then false else negb (String.eqb (xtag x) "AR-PACKAGES").
Definition alike (x x' : xml) : Prop :=
  xtag x = xtag x' /\ xattrs x = xattrs x' /\ xtext x = xtext x' /\ filter outside (xkids x) = filter outside (xkids x').

Lemma findall_alike : forall x x' key, alike x x' -> path_apart key = true -> findall key x = findall key x'.
Proof.
  intros x x' key (_ & _ & _ & K) P. unfold findall. unfold path_apart in P. destruct (split_char "/" key) as [|s r]; [discriminate|]. cbn [steps].
  unfold apart in P. unfold step. destruct (String.eqb_spec s "*"); [discriminate|]. destruct (String.eqb_spec s "."); [discriminate|].
  destruct (String.eqb_spec s "ELEMENTS") as [->|N1]; [discriminate|]. apply negb_true_iff in P.
  f_equal. assert (F : forall l, filter (has_tag s) l = filter (has_tag s) (filter outside l)).
  { induction l as [|y l IH]; [reflexivity|]. cbn [filter]. destruct (outside y) eqn:O; cbn [filter].
    - now rewrite IH.
    - rewrite <- IH. destruct (has_tag s y) eqn:T; [|reflexivity]. exfalso. unfold has_tag in T. apply String.eqb_eq in T. unfold outside in O. rewrite T in O.
      rewrite P in O. apply String.eqb_neq in N1. rewrite N1 in O. discriminate. }
  rewrite (F (xkids x)), (F (xkids x')), K. reflexivity.
Qed.
Lemma find_alike : forall x x' key, alike x x' -> path_apart key = true -> find key x = find key x'.
Proof. intros. unfold find. now rewrite (findall_alike x x'). Qed.
Lemma xattr_alike : forall x x' a, alike x x' -> xattr a x = xattr a x'.
Proof. intros x x' a (_ & A & _). unfold xattr. now rewrite A. Qed.
Lemma short_alike : forall x x', alike x x' -> short_name x = short_name x'.
Proof. intros x x' A. unfold short_name. now rewrite (find_alike x x' "SHORT-NAME" A eq_refl). Qed.

Definition static_key (key : string) (t : option tagx) : option string :=
  match t with Some (TLit s) => Some s | Some TKey => Some key | Some TOwn => None | None => Some "" end.
Lemma static_key_ok : forall key t k x, static_key key t = Some k -> rtag key x t = k.
Proof. intros key [[]|] k x H; cbn in *; congruence. Qed.

Fixpoint apart_r (n : nat) (key : string) (code : list ri) : bool :=
  match n with
  | 0 => false
  | S n =>
      match code with
      | [] => true
      | i :: rest =>
          if match i with
             | RAttrs | RFail _ _ | RUnknown => true
             | RPut _ v | RPutAny _ _ v | RSet _ v => apart_v n key v
             | RCall f t =>
                 match static_key key t, assoc f rfuns with
                 | Some k, Some (b, r) => if apart_r n k b then match r with Some r => apart_v n k r | None => true end else false
                 | Some _, None => true
                 | None, _ => false
                 end
             | RCreate _ _ b => apart_r n key b
             | RFind p a b => if path_apart (rkey key p) then apart_r n key b else false
             | RFor p b => path_apart (rkey key p)
             | RForVal v b => if apart_v n key v then apart_r n key b else false
             | RIf c a b => if apart_c n key c then if apart_r n key a then apart_r n key b else false else false
             | RSub _ b => apart_r n key b
             end then apart_r n key rest else false
      end
  end
with apart_v (n : nat) (key : string) (v : vx) : bool :=
  match n with
  | 0 => false
  | S n =>
      match v with
      | VLeafX _ p | VReqX _ p | VLeafsX _ p | VLastX p _ => path_apart (rkey key p)
      | VNoneX | VTextX | VTextOrX | VAttrX _ | VUnmapX _ _ | VNameX | VTagX | VItemX | VFailX _ | VUnknown => true
      | VWrapX _ _ a | VValueX a => apart_v n key a
      | VNewX _ _ b | VListX b => apart_r n key b
      | VGetX f t =>
          match static_key key t, assoc f rfuns with
          | Some k, Some (b, r) => if apart_r n k b then match r with Some r => apart_v n k r | None => true end else false
          | Some _, None => true
          | None, _ => false
          end
      | VFindX p a b => if path_apart (rkey key p) then apart_v n key b else false
      | VIfX c a b => if apart_c n key c then if apart_v n key a then apart_v n key b else false else false
      | VOrX a b => if apart_v n key a then apart_v n key b else false
      end
  end
with apart_c (n : nat) (key : string) (c : rcond) : bool :=
  match n with
  | 0 => false
  | S n =>
      match c with
      | CTrue | CTag _ | CKeyIs _ | CHasAttr _ | CHasText | CHasWord | CIsA _ | CObjHas _ => true
      | CAt p _ => path_apart (rkey key p)
      | CGot v | CEmpty v => apart_v n key v
      | CNeg a => apart_c n key a
      | CBoth a b | CEither a b => if apart_c n key a then apart_c n key b else false
      end
  end.

Section Same.
Context (warn : bool) (x x' : xml) (AL : alike x x').
Local Opaque access_of init named_init wfuns rfuns.
Lemma bind_same : forall A B (a a' : out A) (f f' : A -> out B), a = a' -> (forall v, f v = f' v) -> obind a f = obind a' f'.
Proof. intros A B a a' f f' -> H. destruct a'; cbn; auto. Qed.
Lemma fold_same : forall A S (f g : A -> S -> out S) l s, (forall a s, f a s = g a s) -> fold_out f l s = fold_out g l s.
Proof. induction l as [|a l IH]; intros s H; [reflexivity|]. cbn [fold_out]. apply bind_same; auto. Qed.
Ltac ifs H := repeat match type of H with (if ?b then _ else false) = true => let E := fresh "K" in destruct b eqn:E; [|discriminate H] end.
Lemma apart_same : forall n,
  (forall k key code it o, apart_r k key code = true -> rrun warn n code key x it o = rrun warn n code key x' it o) /\
  (forall k key v it o, apart_v k key v = true -> vrun warn n v key x it o = vrun warn n v key x' it o) /\
  (forall k key c it o, apart_c k key c = true -> crun warn n c key x it o = crun warn n c key x' it o).
Proof.
  destruct AL as (AT & AA & AX & _).
  induction n as [|n [IHr [IHv IHc]]]; [repeat split; reflexivity|]. repeat split.
  - intros k key code it o H. destruct k as [|k]; [discriminate|]. cbn [apart_r] in H. destruct code as [|i rest]; [reflexivity|].
    match type of H with (if ?b then _ else false) = true => destruct b eqn:HI; [|discriminate H] end.
    cbn [rrun]. fold (rrun warn) (vrun warn) (crun warn). apply bind_same; [|intros; now apply (IHr k)].
    destruct i.
    + unfold read_attrs. now rewrite !(xattr_alike x x' _ AL).
    + apply bind_same; [now apply (IHv k)|reflexivity].
    + apply bind_same; [now apply (IHv k)|reflexivity].
    + apply bind_same; [now apply (IHv k)|reflexivity].
    + destruct (static_key key t) as [k'|] eqn:SK; [|discriminate HI]. rewrite !(static_key_ok _ _ _ _ SK). destruct (assoc f rfuns) as [[b r]|]; [|reflexivity].
      destruct (apart_r k k' b) eqn:K1; [|discriminate HI]. apply bind_same; [now apply (IHr k)|]. intros v. destruct r as [r|]; [|reflexivity]. apply bind_same; [now apply (IHv k)|reflexivity].
    + destruct o; try reflexivity. destruct (access_of cls m) as [[]|]; try reflexivity. destruct (negb _); [reflexivity|].
      rewrite (short_alike x x' AL). apply bind_same; [reflexivity|]. intros v. apply bind_same; [now apply (IHr k)|reflexivity].
    + ifs HI. rewrite (find_alike x x' _ AL K). destruct (find _ x'); [reflexivity|now apply (IHr k)].
    + now rewrite (findall_alike x x' _ AL HI).
    + ifs HI. apply bind_same; [now apply (IHv k)|]. intros w. destruct w; try reflexivity. apply fold_same. intros. now apply (IHr k).
    + ifs HI. apply bind_same; [now apply (IHc k)|]. intros w. destruct w; now apply (IHr k).
    + destruct o; try reflexivity. destruct g.
      * destruct (access_of cls m) as [[]|]; try reflexivity. destruct (assoc f fields); [|reflexivity]. apply bind_same; [now apply (IHr k)|reflexivity].
      * destruct (assoc a fields); [|reflexivity]. apply bind_same; [now apply (IHr k)|reflexivity].
    + reflexivity.
    + reflexivity.
  - intros k key v it o H. destruct k as [|k]; [discriminate|]. cbn [apart_v] in H. destruct v; cbn [vrun]; fold (rrun warn) (vrun warn) (crun warn); try reflexivity.
    + unfold leaf_read. now rewrite (find_alike x x' _ AL H).
    + unfold literal_required, ref_required. rewrite (find_alike x x' _ AL H). reflexivity.
    + unfold leaf_list. now rewrite (findall_alike x x' _ AL H).
    + now rewrite AX.
    + now rewrite AX.
    + now rewrite (xattr_alike x x' _ AL).
    + now rewrite (xattr_alike x x' _ AL).
    + now rewrite (short_alike x x' AL).
    + now rewrite AT.
    + apply bind_same; [now apply (IHv k)|reflexivity].
    + apply bind_same; [now apply (IHv k)|reflexivity].
    + rewrite (short_alike x x' AL). apply bind_same; [reflexivity|]. intros. now apply (IHr k).
    + now apply (IHr k).
    + destruct (static_key key t) as [k'|] eqn:SK; [|discriminate H]. rewrite !(static_key_ok _ _ _ _ SK). destruct (assoc f rfuns) as [[b r]|]; [|reflexivity].
      destruct (apart_r k k' b) eqn:K1; [|discriminate H]. apply bind_same; [now apply (IHr k)|]. intros v. destruct r as [r|]; [|reflexivity]. now apply (IHv k).
    + ifs H. rewrite (find_alike x x' _ AL K). destruct (find _ x'); [reflexivity|now apply (IHv k)].
    + now rewrite (findall_alike x x' _ AL H).
    + ifs H. apply bind_same; [now apply (IHc k)|]. intros w. destruct w; now apply (IHv k).
    + ifs H. apply bind_same; [now apply (IHv k)|]. intros w. destruct w; try reflexivity. now apply (IHv k).
  - intros k key c it o H. destruct k as [|k]; [discriminate|]. cbn [apart_c] in H. destruct c; cbn [crun]; fold (rrun warn) (vrun warn) (crun warn); try reflexivity.
    + now rewrite AT.
    + now rewrite (xattr_alike x x' _ AL).
    + now rewrite AX.
    + now rewrite AX.
    + now rewrite (find_alike x x' _ AL H).
    + apply bind_same; [now apply (IHv k)|reflexivity].
    + apply bind_same; [now apply (IHv k)|reflexivity].
    + apply bind_same; [now apply (IHc k)|reflexivity].
    + ifs H. apply bind_same; [now apply (IHc k)|]. intros [|]; [now apply (IHc k)|reflexivity].
    + ifs H. apply bind_same; [now apply (IHc k)|]. intros [|]; [reflexivity|now apply (IHc k)].
Qed.
End Same.
Definition apart_checked : bool :=
  if apart_r 60 "" [RCall "readIdentifiable" None] then
  if apart_r 60 "" [RCall "readReferenceBases" None] then
  apart_r 60 "" [RPut "setAdminData" (VGetX "getAdminData" (Some (TLit "ADMIN-DATA")))] else false else false.
Lemma apart_all : apart_checked = true.
Proof. vm_compute. reflexivity. Qed.

(** ** Elements that fall through a chain of tag tests *)
Fixpoint chain (n : nat) (l : list ri) : option (list string) :=
  match n, l with
  | S n, [RIf (CTag s) _ b] => option_map (cons s) (chain n b)
  | _, [RFail NotImplementedError true] => Some []
  | _, _ => None
  end.
Definition package_body : list ri :=
  [RIf (CTag "AR-PACKAGE") [RCreate "createARPackage" true [RCall "readARPackage" None]] [RFail NotImplementedError true]].
Lemma packages_eq : assoc "readARPackages" rfuns = Some ([RFor (PLit "AR-PACKAGES/*") package_body], None).
Proof. vm_compute. reflexivity. Qed.
Definition package_code : list ri :=
  [RIf (CObjHas [GA "short_name"]) [] [RFail TypeError false]; RCall "readIdentifiable" None; RCall "readARPackages" None; RCall "readARPackageElements" None; RCall "readReferenceBases" None].
Lemma package_eq : assoc "readARPackage" rfuns = Some (package_code, None).
Proof. vm_compute. reflexivity. Qed.
Definition chain_checked : bool :=
  match chain 150 element_body with
  | Some l => forallb (fun t => existsb (fun p => String.eqb (fst p) t) readable_elements) l
  | None => false
  end.
Lemma chain_all : chain_checked = true.
Proof. vm_compute. reflexivity. Qed.

Definition fallen (warn : bool) (o : val) : out val := if warn then Done o else Exc NotImplementedError.
Local Opaque access_of init named_init wfuns rfuns element_body.
Lemma miss_run : forall warn k l tags y key it, chain k l = Some tags -> ~ In (xtag y) tags ->
  forall m o, (rrun warn m l key y it o = NoFuel \/ rrun warn m l key y it o = fallen warn o) /\ (S (S k) <= m -> rrun warn m l key y it o = fallen warn o).
Proof.
  intros warn. assert (B : forall m key y it o, (rrun warn m [RFail NotImplementedError true] key y it o = NoFuel \/ rrun warn m [RFail NotImplementedError true] key y it o = fallen warn o) /\ (2 <= m -> rrun warn m [RFail NotImplementedError true] key y it o = fallen warn o)).
  { intros m key y it o. destruct m as [|[|m]]; [split; [now left|lia]| |].
    - split; [|lia]. cbn [rrun andb]. destruct warn; cbn; auto.
    - split; [right|intros _]; cbn [rrun andb]; destruct warn; reflexivity. }
  induction k as [|k IH]; intros l tags y key it C N m o; cbn [chain] in C.
  - destruct l as [|[] [|]]; try discriminate; destruct e; try discriminate; destruct soft; try discriminate. destruct (B m key y it o) as [B1 B2]. split; [exact B1|intros; apply B2; lia].
  - destruct l as [|[] [|]]; try discriminate; try (destruct c; discriminate); try (destruct e; try discriminate; destruct soft; discriminate).
    + destruct c; try discriminate. destruct (chain k b) as [tl|] eqn:CB; [|discriminate]. cbn [option_map] in C. injection C as <-.
      assert (NE : String.eqb (xtag y) s = false). { apply String.eqb_neq. intros Q. apply N. left. now symmetry. }
      assert (N' : ~ In (xtag y) tl). { intros I. apply N. now right. }
      destruct m as [|[|m]]; [split; [now left|lia]|split; [now left|lia]|].
      change (rrun warn (S (S m)) [RIf (CTag s) a b] key y it o) with
        (obind (obind (crun warn (S m) (CTag s) key y it o) (fun t => rrun warn (S m) (if t then a else b) key y it o)) (fun o1 => rrun warn (S m) [] key y it o1)).
      cbn [crun]. rewrite NE. cbn [obind]. destruct (IH b tl y key it CB N' (S m) o) as [H1 H2]. split.
      * destruct H1 as [-> | ->]; [now left|right]. destruct warn; reflexivity.
      * intros L. rewrite H2 by lia. destruct warn; reflexivity.
    + destruct e; try discriminate; destruct soft; try discriminate. destruct (B m key y it o) as [B1 B2]. split; [exact B1|intros; apply B2; lia].
Qed.
Lemma miss_element : forall warn y it m o, known y = false ->
  (rrun warn m element_body "" y it o = NoFuel \/ rrun warn m element_body "" y it o = fallen warn o) /\ (200 <= m -> rrun warn m element_body "" y it o = fallen warn o).
Proof.
  intros warn y it m o K. pose proof chain_all as C. unfold chain_checked in C. destruct (chain 150 element_body) as [l|] eqn:E; [|discriminate].
  rewrite forallb_forall in C. destruct (miss_run warn _ _ _ y "" it E) with (m := m) (o := o) as [H1 H2].
  - intros I. specialize (C _ I). unfold known in K. rewrite C in K. discriminate.
  - split; [exact H1|]. intros. apply H2. lia.
Qed.
Lemma miss_package : forall warn y it m o, is_package y = false ->
  (rrun warn m package_body "" y it o = NoFuel \/ rrun warn m package_body "" y it o = fallen warn o) /\ (200 <= m -> rrun warn m package_body "" y it o = fallen warn o).
Proof.
  intros warn y it m o K. destruct (miss_run warn 1 package_body ["AR-PACKAGE"] y "" it eq_refl) with (m := m) (o := o) as [H1 H2].
  - intros [I|[]]. unfold is_package in K. rewrite <- I in K. discriminate.
  - split; [exact H1|]. intros. apply H2. lia.
Qed.

(** ** Packages that differ only in unknown elements *)
Section Ind.
Context (P : xml -> Prop) (H : forall t a s kids, Forall (fun k => P k /\ Forall P (xkids k)) kids -> P (El t a s kids)).
Fixpoint xml_ind2 (x : xml) : P x /\ Forall P (xkids x).
Proof.
  destruct x as [t a s kids]. cbn [xkids].
  assert (F : Forall (fun k => P k /\ Forall P (xkids k)) kids). { induction kids as [|k kids IH]; constructor; [apply xml_ind2|exact IH]. }
  split; [apply H; exact F|]. induction F as [|k kids [K _] _ IH]; constructor; auto.
Defined.
End Ind.

Inductive differ : xml -> xml -> Prop :=
| Differ : forall x x', alike x x' ->
    filter known (findall "ELEMENTS/*" x) = filter known (findall "ELEMENTS/*" x') ->
    differs (filter is_package (findall "AR-PACKAGES/*" x)) (filter is_package (findall "AR-PACKAGES/*" x')) ->
    differ x x'
with differs : list xml -> list xml -> Prop :=
| differ_nil : differs [] []
| differ_cons : forall x x' l l', differ x x' -> differs l l' -> differs (x :: l) (x' :: l').
Scheme differ_mut := Induction for differ Sort Prop with differs_mut := Induction for differs Sort Prop.
Lemma alike_sym : forall x x', alike x x' -> alike x' x.
Proof. intros x x' (A & B & C & D). repeat split; auto. Qed.
Lemma differ_sym : forall x x', differ x x' -> differ x' x.
Proof.
  refine (differ_mut (fun x x' _ => differ x' x) (fun l l' _ => differs l' l) _ _ _).
  - intros x x' A E D IH. constructor; [now apply alike_sym|now symmetry|exact IH].
  - constructor.
  - intros. now constructor.
Qed.

Definition clean_kid (k : xml) : xml :=
  match k with
  | El t' a' s' kids' =>
      if String.eqb t' "ELEMENTS" then El t' a' s' (filter known kids')
      else if String.eqb t' "AR-PACKAGES"
           then El t' a' s' (flat_map (fun y => if is_package y then [clean y] else []) kids')
           else k
  end.
Lemma clean_eq : forall t a s kids, clean (El t a s kids) = El t a s (map clean_kid kids).
Proof. reflexivity. Qed.
Lemma clean_kid_tag : forall k, xtag (clean_kid k) = xtag k.
Proof. intros [t a s kids]. cbn [clean_kid]. destruct (String.eqb t "ELEMENTS"); [reflexivity|]. destruct (String.eqb t "AR-PACKAGES"); reflexivity. Qed.
Lemma clean_outside : forall k, outside (clean_kid k) = outside k.
Proof. intros k. unfold outside. now rewrite clean_kid_tag. Qed.
Lemma clean_has : forall t k, has_tag t (clean_kid k) = has_tag t k.
Proof. intros t k. unfold has_tag. now rewrite clean_kid_tag. Qed.
Lemma clean_package : forall y, is_package (clean y) = is_package y.
Proof. intros [t a s kids]. reflexivity. Qed.
Lemma two_steps : forall t x, String.eqb t "*" = false -> String.eqb t "." = false -> steps [t; "*"] x = flat_map xkids (filter (has_tag t) (xkids x)).
Proof.
  intros t x A B. cbn [steps]. assert (E : step t x = filter (has_tag t) (xkids x)) by (unfold step; now rewrite A, B). rewrite E.
  apply flat_map_ext. intros k. change (step "*" k) with (xkids k). induction (xkids k) as [|y r IH]; [reflexivity|]. cbn [flat_map app]. now f_equal.
Qed.
Lemma elements_steps : forall x, findall "ELEMENTS/*" x = flat_map xkids (filter (has_tag "ELEMENTS") (xkids x)).
Proof. intros x. exact (two_steps "ELEMENTS" x eq_refl eq_refl). Qed.
Lemma packages_steps : forall x, findall "AR-PACKAGES/*" x = flat_map xkids (filter (has_tag "AR-PACKAGES") (xkids x)).
Proof. intros x. exact (two_steps "AR-PACKAGES" x eq_refl eq_refl). Qed.
Lemma filter_filter : forall A (f : A -> bool) l, filter f (filter f l) = filter f l.
Proof. induction l as [|a l IH]; [reflexivity|]. cbn [filter]. destruct (f a) eqn:E; [cbn [filter]; rewrite E; now f_equal|exact IH]. Qed.
Lemma differs_app : forall a a' b b', differs a a' -> differs b b' -> differs (a ++ b) (a' ++ b').
Proof. induction a as [|x a IH]; intros a' b b' A B; inversion A; subst; [exact B|]. cbn [app]. constructor; auto. Qed.
Lemma differ_clean : forall x, differ x (clean x).
Proof.
  intros x. refine (proj1 (xml_ind2 (fun x => differ x (clean x)) _ x)). clear x. intros t a s kids F. rewrite clean_eq. constructor.
  - repeat split. cbn [xkids]. clear F. induction kids as [|k kids IH]; [reflexivity|]. cbn [map filter]. rewrite IH, clean_outside.
    destruct (outside k) eqn:O; [|reflexivity]. f_equal. destruct k as [t' a' s' kids']. unfold outside in O. cbn [xtag] in O. cbn [clean_kid].
    destruct (String.eqb t' "ELEMENTS"); [discriminate|]. destruct (String.eqb t' "AR-PACKAGES"); [discriminate|reflexivity].
  - rewrite !elements_steps. cbn [xkids]. clear F. induction kids as [|k kids IH]; [reflexivity|]. cbn [map filter]. rewrite clean_has.
    destruct (has_tag "ELEMENTS" k) eqn:T; [|exact IH]. cbn [flat_map]. rewrite !filter_app, IH. f_equal. destruct k as [t' a' s' kids']. unfold has_tag in T. cbn [xtag] in T. cbn [clean_kid]. rewrite T. cbn [xkids]. now rewrite filter_filter.
  - rewrite !packages_steps. cbn [xkids]. induction F as [|k kids [_ FK] F IH]; [constructor|]. cbn [map filter]. rewrite clean_has.
    destruct (has_tag "AR-PACKAGES" k) eqn:T; [|exact IH]. cbn [flat_map]. rewrite !filter_app. apply differs_app; [|exact IH]. clear IH F. destruct k as [t' a' s' kids']. unfold has_tag in T. cbn [xtag] in T. cbn [clean_kid].
    rewrite T. destruct (String.eqb_spec t' "ELEMENTS") as [->|_]; [discriminate T|]. cbn [xkids] in *. clear T. induction FK as [|y r Y _ IHr]; [constructor|]. cbn [flat_map filter].
    destruct (is_package y) eqn:Q; [|exact IHr]. cbn [app filter]. rewrite clean_package, Q. now constructor.
Qed.

(** ** Warning mode *)
Lemma fold_skip : forall A S (f : A -> S -> out S) (p : A -> bool), (forall a s, p a = false -> f a s = NoFuel \/ f a s = Done s) ->
  forall l s, le_out (fold_out f l s) (fold_out f (filter p l) s).
Proof.
  intros A S f p H. induction l as [|a l IH]; intros s; [apply le_refl|]. cbn [filter]. destruct (p a) eqn:P; cbn [fold_out].
  - apply le_bind; [apply le_refl|auto].
  - destruct (H a s P) as [-> | ->]; [apply le_nofuel|apply IH].
Qed.
Lemma fold_skip_eq : forall A S (f : A -> S -> out S) (p : A -> bool), (forall a s, p a = false -> f a s = Done s) ->
  forall l s, fold_out f l s = fold_out f (filter p l) s.
Proof.
  intros A S f p H. induction l as [|a l IH]; intros s; [reflexivity|]. cbn [filter]. destruct (p a) eqn:P; cbn [fold_out].
  - apply bind_same; auto.
  - rewrite H by exact P. cbn [obind]. apply IH.
Qed.
Lemma apart_parts : apart_r 60 "" [RCall "readIdentifiable" None] = true /\ apart_r 60 "" [RCall "readReferenceBases" None] = true /\
  apart_r 60 "" [RPut "setAdminData" (VGetX "getAdminData" (Some (TLit "ADMIN-DATA")))] = true.
Proof. vm_compute. auto. Qed.
Lemma short_packages : forall x x', alike x x' -> short_name x = short_name x'.
Proof. exact short_alike. Qed.

Lemma cons_run : forall warn n i rest key x it o, rrun warn (S n) (i :: rest) key x it o = obind (rrun warn (S n) [i] key x it o) (fun o1 => rrun warn n rest key x it o1) \/ n = 0.
Proof.
  intros. destruct n as [|n]; [now right|left]. cbn [rrun]. fold (rrun warn) (vrun warn) (crun warn).
  match goal with |- obind ?a _ = obind (obind ?a' _) _ => generalize a end. intros [o1| | |]; reflexivity.
Qed.

(** [b] is what [a] becomes on a document with other unknown elements *)
Definition rel (warn : bool) (a b : out val) : Prop :=
  if warn then le_out a b else forall v, a = Done v -> b = Done v \/ b = Exc NotImplementedError.
Lemma rel_le : forall warn a b, le_out a b -> rel warn a b.
Proof. intros [|] a b H; [exact H|]. intros v E. left. eapply le_done; eassumption. Qed.
Lemma rel_bind : forall warn a a' f f', rel warn a a' -> (forall v, rel warn (f v) (f' v)) -> rel warn (obind a f) (obind a' f').
Proof.
  intros [|] a a' f f' A F; [now apply le_bind|]. intros v E. destruct a as [u| | |]; try discriminate. destruct (A u eq_refl) as [-> | ->]; [exact (F u v E)|now right].
Qed.
Lemma rel_nofuel : forall warn b, rel warn NoFuel b.
Proof. intros. apply rel_le, le_nofuel. Qed.
Lemma fold_pairs : forall warn A (D : A -> A -> Prop) (f g : A -> val -> out val) (p : A -> bool), (forall a a' s, D a a' -> p a = true -> p a' = true -> rel warn (f a s) (g a' s)) ->
  forall l l', Forall2 D l l' -> Forall (fun a => p a = true) l -> Forall (fun a => p a = true) l' -> forall s, rel warn (fold_out f l s) (fold_out g l' s).
Proof.
  intros warn A D f g p H l l' F. induction F as [|a a' l l' DA F IH]; intros P P' s; [apply rel_le, le_refl|]. inversion P; subst. inversion P'; subst. cbn [fold_out]. apply rel_bind; auto.
Qed.
Lemma all_filter : forall A (p : A -> bool) l, Forall (fun a => p a = true) (filter p l).
Proof. intros. apply Forall_forall. intros a I. now apply filter_In in I. Qed.
Lemma rel_fold : forall warn A (D : A -> A -> Prop) (f g : A -> val -> out val) (p : A -> bool),
  (forall a a' s, D a a' -> p a = true -> p a' = true -> rel warn (f a s) (g a' s)) ->
  (forall a s, p a = false -> f a s = NoFuel \/ f a s = fallen warn s) ->
  (forall a s, p a = false -> g a s = fallen warn s) ->
  forall l l', Forall2 D (filter p l) (filter p l') -> forall s, rel warn (fold_out f l s) (fold_out g l' s).
Proof.
  intros warn A D f g p H1 H2 H3 l l' F s. pose proof (fold_pairs warn A D f g p H1 _ _ F (all_filter _ _ _) (all_filter _ _ _) s) as M. destruct warn; cbn [rel fallen] in *.
  - eapply le_trans; [apply (fold_skip _ _ f p H2)|]. eapply le_trans; [exact M|]. rewrite (fold_skip_eq _ _ g p H3 l'). apply le_refl.
  - intros v E. assert (E1 : fold_out f (filter p l) s = Done v).
    { clear M F. revert s E. induction l as [|a l IH]; intros s E; [exact E|]. cbn [fold_out filter] in *. destruct (p a) eqn:P.
      - cbn [fold_out]. destruct (f a s); try discriminate E. cbn [obind] in *. auto.
      - destruct (H2 a s P) as [Q | Q]; rewrite Q in E; discriminate E. }
    specialize (M v E1). clear -M H3. revert s M. induction l' as [|a l' IH]; intros s M; [exact M|]. cbn [fold_out filter] in *. destruct (p a) eqn:P.
    + cbn [fold_out] in M. destruct (g a s); cbn [obind] in *; auto.
    + rewrite H3 by exact P. now right.
Qed.
Lemma differs_all : forall l l', differs l l' -> Forall2 differ l l'.
Proof. induction l; intros l' D; inversion D; subst; constructor; auto. Qed.
Lemma eq_all : forall A (l : list A), Forall2 eq l l.
Proof. induction l; constructor; auto. Qed.

Lemma call_run : forall warn n f b key x it o, assoc f rfuns = Some (b, None) ->
  rrun warn (S n) [RCall f None] key x it o = obind (rrun warn n b "" x VNone o) (fun o1 => rrun warn n [] key x it o1).
Proof. intros warn n f b key x it o A. cbn [rrun]. rewrite A. cbn [rtag]. destruct (rrun warn n b "" x VNone o); reflexivity. Qed.
Lemma call_sim : forall warn n f b key x x' it o, assoc f rfuns = Some (b, None) ->
  (forall m o, m < n -> rel warn (rrun warn m b "" x VNone o) (rrun warn (m + 200) b "" x' VNone o)) ->
  rel warn (rrun warn n [RCall f None] key x it o) (rrun warn (n + 200) [RCall f None] key x' it o).
Proof.
  intros warn n f b key x x' it o A H. destruct n as [|n]; [apply rel_nofuel|]. cbn [Nat.add]. rewrite !(call_run _ _ _ _ _ _ _ _ A).
  apply rel_bind; [apply H; lia|]. intros v. apply rel_le. destruct n as [|n]; [apply le_nofuel|apply le_refl].
Qed.
Lemma for_run : forall warn n p b key x it o, rrun warn (S n) [RFor p b] key x it o = obind (fold_out (fun y s => rrun warn n b key y it s) (findall (rkey key p) x) o) (fun o1 => rrun warn n [] key x it o1).
Proof. reflexivity. Qed.
Lemma nil_rel : forall warn n key x x' it o, rel warn (rrun warn n [] key x it o) (rrun warn (n + 200) [] key x' it o).
Proof. intros. apply rel_le. destruct n; [apply le_nofuel|apply le_refl]. Qed.
Lemma apart_rel : forall warn n i x x' it o, alike x x' -> apart_r 60 "" [i] = true -> rel warn (rrun warn n [i] "" x it o) (rrun warn (n + 200) [i] "" x' it o).
Proof. intros warn n i x x' it o A H. rewrite <- (proj1 (apart_same warn x x' A (n + 200)) _ _ _ it o H). apply rel_le, rrun_le. lia. Qed.
Lemma cons_rel : forall warn n i rest key x x' it o, 
  (forall m o, m <= n -> rel warn (rrun warn m [i] key x it o) (rrun warn (m + 200) [i] key x' it o)) ->
  (forall m o, m <= n -> rel warn (rrun warn m rest key x it o) (rrun warn (m + 200) rest key x' it o)) ->
  rel warn (rrun warn n (i :: rest) key x it o) (rrun warn (n + 200) (i :: rest) key x' it o).
Proof.
  intros warn n i rest key x x' it o A B. destruct n as [|n]; [apply rel_nofuel|]. destruct n as [|n].
  - destruct (cons_run warn 200 i rest key x' it o) as [E|E]; [|discriminate E]. change (1 + 200) with (S 200). rewrite E.
    replace (rrun warn 1 (i :: rest) key x it o) with (obind (rrun warn 1 [i] key x it o) (fun o1 => rrun warn 0 rest key x it o1)).
    + apply rel_bind; [apply (A 1); lia|]. intros. apply rel_nofuel.
    + cbn [rrun]. match goal with |- obind (obind ?a _) _ = _ => generalize a end. intros [| | |]; reflexivity.
  - destruct (cons_run warn (S n) i rest key x it o) as [E|E]; [|discriminate E]. rewrite E. destruct (cons_run warn (S n + 200) i rest key x' it o) as [E'|E']; [|discriminate E']. change (S (S n) + 200) with (S (S n + 200)). rewrite E'.
    apply rel_bind; [apply (A (S (S n))); lia|]. intros. apply B. lia.
Qed.
Definition body_sim (warn : bool) (n : nat) : Prop := forall m x x' it o, m < n -> differ x x' -> is_package x = true -> is_package x' = true ->
  rel warn (rrun warn m package_body "" x it o) (rrun warn (m + 200) package_body "" x' it o).
Lemma packages_sim : forall warn n x x' it o key, body_sim warn n -> differ x x' ->
  rel warn (rrun warn n [RCall "readARPackages" None] key x it o) (rrun warn (n + 200) [RCall "readARPackages" None] key x' it o).
Proof.
  intros warn n x x' it o key B D. apply (call_sim _ _ _ _ _ _ _ _ _ packages_eq). intros m s L. destruct m as [|m]; [apply rel_nofuel|]. cbn [Nat.add]. rewrite !for_run.
  apply rel_bind; [|intros; apply nil_rel]. cbn [rkey]. apply rel_fold with (D := differ) (p := is_package).
  - intros. apply B; auto. lia.
  - intros a r P. apply (miss_package warn a VNone m r P).
  - intros a r P. apply (miss_package warn a VNone (m + 200) r P). lia.
  - inversion D; subst. now apply differs_all.
Qed.
Lemma elements_sim : forall warn n x x' it o key, differ x x' ->
  rel warn (rrun warn n [RCall "readARPackageElements" None] key x it o) (rrun warn (n + 200) [RCall "readARPackageElements" None] key x' it o).
Proof.
  intros warn n x x' it o key D. apply (call_sim _ _ _ _ _ _ _ _ _ body_eq). intros m s L. destruct m as [|m]; [apply rel_nofuel|]. cbn [Nat.add]. rewrite !for_run.
  apply rel_bind; [|intros; apply nil_rel]. cbn [rkey]. apply rel_fold with (D := eq) (p := known).
  - intros a a' r -> _ _. apply rel_le, rrun_le. lia.
  - intros a r P. apply (miss_element warn a VNone m r P).
  - intros a r P. apply (miss_element warn a VNone (m + 200) r P). lia.
  - inversion D as [? ? _ E _]; subst. rewrite E. apply eq_all.
Qed.
Lemma body_sim_le : forall warn n m, body_sim warn n -> m <= n -> body_sim warn m.
Proof. intros warn n m B L k x x' it o K. apply B. lia. Qed.
Lemma package_sim : forall warn n x x' it o, body_sim warn n -> differ x x' ->
  rel warn (rrun warn n package_code "" x it o) (rrun warn (n + 200) package_code "" x' it o).
Proof.
  intros warn n x x' it o B D. destruct apart_parts as (P1 & P2 & _). inversion D as [? ? A _ _]; subst. unfold package_code.
  apply cons_rel; [intros; apply apart_rel; [assumption|reflexivity]|]. intros.
  apply cons_rel; [intros; now apply apart_rel|]. intros. apply cons_rel; [intros; apply packages_sim; auto; apply (body_sim_le _ n); auto; lia|].
  intros. apply cons_rel; [intros; now apply elements_sim|]. intros. now apply apart_rel.
Qed.
Lemma package_body_run : forall warn m x it c fs p nm, is_package x = true -> access_of c "createARPackage" = Some (ANew nm true p) ->
  rrun warn (S (S m)) package_body "" x it (VObj c fs) =
  obind (obind (obind (do s <- of_res (short_name x); Done (of_opt_str s)) (fun w => obind (rrun warn m [RCall "readARPackage" None] "" x it (named_init nm w)) (fun u => store (VObj c fs) p u)))
    (fun o1 => rrun warn m [] "" x it o1)) (fun o1 => rrun warn (S m) [] "" x it o1).
Proof.
  intros warn m x it c fs p nm P A. unfold is_package in P. unfold package_body. cbn [rrun]. fold (rrun warn) (vrun warn) (crun warn). cbn [crun]. rewrite P. cbn [obind]. rewrite A. cbn [Bool.eqb negb]. reflexivity.
Qed.
Lemma body_other : forall warn m x x' it o, is_package x = true -> is_package x' = true -> 
  (forall c fs, o = VObj c fs -> forall p nm, access_of c "createARPackage" <> Some (ANew nm true p)) ->
  rel warn (rrun warn m package_body "" x it o) (rrun warn (m + 200) package_body "" x' it o).
Proof.
  intros warn m x x' it o P P' H. destruct m as [|[|m]]; [apply rel_nofuel|apply rel_nofuel|]. cbn [Nat.add]. unfold is_package in P, P'.
  unfold package_body. cbn [rrun]. fold (rrun warn) (vrun warn) (crun warn). cbn [crun]. rewrite P, P'. cbn [obind].
  destruct o as [| | |c fs|]; try (apply rel_le, le_refl). specialize (H c fs eq_refl). destruct (access_of c "createARPackage") as [[| | | |nm [|] p]|]; try (apply rel_le, le_refl).
  exfalso. exact (H p nm eq_refl).
Qed.
Lemma body_sims : forall warn n, body_sim warn n.
Proof.
  intros warn n. induction n as [n IH] using lt_wf_ind. intros m x x' it o L D P P'.
  assert (C : (exists c fs p nm, o = VObj c fs /\ access_of c "createARPackage" = Some (ANew nm true p)) \/ (forall c fs, o = VObj c fs -> forall p nm, access_of c "createARPackage" <> Some (ANew nm true p))).
  { destruct o as [| | |c fs|]; try (right; intros; discriminate). destruct (access_of c "createARPackage") as [[| | | |nm [|] p]|] eqn:A; try (right; intros ? ? E; injection E as <- <-; rewrite A; discriminate). left. eauto 10. }
  destruct C as [(c & fs & p & nm & -> & A)|C]; [|now apply body_other].
  destruct m as [|[|m]]; [apply rel_nofuel|apply rel_nofuel|]. cbn [Nat.add]. rewrite !(package_body_run _ _ _ _ _ _ _ _ P A), !(package_body_run _ _ _ _ _ _ _ _ P' A).
  inversion D as [? ? AL _ _]; subst. rewrite (short_alike _ _ AL).
  apply rel_bind; [|intros; apply (nil_rel warn (S m))]. apply rel_bind; [|intros; apply nil_rel].
  destruct (short_name x') as [s|e]; cbn [of_res obind]; [|apply rel_le, le_refl].
  apply rel_bind; [|intros; apply rel_le, le_refl]. apply (call_sim _ _ _ _ _ _ _ _ _ package_eq). intros k o L'. apply package_sim; [|exact D]. apply IH. lia.
Qed.
Lemma load_sim : forall warn n x x' it o, differ x x' -> rel warn (rrun warn n load_code "" x it o) (rrun warn (n + 200) load_code "" x' it o).
Proof.
  intros warn n x x' it o D. destruct apart_parts as (_ & _ & P). inversion D as [? ? A _ _]; subst. unfold load_code.
  apply cons_rel; [intros; now apply apart_rel|]. intros. apply packages_sim; [apply body_sims|exact D].
Qed.

Theorem warning_same : forall x u, loaded true x u <-> loaded true (clean x) u.
Proof.
  intros x u. pose proof (differ_clean x) as D. split; intros [n E]; exists (n + 200).
  - exact (le_done _ _ _ _ (load_sim true n _ _ _ _ D) E).
  - exact (le_done _ _ _ _ (load_sim true n _ _ _ _ (differ_sym _ _ D)) E).
Qed.
Theorem warning_same_error : forall x e, load_raises true x e <-> load_raises true (clean x) e.
Proof.
  intros x u. pose proof (differ_clean x) as D. split; intros [n E]; exists (n + 200).
  - exact (le_exc _ _ _ _ (load_sim true n _ _ _ _ D) E).
  - exact (le_exc _ _ _ _ (load_sim true n _ _ _ _ (differ_sym _ _ D)) E).
Qed.

(** ** Without warnings *)
Lemma fold_not_done : forall (f : xml -> val -> out val) a, (forall s v, f a s <> Done v) -> forall l, In a l -> forall s v, fold_out f l s <> Done v.
Proof.
  intros f a H. induction l as [|b l IH]; intros I s v E; [destruct I|]. cbn [fold_out] in E. destruct (f b s) as [s1| | |] eqn:F; try discriminate E. cbn [obind] in E.
  destruct I as [-> | I]; [exact (H _ _ F)|exact (IH I _ _ E)].
Qed.
Lemma call_not_done : forall n f b key x it o v, assoc f rfuns = Some (b, None) -> (forall m o v, rrun false m b "" x VNone o <> Done v) -> rrun false n [RCall f None] key x it o <> Done v.
Proof.
  intros n f b key x it o v A H E. destruct n as [|n]; [discriminate|]. rewrite (call_run _ _ _ _ _ _ _ _ A) in E. destruct (rrun false n b "" x VNone o) eqn:F; try discriminate E. exact (H _ _ _ F).
Qed.
Lemma packages_stop : forall x a n key it o v, In a (findall "AR-PACKAGES/*" x) -> (forall m it s v, rrun false m package_body "" a it s <> Done v) -> rrun false n [RCall "readARPackages" None] key x it o <> Done v.
Proof.
  intros x a n key it o v I H. apply (call_not_done _ _ _ _ _ _ _ _ packages_eq). intros m o' v' E. destruct m as [|m]; [discriminate|]. rewrite for_run in E. cbn [rkey] in E.
  destruct (fold_out _ _ _) eqn:F in E; try discriminate E. revert F. apply (fold_not_done _ a); auto.
Qed.
Lemma elements_stop : forall x a n key it o v, In a (findall "ELEMENTS/*" x) -> (forall m it s v, rrun false m element_body "" a it s <> Done v) -> rrun false n [RCall "readARPackageElements" None] key x it o <> Done v.
Proof.
  intros x a n key it o v I H. apply (call_not_done _ _ _ _ _ _ _ _ body_eq). intros m o' v' E. destruct m as [|m]; [discriminate|]. rewrite for_run in E. cbn [rkey] in E.
  destruct (fold_out _ _ _) eqn:F in E; try discriminate E. revert F. apply (fold_not_done _ a); auto.
Qed.
Lemma cons_done : forall warn n i rest key x it o v, rrun warn n (i :: rest) key x it o = Done v -> exists o1, (exists m, rrun warn m [i] key x it o = Done o1) /\ exists m, rrun warn m rest key x it o1 = Done v.
Proof.
  intros warn n i rest key x it o v E. destruct n as [|n]; [discriminate|]. destruct (cons_run warn n i rest key x it o) as [Q|Q].
  - rewrite Q in E. destruct (rrun warn (S n) [i] key x it o) as [o1| | |] eqn:F; try discriminate E. exists o1. split; [exists (S n); exact F|exists n; exact E].
  - subst n. cbn [rrun] in E. match type of E with obind ?a _ = _ => destruct a; discriminate E end.
Qed.
Lemma package_stop : forall a, (forall m o v, rrun false m package_code "" a VNone o <> Done v) -> forall m it s v, rrun false m package_body "" a it s <> Done v.
Proof.
  intros a H m it s v E. destruct (is_package a) eqn:P.
  - destruct m as [|[|m]]; [discriminate|discriminate|]. unfold is_package in P. unfold package_body in E. cbn [rrun] in E. fold (rrun false) (vrun false) (crun false) in E. cbn [crun] in E. rewrite P in E. cbn [obind] in E.
    destruct s as [| | |c fs|]; try discriminate E. destruct (access_of c "createARPackage") as [[| | | |nm [|] p]|]; try discriminate E. cbn [Bool.eqb negb] in E.
    destruct (short_name a) as [sn|]; [|discriminate E]. cbn [of_res obind] in E. destruct m as [|m]; [discriminate E|]. rewrite (call_run _ _ _ _ _ _ _ _ package_eq) in E.
    destruct (rrun false m package_code "" a VNone (named_init nm (of_opt_str sn))) eqn:F; try discriminate E. exact (H _ _ _ F).
  - destruct (miss_package false a it m s P) as [[Q|Q] _]; rewrite Q in E; discriminate E.
Qed.
Lemma unknown_stop : forall x, unknown_in x -> forall m o v, rrun false m package_code "" x VNone o <> Done v.
Proof.
  intros x U. induction U as [x y I K|x y I K|x y I K U IH]; intros m o v E; unfold package_code in E;
    apply cons_done in E; destruct E as (o0 & _ & m0 & E); apply cons_done in E; destruct E as (o1 & _ & m1 & E); apply cons_done in E; destruct E as (o2 & [k E2] & m2 & E).
  - apply cons_done in E. destruct E as (o3 & [k3 E3] & _). revert E3. apply (elements_stop x y); [exact I|]. intros k' it s w F. destruct (miss_element false y it k' s K) as [[Q|Q] _]; rewrite Q in F; discriminate F.
  - revert E2. apply (packages_stop x y); [exact I|]. intros k' it s w F. destruct (miss_package false y it k' s K) as [[Q|Q] _]; rewrite Q in F; discriminate F.
  - revert E2. apply (packages_stop x y); [exact I|]. apply package_stop. exact IH.
Qed.
Theorem strict_stops : forall x u, unknown_in_root x -> ~ loaded false x u.
Proof.
  intros x u U [n E]. unfold load_code in E. apply cons_done in E. destruct E as (o1 & _ & m & E). revert E. destruct U as [y I K|y I K U]; apply (packages_stop x y); auto.
  - intros k' it s w F. destruct (miss_package false y it k' s K) as [[Q|Q] _]; rewrite Q in F; discriminate F.
  - apply package_stop. now apply unknown_stop.
Qed.
Theorem strict_raises : forall x u, unknown_in_root x -> loaded false (clean x) u -> load_raises false x NotImplementedError.
Proof.
  intros x u U [n E]. exists (n + 200). destruct (load_sim false n _ _ VNone (init "AUTOSAR") (differ_sym _ _ (differ_clean x)) u E) as [D|D]; [|exact D].
  exfalso. apply (strict_stops x u U). exists (n + 200). exact D.
Qed.
