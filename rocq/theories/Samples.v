(** For every class of the domain an object that meets [ok] and has every attribute of the domain set:
    the hypotheses of the round-trip theorems can be met for each class and each attribute. *)
From Coq Require Import String Ascii List Bool ZArith Lia.
From Verif Require Import PyBase Primitives SpecNum Xml Leaf SpecLeaf Ir Access IrSem Domain SpecDomain IrCheck IrWrite.
Import ListNotations.
Open Scope string_scope.
Open Scope list_scope.

Definition num_sample : numerical := mkNum None None (Some (NInt 7)) None (Some "0x7").
Definition leaf_sample (k : rkind) : lval :=
  match k with
  | RLiteral => LLit "ARLiteral" (mkLit (Some "t") (Some "u") (Some "text"))
  | RVerbatim => LLit "VerbatimString" (mkLit None (Some "u") (Some "a  b"))
  | RIdentifier => LLit "Identifier" (mkLit None None (Some "id"))
  | RRevision => LLit "RevisionLabelString" (mkLit None None (Some "1.2.3"))
  | RFloat => LNum "ARFloat" num_sample
  | RTime => LNum "TimeValue" num_sample
  | RBool => LBool (mkBool (Some "t") None (Some true) (Some "true"))
  | RNumerical => LNum "ARNumerical" num_sample
  | RInteger => LNum "Integer" num_sample
  | RPositive => LNum "PositiveInteger" num_sample
  | RLimit => LLimit (mkLimit None (Some "u") (Some (mkLit None None (Some "CLOSED"))) (Some "5"))
  | RRef => LRef (mkRef (Some "base") (Some "DEST") (Some "/a/b"))
  | RLitItem => LLit "ARLiteral" (mkLit None None (Some "item"))
  | RFloatItem => LNum "ARFloat" num_sample
  | RNumItem => LNum "ARNumerical" num_sample
  end.
Lemma num_sample_ok : text_assigned num_sample.
Proof. exists KPos, num_new, "0x7". reflexivity. Qed.
Lemma leaf_sample_ok : forall k, leaf_ok k (leaf_sample k).
Proof.
  assert (NS : forall c (P : numerical -> Prop), P num_sample -> number c (LNum c num_sample) P).
  { intros c P H. exists num_sample. split; [reflexivity|]. split; [exact num_sample_ok|exact H]. }
  destruct k; cbn [leaf_ok leaf_sample]; try (apply NS; repeat split; try reflexivity).
  - repeat eexists.
  - repeat eexists.
  - repeat eexists.
  - eexists _, _, _. split; [reflexivity|]. exists "1", "2", "3", "". split; [reflexivity|]. repeat constructor; discriminate.
  - exists (Some "t"), true, "true". split; [reflexivity|]. split; [reflexivity|]. now constructor.
  - intros v E. injection E as <-. cbn. lia.
  - exists None, (Some "u"), (Some "CLOSED"), (Some "5"). split; [reflexivity|discriminate].
  - eexists. split; [reflexivity|discriminate].
  - eexists. split; [reflexivity|discriminate].
Qed.

(** [sample fuel n nm c]: an object of class [c] named [nm] with the attributes of [domain] set,
    those that may be left out down to depth [n] only *)
Definition nth_name (f : string) (i : nat) : string := f ++ String (ascii_of_nat (48 + i)) "".
Fixpoint number_from {A} (i : nat) (l : list A) : list (nat * A) :=
  match l with [] => [] | x :: r => (i, x) :: number_from (S i) r end.
Fixpoint options {A} (l : list (option A)) : option (list A) :=
  match l with
  | [] => Some []
  | Some x :: r => option_map (cons x) (options r)
  | None :: _ => None
  end.
Definition some_list (v : val) : bool :=
  match v with VObj _ fs => existsb (fun p => match snd p with VList (_ :: _) => true | _ => false end) fs | _ => false end.
Section Sample.
Context (rec : nat -> string -> string -> option val).
Definition sample_field (n : nat) (nm f : string) (t : ftype) : option val :=
  match t with
  | FLeaf _ k => Some (VLeaf (leaf_sample k))
  | FLeafs k => Some (VList (map VLeaf [leaf_sample k; leaf_sample k]))
  | FWrap c => Some (VLeaf (LLit c (mkLit None None (Some "wrapped"))))
  | FAttr _ => Some (VStr "attribute")
  | FAttrOf c => Some (VLeaf (LLit c (mkLit None None (Some "attribute"))))
  | FText => Some (VStr "text")
  | FTextOf c => Some (VLeaf (LLit c (mkLit None None (Some "some text"))))
  | FName => if String.eqb nm "" then None else Some (VStr nm)
  | FObj m cs =>
      match n, cs with
      | S n', c :: _ => rec n' (nth_name f 0) c
      | 0, c :: _ => if m then rec 0 (nth_name f 0) c else Some VNone
      | _, [] => None
      end
  | FObjs s cs =>
      match n with
      | S n' => option_map VList (options (map (fun p => rec n' (nth_name f (fst p)) (snd p)) (number_from 0 (if s then firstn 1 cs else cs))))
      | 0 => Some (VList [])
      end
  | FPart c => rec (pred n) (nth_name f 0) c
  | FPartAny c =>
      match n with
      | S n' => match rec (S n') (nth_name f 0) c with Some v => if some_list v then Some v else None | None => None end
      | 0 => Some VNone
      end
  end.
Definition sample_obj (n : nat) (nm c : string) : option val :=
  match assoc c domain with
  | None => None
  | Some ft =>
      match options (map (fun p => option_map (pair (fst p))
                            match assoc (fst p) ft with
                            | Some t => sample_field n nm (fst p) t
                            | None => default c (fst p)
                            end) (attrs_of c)) with
      | Some fs => if nodupb (names_below (VObj c fs)) then Some (VObj c fs) else None
      | None => None
      end
  end.
End Sample.
Fixpoint sample (fuel n : nat) (nm c : string) : option val :=
  match fuel with 0 => None | S fuel => sample_obj (sample fuel) n nm c end.

Lemma options_all : forall A (l : list (option A)) r, options l = Some r -> Forall2 (fun o x => o = Some x) l r.
Proof.
  induction l as [|o l IH]; intros r H; cbn [options] in H; [injection H as <-; constructor|].
  destruct o as [x|]; [|discriminate]. destruct (options l) as [r'|]; [|discriminate]. injection H as <-. constructor; [reflexivity|]. now apply IH.
Qed.
Lemma options_length : forall A (l : list (option A)) r, Forall2 (fun o x => o = Some x) l r -> length l = length r.
Proof. induction 1; cbn; congruence. Qed.
Local Opaque domain attrs_of init.
Lemma sample_field_ok : forall rec n nm f t v,
  (forall n nm c v, rec n nm c = Some v -> ok v /\ class_of v = Some c) ->
  sample_field rec n nm f t = Some v -> fok t v.
Proof.
  intros rec n nm f t v R H. destruct t; cbn [sample_field] in H.
  - injection H as <-. constructor. apply leaf_sample_ok.
  - injection H as <-. apply (fok_leafs k [leaf_sample k; leaf_sample k]). repeat constructor; apply leaf_sample_ok.
  - injection H as <-. constructor.
  - assert (X : forall n' c r, cs = c :: r -> rec n' (nth_name f 0) c = Some v -> fok (FObj must cs) v).
    { intros n' c r -> E. destruct (R _ _ _ _ E) as [O C]. apply fok_obj_some; [|exact O]. exists c. split; [exact C|now left]. }
    destruct n as [|n]; destruct cs as [|c cs]; try discriminate H.
    + destruct must; [now apply (X 0 c cs)|injection H as <-; constructor].
    + now apply (X n c cs).
  - destruct n as [|n]; [injection H as <-; apply fok_objs; [constructor|constructor|intros _; split; reflexivity]|].
    destruct (options _) as [vs|] eqn:E; [|discriminate H]. injection H as <-. apply options_all in E.
    assert (IN : forall p, In p (number_from 0 (if sorted then firstn 1 cs else cs)) -> In (snd p) cs).
    { assert (Y : forall A (l : list A) i p, In p (number_from i l) -> In (snd p) l).
      { induction l as [|x l IH]; intros i p I; [contradiction|]. destruct I as [<-|I]; [now left|right; eapply IH; exact I]. }
      intros p I. apply Y in I. destruct sorted; [|exact I]. destruct cs; [contradiction|]. cbn [firstn In] in I. destruct I as [<-|[]]. now left. }
    assert (V : forall w, In w vs -> exists p, In p (number_from 0 (if sorted then firstn 1 cs else cs)) /\ rec n (nth_name f (fst p)) (snd p) = Some w).
    { clear -E. revert vs E. generalize (number_from 0 (if sorted then firstn 1 cs else cs)). induction l as [|p l IH]; intros vs E w I; inversion E; subst; [contradiction|].
      destruct I as [<-|I]; [exists p; split; [now left|assumption]|]. destruct (IH _ H3 _ I) as (q & Iq & Eq). exists q. split; [now right|exact Eq]. }
    constructor.
    + apply Forall_forall. intros w I. destruct (V _ I) as (p & Ip & Ep). exists (snd p). split; [apply (R _ _ _ _ Ep)|now apply IN].
    + apply Forall_forall. intros w I. destruct (V _ I) as (p & Ip & Ep). apply (R _ _ _ _ Ep).
    + intros ->. assert (L : length vs <= 1).
      { rewrite <- (options_length _ _ _ E), map_length. destruct cs; cbn; lia. }
      destruct vs as [|w [|w' vs]]; [split; reflexivity|split; reflexivity|cbn in L; lia].
  - injection H as <-. constructor.
  - injection H as <-. constructor.
  - injection H as <-. constructor.
  - injection H as <-. constructor. reflexivity.
  - destruct (R _ _ _ _ H) as [O C]. now constructor.
  - destruct n as [|n]; [injection H as <-; constructor|]. destruct (rec _ _ c) as [w|] eqn:E; [|discriminate H]. destruct (some_list w) eqn:SL; [|discriminate H]. injection H as <-.
    destruct (R _ _ _ _ E) as [O C]. destruct w as [| | |d fs|]; try discriminate C. injection C as ->. cbn [some_list] in SL. apply existsb_exists in SL.
    destruct SL as ([g w] & I & L). cbn [snd] in L. destruct w as [| | | |[|w ws]]; try discriminate L. now apply (fok_partany c fs g w ws).
  - destruct (String.eqb nm "") eqn:E; [discriminate H|]. injection H as <-. constructor. now apply String.eqb_neq.
Qed.
Lemma sample_ok : forall fuel n nm c v, sample fuel n nm c = Some v -> ok v /\ class_of v = Some c.
Proof.
  induction fuel as [|fuel IH]; intros n nm c v H; [discriminate|]. cbn [sample] in H. unfold sample_obj in H.
  destruct (assoc c domain) as [ft|] eqn:D; [|discriminate H]. destruct (options _) as [fs|] eqn:E; [|discriminate H].
  destruct (nodupb _) eqn:ND; [|discriminate H]. injection H as <-. split; [|reflexivity]. apply options_all in E.
  assert (K : forall l fs, Forall2 (fun o x => o = Some x) (map (fun p => option_map (pair (fst p)) match assoc (fst p) ft with Some t => sample_field (sample fuel) n nm (fst p) t | None => default c (fst p) end) l) fs ->
    map fst fs = map (@fst string dflt) l /\ forall f v, In (f, v) fs -> match assoc f ft with Some t => sample_field (sample fuel) n nm f t | None => default c f end = Some v).
  { clear. induction l as [|p l IH]; intros fs E; inversion E; subst; [split; [reflexivity|contradiction]|].
    destruct (IH _ H3) as [K1 K2]. destruct (match assoc (fst p) ft with Some t => _ | None => _ end) as [w|] eqn:Ew; [|discriminate H1]. injection H1 as <-.
    split; [cbn [map fst]; now rewrite K1|]. intros f v [I|I]; [injection I as <- <-; exact Ew|now apply K2]. }
  destruct (K _ _ E) as [K1 K2]. apply (ok_obj c fs ft D K1).
  - intros f w t F T. apply assoc_In in F. specialize (K2 _ _ F). rewrite T in K2. eapply sample_field_ok; [exact IH|exact K2].
  - intros f w F T. apply assoc_In in F. specialize (K2 _ _ F). now rewrite T in K2.
  - now apply nodupb_ok.
Qed.

(** every class of the domain has such an object, with all attributes set *)
Definition samples_exist : bool :=
  forallb (fun d => match sample 12 1 "name" (fst d) with Some _ => true | None => false end) domain.
Lemma samples_checked : samples_exist = true.
Proof. vm_cast_no_check (eq_refl true). Qed.
Lemma sample_each : forall c, In c (map fst domain) -> exists v, sample 12 1 "name" c = Some v /\ ok v /\ class_of v = Some c.
Proof.
  intros c I. apply in_map_iff in I. destruct I as (d & <- & I). pose proof samples_checked as H. unfold samples_exist in H. rewrite forallb_forall in H.
  specialize (H _ I). destruct (sample 12 1 "name" (fst d)) as [v|] eqn:E; [|discriminate H]. exists v. split; [reflexivity|]. now apply (sample_ok 12 1 "name").
Qed.
