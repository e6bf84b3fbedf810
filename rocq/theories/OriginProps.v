(** Proofs for C63. *)
From Coq Require Import String Ascii List Bool Arith Lia ZArith Floats.SpecFloat.
From Verif Require Import PyBase PyBaseFacts Primitives Xml Leaf ClassTable Ir Access WriterCode ReaderCode IrSem IrFacts Modes SpecRoundTrip SpecTolerant SpecRun SpecOrigin.
Import ListNotations.
Open Scope string_scope.
Open Scope list_scope.

(** ** What the code and the tables do not do *)
Definition plain (f : string) : bool := negb (existsb (String.eqb f) ["short_name"; "uuid"; "timestamp"]).
Definition safe (m : string) (a : access) : bool :=
  match a with
  | AGet f => plain f || String.eqb m "getShortName"
  | AGetSorted _ => true
  | ASet f _ | AAdd f _ => plain f
  | ANew _ _ (PList f) | ANew _ _ (PSlot f) => plain f
  end.
Definition own_word (p : string * string) : bool := existsb (fun q => String.eqb (fst p) (fst q) && String.eqb (snd p) (snd q)) own_words.
Fixpoint ck_r (n : nat) (code : list ri) : bool :=
  match n with
  | 0 => false
  | S n =>
      match code with
      | [] => true
      | i :: rest =>
          if match i with
             | RAttrs | RUnknown | RCall _ _ | RFail _ _ => true
             | RPut _ v | RPutAny _ _ v => ck_v n v
             | RSet a v => if plain a then ck_v n v else false
             | RCreate _ _ b | RFor _ b => ck_r n b
             | RSub (GA f) b => if plain f then ck_r n b else false
             | RSub (GM m) b => if negb (String.eqb m "getShortName") then ck_r n b else false
             | RFind _ a b | RIf _ a b => if ck_r n a then ck_r n b else false
             | RForVal v b => if ck_v n v then ck_r n b else false
             end then ck_r n rest else false
      end
  end
with ck_v (n : nat) (v : vx) : bool :=
  match n with
  | 0 => false
  | S n =>
      match v with
      | VTagX => false
      | VUnmapX _ m => forallb own_word m
      | VLastX _ a | VWrapX _ _ a | VValueX a => ck_v n a
      | VNewX _ _ b | VListX b => ck_r n b
      | VFindX _ a b | VOrX a b | VIfX _ a b => if ck_v n a then ck_v n b else false
      | _ => true
      end
  end.
Definition ck_fun (p : string * (list ri * option vx)) : bool :=
  if ck_r 500 (fst (snd p)) then match snd (snd p) with Some v => ck_v 500 v | None => true end else false.
Lemma ck_readers : forallb ck_fun rfuns = true.
Proof. vm_compute. reflexivity. Qed.
Lemma ck_access : forallb (fun p => forallb (fun q => safe (fst q) (snd q)) (snd p)) access_table = true.
Proof. vm_compute. reflexivity. Qed.
Definition ck_dflt (q : string * dflt) : bool := match snd q with DEmpty => plain (fst q) | _ => true end.
Lemma ck_attrs : forallb (fun p => forallb ck_dflt (snd p)) attr_table = true.
Proof. vm_compute. reflexivity. Qed.
Lemma ck_load : ck_r 500 load_code = true.
Proof. vm_compute. reflexivity. Qed.
Local Opaque rfuns access_table attr_table.

Lemma first_access_in : forall cs m a, first_access cs m = Some a -> exists c t, In (c, t) access_table /\ In (m, a) t.
Proof.
  induction cs as [|c cs IH]; intros m a H; [discriminate|]. cbn [first_access] in H.
  destruct (assoc c access_table) as [t|] eqn:E; [|auto]. destruct (assoc m t) as [b|] eqn:F; [|auto].
  injection H as <-. exists c, t. split; now apply assoc_in.
Qed.
Lemma access_safe : forall c m a, access_of c m = Some a -> safe m a = true.
Proof.
  intros c m a H. apply first_access_in in H. destruct H as (c' & t & I & J). pose proof ck_access as K. rewrite forallb_forall in K.
  specialize (K _ I). rewrite forallb_forall in K. exact (K _ J).
Qed.
Lemma merge_in : forall l acc q, In q (merge_attrs acc l) -> In q acc \/ In q l.
Proof.
  induction l as [|[a d] l IH]; intros acc q H; [now left|]. cbn [merge_attrs] in H. apply IH in H. destruct H as [H|H]; [|right; now right].
  destruct (assoc a acc); [now left|]. apply in_app_or in H. destruct H as [H|[H|[]]]; [now left|right; now left].
Qed.
Lemma attrs_ck : forall c q, In q (attrs_of c) -> ck_dflt q = true.
Proof.
  intros c q. unfold attrs_of. assert (X : forall cs acc, (forall q, In q acc -> ck_dflt q = true) -> forall q, In q (fold_left (fun acc c' => match assoc c' attr_table with Some l => merge_attrs acc l | None => acc end) cs acc) -> ck_dflt q = true).
  { induction cs as [|c' cs IH]; intros acc A q' H; [now apply A|]. cbn [fold_left] in H. revert H. apply IH. intros q2 H.
    destruct (assoc c' attr_table) as [l|] eqn:E; [|now apply A]. apply merge_in in H. destruct H as [H|H]; [now apply A|].
    pose proof ck_attrs as K. rewrite forallb_forall in K. specialize (K _ (assoc_in _ _ _ _ E)). rewrite forallb_forall in K. exact (K _ H). }
  apply X. intros q' [].
Qed.
Lemma ck_split : forall f b r, ck_fun (f, (b, r)) = true -> ck_r 500 b = true /\ forall v, r = Some v -> ck_v 500 v = true.
Proof. unfold ck_fun. cbn [fst snd]. generalize 500. intros n f b r K. destruct (ck_r n b); [|discriminate]. split; [reflexivity|]. intros v ->. exact K. Qed.
Lemma ck_reader : forall f b r, assoc f rfuns = Some (b, r) -> ck_r 500 b = true /\ forall v, r = Some v -> ck_v 500 v = true.
Proof. intros f b r H. apply (ck_split f). exact (all_assoc _ ck_fun rfuns ck_readers f (b, r) H). Qed.

(** ** Where values come from *)
Section Origin.
Context (root : xml).
Definition below (y : xml) : Prop := forall P : xml -> Prop, inside P y -> inside P root.
Lemma below_kid : forall x y, below x -> In y (xkids x) -> below y.
Proof. intros x y B I P H. apply B. exact (inside_below P x y I H). Qed.
Lemma below_step : forall s x y, below x -> In y (step s x) -> below y.
Proof.
  intros s x y B I. unfold step in I. destruct (String.eqb s "*"); [now apply below_kid with x|]. destruct (String.eqb s "."); [destruct I as [Q|[]]; now subst|].
  apply filter_In in I. now apply below_kid with x.
Qed.
Lemma below_steps : forall ss x y, below x -> In y (steps ss x) -> below y.
Proof.
  induction ss as [|s ss IH]; intros x y B I; cbn [steps] in I; [destruct I as [Q|[]]; now subst|].
  apply in_flat_map in I. destruct I as (z & Iz & I). apply (IH z); [|exact I]. now apply below_step with s x.
Qed.
Lemma below_findall : forall p x y, below x -> In y (findall p x) -> below y.
Proof. intros p x y. apply below_steps. Qed.
Lemma below_find : forall p x y, below x -> find p x = Some y -> below y.
Proof.
  intros p x y B H. unfold find in H. destruct (findall p x) as [|z l] eqn:E; [discriminate|]. injection H as ->.
  apply (below_findall p x); [exact B|]. rewrite E. now left.
Qed.
Lemma below_text : forall y s, below y -> xtext y = Some s -> has_text root s.
Proof. intros y s B H. apply B. now apply inside_here. Qed.
Lemma below_attr : forall y a s, below y -> xattr a y = Some s -> has_attr root a s.
Proof. intros y a s B H. apply B. now apply inside_here. Qed.
Lemma text_written : forall y s, below y -> xtext y = Some s -> in_file root s.
Proof. intros y s B H. right. left. now apply below_text with y. Qed.
Lemma attr_written : forall y a s, below y -> xattr a y = Some s -> in_file root s.
Proof. intros y a s B H. right. right. left. exists a. now apply below_attr with y. Qed.
Lemma empty_in_file : in_file root "".
Proof. now left. Qed.

Definition marked (ts id : option string) : Prop :=
  (forall s, ts = Some s -> has_attr root "T" s) /\ (forall s, id = Some s -> has_attr root "UUID" s).
Definition lit_origin (l : Primitives.literal) : Prop := marked (l_ts l) (l_uuid l) /\ forall s, l_value l = Some s -> in_file root s.
Definition num_origin (n : numerical) : Prop :=
  marked (n_ts n) (n_uuid n) /\ (forall s, n_label n = Some s -> has_attr root "SHORT-LABEL" s) /\
  (forall s, n_text n = Some s -> in_file root s) /\
  forall v, n_value n = Some v -> exists s, n_text n = Some s /\ convert s = Ok v.
Definition bool_origin (b : boolean) : Prop :=
  marked (b_ts b) (b_uuid b) /\ exists s b', has_text root s /\ bool_set bool_new (PStr s) = (b', None) /\ b_value b = b_value b' /\ b_text b = b_text b'.
Definition limit_origin (l : limit) : Prop :=
  inside (fun y => li_ts l = xattr "T" y /\ li_uuid l = xattr "UUID" y /\ li_value l = xtext y /\
    option_map lit_str (li_interval l) = xattr "INTERVAL-TYPE" y) root.
Definition ref_origin (r : reftype) : Prop :=
  inside (fun y => r_base r = xattr "BASE" y /\ r_dest r = xattr "DEST" y /\ r_value r = xtext y) root \/
  r_base r = None /\ r_value r = None /\ forall d, r_dest r = Some d -> in_file root d.
Definition leaf_origin (l : lval) : Prop :=
  match l with
  | LLit _ l => lit_origin l | LNum _ n => num_origin n | LBool b => bool_origin b
  | LLimit l => limit_origin l | LRef r => ref_origin r
  end.
Definition field_origin (f s : string) : Prop :=
  (f = "short_name" -> inside (fun y => xtag y = "SHORT-NAME" /\ xtext y = Some s) root) /\
  (f = "uuid" -> has_attr root "UUID" s) /\ (f = "timestamp" -> has_attr root "T" s).
Inductive good : val -> Prop :=
| good_none : good VNone
| good_str : forall s, in_file root s -> good (VStr s)
| good_leaf : forall l, leaf_origin l -> good (VLeaf l)
| good_obj : forall c fs, (forall f w, In (f, w) fs -> good w) -> (forall f s, In (f, VStr s) fs -> field_origin f s) -> good (VObj c fs)
| good_list : forall l, (forall w, In w l -> good w) -> good (VList l).
Lemma good_part : forall u v, good u -> part u v -> good v.
Proof.
  intros u v G P. induction P as [|c fs f v P IH I|l v P IH I]; [exact G| |].
  - inversion IH; subst. eauto.
  - inversion IH; subst. eauto.
Qed.
Lemma plain_origin : forall f s, plain f = true -> field_origin f s.
Proof. intros f s P. repeat split; intros ->; discriminate P. Qed.
Lemma set_in : forall fs f v g w, In (g, w) (set_assoc fs f v) -> In (g, w) fs \/ g = f /\ w = v.
Proof.
  induction fs as [|[k u] fs IH]; intros f v g w H; cbn [set_assoc] in H.
  - destruct H as [H|[]]. injection H as <- <-. now right.
  - destruct (String.eqb_spec f k) as [->|N].
    + destruct H as [H|H]; [injection H as <- <-; now right|left; now right].
    + destruct H as [H|H]; [left; now left|]. apply IH in H. destruct H as [H|H]; [left; now right|now right].
Qed.
Lemma good_set : forall o f w, good o -> good w -> (forall s, w = VStr s -> field_origin f s) -> good (set_field o f w).
Proof.
  intros o f w G W F. destruct o as [| | |c fs|]; try exact G. cbn [set_field]. inversion G as [| | |c' fs' G1 G2|]; subst. constructor.
  - intros g u H. apply set_in in H. destruct H as [H|[-> ->]]; [now apply (G1 g)|exact W].
  - intros g s H. apply set_in in H. destruct H as [H|[-> <-]]; [now apply G2|now apply F].
Qed.
Lemma good_set_plain : forall o f w, good o -> good w -> plain f = true -> good (set_field o f w).
Proof. intros o f w G W P. apply good_set; auto. intros s _. now apply plain_origin. Qed.
Lemma good_field : forall c fs f w, good (VObj c fs) -> assoc f fs = Some w -> good w.
Proof. intros c fs f w G A. inversion G; subst. apply assoc_in in A. eauto. Qed.
Lemma good_snoc : forall l w, good (VList l) -> good w -> good (VList (l ++ [w])).
Proof. intros l w G W. inversion G; subst. constructor. intros v I. apply in_app_or in I. destruct I as [I|[<-|[]]]; auto. Qed.
Lemma good_item : forall l w, good (VList l) -> In w l -> good w.
Proof. intros l w G I. inversion G; auto. Qed.
Lemma good_opt : forall o, (forall s, o = Some s -> in_file root s) -> good (of_opt_str o).
Proof. intros [s|] H; constructor. now apply H. Qed.
Lemma init_val_good : forall n d, good (init_val n d).
Proof.
  induction n as [|n IH]; intros [| | |c]; cbn [init_val]; try constructor; try apply empty_in_file; try solve [intros w []].
  - intros f w H. apply in_map_iff in H. destruct H as (q & E & _). injection E as <- <-. apply IH.
  - intros f s H. apply in_map_iff in H. destruct H as ([a d] & E & I). cbn [fst snd] in E. injection E as <- E. apply attrs_ck in I. unfold ck_dflt in I. cbn [fst snd] in I.
    destruct d; cbn [init_val] in E; try (destruct n; discriminate E). now apply plain_origin.
Qed.
Lemma init_good : forall c, good (init c).
Proof. intros c. apply init_val_good. Qed.
Lemma short_origin : forall y o s, below y -> short_name y = Ok o -> o = Some s -> inside (fun z => xtag z = "SHORT-NAME" /\ xtext z = Some s) root.
Proof.
  intros y o s B H E. unfold short_name in H. destruct (find "SHORT-NAME" y) as [z|] eqn:F; [|discriminate]. injection H as H. rewrite E in H.
  apply (below_find _ _ _ B F). apply inside_here. split; [|exact H].
  unfold find, findall in F. change (split_char "/" "SHORT-NAME") with ["SHORT-NAME"] in F. cbn [steps] in F. unfold step in F.
  change (String.eqb "SHORT-NAME" "*") with false in F. change (String.eqb "SHORT-NAME" ".") with false in F. cbv iota in F.
  assert (I : In z (flat_map (fun x => [x]) (filter (has_tag "SHORT-NAME") (xkids y)))) by (destruct (flat_map _ _); [discriminate|injection F as ->; now left]).
  apply in_flat_map in I. destruct I as (w & I & [->|[]]). apply filter_In in I. destruct I as [_ I]. unfold has_tag in I. now apply String.eqb_eq in I.
Qed.
Lemma named_good : forall c y o, below y -> short_name y = Ok o -> good (named_init c (of_opt_str o)).
Proof.
  intros c y o B H. unfold named_init. apply good_set; [apply init_good| |].
  - apply good_opt. intros s E. right. left. pose proof (short_origin y o s B H E) as X. clear - X. induction X as [z [_ T]|z w I X IH]; [now apply inside_here|now apply inside_below with w].
  - intros s E. destruct o as [t|]; [|discriminate]. injection E as ->. repeat split; intros E; try discriminate E. exact (short_origin y _ s B H eq_refl).
Qed.
Lemma attrs_good : forall o y o', below y -> good o -> read_attrs o y = Done o' -> good o'.
Proof.
  intros o y o' B G H. unfold read_attrs in H. destruct o as [| | |c fs|]; try discriminate. injection H as <-.
  apply (good_set (set_field (VObj c fs) "timestamp" _) "uuid"); [apply good_set; [exact G| |]| |].
  - apply good_opt. intros s. now apply attr_written.
  - intros s E. destruct (xattr "T" y) as [t|] eqn:T; [|discriminate]. injection E as ->. repeat split; intros E; try discriminate E. now apply below_attr with y.
  - apply good_opt. intros s. now apply attr_written.
  - intros s E. destruct (xattr "UUID" y) as [t|] eqn:T; [|discriminate]. injection E as ->. repeat split; intros E; try discriminate E. now apply below_attr with y.
Qed.
Lemma get1_good : forall v g w, good v -> get1 v g = Done w -> good w.
Proof.
  intros [| |l|c fs|] g w G H; try discriminate; cbn [get1] in H.
  - inversion G as [| |l' L| |]; subst. destruct l as [cl l| | | |r]; try discriminate.
    + assert (S : good (VStr (lit_str l))). { constructor. unfold lit_str. destruct (l_value l) eqn:E; [|apply empty_in_file]. now apply L. }
      destruct g as [m|a]; destruct (_ : bool); try discriminate; injection H as <-; exact S.
    + destruct g as [m|a]; [|discriminate]. destruct (String.eqb m "getValue"); [|discriminate]. injection H as <-. destruct (r_value r) as [s|] eqn:E; constructor.
      cbn in L. destruct L as [L|(_ & N & _)]; [|congruence]. right. left. rewrite E in L. clear - L. induction L as [z (_ & _ & T)|z w I X IH]; [now apply inside_here|now apply inside_below with w].
  - destruct g as [m|a].
    + destruct (access_of c m) as [[f|f| | |]|]; try discriminate.
      * destruct (assoc f fs) eqn:A; [|discriminate]. injection H as <-. exact (good_field _ _ _ _ G A).
      * destruct (assoc f fs) as [[| | | |l]|] eqn:A; try discriminate. destruct (sortable l); [|discriminate]. injection H as <-. pose proof (good_field _ _ _ _ G A) as L.
        constructor. intros w' I. apply (good_item l); [exact L|]. now apply PyBaseFacts.py_sorted_In in I.
    + destruct (assoc a fs) eqn:A; [|discriminate]. injection H as <-. exact (good_field _ _ _ _ G A).
Qed.

(** ** Leaves *)
Lemma marked_none : marked None None.
Proof. split; discriminate. Qed.
Lemma marked_attrs : forall y, below y -> marked (xattr "T" y) (xattr "UUID" y).
Proof. intros y B. split; intros s H; now apply below_attr with y. Qed.
Lemma set_str_origin : forall n s n', set_str n s = (n', None) -> marked (n_ts n) (n_uuid n) -> (forall t, n_label n = Some t -> has_attr root "SHORT-LABEL" t) -> in_file root s -> num_origin n'.
Proof.
  intros n s n' H M L W. unfold set_str in H. destruct (convert s) as [v|e] eqn:C; [|discriminate]. injection H as <-. unfold num_origin, with_value, with_text. cbn.
  repeat split; try apply M; [exact L|intros t E; injection E as <-; exact W|]. intros w E. injection E as <-. now exists s.
Qed.
Lemma blank_origin : forall n, n_value n = None -> n_text n = None -> marked (n_ts n) (n_uuid n) -> (forall t, n_label n = Some t -> has_attr root "SHORT-LABEL" t) -> num_origin n.
Proof. intros n V T M L. repeat split; try apply M; [exact L| |]; rewrite ?V, ?T; discriminate. Qed.
Lemma leaf_of_origin : forall k y l, below y -> leaf_of k y = Ok (Some l) -> leaf_origin l.
Proof.
  intros k y l B H.
  assert (LO : forall c, leaf_origin (lit_of c y)).
  { intros c. split; [now apply marked_attrs|]. cbn. intros s E. injection E as <-. destruct (xtext y) as [t|] eqn:T; [now apply text_written with y|apply empty_in_file]. }
  assert (SO : forall set cls n, (forall n s, set n (PStr s) = set_str n s) -> (forall n, set n PNone = (n, None)) -> n_value n = None -> n_text n = None -> marked (n_ts n) (n_uuid n) -> (forall t, n_label n = Some t -> has_attr root "SHORT-LABEL" t) ->
     forall l, set_num set cls n (opt_pstr (xtext y)) = Ok (Some l) -> leaf_origin l).
  { intros set cls n S1 S2 V T M L l' E. unfold set_num in E. destruct (xtext y) as [s|] eqn:X; cbn [opt_pstr] in E.
    - rewrite S1 in E. destruct (set_str n s) as [n' [e|]] eqn:Q; [discriminate|]. injection E as <-. apply (set_str_origin n s n' Q M L). now apply text_written with y.
    - rewrite S2 in E. injection E as <-. now apply blank_origin. }
  assert (MB : marked (n_ts (num_blank y)) (n_uuid (num_blank y))) by now apply marked_attrs.
  assert (NL : forall t, n_label (num_blank y) = Some t -> has_attr root "SHORT-LABEL" t) by discriminate.
  assert (NN : forall t, n_label num_new = Some t -> has_attr root "SHORT-LABEL" t) by discriminate.
  destruct k; cbn [leaf_of] in H.
  - injection H as <-. apply LO.
  - injection H as <-. apply LO.
  - injection H as <-. apply LO.
  - destruct (xtext y) as [s|]; [|discriminate]. destruct (revision_ok s); [|discriminate]. injection H as <-. apply LO.
  - destruct (xtext y) as [s|] eqn:X; [|discriminate]. apply (SO float_set "ARFloat" (num_blank y)); auto.
  - destruct (xtext y) as [s|] eqn:X; [|discriminate]. apply (SO float_set "TimeValue" num_new); auto. apply marked_none.
  - destruct (is_empty _) eqn:E; [discriminate|]. destruct (bool_set _ _) as [b [e|]] eqn:Q; [discriminate|]. injection H as <-.
    destruct (xtext y) as [s|] eqn:X; [|discriminate]. cbn [text_or_empty] in Q. unfold bool_set in Q. cbn [b_ts b_uuid] in Q.
    destruct (str_to_bool (strip s)) as [v|] eqn:V; [|discriminate]. injection Q as <-. split; cbn.
    + split; [|discriminate]. intros t. now apply below_attr.
    + exists s, (mkBool None None (Some v) (Some (strip s))). split; [now apply below_text with y|]. unfold bool_set. rewrite V. auto.
  - refine (SO num_set "ARNumerical" _ _ _ _ _ _ _ l H); auto; destruct (xattr "SHORT-LABEL" y) as [t|] eqn:X; cbn; auto.
    intros t' E. injection E as <-. now apply below_attr with y.
  - refine (SO num_set "Integer" _ _ _ _ _ _ _ l H); auto.
  - destruct (xtext y) as [s|] eqn:X; [|discriminate]. destruct (set_num pos_set "PositiveInteger" (num_blank y) (PStr s)) as [[l'|]|] eqn:Q; try discriminate.
    assert (O : leaf_origin l') by (apply (SO pos_set "PositiveInteger" (num_blank y)); auto).
    destruct l' as [|c n| | |]; try (injection H as <-; exact O). destruct (n_value n) as [w|]; [|discriminate]. destruct (numv_neg w); [discriminate|]. injection H as <-. exact O.
  - injection H as <-. apply B. apply inside_here. cbn. repeat split. now destruct (xattr "INTERVAL-TYPE" y).
  - injection H as <-. left. apply B. apply inside_here. auto.
  - injection H as <-. split; [apply marked_none|]. cbn. intros s. now apply text_written.
  - refine (SO float_set "ARFloat" _ _ _ _ _ _ _ l H); auto. apply marked_none.
  - refine (SO num_set "ARNumerical" _ _ _ _ _ _ _ l H); auto. apply marked_none.
Qed.
Lemma leaf_read_good : forall k key x o, below x -> leaf_read k key x = Ok o -> good (of_leaf o).
Proof.
  intros k key x o B H. unfold leaf_read in H. destruct (find key x) as [y|] eqn:F; [|injection H as <-; constructor].
  destruct o as [l|]; [|constructor]. constructor. apply (leaf_of_origin k y); [|exact H]. now apply below_find with key x.
Qed.
Lemma leaf_items_good : forall k xs l, (forall y, In y xs -> below y) -> leaf_items k xs = Ok l -> forall v, In v l -> leaf_origin v.
Proof.
  intros k. induction xs as [|x xs IH]; intros l B H; cbn [leaf_items] in H; [injection H as <-; intros v []|].
  destruct (leaf_of k x) as [o|] eqn:O; cbn [bind] in H; [|discriminate]. destruct (leaf_items k xs) as [l'|] eqn:L; cbn [bind] in H; [|discriminate]. injection H as <-.
  assert (X : forall v, In v l' -> leaf_origin v) by (apply IH; [intros y I; apply B; now right|reflexivity]).
  destruct o as [w|]; [|exact X]. intros v [<-|I]; [|now apply X]. apply (leaf_of_origin k x); [apply B; now left|exact O].
Qed.
Lemma leaf_list_good : forall k key x l, below x -> leaf_list k key x = Ok l -> good (VList (map VLeaf l)).
Proof.
  intros k key x l B H. constructor. intros w I. apply in_map_iff in I. destruct I as (v & <- & I). constructor.
  apply (leaf_items_good k (findall key x) l); auto. intros y. now apply below_findall.
Qed.
Lemma literal_good : forall warn key x o, below x -> literal_required warn key x = Ok o -> good (of_leaf (option_map (LLit "ARLiteral") o)).
Proof.
  intros warn key x o B H. unfold literal_required in H. destruct (find key x) as [y|] eqn:F.
  - injection H as <-. apply below_find in F; [|exact B]. constructor. split; [now apply marked_attrs|]. cbn. intros s. now apply text_written.
  - destruct warn; [|discriminate]. injection H as <-. constructor.
Qed.
Lemma ref_good : forall warn key x o, below x -> ref_required warn key x = Ok o -> good (of_leaf (option_map LRef o)).
Proof.
  intros warn key x o B H. unfold ref_required in H. destruct (find key x) as [y|] eqn:F.
  - injection H as <-. apply below_find in F; [|exact B]. constructor. left. apply F. apply inside_here. auto.
  - destruct warn; [|discriminate]. injection H as <-. constructor.
Qed.
Lemma wrap_good : forall c m v w, good v -> wrap c m v = Done w -> good w.
Proof.
  intros c m v w G H. unfold wrap in H. destruct (_ && _)%bool.
  - destruct v as [|s|[cl l| | | |]| |]; try discriminate; injection H as <-; constructor; (split; [apply marked_none|]); cbn; try discriminate; intros t E; injection E as <-.
    + now inversion G.
    + inversion G as [| |l' L| |]; subst. unfold lit_str. destruct (l_value l) eqn:V; [now apply L|apply empty_in_file].
  - destruct (_ && _)%bool.
    + destruct v as [|s| | |]; try discriminate. destruct (num_set num_new (PStr s)) as [n [e|]] eqn:Q; [discriminate|]. injection H as <-. constructor.
      apply (set_str_origin num_new s n Q); [apply marked_none|discriminate|now inversion G].
    + destruct (_ && _)%bool; [|discriminate]. destruct v as [|s| | |]; try discriminate; injection H as <-; constructor; right; cbn; repeat split; try discriminate.
      intros d E. injection E as <-. now inversion G.
Qed.
Lemma put1_good : forall o m v w, good o -> good v -> put1 o m v = Done w -> good w.
Proof.
  intros o m v w G V H. destruct o as [| | |c fs|l]; try discriminate; cbn [put1] in H.
  - destruct (access_of c m) as [a|] eqn:A; [|discriminate]. apply access_safe in A. destruct a as [| |f g|f g|]; try discriminate; cbn [safe] in A.
    + injection H as <-. destruct (g && _)%bool; [exact G|]. now apply (good_set_plain (VObj c fs) f).
    + destruct (g && _)%bool; [injection H as <-; exact G|]. destruct (assoc f fs) as [[| | | |l]|] eqn:E; try discriminate. injection H as <-.
      apply (good_set_plain (VObj c fs) f); auto. apply good_snoc; auto. exact (good_field _ _ _ _ G E).
  - destruct (String.eqb m "append"); [|discriminate]. injection H as <-. now apply good_snoc.
Qed.
Lemma store_good : forall c fs m cl nm p x w, access_of c m = Some (ANew cl nm p) -> good (VObj c fs) -> good x -> store (VObj c fs) p x = Done w -> good w.
Proof.
  intros c fs m cl nm p x w A G X H. apply access_safe in A. unfold store in H. destruct (match field x "short_name" with Some (VStr n) => _ | _ => _ end); [discriminate|].
  destruct p as [f|f]; cbn [safe] in A; destruct (assoc f fs) as [[| | | |l]|] eqn:E; try discriminate; injection H as <-; apply (good_set_plain (VObj c fs) f); auto.
  apply good_snoc; auto. exact (good_field _ _ _ _ G E).
Qed.

(** ** The reader *)
Lemma fold_good : forall A (Q : A -> Prop) (f : A -> val -> out val) l s w, (forall a s w, Q a -> good s -> f a s = Done w -> good w) ->
  (forall a, In a l -> Q a) -> good s -> fold_out f l s = Done w -> good w.
Proof.
  intros A Q f. induction l as [|a l IH]; intros s w F I G H; cbn [fold_out] in H; [injection H as <-; exact G|].
  destruct (f a s) as [s'| | |] eqn:E; try discriminate H. cbn [obind] in H. apply (IH s' w F); [intros b J; apply I; now right| |exact H].
  apply (F a s s'); auto. apply I. now left.
Qed.
Lemma own_in : forall p, own_word p = true -> In p own_words.
Proof. intros [s t] H. unfold own_word in H. apply existsb_exists in H. destruct H as ([s' t'] & I & E). cbn [fst snd] in E. apply andb_prop in E. destruct E as [E F]. apply String.eqb_eq in E. apply String.eqb_eq in F. now subst. Qed.
Ltac dob H := match type of H with obind ?a _ = Done _ => let E := fresh "E" in destruct a eqn:E; try discriminate H; cbn [obind] in H end.
Lemma run_good : forall warn n,
  (forall k code key x it o w, ck_r k code = true -> below x -> good it -> good o -> rrun warn n code key x it o = Done w -> good w) /\
  (forall k v key x it o w, ck_v k v = true -> below x -> good it -> good o -> vrun warn n v key x it o = Done w -> good w).
Proof.
  intros warn. induction n as [|n [IHr IHv]]; [split; discriminate|].
  assert (FN : good (VObj "" [])) by (constructor; intros f w []).
  assert (NM : forall (named : bool) x nm c, below x -> (if named then do s <- of_res (short_name x); Done (of_opt_str s) else Done VNone) = Done nm ->
    good (if named then named_init c nm else init c)).
  { intros [|] x nm c B H; [|apply init_good]. destruct (short_name x) as [s|] eqn:S; [|discriminate]. cbn in H. injection H as <-. now apply named_good with x. }
  split.
  - intros k code key x it o w C B I G H. destruct k as [|k]; [discriminate|]. cbn [ck_r] in C. destruct code as [|i rest]; [injection H as <-; exact G|].
    match type of C with (if ?b then _ else false) = true => destruct b eqn:HI; [|discriminate C] end.
    cbn [rrun] in H. fold (rrun warn) (vrun warn) (crun warn) in H. dob H. refine (IHr k rest key x it a w C B I _ H). clear H. rename a into o'.
    destruct i.
    + now apply attrs_good with o x.
    + dob E. apply (put1_good o m a); auto. now apply (IHv k _ _ _ _ _ _ HI B I G E0).
    + dob E. dob E. pose proof (IHv k _ _ _ _ _ _ HI B I G E0) as W. destruct a0; [now apply (put1_good o m a)|injection E as <-; exact G].
    + ifs HI. dob E. pose proof (IHv k _ _ _ _ _ _ HI B I G E0) as W. destruct o as [| | |c fs|]; try discriminate. injection E as <-. now apply (good_set_plain (VObj c fs) a).
    + destruct (assoc f rfuns) as [[b r]|] eqn:A; [|discriminate]. destruct (ck_reader _ _ _ A) as [S1 S2]. dob E.
      assert (W : good a) by (apply (IHr 500 _ _ _ _ _ _ S1 B (good_none) G E0)). destruct r as [r|]; [|injection E as <-; exact W]. dob E. injection E as <-. exact W.
    + destruct o as [| | |c fs|]; try discriminate. destruct (access_of c m) as [[]|] eqn:A; try discriminate. destruct (negb _); [discriminate|]. dob E. dob E.
      apply (store_good c fs m cls named0 p a0); auto. apply (IHr k _ _ _ _ _ _ HI B I (NM _ _ _ _ B E0) E1).
    + ifs HI. destruct (find (rkey key p) x) as [y|] eqn:F; [apply below_find in F; [|exact B]; exact (IHr k _ _ _ _ _ _ K F I G E)|exact (IHr k _ _ _ _ _ _ HI B I G E)].
    + apply (fold_good _ below _ _ _ _ (fun a s w Q S E => IHr k _ _ _ _ _ _ HI Q I S E)) with (3 := E); auto. intros y. now apply below_findall.
    + ifs HI. dob E. pose proof (IHv k _ _ _ _ _ _ K B I G E0) as W. destruct a; try discriminate.
      apply (fold_good _ good _ _ _ _ (fun a s w Q S E => IHr k _ _ _ _ _ _ HI B Q S E)) with (3 := E); auto. intros y. now apply good_item.
    + ifs HI. dob E. match type of E with rrun _ _ (if ?t then _ else _) _ _ _ _ = _ => destruct t end; [exact (IHr k _ _ _ _ _ _ K B I G E)|exact (IHr k _ _ _ _ _ _ HI B I G E)].
    + destruct o as [| | |c fs|]; try discriminate. destruct g as [m|f].
      * ifs HI. destruct (access_of c m) as [[f| | | |]|] eqn:A; try discriminate. destruct (assoc f fs) as [u|] eqn:F; [|discriminate]. dob E. injection E as <-.
        apply (good_set_plain (VObj c fs) f); auto; [apply (IHr k _ _ _ _ _ _ HI B I (good_field _ _ _ _ G F) E0)|]. apply access_safe in A. cbn [safe] in A. destruct (plain f); [reflexivity|]. cbn in A. rewrite A in K. discriminate.
      * ifs HI. destruct (assoc f fs) as [u|] eqn:F; [|discriminate]. dob E. injection E as <-.
        apply (good_set_plain (VObj c fs) f); auto. apply (IHr k _ _ _ _ _ _ HI B I (good_field _ _ _ _ G F) E0).
    + destruct (soft && warn)%bool; [injection E as <-; exact G|discriminate].
    + discriminate.
  - intros k v key x it o w C B I G H. destruct k as [|k]; [discriminate|]. cbn [ck_v] in C. cbn [vrun] in H. fold (rrun warn) (vrun warn) (crun warn) in H. destruct v.
    + injection H as <-. constructor.
    + destruct (leaf_read k0 (rkey key p) x) as [l|] eqn:L; [|discriminate]. injection H as <-. now apply leaf_read_good with k0 (rkey key p) x.
    + destruct k0; try discriminate.
      * destruct (literal_required warn (rkey key p) x) as [l|] eqn:L; [|discriminate]. injection H as <-. now apply literal_good with warn (rkey key p) x.
      * destruct (ref_required warn (rkey key p) x) as [l|] eqn:L; [|discriminate]. injection H as <-. now apply ref_good with warn (rkey key p) x.
    + destruct (leaf_list k0 (rkey key p) x) as [l|] eqn:L; [|discriminate]. injection H as <-. now apply leaf_list_good with k0 (rkey key p) x.
    + injection H as <-. apply good_opt. intros s. now apply text_written.
    + injection H as <-. constructor. destruct (xtext x) eqn:T; [now apply text_written with x|apply empty_in_file].
    + injection H as <-. apply good_opt. intros s. now apply attr_written.
    + destruct (xattr a x) as [s|] eqn:X; [|discriminate]. injection H as <-. apply good_opt. intros t E. unfold key_of in E. destruct (List.find _ m) as [q|] eqn:F; [|discriminate]. injection E as <-.
      apply find_some in F. destruct F as [F1 F2]. apply String.eqb_eq in F2. rewrite forallb_forall in C. right. right. right. exists a, s. split; [|now apply below_attr with x].
      apply own_in. rewrite <- F2. destruct q. exact (C _ F1).
    + destruct (short_name x) as [s|] eqn:S; [|discriminate]. injection H as <-. apply good_opt. intros t ->. pose proof (short_origin x _ t B S eq_refl) as X. right. left.
      clear - X. induction X as [z [_ T]|z w J X IH]; [now apply inside_here|now apply inside_below with w].
    + discriminate.
    + dob H. apply (wrap_good _ _ _ _ (IHv k _ _ _ _ _ _ C B I G E) H).
    + dob H. apply (get1_good _ _ _ (IHv k _ _ _ _ _ _ C B I G E) H).
    + dob H. apply (IHr k _ _ _ _ _ _ C B I (NM _ _ _ _ B E) H).
    + refine (IHr k _ _ _ _ _ _ C B I _ H). constructor. intros u [].
    + destruct (assoc f rfuns) as [[b r]|] eqn:A; [|discriminate]. destruct (ck_reader _ _ _ A) as [S1 S2]. dob H.
      assert (W : good a) by (apply (IHr 500 _ _ _ _ _ _ S1 B (good_none) FN E)). destruct r as [r|]; [|injection H as <-; constructor]. apply (IHv 500 _ _ _ _ _ _ (S2 r eq_refl) B good_none W H).
    + ifs C. destruct (find (rkey key p) x) as [y|] eqn:F; [apply below_find in F; [|exact B]; exact (IHv k _ _ _ _ _ _ K F I G H)|exact (IHv k _ _ _ _ _ _ C B I G H)].
    + refine (fold_good _ below _ _ _ _ _ (fun y => below_findall _ _ y B) good_none H). intros y s u Q S E. cbv beta in E. dob E. pose proof (IHv k _ _ _ _ _ _ C Q I G E0) as W. injection E as <-. destruct a; auto.
    + ifs C. dob H. match type of H with vrun _ _ (if ?t then _ else _) _ _ _ _ = _ => destruct t end; [exact (IHv k _ _ _ _ _ _ K B I G H)|exact (IHv k _ _ _ _ _ _ C B I G H)].
    + ifs C. dob H. pose proof (IHv k _ _ _ _ _ _ K B I G E) as W. destruct a as [| |[]| |]; try discriminate; try (injection H as <-; exact W). exact (IHv k _ _ _ _ _ _ C B I G H).
    + injection H as <-. exact I.
    + discriminate.
    + discriminate.
Qed.

(** ** The writer *)
Context (repr : spec_float -> string).
Definition printed (s : string) : Prop := kept_or_none root s.
Definition tidy (y : xml) : Prop := forall s, has_text y s -> printed s.
Definition tidy_elem (e : elem) : Prop := (forall s, e_text e = Some s -> printed s) /\ forall y, In y (e_kids e) -> tidy y.
Lemma tidy_el : forall t a tx ks, (forall s, tx = Some s -> printed s) -> (forall y, In y ks -> tidy y) -> tidy (El t a tx ks).
Proof. intros t a tx ks T K s H. inversion H as [z E|z y I H']; subst; [now apply T|]. exact (K y I s H'). Qed.
Lemma tidy_kid : forall e y, tidy_elem e -> tidy y -> tidy_elem (add_kid e y).
Proof. intros e y [T K] Y. split; [exact T|]. cbn. intros z I. apply in_app_or in I. destruct I as [I|[<-|[]]]; auto. Qed.
Lemma tidy_kids : forall ys e, tidy_elem e -> (forall y, In y ys -> tidy y) -> tidy_elem (fold_left add_kid ys e).
Proof. induction ys as [|y ys IH]; intros e E Y; [exact E|]. cbn [fold_left]. apply IH; [apply tidy_kid; [exact E|apply Y; now left]|intros z I; apply Y; now right]. Qed.
Lemma tidy0 : tidy_elem elem0.
Proof. split; [discriminate|intros y []]. Qed.
Lemma gets_good : forall p v w, good v -> gets v p = Done w -> good w.
Proof. induction p as [|g p IH]; intros v w G H; cbn [gets] in H; [injection H as <-; exact G|]. dob H. apply (IH a); [now apply (get1_good v g)|exact H]. Qed.
Lemma leaf_tidy : forall k t l ys, (forall v, l = Some v -> leaf_origin v) -> leaf_write repr k t l = Ok ys -> forall y, In y ys -> tidy y.
Proof.
  intros k t l ys L H. unfold leaf_write in H. destruct l as [v|]; [|injection H as <-; intros y []]. specialize (L v eq_refl).
  destruct (leaf_element repr k t v) as [e|] eqn:E; [|discriminate]. cbn [bind] in H. injection H as <-. intros y [<-|[]].
  assert (X : forall a tx, (forall s, tx = Some s -> printed s) -> tidy (El t a tx [])) by (intros; apply tidy_el; auto; intros y []).
  destruct k, v as [c l|c n|b|l|r]; cbn [leaf_element] in E; try discriminate; injection E as <-; apply X; intros s S; cbn [leaf_origin] in L.
  - destruct L as (_ & _ & T & V). unfold num_text in S. destruct (n_text n) as [u|] eqn:N; [injection S as <-; left; now apply T|].
    destruct (n_value n) as [w|]; [|discriminate]. destruct (V w eq_refl) as (u & Q & _). discriminate.
  - injection S as <-. left. unfold lit_str. destruct (l_value l) eqn:V; [now apply L|apply empty_in_file].
  - destruct L as (_ & _ & T & V). unfold num_str in S. injection S as <-. destruct (n_text n) as [u|] eqn:N; [left; now apply T|].
    destruct (n_value n) as [w|]; [|right; now left]. destruct (V w eq_refl) as (u & Q & _). discriminate.
  - destruct L as (_ & t' & b' & B & Q & _ & E). injection S as <-. right. right. exists t'. split; [exact B|]. unfold bool_str. rewrite E. unfold bool_set in Q.
    destruct (str_to_bool (strip t')); [|discriminate]. injection Q as <-. reflexivity.
  - left. right. left. destruct L as [L|(_ & N & _)]; [|congruence]. rewrite S in L. clear - L. induction L as [z (_ & _ & T)|z w I X IH]; [now apply inside_here|now apply inside_below with w].
  - left. right. left. unfold limit_origin in L. rewrite S in L. clear - L. induction L as [z (_ & _ & T & _)|z w I X IH]; [now apply inside_here|now apply inside_below with w].
Qed.
Lemma fold_tidy : forall A (Q : A -> Prop) (f : A -> elem -> out elem) l s w, (forall a s w, Q a -> tidy_elem s -> f a s = Done w -> tidy_elem w) ->
  (forall a, In a l -> Q a) -> tidy_elem s -> fold_out f l s = Done w -> tidy_elem w.
Proof.
  intros A Q f. induction l as [|a l IH]; intros s w F I G H; cbn [fold_out] in H; [injection H as <-; exact G|].
  destruct (f a s) as [s'| | |] eqn:E; try discriminate H. cbn [obind] in H. apply (IH s' w F); [intros b J; apply I; now right| |exact H].
  apply (F a s s'); auto. apply I. now left.
Qed.
Lemma str_printed : forall s, good (VStr s) -> printed s.
Proof. intros s G. left. now inversion G. Qed.
Lemma wrun_tidy : forall warn n code key v e e', good v -> tidy_elem e -> wrun repr warn n code key v e = Done e' -> tidy_elem e'.
Proof.
  intros warn. induction n as [|n IH]; intros code key v e e' G T H; [discriminate|]. destruct code as [|i rest]; [injection H as <-; exact T|].
  cbn [wrun] in H. fold (wrun repr warn) in H. dob H. refine (IH rest key v a e' G _ H). clear H. destruct i.
  - dob E. unfold write_attrs in E. destruct a0; try discriminate. injection E as <-. destruct (opt_str _), (opt_str _); exact T.
  - dob E. pose proof (gets_good _ _ _ G E0) as W. destruct a0; try discriminate; injection E as <-; apply tidy_kid; auto; apply tidy_el; try solve [intros y []]; try discriminate.
    intros s' Q. injection Q as <-. now apply str_printed.
  - dob E. dob E. pose proof (gets_good _ _ _ G E0) as W. destruct (leaf_write repr k (wtag key t) a1) as [ys|] eqn:L; [|discriminate]. cbn in E. injection E as <-.
    apply tidy_kids; auto. apply (leaf_tidy k (wtag key t) a1); [|exact L]. intros u ->. destruct a0; try discriminate. injection E1 as ->. now inversion W.
  - dob E. pose proof (gets_good _ _ _ G E0) as W. destruct (assoc f wfuns); [|discriminate]. now apply (IH _ _ _ _ _ W T E).
  - dob E. injection E as <-. apply tidy_kid; auto. pose proof (IH _ _ _ _ _ G tidy0 E0) as [S1 S2]. now apply tidy_el.
  - dob E. now apply (IH _ _ _ _ _ G T E).
  - dob E. pose proof (gets_good _ _ _ G E0) as W. destruct a0 as [| | | |l]; try discriminate.
    refine (fold_tidy _ good _ _ _ _ (fun a s w Q S E => IH _ _ _ _ _ Q S E) _ T E). intros y. now apply good_item.
  - dob E. destruct a0; try discriminate. injection E as <-. exact T.
  - injection E as <-. exact T.
  - dob E. destruct a0; try discriminate. destruct (assoc s m); [injection E as <-; exact T|]. destruct warn; [injection E as <-; exact T|discriminate].
  - dob E. pose proof (gets_good _ _ _ G E0) as W. destruct a0; try discriminate; injection E as <-; (split; [|apply T]); cbn; try discriminate.
    intros s' Q. injection Q as <-. now apply str_printed.
  - destruct (soft && warn)%bool; [injection E as <-; exact T|discriminate].
  - discriminate.
Qed.
End Origin.

(** ** C63 *)
Lemma loaded_good : forall warn x u, loaded warn x u -> good x u.
Proof.
  intros warn x u [n H]. destruct (run_good x warn n) as [R _]. refine (R 500 _ _ _ _ _ _ ck_load _ _ _ H).
  - intros P I. exact I.
  - constructor.
  - apply init_good.
Qed.
Section C63.
Context (warn : bool) (x : xml) (u : val) (L : loaded warn x u).
Lemma c63_leaf : forall l, part u (VLeaf l) -> leaf_origin x l.
Proof. intros l P. pose proof (good_part x u _ (loaded_good warn x u L) P) as G. now inversion G. Qed.
Lemma c63_string : forall s, part u (VStr s) -> in_file x s.
Proof. intros s P. pose proof (good_part x u _ (loaded_good warn x u L) P) as G. now inversion G. Qed.
Lemma c63_field : forall c fs f s, part u (VObj c fs) -> In (f, VStr s) fs -> field_origin x f s.
Proof. intros c fs f s P I. pose proof (good_part x u _ (loaded_good warn x u L) P) as G. inversion G; subst. auto. Qed.
Lemma c63_reference : forall r s, part u (VLeaf (LRef r)) -> r_value r = Some s ->
  inside (fun y => xtext y = Some s /\ xattr "DEST" y = r_dest r /\ xattr "BASE" y = r_base r) x.
Proof.
  intros r s P V. apply c63_leaf in P. cbn in P. destruct P as [P|(_ & N & _)]; [|congruence]. clear L. induction P as [z (B & D & T)|z w I X IH]; [apply inside_here|now apply inside_below with w].
  repeat split; congruence.
Qed.
Lemma c63_destination : forall r d, part u (VLeaf (LRef r)) -> r_dest r = Some d -> in_file x d.
Proof.
  intros r d P D. apply c63_leaf in P. cbn in P. destruct P as [P|(_ & _ & N)]; [|now apply N]. right. right. left. exists "DEST". clear L. induction P as [z (_ & E & _)|z w I X IH]; [apply inside_here; congruence|now apply inside_below with w].
Qed.
Lemma c63_text : forall c l s, part u (VLeaf (LLit c l)) -> l_value l = Some s -> in_file x s.
Proof. intros c l s P V. apply c63_leaf in P. now apply P. Qed.
Lemma c63_number : forall c n v, part u (VLeaf (LNum c n)) -> n_value n = Some v ->
  exists s m, n_text n = Some s /\ in_file x s /\ num_set num_new (PStr s) = (m, None) /\ n_value m = Some v.
Proof.
  intros c n v P V. apply c63_leaf in P. destruct P as (_ & _ & T & W). destruct (W v V) as (s & S & C). exists s, (with_value (with_text num_new s) v).
  repeat split; [exact S|now apply T|]. cbn. unfold set_str. now rewrite C.
Qed.
Lemma c63_number_text : forall c n s, part u (VLeaf (LNum c n)) -> n_text n = Some s -> in_file x s.
Proof. intros c n s P V. apply c63_leaf in P. now apply P. Qed.
Lemma c63_boolean : forall b v, part u (VLeaf (LBool b)) -> b_value b = Some v ->
  exists s b', has_text x s /\ bool_set bool_new (PStr s) = (b', None) /\ b_value b' = Some v.
Proof. intros b v P V. apply c63_leaf in P. destruct P as (_ & s & b' & T & S & E & _). exists s, b'. repeat split; congruence. Qed.
Lemma c63_limit : forall l, part u (VLeaf (LLimit l)) ->
  inside (fun y => xtext y = li_value l /\ xattr "INTERVAL-TYPE" y = option_map lit_str (li_interval l)) x.
Proof.
  intros l P. apply c63_leaf in P. cbn in P. unfold limit_origin in P. clear L. induction P as [z (_ & _ & V & T)|z w I X IH]; [apply inside_here; split; congruence|now apply inside_below with w].
Qed.
Lemma c63_name : forall c fs s, part u (VObj c fs) -> In ("short_name", VStr s) fs -> inside (fun y => xtag y = "SHORT-NAME" /\ xtext y = Some s) x.
Proof. intros c fs s P I. destruct (c63_field c fs _ s P I) as [N _]. now apply N. Qed.
Lemma c63_uuid : forall c fs s, part u (VObj c fs) -> In ("uuid", VStr s) fs -> has_attr x "UUID" s.
Proof. intros c fs s P I. destruct (c63_field c fs _ s P I) as (_ & N & _). now apply N. Qed.
Lemma c63_time : forall c fs s, part u (VObj c fs) -> In ("timestamp", VStr s) fs -> has_attr x "T" s.
Proof. intros c fs s P I. destruct (c63_field c fs _ s P I) as (_ & _ & N). now apply N. Qed.
Lemma c63_value_uuid : forall l s, part u (VLeaf l) -> value_uuid l = Some s -> has_attr x "UUID" s.
Proof.
  intros l s P V. apply c63_leaf in P. destruct l as [c l|c n|b|l|r]; cbn [value_uuid leaf_origin] in *; try (apply (proj1 P); exact V); [|discriminate].
  unfold limit_origin in P. clear L. induction P as [z (_ & E & _)|z w I X IH]; [apply inside_here; congruence|now apply inside_below with w].
Qed.
Lemma c63_value_time : forall l s, part u (VLeaf l) -> value_time l = Some s -> has_attr x "T" s.
Proof.
  intros l s P V. apply c63_leaf in P. destruct l as [c l|c n|b|l|r]; cbn [value_time leaf_origin] in *; try (apply (proj1 P); exact V); [|discriminate].
  unfold limit_origin in P. clear L. induction P as [z (E & _)|z w I X IH]; [apply inside_here; congruence|now apply inside_below with w].
Qed.
Lemma c63_saved : forall repr warn' y s, saved repr warn' u y -> has_text y s -> kept_or_none x s.
Proof.
  intros repr warn' y s (e & (n & W) & ->) T. pose proof (wrun_tidy x repr warn' n save_code "" u elem0 e (loaded_good warn x u L) (tidy0 x) W) as [E K].
  exact (tidy_el x "AUTOSAR" (e_attrs e) (e_text e) (e_kids e) E K s T).
Qed.
End C63.
