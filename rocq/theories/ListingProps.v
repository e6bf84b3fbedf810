(** Proofs for C61. *)
From Coq Require Import String List Bool Arith Lia Permutation Sorted.
From Verif Require Import PyBase PyBaseFacts Primitives Leaf Xml ClassTable Ir Access IrSem SpecRoundTrip SpecKeep KeepCases RoundTripLoss TypeCheck TypeFacts TypeTable TypeRun TypeProps Listing SpecListing.
Import ListNotations.
Open Scope string_scope.
Open Scope list_scope.

(** *** lists *)
Lemma two_perm : forall A B (P : A -> B -> Prop) l l', Permutation l l' -> forall k, Forall2 P l k -> exists k', Permutation k k' /\ Forall2 P l' k'.
Proof.
  intros A B P l l' H. induction H as [|x l l' H IH|x y l|l l1 l2 H1 IH1 H2 IH2]; intros k F.
  - exists k. split; [reflexivity|exact F].
  - inversion F as [|? b ? r Q R]; subst. destruct (IH _ R) as (k' & K & F'). exists (b :: k'). split; [now constructor|now constructor].
  - inversion F as [|? b ? r Q R]; subst. inversion R as [|? c ? r' Q' R']; subst. exists (c :: b :: r'). split; [apply perm_swap|]. repeat constructor; auto.
  - destruct (IH1 _ F) as (k1 & K1 & F1). destruct (IH2 _ F1) as (k2 & K2 & F2). exists k2. split; [now rewrite K1|exact F2].
Qed.
Lemma two_swap : forall A B (P : A -> B -> Prop) l k, Forall2 P l k -> Forall2 (fun b a => P a b) k l.
Proof. intros A B P l k F. induction F; constructor; auto. Qed.
Lemma concat_perm : forall A (l l' : list (list A)), Permutation l l' -> Permutation (concat l) (concat l').
Proof.
  intros A l l' H. induction H; cbn; auto.
  - now apply Permutation_app_head.
  - rewrite !app_assoc. apply Permutation_app_tail, Permutation_app_comm.
  - now rewrite IHPermutation1.
Qed.
Lemma fold_concat : forall A B (f : A -> out (list B)) l rs acc, Forall2 (fun a r => f a = Done r) l rs ->
  fold_out (fun a acc => do k <- f a; Done (acc ++ k)) l acc = Done (acc ++ concat rs).
Proof.
  intros A B f l rs acc F. revert acc. induction F as [|a r l rs E F IH]; intros acc; cbn [fold_out concat]; [now rewrite app_nil_r|].
  rewrite E. cbn [obind]. rewrite IH. now rewrite app_assoc.
Qed.
Lemma forall_filter : forall A (P : A -> Prop) f l, Forall P l -> Forall P (filter f l).
Proof. intros A P f l F. induction F; cbn; [constructor|]. destruct (f x); auto. Qed.
Lemma filter_concat : forall A (f : A -> bool) ls, filter f (concat ls) = concat (map (filter f) ls).
Proof. intros A f ls. induction ls as [|l ls IH]; [reflexivity|]. cbn. now rewrite filter_app, IH. Qed.
Lemma filter_map : forall A B (f : B -> bool) (g : A -> B) l, filter f (map g l) = map g (filter (fun a => f (g a)) l).
Proof. intros A B f g l. induction l as [|a l IH]; [reflexivity|]. cbn. destruct (f (g a)); cbn; now rewrite IH. Qed.

(** *** names *)
Lemma slashed_snoc : forall ns n, slashed (ns ++ [n]) = (slashed ns ++ "/" ++ n)%string.
Proof.
  assert (AP : forall a b c : string, ((a ++ b) ++ c = a ++ (b ++ c))%string) by (intros a b c; induction a as [|ch a IH]; [reflexivity|cbn; now rewrite IH]).
  assert (E : forall s : string, (s ++ "" = s)%string) by (induction s as [|ch s IH]; [reflexivity|cbn; now rewrite IH]).
  induction ns as [|m ns IH]; intros n; [cbn; now rewrite E|]. cbn [app slashed fold_right]. change (fold_right _ "" (ns ++ [n])) with (slashed (ns ++ [n])). rewrite IH.
  change (fold_right _ "" ns) with (slashed ns). cbn. now rewrite AP.
Qed.
Lemma named_name : forall y w n, named_after y w -> short_name y = Ok (Some n) -> field w "short_name" = Some (VStr n).
Proof. intros y w n (m & M & F) E. rewrite E in M. injection M as <-. exact F. Qed.
Lemma all_sortable : forall l, Forall (fun w => exists n, field w "short_name" = Some (VStr n)) l -> sortable l = true.
Proof.
  intros l F. unfold sortable. destruct l as [|a [|b l]]; try reflexivity. apply forallb_forall. intros w I. rewrite Forall_forall in F. destruct (F w I) as (n & E).
  unfold IrSem.has_name. now rewrite E.
Qed.

(** *** types of attributes *)
Notation ft := (types_of field_types).
Lemma field_list : forall v c f bs, hasb ft v (BObj c) -> ft c f = tlist bs -> forall w, field v f = Some w ->
  exists l, w = VList l /\ Forall (fun q => exists b, In b bs /\ hasb ft q b) l.
Proof.
  intros v c f bs H E w F. apply hasb_obj_inv in H. destruct H as (fs & -> & _ & T). cbn [field] in F. pose proof (typed_field _ _ _ _ _ T F) as W. rewrite E in W.
  inversion W as [? b ? I B|vs bs' ? Q A]; subst; [contradiction I|]. injection Q as <-. eauto.
Qed.
Lemma packages_list : forall v c, hasb ft v (BObj c) -> c = "AUTOSAR" \/ c = "ARPackage" -> forall w, field v "arPackages" = Some w ->
  exists l, w = VList l /\ Forall (fun q => hasb ft q (BObj "ARPackage")) l.
Proof.
  intros v c H C w F. destruct (field_list v c "arPackages" [BObj "ARPackage"] H) with (2 := F) as (l & -> & A).
  { destruct C as [-> | ->]; vm_compute; reflexivity. }
  exists l. split; [reflexivity|]. eapply Forall_impl; [|exact A]. intros q (b & [<-|[]] & B). exact B.
Qed.
Lemma elements_list : forall v, hasb ft v (BObj "ARPackage") -> forall w, field v "elements" = Some w -> exists l, w = VList l.
Proof.
  intros v H w F. destruct (field_list v "ARPackage" "elements" (match tl (ft "ARPackage" "elements") with Some bs => bs | None => [] end) H) with (2 := F) as (l & -> & _).
  - vm_compute. reflexivity.
  - eauto.
Qed.
Lemma get_packages : forall v c, hasb ft v (BObj c) -> c = "AUTOSAR" \/ c = "ARPackage" -> forall l, field v "arPackages" = Some (VList l) ->
  sortable l = true -> get1 v (GM "getARPackages") = Done (VList (py_sorted sort_key l)).
Proof.
  intros v c H C l F S. apply hasb_obj_inv in H. destruct H as (fs & -> & _). cbn [field] in F. unfold get1.
  assert (E : access_of c "getARPackages" = Some (AGetSorted "arPackages")) by (destruct C as [-> | ->]; vm_compute; reflexivity).
  rewrite E, F, S. reflexivity.
Qed.

Section List_.
Context (cls : string) (sorts : bool) (ts : list string).
Hypothesis TS : forallb (fun p => Bool.eqb (isinst (snd p) cls) (existsb (String.eqb (fst p)) ts)) readable_elements = true.
Hypothesis RD : forallb (fun t => match assoc t readable_elements with Some _ => true | None => false end) ts = true.

Definition same_entry (e : list string * xml) (f : entry) : Prop :=
  fst f = Some (slashed (fst e)) /\ field (snd f) "short_name" = Some (VStr (text_name (snd e))) /\ class_name (snd f) = assoc (xtag (snd e)) readable_elements.

Lemma tag_class : forall t c, assoc t readable_elements = Some c -> isinst c cls = existsb (String.eqb t) ts.
Proof.
  intros t c A. pose proof TS as K. rewrite forallb_forall in K.
  assert (J : In (t, c) readable_elements).
  { clear -A. induction readable_elements as [|[s d] l IH]; [discriminate|]. cbn in A. destruct (String.eqb_spec t s); [injection A as <-; subst; now left|right; auto]. }
  specialize (K _ J). cbn [fst snd] in K. now apply eqb_prop in K.
Qed.
Lemma tag_readable : forall y, existsb (String.eqb (xtag y)) ts = true -> readable y = true.
Proof.
  intros y E. apply existsb_exists in E. destruct E as (t & I & Q). apply String.eqb_eq in Q. pose proof RD as K. rewrite forallb_forall in K. specialize (K t I).
  unfold readable. now rewrite Q.
Qed.
Lemma chosen : forall ys ws,
  Forall2 (fun y w => class_name w = assoc (xtag y) readable_elements /\ named_after y w) (filter readable ys) ws ->
  Forall2 (fun y w => class_name w = assoc (xtag y) readable_elements /\ named_after y w)
    (filter (fun y => existsb (String.eqb (xtag y)) ts) ys) (filter (fun e => match e with VObj c _ => isinst c cls | _ => false end) ws).
Proof.
  induction ys as [|y ys IH]; intros ws F; cbn [filter] in *; [inversion F; constructor|].
  destruct (readable y) eqn:RY.
  - inversion F as [|? w ? r [C N] R]; subst. cbn [filter]. pose proof RY as Q. unfold readable in Q. destruct (assoc (xtag y) readable_elements) as [d|] eqn:A; [|discriminate Q].
    destruct w as [| | |c fs|]; try discriminate C. injection C as ->. rewrite (tag_class _ _ A). destruct (existsb (String.eqb (xtag y)) ts); [constructor; [split; [now rewrite A|exact N]|]|]; auto.
  - destruct (existsb (String.eqb (xtag y)) ts) eqn:E; [rewrite (tag_readable y E) in RY; discriminate|auto].
Qed.

(** induction over packages *)
Lemma kept_pack : forall P : xml -> val -> Prop,
  (forall x v subs els, class_name v = Some "ARPackage" -> named_after x v -> field v "arPackages" = Some subs ->
     Forall2 (fun q w => package_kept q w /\ P q w) (packages_of x) (items subs) -> field v "elements" = Some els ->
     Forall2 (fun y w => class_name w = assoc (xtag y) readable_elements /\ named_after y w) (filter readable (findall "ELEMENTS/*" x)) (items els) -> P x v) ->
  forall x v, package_kept x v -> P x v.
Proof.
  intros P H. fix IH 3. intros x v K. destruct K as [x v subs els C N S F E G]. apply (H x v subs els C N S); [|exact E|exact G].
  unfold packages_of. clear -F IH. induction F as [|q w l k Q F IHF]; constructor; [split; [exact Q|exact (IH _ _ Q)]|exact IHF].
Qed.

Definition parsed (x : xml) (v : val) : Prop := hasb ft v (BObj "ARPackage") -> forall ns l, holds ns x l -> all_named (filter (tagged_in ts) l) ->
  exists N, forall n, N <= n -> exists r k, parse_package n cls sorts (Some (slashed ns)) v = Done r /\ Permutation r k /\ Forall2 same_entry (filter (tagged_in ts) l) k.

Lemma named_concat : forall ls l, all_named (filter (tagged_in ts) (concat ls)) -> In l ls -> all_named (filter (tagged_in ts) l).
Proof.
  intros ls l A I. unfold all_named in *. rewrite Forall_forall in *. intros e J. apply A. apply filter_In in J. apply filter_In. split; [|tauto]. apply in_concat. exists l. tauto.
Qed.
(** the sub-packages *)
Lemma subs_parsed : forall (qs : list xml) (vs : list val), Forall2 (fun q w => package_kept q w /\ parsed q w) qs vs -> Forall (fun q => hasb ft q (BObj "ARPackage")) vs ->
  forall ns ls, Forall2 (fun q l => exists n, short_name q = Ok (Some n) /\ holds (ns ++ [n]) q l) qs ls -> (forall l, In l ls -> all_named (filter (tagged_in ts) l)) ->
  exists N, forall n, N <= n -> exists rs ks, Forall2 (fun w r => parse_package n cls sorts (below (Some (slashed ns)) (name_text w)) w = Done r) vs rs /\
    Forall2 (@Permutation entry) rs ks /\ Forall2 same_entry (filter (tagged_in ts) (concat ls)) (concat ks).
Proof.
  intros qs vs F. induction F as [|q w qs vs [K P] F IH]; intros T ns ls L A.
  - inversion L; subst. exists 0. intros n _. exists [], []. repeat split; constructor.
  - inversion L as [|? l ? ls' (m & M & H) L']; subst. apply Forall_inv_tail in T as T'. apply Forall_inv in T.
    destruct (IH T' ns ls' L' (fun l I => A l (or_intror I))) as (N1 & H1). destruct (P T _ _ H (A l (or_introl eq_refl))) as (N2 & H2).
    exists (Nat.max N1 N2). intros n G. destruct (H1 n ltac:(lia)) as (rs & ks & R1 & R2 & R3). destruct (H2 n ltac:(lia)) as (r & k & Q1 & Q2 & Q3).
    exists (r :: rs), (k :: ks). split; [|split; [now constructor|]].
    + constructor; [|exact R1]. destruct K as [x v subs els _ NM _ _ _ _]. unfold name_text. rewrite (named_name _ _ _ NM M). unfold below. rewrite <- slashed_snoc. exact Q1.
    + cbn [concat]. rewrite filter_app. now apply Forall2_app.
Qed.
Lemma two_sortable : forall qs vs ns ls, Forall2 (fun q w => package_kept q w /\ parsed q w) qs vs ->
  Forall2 (fun q l => exists n, short_name q = Ok (Some n) /\ holds (ns ++ [n]) q l) qs ls -> sortable vs = true.
Proof.
  intros qs vs ns ls F L. apply all_sortable. revert ls L. induction F as [|q w qs vs [K _] F IH]; intros ls L; [constructor|].
  inversion L as [|? l ? ls' (m & M & _) L']; subst. constructor; [|eauto]. destruct K as [x v subs els _ NM _ _ _ _]. exists m. exact (named_name _ _ _ NM M).
Qed.
Lemma perm_concat2 : forall (rs ks : list (list entry)), Forall2 (@Permutation entry) rs ks -> Permutation (concat rs) (concat ks).
Proof. intros rs ks F. induction F; cbn; [reflexivity|]. now apply Permutation_app. Qed.
Lemma folded : forall n pre vs rs, Forall2 (fun w r => parse_package n cls sorts (below pre (name_text w)) w = Done r) vs rs ->
  exists r, fold_out (fun q acc => do k <- parse_package n cls sorts (below pre (name_text q)) q; Done (acc ++ k)) (py_sorted sort_key vs) [] = Done r /\ Permutation r (concat rs).
Proof.
  intros n pre vs rs F. destruct (two_perm _ _ _ _ _ (Permutation_sym (py_sorted_perm sort_key vs)) _ F) as (rs' & P & F').
  exists (concat rs'). split; [exact (fold_concat _ _ _ _ _ [] F')|]. apply concat_perm. now symmetry.
Qed.
Lemma els_entries : forall ns ys ws, all_named (map (pair ns) ys) -> Forall2 (fun y w => class_name w = assoc (xtag y) readable_elements /\ named_after y w) ys ws ->
  Forall2 same_entry (map (pair ns) ys) (map (pair (Some (slashed ns))) ws).
Proof.
  intros ns ys ws A F. induction F as [|y w ys ws [C N] F IH]; [constructor|]. apply Forall_inv_tail in A as A'. apply Forall_inv in A. constructor; [|exact (IH A')].
  destruct A as (m & M). cbn [snd] in M. split; [reflexivity|]. cbn [fst snd]. split; [|exact C]. rewrite (named_name _ _ _ N M). unfold text_name. now rewrite M.
Qed.
Lemma els_sortable : forall ns ys ws, all_named (map (pair ns) ys) -> Forall2 (fun y w => class_name w = assoc (xtag y) readable_elements /\ named_after y w) ys ws -> sortable ws = true.
Proof.
  intros ns ys ws A F. apply all_sortable. induction F as [|y w ys ws [C N] F IH]; [constructor|]. apply Forall_inv_tail in A as A'. apply Forall_inv in A. constructor; [|exact (IH A')].
  destruct A as (m & M). exists m. exact (named_name _ _ _ N M).
Qed.

Lemma all_parsed : forall x v, package_kept x v -> parsed x v.
Proof.
  apply kept_pack. intros x v subs els C NM FS S FE G T ns l H A. inversion H as [ns' p ls L Q1 Q2 Q3]; subst. clear H.
  destruct (packages_list _ _ T (or_intror eq_refl) _ FS) as (vs & -> & TV). destruct (elements_list _ T _ FE) as (ws & ->). cbn [items] in *.
  unfold all_named in A. rewrite filter_app in A. apply Forall_app in A. destruct A as [A1 A2].
  destruct (subs_parsed _ _ S TV ns ls L (fun k I => named_concat ls k A1 I)) as (N & HN). pose proof (two_sortable _ _ _ _ S L) as SO.
  rewrite filter_map in A2. pose proof (chosen _ _ G) as CH. pose proof (els_entries _ _ _ A2 CH) as EE. pose proof (els_sortable _ _ _ A2 CH) as ES.
  exists (Datatypes.S N). intros n LE. destruct n as [|n]; [lia|]. destruct (HN n ltac:(lia)) as (rs & ks & R1 & R2 & R3). destruct (folded _ _ _ _ R1) as (r & FO & PE).
  cbn [parse_package]. rewrite (get_packages _ _ T (or_intror eq_refl) _ FS SO). cbn [obind values]. rewrite FO. cbn [obind].
  assert (SE : exists k, selected cls sorts v = Done k /\ Permutation k (filter (fun e => match e with VObj c _ => isinst c cls | _ => false end) ws)).
  { unfold selected. rewrite FE. cbn [values obind]. destruct sorts; [|eexists; split; reflexivity]. rewrite ES. eexists. split; [reflexivity|]. apply py_sorted_perm. }
  destruct SE as (k & -> & PK). cbn [obind]. eexists. eexists. split; [reflexivity|]. split.
  - apply Permutation_app; [rewrite PE; exact (perm_concat2 _ _ R2)|]. apply Permutation_map. exact PK.
  - rewrite filter_app. apply Forall2_app; [exact R3|]. rewrite filter_map. exact EE.
Qed.

Lemma loaded_typed : forall warn x u, loaded warn x u -> hasb ft u (BObj "AUTOSAR").
Proof. intros warn x u (n & R). pose proof (load_runs warn n x) as H. rewrite R in H. exact H. Qed.

Lemma imported : forall warn x u l, loaded warn x u -> file_holds x l -> all_named (filter (tagged_in ts) l) ->
  exists N, forall n, N <= n -> exists r k, import_document n cls sorts u = Done r /\ Permutation r k /\ Forall2 same_entry (filter (tagged_in ts) l) k.
Proof.
  intros warn x u l L (ls & F & ->) A. pose proof (loaded_typed _ _ _ L) as T. destruct (c59_packages _ _ _ L) as (ps & FS & S).
  destruct (packages_list _ _ T (or_introl eq_refl) _ FS) as (vs & -> & TV). cbn [items] in S. fold (packages_of x) in S.
  assert (S' : Forall2 (fun q w => package_kept q w /\ parsed q w) (packages_of x) vs) by (clear -S TS RD; induction S; constructor; auto; split; auto; now apply all_parsed).
  destruct (subs_parsed _ _ S' TV [] ls F (fun k I => named_concat ls k A I)) as (N & HN). pose proof (two_sortable _ _ [] _ S' F) as SO.
  exists N. intros n LE. destruct (HN n LE) as (rs & ks & R1 & R2 & R3). destruct (folded _ _ _ _ R1) as (r & FO & PE).
  unfold import_document. rewrite (get_packages _ _ T (or_introl eq_refl) _ FS SO). cbn [obind values]. exists r, (concat ks). split; [exact FO|]. split; [|exact R3].
  rewrite PE. exact (perm_concat2 _ _ R2).
Qed.
End List_.

(** *** printing *)
Lemma entry_line : forall long e f, same_entry e f -> line_of long f = Some (shown long e).
Proof.
  intros long [ns y] [p w] (P & N & _). cbn [fst snd] in *. unfold line_of, shown, name_text. cbn [fst snd]. rewrite N, P. destruct long; [|reflexivity]. cbn [below]. now rewrite slashed_snoc.
Qed.
Lemma lines_shown : forall long es fs, Forall2 same_entry es fs -> print_lines long fs = (map (shown long) es, None).
Proof.
  intros long es fs F. induction F as [|e f es fs H F IH]; [reflexivity|]. cbn [print_lines map]. now rewrite (entry_line _ _ _ H), IH.
Qed.
Lemma entries_sortable : forall es fs, Forall2 same_entry es fs -> sortable (map snd fs) = true.
Proof. intros es fs F. apply all_sortable. induction F as [|e f es fs (_ & N & _) F IH]; cbn; constructor; eauto. Qed.
Lemma sortable_perm : forall l k, Permutation l k -> Forall (fun w => exists n, field w "short_name" = Some (VStr n)) l -> Forall (fun w => exists n, field w "short_name" = Some (VStr n)) k.
Proof. intros l k P F. rewrite Forall_forall in *. intros w I. apply F. now apply Permutation_in with (2 := I), Permutation_sym. Qed.
Lemma printed : forall long es r k, Permutation r k -> Forall2 same_entry es k ->
  exists es', Permutation es' es /\ in_order es' /\ print_out long r = Done (map (shown long) es', None).
Proof.
  intros long es r k P F. pose proof (Permutation_trans (py_sorted_perm (fun e : entry => sort_key (snd e)) r) P) as Q.
  destruct (two_perm _ _ _ _ _ (Permutation_sym Q) _ (two_swap _ _ _ _ _ F)) as (es' & PE & F'). apply two_swap in F'.
  exists es'. split; [now symmetry|]. split.
  - pose proof (py_sorted_sorted (fun e : entry => sort_key (snd e)) r) as S. clear -F' S. unfold in_order. induction F' as [|e f es fs H F IH]; [constructor|].
    apply StronglySorted_inv in S. destruct S as [S A]. constructor; [exact (IH S)|]. clear -H F A.
    induction F as [|e' f' es fs H' F IH]; [constructor|]. apply Forall_inv_tail in A as A'. apply Forall_inv in A. constructor; [|exact (IH A')].
    destruct H as (_ & N & _), H' as (_ & N' & _). unfold sort_key in A. rewrite N, N' in A. exact A.
  - unfold print_out. replace (sortable (map snd r)) with true.
    + cbv iota. apply (f_equal Done). exact (lines_shown long es' _ F').
    + symmetry. apply all_sortable. apply (sortable_perm (map snd k)); [now apply Permutation_map, Permutation_sym|]. clear -F. induction F as [|e f es fs (_ & N & _) F IH]; cbn; constructor; eauto.
Qed.
(** the filter on compositions *)
Lemma composition_class : forallb (fun p => Bool.eqb (isinst (snd p) "CompositionSwComponentType") (existsb (String.eqb (fst p)) ["COMPOSITION-SW-COMPONENT-TYPE"])) readable_elements = true.
Proof. vm_cast_no_check (eq_refl true). Qed.
Lemma component_class : forallb (fun p => Bool.eqb (isinst (snd p) "SwComponentType") (existsb (String.eqb (fst p)) component_tags)) readable_elements = true.
Proof. vm_cast_no_check (eq_refl true). Qed.
Lemma signal_class : forallb (fun p => Bool.eqb (isinst (snd p) "SystemSignal") (existsb (String.eqb (fst p)) ["SYSTEM-SIGNAL"])) readable_elements = true.
Proof. vm_cast_no_check (eq_refl true). Qed.
Lemma component_read : forallb (fun t => match assoc t readable_elements with Some _ => true | None => false end) component_tags = true.
Proof. vm_cast_no_check (eq_refl true). Qed.
Lemma signal_read : forallb (fun t => match assoc t readable_elements with Some _ => true | None => false end) ["SYSTEM-SIGNAL"] = true.
Proof. vm_cast_no_check (eq_refl true). Qed.

Lemma filter_two : forall es fs, Forall2 same_entry es fs -> forallb (fun e : list string * xml => readable (snd e)) es = true ->
  Forall2 same_entry (filter (tagged_in ["COMPOSITION-SW-COMPONENT-TYPE"]) es) (filter is_composition fs).
Proof.
  intros es fs F. induction F as [|e f es fs H F IH]; intros R; [constructor|]. cbn [forallb] in R. apply andb_true_iff in R. destruct R as [R1 R2]. specialize (IH R2). cbn [filter].
  assert (Q : is_composition f = tagged_in ["COMPOSITION-SW-COMPONENT-TYPE"] e).
  { destruct H as (_ & _ & C). unfold readable in R1. destruct (assoc (xtag (snd e)) readable_elements) as [c|] eqn:A; [|discriminate R1].
    unfold is_composition, tagged_in. destruct (snd f) as [| | |d ds|]; try discriminate C. injection C as ->. exact (tag_class _ _ composition_class _ _ A). }
  rewrite Q. destruct (tagged_in _ e); [constructor; assumption|assumption].
Qed.
Lemma filter_filter : forall l, filter (tagged_in ["COMPOSITION-SW-COMPONENT-TYPE"]) (filter (tagged_in component_tags) l) = filter (tagged_in ["COMPOSITION-SW-COMPONENT-TYPE"]) l.
Proof.
  induction l as [|e l IH]; [reflexivity|]. cbn [filter]. destruct (tagged_in component_tags e) eqn:T; cbn [filter]; rewrite IH; [reflexivity|].
  destruct (tagged_in ["COMPOSITION-SW-COMPONENT-TYPE"] e) eqn:U; [|reflexivity]. exfalso. unfold tagged_in in *. cbn [existsb] in U. rewrite orb_false_r in U. apply String.eqb_eq in U. rewrite U in T. discriminate T.
Qed.
Lemma components_readable : forall l, forallb (fun e : list string * xml => readable (snd e)) (filter (tagged_in component_tags) l) = true.
Proof.
  intros l. apply forallb_forall. intros e I. apply filter_In in I. destruct I as [_ I]. unfold tagged_in in I. exact (tag_readable _ component_read _ I).
Qed.
Lemma perm_filter : forall A (f : A -> bool) l k, Permutation l k -> Permutation (filter f l) (filter f k).
Proof.
  intros A f l k P. induction P; cbn; auto.
  - destruct (f x); auto.
  - destruct (f x), (f y); auto. apply perm_swap.
  - now rewrite IHP1.
Qed.

(** *** the property *)
Lemma c61_components : forall warn x u l format flt, loaded warn x u -> file_holds x l -> all_named (filter (tagged_in component_tags) l) ->
  listed (if option_is flt "compositionswcomponent" then ["COMPOSITION-SW-COMPONENT-TYPE"] else component_tags) (option_is format "long") l (fun n => swc_list n format flt u).
Proof.
  intros warn x u l format flt L F A. destruct (imported _ false _ component_class component_read _ _ _ _ L F A) as (N & H). exists N. intros n LE. destruct (H n LE) as (r & k & E & P & S).
  unfold swc_list. rewrite E. cbn [obind]. destruct (option_is flt "compositionswcomponent").
  - apply (printed _ _ _ (filter is_composition k)); [now apply perm_filter|]. rewrite <- filter_filter. apply filter_two; [exact S|]. apply components_readable.
  - exact (printed _ _ _ _ P S).
Qed.
Lemma c61_signals : forall warn x u l format, loaded warn x u -> file_holds x l -> all_named (filter (tagged_in ["SYSTEM-SIGNAL"]) l) ->
  listed ["SYSTEM-SIGNAL"] (option_is format "full") l (fun n => system_signal n format u).
Proof.
  intros warn x u l format L F A. destruct (imported _ true _ signal_class signal_read _ _ _ _ L F A) as (N & H). exists N. intros n LE. destruct (H n LE) as (r & k & E & P & S).
  unfold system_signal. rewrite E. cbn [obind]. replace (String.eqb (if option_is format "full" then "full" else "short") "full") with (option_is format "full") by (destruct (option_is format "full"); reflexivity).
  exact (printed _ _ _ _ P S).
Qed.
Lemma c61_memory : forall n format u, memory_section n format u = system_signal n None u.
Proof. intros n format u. unfold memory_section, system_signal. destruct (import_document n "SystemSignal" true u) as [l|e| |]; try reflexivity. cbn [obind option_is]. destruct (option_is format "long"); reflexivity. Qed.

(** *** the list of elements of a file *)
Lemma named_holds : forall p, packages_named p -> forall ns, exists l, holds ns p l.
Proof.
  fix IH 2. intros p H ns. destruct H as [p F].
  assert (E : exists ls, Forall2 (fun q l => exists n, short_name q = Ok (Some n) /\ holds (ns ++ [n]) q l) (packages_of p) ls).
  { induction F as [|q qs [(n & N) Q] F IHF]; [exists []; constructor|]. destruct IHF as (ls & L). destruct (IH q Q (ns ++ [n])) as (l & K). exists (l :: ls). constructor; eauto. }
  destruct E as (ls & L). eexists. econstructor. exact L.
Qed.
Lemma c61_exists : forall x, packages_named x -> exists l, file_holds x l.
Proof. intros x H. destruct (named_holds x H []) as (l & K). inversion K as [ns p ls L A B C]; subst. exists (concat ls), ls. split; [exact L|reflexivity]. Qed.
Lemma holds_pack : forall P : list string -> xml -> list (list string * xml) -> Prop,
  (forall ns p ls, Forall2 (fun q l => exists n, short_name q = Ok (Some n) /\ holds (ns ++ [n]) q l /\ P (ns ++ [n]) q l) (packages_of p) ls ->
     P ns p (concat ls ++ map (pair ns) (findall "ELEMENTS/*" p))) -> forall ns p l, holds ns p l -> P ns p l.
Proof.
  intros P H. fix IH 4. intros ns p l K. destruct K as [ns p ls F]. apply H. clear -F IH.
  induction F as [|q l qs ls (n & N & Q) F IHF]; constructor; [exists n; split; [exact N|split; [exact Q|exact (IH _ _ _ Q)]]|exact IHF].
Qed.
Lemma holds_one : forall ns p l, holds ns p l -> forall k, holds ns p k -> l = k.
Proof.
  apply (holds_pack (fun ns p l => forall k, holds ns p k -> l = k)). intros ns p ls F k K. inversion K as [ns' p' ks G A B C]; subst. f_equal. f_equal. clear K. revert ks G.
  induction F as [|q l qs ls (n & N & _ & Q) F IH]; intros ks G; inversion G as [|? k ? ks' (m & M & K) G']; subst; [reflexivity|].
  rewrite N in M. injection M as <-. f_equal; [now apply Q|now apply IH].
Qed.
Lemma c61_one : forall x l k, file_holds x l -> file_holds x k -> l = k.
Proof.
  intros x l k (ls & L & ->) (ks & K & ->). f_equal. revert ks K. induction L as [|q l qs ls (n & N & H) L IH]; intros ks K; inversion K as [|? k ? ks' (m & M & G) K']; subst; [reflexivity|].
  rewrite N in M. injection M as <-. f_equal; [exact (holds_one _ _ _ H _ G)|now apply IH].
Qed.

(** *** cases *)
Definition listed_doc : xml :=
  tagged "AUTOSAR" [tagged "AR-PACKAGES" [
    named_xml "AR-PACKAGE" "P" [
      tagged "ELEMENTS" [named_xml "SERVICE-SW-COMPONENT-TYPE" "z" []; named_xml "SYSTEM-SIGNAL" "s" []; named_xml "PARAMETER-SW-COMPONENT-TYPE" "p" []];
      tagged "AR-PACKAGES" [named_xml "AR-PACKAGE" "Q" [tagged "ELEMENTS" [named_xml "COMPOSITION-SW-COMPONENT-TYPE" "k" []; named_xml "APPLICATION-SW-COMPONENT-TYPE" "a" []]]]]]].
Definition listed_u : val := Eval vm_compute in value (load_run true listed_doc).
Lemma listed_loaded : loaded true listed_doc listed_u.
Proof. apply loaded_run. vm_compute. reflexivity. Qed.
Definition listed_l : list (list string * xml) :=
  [(["P"; "Q"], named_xml "COMPOSITION-SW-COMPONENT-TYPE" "k" []); (["P"; "Q"], named_xml "APPLICATION-SW-COMPONENT-TYPE" "a" []);
   (["P"], named_xml "SERVICE-SW-COMPONENT-TYPE" "z" []); (["P"], named_xml "SYSTEM-SIGNAL" "s" []); (["P"], named_xml "PARAMETER-SW-COMPONENT-TYPE" "p" [])].
Lemma listed_holds : file_holds listed_doc listed_l.
Proof.
  exists [listed_l]. split; [|reflexivity]. change (packages_of listed_doc) with [hd (El "" [] None []) (packages_of listed_doc)]. constructor; [|constructor]. exists "P". split; [vm_compute; reflexivity|].
  assert (H : forall p, p = hd (El "" [] None []) (packages_of listed_doc) -> holds ["P"] p listed_l); [|now apply H].
  intros p E. replace listed_l with (concat [firstn 2 listed_l] ++ map (pair ["P"]) (findall "ELEMENTS/*" p)) by (rewrite E; vm_compute; reflexivity).
  constructor. replace (packages_of p) with [hd (El "" [] None []) (packages_of p)] by (rewrite E; vm_compute; reflexivity). constructor; [|constructor]. exists "Q".
  split; [rewrite E; vm_compute; reflexivity|]. replace (firstn 2 listed_l) with (concat [] ++ map (pair ["P"; "Q"]) (findall "ELEMENTS/*" (hd (El "" [] None []) (packages_of p)))) by (rewrite E; vm_compute; reflexivity).
  constructor. replace (packages_of (hd (El "" [] None []) (packages_of p))) with (@nil xml) by (rewrite E; vm_compute; reflexivity). constructor.
Qed.
Lemma listed_named : all_named (filter (tagged_in component_tags) listed_l).
Proof. unfold all_named. vm_compute. repeat constructor; eexists; reflexivity. Qed.
Lemma listed_long : swc_list 3 (Some "LONG") None listed_u = Done (["/P/Q/a"; "/P/Q/k"; "/P/z"], None).
Proof. vm_compute. reflexivity. Qed.
Lemma listed_composition : swc_list 3 None (Some "CompositionSwComponent") listed_u = Done (["k"], None).
Proof. vm_compute. reflexivity. Qed.
Lemma listed_signals : system_signal 3 (Some "full") listed_u = Done (["/P/s"], None).
Proof. vm_compute. reflexivity. Qed.
Lemma c61_parameter : exists x u l e, loaded true x u /\ file_holds x l /\ In e l /\ xtag (snd e) = "PARAMETER-SW-COMPONENT-TYPE" /\
  exists lines, swc_list 3 None None u = Done (lines, None) /\ ~ In (text_name (snd e)) lines.
Proof.
  exists listed_doc, listed_u, listed_l, (["P"], named_xml "PARAMETER-SW-COMPONENT-TYPE" "p" []). split; [exact listed_loaded|]. split; [exact listed_holds|]. split; [do 4 right; now left|]. split; [reflexivity|].
  exists ["a"; "k"; "z"]. split; [vm_compute; reflexivity|]. vm_compute. intuition discriminate.
Qed.
Lemma c61_memory_long : exists x u l e, loaded true x u /\ file_holds x l /\ In e l /\ xtag (snd e) = "SYSTEM-SIGNAL" /\
  memory_section 3 (Some "long") u = Done ([text_name (snd e)], None) /\ slashed (fst e ++ [text_name (snd e)]) <> text_name (snd e).
Proof.
  exists listed_doc, listed_u, listed_l, (["P"], named_xml "SYSTEM-SIGNAL" "s" []). split; [exact listed_loaded|]. split; [exact listed_holds|]. split; [do 3 right; now left|]. split; [reflexivity|].
  split; [vm_compute; reflexivity|]. vm_compute. discriminate.
Qed.
