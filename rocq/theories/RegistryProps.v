(** Proofs for C62. *)
From Coq Require Import String List Bool Arith Lia Permutation Sorted.
From Verif Require Import PyBase PyBaseFacts Primitives Leaf Xml ClassTable Ir Access IrSem SpecRoundTrip SpecKeep KeepCases RoundTripLoss ListingProps ObjHeap SpecHeap Locate SpecLocate LocateProps LocateCases Doc SpecDoc DocProps SpecListing Registry SpecRegistry.
Import ListNotations.
Open Scope string_scope.
Open Scope list_scope.

Notation calls_of l := (flat_map (fun e : list string * xml => element_calls (slashed (fst e)) (snd e)) l).

Lemma object_text : forall y, object_name y = text_name y.
Proof. intros y. unfold object_name, text_name. destruct (short_name y) as [[s|]|e]; reflexivity. Qed.
Lemma text_named : forall y n, short_name y = Ok (Some n) -> object_name y = n.
Proof. intros y n E. unfold object_name. now rewrite E. Qed.

(** *** the calls are those of the elements of the file *)
Lemma flat_map_concat2 : forall A B (f : A -> list B) ls, flat_map f (concat ls) = concat (map (flat_map f) ls).
Proof. intros A B f ls. induction ls as [|l ls IH]; [reflexivity|]. cbn. now rewrite flat_map_app, IH. Qed.
Definition called (ns : list string) (q : xml) (l : list (list string * xml)) : Prop :=
  exists N, forall n, N <= n -> package_calls n (slashed ns) q = Done (calls_of l).
Lemma subs_called : forall ns qs ls, Forall2 (fun q l => exists n, short_name q = Ok (Some n) /\ called (ns ++ [n]) q l) qs ls ->
  exists N, forall n, N <= n -> fold_out (fun q acc => do k <- package_calls n (slashed ns ++ "/" ++ object_name q)%string q; Done (acc ++ k)) qs [] = Done (calls_of (concat ls)).
Proof.
  intros ns qs ls F.
  assert (E : exists N, forall n, N <= n -> Forall2 (fun q r => package_calls n (slashed ns ++ "/" ++ object_name q)%string q = Done r) qs (map (fun l => calls_of l) ls)).
  { induction F as [|q l qs ls (m & M & N1 & H1) F (N2 & H2)]; [exists 0; constructor|]. exists (Nat.max N1 N2). intros n LE. cbn [map]. constructor; [|apply H2; lia].
    rewrite (text_named _ _ M), <- slashed_snoc. apply H1. lia. }
  destruct E as (N & E). exists N. intros n LE. rewrite flat_map_concat2. exact (fold_concat _ _ _ _ _ [] (E n LE)).
Qed.
Lemma holds_called : forall ns p l, holds ns p l -> called ns p l.
Proof.
  fix IH 4. intros ns p l H. destruct H as [ns p ls F].
  assert (G : Forall2 (fun q l => exists n, short_name q = Ok (Some n) /\ called (ns ++ [n]) q l) (packages_of p) ls).
  { clear -F IH. induction F as [|q l qs ls (n & E & K) F IHF]; constructor; [exists n; split; [exact E|exact (IH _ _ _ K)]|exact IHF]. }
  clear F IH. destruct (subs_called _ _ _ G) as (N & HN). exists (S N). intros n LE. destruct n as [|n]; [lia|]. cbn [package_calls].
  change (filter (fun q => String.eqb (xtag q) "AR-PACKAGE") (findall "AR-PACKAGES/*" p)) with (packages_of p).
  rewrite (HN n ltac:(lia)). cbn [obind]. apply (f_equal Done). rewrite flat_map_app. f_equal. induction (findall "ELEMENTS/*" p) as [|y ys IHy]; [reflexivity|]. cbn [map flat_map fst snd]. now rewrite IHy.
Qed.
Lemma file_called : forall x l, file_holds x l -> exists N, forall n, N <= n -> file_calls n x = Done (calls_of l).
Proof.
  intros x l (ls & F & ->).
  assert (G : Forall2 (fun q l => exists n, short_name q = Ok (Some n) /\ called ([] ++ [n]) q l) (packages_of x) ls).
  { clear -F. induction F as [|q l qs ls (n & E & K) F IHF]; constructor; [exists n; split; [exact E|exact (holds_called _ _ _ K)]|exact IHF]. }
  destruct (subs_called _ _ _ G) as (N & HN). exists N. intros n LE. exact (HN n LE).
Qed.
Lemma files_called : forall xs ls, Forall2 file_holds xs ls -> exists N, forall n, N <= n -> registries_of n xs = Done (drun (calls_of (concat ls))).
Proof.
  intros xs ls F. assert (E : exists N, forall n, N <= n -> Forall2 (fun x r => file_calls n x = Done r) xs (map (fun l => calls_of l) ls)).
  { induction F as [|x l xs ls H F (N2 & H2)]; [exists 0; constructor|]. destruct (file_called _ _ H) as (N1 & H1). exists (Nat.max N1 N2). intros n LE. cbn [map]. constructor; [apply H1|apply H2]; lia. }
  destruct E as (N & E). exists N. intros n LE. unfold registries_of. rewrite flat_map_concat2. exact (f_equal (fun r => do cs <- r; Done (drun cs)) (fold_concat _ _ _ _ _ [] (E n LE))).
Qed.

(** *** no clear() among them *)
Definition is_clear (o : dop) : bool := match o with DClear => true | _ => false end.
Lemma since_none : forall os, existsb is_clear os = false -> since_clear os = os.
Proof.
  induction os as [|o os IH]; intros E; [reflexivity|]. cbn [existsb] in E. apply orb_false_iff in E. destruct E as [E1 E2]. cbn [since_clear]. unfold is_clear in E2. rewrite E2.
  destruct o; try reflexivity. discriminate E1.
Qed.
Lemma no_clear : forall l, since_clear (calls_of l) = calls_of l.
Proof.
  intros l. apply since_none. induction l as [|[ns y] l IH]; [reflexivity|]. cbn [flat_map fst snd]. rewrite existsb_app, IH, orb_false_r. unfold element_calls.
  destruct (String.eqb (xtag y) "COMPOSITION-SW-COMPONENT-TYPE"); [reflexivity|].
  destruct (String.eqb (xtag y) "SWC-IMPLEMENTATION"); [unfold implementation_calls; destruct (child_ref _ y); reflexivity|].
  destruct (String.eqb (xtag y) "BSW-IMPLEMENTATION"); [unfold implementation_calls; destruct (child_ref _ y); reflexivity|].
  destruct (String.eqb (xtag y) "DATA-TYPE-MAPPING-SET"); [unfold type_map_calls; induction (findall _ y); [reflexivity|assumption]|].
  destruct (String.eqb (xtag y) "SYSTEM"); [|reflexivity]. unfold system_calls_of. destruct (find _ y); reflexivity.
Qed.

(** *** references *)
Lemma child_text : forall t y s, child_ref t y = Some s <-> ref_text t y s.
Proof.
  intros t y s. unfold child_ref, ref_text. destruct (find t y) as [r|]; cbn [option_map].
  - split.
    + intros E. injection E as <-. exists r. split; [reflexivity|]. destruct (xtext r); cbn; auto.
    + intros (r' & E & H). injection E as <-. destruct H as [-> | [-> ->]]; reflexivity.
  - split; [discriminate|]. intros (r & E & _). discriminate E.
Qed.
(** *** the calls of one kind *)
Ltac tags y := unfold element_calls; destruct (String.eqb_spec (xtag y) "COMPOSITION-SW-COMPONENT-TYPE") as [T1|T1];
  [|destruct (String.eqb_spec (xtag y) "SWC-IMPLEMENTATION") as [T2|T2]; [|destruct (String.eqb_spec (xtag y) "BSW-IMPLEMENTATION") as [T3|T3];
  [|destruct (String.eqb_spec (xtag y) "DATA-TYPE-MAPPING-SET") as [T4|T4]; [|destruct (String.eqb_spec (xtag y) "SYSTEM") as [T5|T5]]]]].
Lemma in_calls : forall o l, In o (calls_of l) <-> exists ns y, In (ns, y) l /\ In o (element_calls (slashed ns) y).
Proof. intros o l. rewrite in_flat_map. split; [intros ([ns y] & I & J); eauto|intros (ns & y & I & J); exists (ns, y); auto]. Qed.
Lemma type_call : forall full y a i, In (DDataMap a i) (element_calls full y) <->
  xtag y = "DATA-TYPE-MAPPING-SET" /\ exists m, In m (findall "DATA-TYPE-MAPS/DATA-TYPE-MAP" y) /\ child_ref "APPLICATION-DATA-TYPE-REF" m = a /\ child_ref "IMPLEMENTATION-DATA-TYPE-REF" m = i.
Proof.
  intros full y a i. tags y.
  all: try (split; [|intros (Q & _); exfalso; rewrite Q in *; first [discriminate|contradiction]]).
  - intros [H|[]]; discriminate.
  - unfold implementation_calls. destruct (child_ref _ y); [intros [H|[]]; discriminate|intros []].
  - unfold implementation_calls. destruct (child_ref _ y); [intros [H|[]]; discriminate|intros []].
  - unfold type_map_calls. rewrite in_map_iff. split.
    + intros (m & E & I). injection E as <- <-. eauto.
    + intros (_ & m & I & <- & <-). eauto.
  - unfold system_calls_of. rewrite in_app_iff. destruct (find _ y); cbn; intuition discriminate.
  - intros [].
Qed.
Lemma type_maps_are : forall l a i, In (a, i) (type_maps (calls_of l)) <-> type_map l a i.
Proof.
  intros l a i. unfold type_maps. rewrite in_flat_map. split.
  - intros (o & I & J). apply in_calls in I. destruct I as (ns & y & I & K). destruct o; try contradiction J. destruct appl as [a'|], impl as [i'|]; try contradiction J.
    destruct J as [J|[]]. injection J as -> ->. apply type_call in K. destruct K as (T & m & M & A & B). exists (ns, y), m. cbn [snd]. rewrite <- !child_text. auto.
  - intros ([ns y] & m & I & T & M & A & B). cbn [snd] in *. rewrite <- child_text in A, B. exists (DDataMap (Some a) (Some i)). split; [|now left].
    apply in_calls. exists ns, y. split; [exact I|]. apply type_call. split; [exact T|]. eauto.
Qed.
Lemma beh_call : forall full y i b, In (DImplBeh i b) (element_calls full y) <->
  (xtag y = "SWC-IMPLEMENTATION" \/ xtag y = "BSW-IMPLEMENTATION") /\ (full ++ "/" ++ object_name y)%string = i /\ child_ref "BEHAVIOR-REF" y = Some b.
Proof.
  assert (K : forall full y i b, In (DImplBeh i b) (implementation_calls full y) <-> (full ++ "/" ++ object_name y)%string = i /\ child_ref "BEHAVIOR-REF" y = Some b).
  { intros full y i b. unfold implementation_calls. destruct (child_ref "BEHAVIOR-REF" y) as [c|]; [|split; [intros []|intros [_ E]; discriminate E]]. split.
    - intros [H|[]]. injection H as <- <-. auto.
    - intros [<- E]. injection E as <-. now left. }
  intros full y i b. tags y.
  all: try (split; [|intros ([Q|Q] & _); exfalso; rewrite Q in *; first [discriminate|contradiction]]).
  - intros [H|[]]; discriminate.
  - rewrite K. intuition.
  - rewrite K. intuition.
  - unfold type_map_calls. rewrite in_map_iff. intros (m & E & I). discriminate E.
  - unfold system_calls_of. rewrite in_app_iff. destruct (find _ y); cbn; intuition discriminate.
  - intros [].
Qed.
Lemma beh_maps_in : forall l i b, In (i, b) (beh_maps (calls_of l)) <-> behavior_map l i b.
Proof.
  intros l i b. unfold beh_maps. rewrite in_flat_map. split.
  - intros (o & I & J). apply in_calls in I. destruct I as (ns & y & I & K). destruct o; try contradiction J.
    destruct J as [J|[]]. injection J as -> ->. apply beh_call in K. destruct K as (T & A & B). exists (ns, y). cbn [fst snd]. rewrite <- child_text, slashed_snoc, <- object_text. auto.
  - intros ([ns y] & I & T & A & B). cbn [fst snd] in *. rewrite <- child_text in B. rewrite slashed_snoc, <- object_text in A. exists (DImplBeh i b). split; [|now left].
    apply in_calls. exists ns, y. split; [exact I|]. apply beh_call. auto.
Qed.
Lemma latest_only : forall ps a b, In (a, b) ps -> (forall c, In (a, c) ps -> c = b) -> latest a ps = Some b.
Proof.
  intros ps a b I U. destruct (latest a ps) as [c|] eqn:E; [now rewrite (U c (latest_In _ _ _ E))|]. exfalso. revert E I. clear U. induction ps as [|[p q] ps IH]; intros E []; cbn [latest] in E.
  - injection H as -> ->. destruct (latest a ps); [discriminate|]. rewrite String.eqb_refl in E. discriminate.
  - destruct (latest a ps); [discriminate|]. auto.
Qed.
Lemma latest_no : forall ps a, (forall c, ~ In (a, c) ps) -> latest a ps = None.
Proof. intros ps a H. destruct (latest a ps) as [c|] eqn:E; [|reflexivity]. destruct (H c (latest_In _ _ _ E)). Qed.
Lemma latest_last : forall ps a b, last_right ps a b -> latest a ps = Some b.
Proof.
  intros ps a b (p & q & -> & H). induction p as [|[c d] p IH]; cbn [app latest].
  - rewrite latest_no; [now rewrite String.eqb_refl|exact H].
  - now rewrite IH.
Qed.
Lemma latest_first : forall ps a b, last_left ps a b -> latest b (map swap_pair ps) = Some a.
Proof.
  intros ps a b (p & q & -> & H). apply latest_last. rewrite map_app. exists (map swap_pair p), (map swap_pair q). split; [reflexivity|].
  intros c I. apply in_map_iff in I. destruct I as ([d e] & E & I). injection E as -> ->. exact (H _ I).
Qed.
Lemma child_list : forall t y, ref_or_none t y = match child_ref t y with Some s => [s] | None => [] end.
Proof. intros t y. unfold ref_or_none, child_ref. destruct (find t y) as [r|]; reflexivity. Qed.
Lemma type_maps_file : forall l, type_maps (calls_of l) = type_maps_in l.
Proof.
  intros l. unfold type_maps_in. induction l as [|[ns y] l IH]; [reflexivity|]. cbn [flat_map fst snd filter]. unfold type_maps in *. rewrite flat_map_app, IH. unfold tagged_in at 2. cbn [existsb snd].
  rewrite orb_false_r. clear IH. tags y.
  all: try (rewrite (proj2 (String.eqb_neq (xtag y) "DATA-TYPE-MAPPING-SET")); [|intros Q; rewrite Q in *; first [discriminate|contradiction]]).
  - reflexivity.
  - unfold implementation_calls. destruct (child_ref _ y); reflexivity.
  - unfold implementation_calls. destruct (child_ref _ y); reflexivity.
  - cbn [flat_map snd]. f_equal. unfold type_map_calls. induction (findall _ y) as [|m k IH]; [reflexivity|]. cbn [map flat_map]. rewrite IH. f_equal. rewrite !child_list.
    destruct (child_ref "APPLICATION-DATA-TYPE-REF" m), (child_ref "IMPLEMENTATION-DATA-TYPE-REF" m); reflexivity.
  - unfold system_calls_of. destruct (find _ y); reflexivity.
  - reflexivity.
Qed.
Lemma beh_maps_file : forall l, beh_maps (calls_of l) = behavior_maps_in l.
Proof.
  assert (K : forall ns y, flat_map (fun o => match o with DImplBeh i b => [(i, b)] | _ => [] end) (implementation_calls (slashed ns) y) =
    map (pair (slashed (ns ++ [text_name y]))) (ref_or_none "BEHAVIOR-REF" y)).
  { intros ns y. unfold implementation_calls. rewrite (child_list "BEHAVIOR-REF" y), (slashed_snoc ns (text_name y)), <- (object_text y). destruct (child_ref _ y); reflexivity. }
  intros l. unfold behavior_maps_in. induction l as [|[ns y] l IH]; [reflexivity|]. cbn [flat_map fst snd filter]. unfold beh_maps in *. rewrite flat_map_app, IH. unfold tagged_in at 2. cbn [existsb snd].
  rewrite orb_false_r. clear IH. tags y; cbn [orb flat_map fst snd].
  - rewrite T1. reflexivity.
  - now rewrite K.
  - now rewrite K.
  - unfold type_map_calls. induction (findall _ y); [reflexivity|assumption].
  - unfold system_calls_of. destruct (find _ y); reflexivity.
  - reflexivity.
Qed.
Lemma swap_in : forall (ps : list (string * string)) a b, In (b, a) (map swap_pair ps) <-> In (a, b) ps.
Proof. intros ps a b. rewrite in_map_iff. split; [intros ([c d] & E & I); injection E as -> ->; exact I|intros I; exists (a, b); auto]. Qed.

(** *** the property *)
Lemma after_intro : forall x l (P : doc -> Prop), file_holds x l -> P (drun (calls_of l)) -> after_reading x P.
Proof. intros x l P F H. destruct (file_called _ _ F) as (N & E). exists N, (drun (calls_of l)). split; [|exact H]. intros n LE. exact (f_equal (fun r => do cs <- r; Done (drun cs)) (E n LE)). Qed.
Lemma after_all_intro : forall xs ls (P : doc -> Prop), Forall2 file_holds xs ls -> P (drun (calls_of (concat ls))) -> after_reading_all xs P.
Proof. intros xs ls P F H. destruct (files_called _ _ F) as (N & E). exists N, (drun (calls_of (concat ls))). auto. Qed.
Section Maps.
Context (warn : bool) (x : xml) (u : val) (l : list (list string * xml)).
Hypothesis L : loaded warn x u.
Hypothesis F : file_holds x l.
Lemma c62_to_implementation : forall a i ws v, last_right (type_maps_in l) a i -> components i ws -> lives u (nonempty_names ws) v ->
  after_reading x (fun d => to_implementation_type d u a = Done (Some v)).
Proof.
  intros a i ws v M C V. apply (after_intro _ _ _ F). unfold to_implementation_type. rewrite (proj1 (type_maps_run _ a)), no_clear, type_maps_file, (latest_last _ _ _ M).
  exact (proj2 (c58_find _ _ _ _ _ _ L C) V).
Qed.
Lemma c62_to_application : forall a i ws v, last_left (type_maps_in l) a i -> components a ws -> lives u (nonempty_names ws) v ->
  after_reading x (fun d => to_application_type d u i = Done (Some v)).
Proof.
  intros a i ws v M C V. apply (after_intro _ _ _ F). unfold to_application_type. rewrite (proj2 (type_maps_run _ i)), no_clear, type_maps_file, (latest_first _ _ _ M).
  exact (proj2 (c58_find _ _ _ _ _ _ L C) V).
Qed.
Lemma c62_behavior : forall i b ws v, last_right (behavior_maps_in l) i b -> components b ws -> lives u (nonempty_names ws) v ->
  after_reading x (fun d => behavior_of d u i = Done (Some v)).
Proof.
  intros i b ws v M C V. apply (after_intro _ _ _ F). unfold behavior_of. rewrite (proj1 (beh_maps_run _ i)), no_clear, beh_maps_file, (latest_last _ _ _ M).
  exact (proj2 (c58_find _ _ _ _ _ _ L C) V).
Qed.
Lemma c62_implementation : forall i b ws v, last_left (behavior_maps_in l) i b -> components i ws -> lives u (nonempty_names ws) v ->
  after_reading x (fun d => implementation_of d u b = Done (Some v)).
Proof.
  intros i b ws v M C V. apply (after_intro _ _ _ F). unfold implementation_of. rewrite (proj2 (beh_maps_run _ b)), no_clear, beh_maps_file, (latest_first _ _ _ M).
  exact (proj2 (c58_find _ _ _ _ _ _ L C) V).
Qed.
Lemma c62_unmapped : forall t, (forall s, ~ type_map l t s) -> after_reading x (fun d => to_implementation_type d u t = Exc IndexError).
Proof.
  intros t M. apply (after_intro _ _ _ F). unfold to_implementation_type. rewrite (proj1 (type_maps_run _ t)), no_clear, latest_no; [reflexivity|].
  intros c I. apply (M c). now apply type_maps_are.
Qed.
Lemma c62_no_behavior : forall t, (forall s, ~ behavior_map l t s) -> after_reading x (fun d => behavior_of d u t = Done None).
Proof.
  intros t M. apply (after_intro _ _ _ F). unfold behavior_of. rewrite (proj1 (beh_maps_run _ t)), no_clear, latest_no; [reflexivity|].
  intros c I. apply (M c). now apply beh_maps_in.
Qed.
Lemma c62_type_lists : forall a i, In (a, i) (type_maps_in l) <-> type_map l a i.
Proof. intros a i. rewrite <- type_maps_file. apply type_maps_are. Qed.
Lemma c62_behavior_lists : forall i b, In (i, b) (behavior_maps_in l) <-> behavior_map l i b.
Proof. intros i b. rewrite <- beh_maps_file. apply beh_maps_in. Qed.
End Maps.

(** *** systems and compositions *)
Lemma map_names : forall t l, names_of t l = flat_map (fun e : list string * xml => if String.eqb (xtag (snd e)) t then [text_name (snd e)] else []) l.
Proof.
  intros t l. unfold names_of. induction l as [|e l IH]; [reflexivity|]. cbn [filter flat_map]. unfold tagged_in at 1. cbn [existsb]. rewrite orb_false_r. destruct (String.eqb (xtag (snd e)) t); cbn [map app]; now rewrite IH.
Qed.
Lemma system_names : forall l, map o_name (system_calls (calls_of l)) = names_of "SYSTEM" l.
Proof.
  intros l. rewrite map_names. induction l as [|[ns y] l IH]; [reflexivity|]. cbn [flat_map fst snd]. unfold system_calls in *. rewrite flat_map_app, map_app, IH. f_equal. clear IH. tags y.
  all: try (rewrite (proj2 (String.eqb_neq _ _)); [|intros Q; rewrite Q in *; first [discriminate|contradiction]]).
  - reflexivity.
  - unfold implementation_calls. destruct (child_ref _ y); reflexivity.
  - unfold implementation_calls. destruct (child_ref _ y); reflexivity.
  - unfold type_map_calls. induction (findall _ y); [reflexivity|assumption].
  - unfold system_calls_of. rewrite flat_map_app, map_app. destruct (find _ y); cbn; now rewrite object_text.
  - reflexivity.
Qed.
Lemma comp_names : forall l, map o_name (comp_calls (calls_of l)) = names_of "COMPOSITION-SW-COMPONENT-TYPE" l.
Proof.
  intros l. rewrite map_names. induction l as [|[ns y] l IH]; [reflexivity|]. cbn [flat_map fst snd]. unfold comp_calls in *. rewrite flat_map_app, map_app, IH. f_equal. clear IH. tags y.
  all: try (rewrite (proj2 (String.eqb_neq _ _)); [|intros Q; rewrite Q in *; first [discriminate|contradiction]]).
  - cbn. now rewrite object_text.
  - unfold implementation_calls. destruct (child_ref _ y); reflexivity.
  - unfold implementation_calls. destruct (child_ref _ y); reflexivity.
  - unfold type_map_calls. induction (findall _ y); [reflexivity|assumption].
  - unfold system_calls_of. destruct (find _ y); reflexivity.
  - reflexivity.
Qed.
Lemma root_calls_names : forall l, map o_name (root_calls (calls_of l)) = root_names l.
Proof.
  intros l. unfold root_names. induction l as [|[ns y] l IH]; [reflexivity|]. cbn [flat_map fst snd filter]. unfold root_calls in *. rewrite flat_map_app, map_app, IH. unfold tagged_in at 2. cbn [existsb snd].
  rewrite orb_false_r. clear IH. tags y.
  all: try (rewrite (proj2 (String.eqb_neq (xtag y) "SYSTEM")); [|intros Q; rewrite Q in *; first [discriminate|contradiction]]).
  - reflexivity.
  - unfold implementation_calls. destruct (child_ref _ y); reflexivity.
  - unfold implementation_calls. destruct (child_ref _ y); reflexivity.
  - unfold type_map_calls. induction (findall _ y); [reflexivity|assumption].
  - cbn [flat_map snd]. f_equal. unfold system_calls_of. destruct (find _ y); cbn; [now rewrite object_text|reflexivity].
  - reflexivity.
Qed.
Lemma first_in : forall n l x, first_named n l = Some x -> In x l /\ o_name x = n.
Proof. intros n l x E. apply find_some in E. destruct E as [I E]. apply String.eqb_eq in E. auto. Qed.
Lemma first_some : forall n l, In n (map o_name l) -> exists x, first_named n l = Some x.
Proof.
  intros n l I. induction l as [|a l IH]; [destruct I|]. unfold first_named. cbn [List.find]. destruct (String.eqb_spec (o_name a) n); [eauto|]. destruct I; [contradiction|]. exact (IH H).
Qed.
Definition systems_are (l : list (list string * xml)) (d : doc) : Prop := NoDup (map o_name (getSystems d)) /\
  StronglySorted (fun a b => str_leb a b = true) (map o_name (getSystems d)) /\ forall n, In n (map o_name (getSystems d)) <-> In n (names_of "SYSTEM" l).
Lemma calls_systems : forall l, systems_are l (drun (calls_of l)).
Proof.
  intros l. split; [apply c27_names|]. split.
  - pose proof (c27_sorted (calls_of l)) as S. induction S as [|a k S IH A]; cbn; constructor; [exact IH|]. rewrite Forall_map. exact A.
  - intros n. rewrite <- system_names. rewrite <- (no_clear l) at 2. split.
    + intros I. apply in_map_iff in I. destruct I as (s & <- & I). apply c27_listed in I. apply first_in in I. apply in_map. tauto.
    + intros I. destruct (first_some _ _ I) as (s & E). apply in_map_iff. exists s. destruct (first_in _ _ _ E) as [_ Q]. split; [exact Q|]. apply c27_listed. now rewrite Q.
Qed.
Definition compositions_are (l : list (list string * xml)) (d : doc) : Prop := forall n,
  (exists c, getComposition d n = Ok c /\ o_name c = n) /\ In n (names_of "COMPOSITION-SW-COMPONENT-TYPE" l) \/
  getComposition d n = Raise KeyError /\ ~ In n (names_of "COMPOSITION-SW-COMPONENT-TYPE" l).
Lemma calls_compositions : forall l, compositions_are l (drun (calls_of l)).
Proof.
  intros l n. rewrite c27_comp, no_clear, <- comp_names. destruct (first_named n (comp_calls (calls_of l))) as [c|] eqn:E.
  - left. destruct (first_in _ _ _ E) as [I Q]. split; [eauto|]. rewrite <- Q. now apply in_map.
  - right. split; [reflexivity|]. intros I. destruct (first_some _ _ I) as (s & S). rewrite S in E. discriminate.
Qed.
Definition root_is (l : list (list string * xml)) (d : doc) : Prop := option_map o_name (d_root d) = hd_error (root_names l).
Lemma calls_root : forall l, root_is l (drun (calls_of l)).
Proof. intros l. unfold root_is. rewrite c26_first, no_clear, <- root_calls_names. destruct (root_calls (calls_of l)); reflexivity. Qed.
Lemma c62_systems : forall x l, file_holds x l -> after_reading x (systems_are l).
Proof. intros x l F. exact (after_intro _ _ _ F (calls_systems l)). Qed.
Lemma c62_compositions : forall x l, file_holds x l -> after_reading x (compositions_are l).
Proof. intros x l F. exact (after_intro _ _ _ F (calls_compositions l)). Qed.
Lemma c62_root : forall x l, file_holds x l -> after_reading x (root_is l).
Proof. intros x l F. exact (after_intro _ _ _ F (calls_root l)). Qed.
Lemma c62_several : forall xs ls, Forall2 file_holds xs ls ->
  after_reading_all xs (fun d => systems_are (concat ls) d /\ compositions_are (concat ls) d /\ root_is (concat ls) d).
Proof. intros xs ls F. exact (after_all_intro _ _ _ F (conj (calls_systems _) (conj (calls_compositions _) (calls_root _)))). Qed.

(** *** cases *)
Definition map_xml (a i : string) : xml := tagged "DATA-TYPE-MAP" [ref_to "APPLICATION-DATA-TYPE-REF" "APPLICATION-PRIMITIVE-DATA-TYPE" a; ref_to "IMPLEMENTATION-DATA-TYPE-REF" "IMPLEMENTATION-DATA-TYPE" i].
Definition system_xml (n r : string) : xml := named_xml "SYSTEM" n [tagged "ROOT-SOFTWARE-COMPOSITIONS" [named_xml "ROOT-SW-COMPOSITION-PROTOTYPE" r []]].
Definition registered_els : list xml :=
  [named_xml "IMPLEMENTATION-DATA-TYPE" "i" []; named_xml "APPLICATION-PRIMITIVE-DATA-TYPE" "a" []; named_xml "APPLICATION-PRIMITIVE-DATA-TYPE" "b" [];
   named_xml "DATA-TYPE-MAPPING-SET" "m" [tagged "DATA-TYPE-MAPS" [map_xml "/P/a" "/P/i"; map_xml "/P/b" "/P/i"]];
   named_xml "APPLICATION-SW-COMPONENT-TYPE" "w" [tagged "INTERNAL-BEHAVIORS" [named_xml "SWC-INTERNAL-BEHAVIOR" "h" []]];
   named_xml "SWC-IMPLEMENTATION" "k" [ref_to "BEHAVIOR-REF" "SWC-INTERNAL-BEHAVIOR" "/P/w/h"];
   system_xml "t" "r"; system_xml "s" "q"; named_xml "COMPOSITION-SW-COMPONENT-TYPE" "c" []].
Definition registered_doc : xml := elements_xml registered_els.
Definition registered_l : list (list string * xml) := map (pair ["P"]) registered_els.
Definition registered_u : val := Eval vm_compute in value (load_run false registered_doc).
Lemma registered_loaded : loaded false registered_doc registered_u.
Proof. apply loaded_run. vm_compute. reflexivity. Qed.
Lemma registered_holds : file_holds registered_doc registered_l.
Proof.
  exists [registered_l]. split; [|reflexivity]. change (packages_of registered_doc) with [hd (El "" [] None []) (packages_of registered_doc)]. constructor; [|constructor]. exists "P". split; [vm_compute; reflexivity|].
  assert (H : forall p, p = hd (El "" [] None []) (packages_of registered_doc) -> holds ["P"] p registered_l); [|now apply H].
  intros p E. replace registered_l with (concat [] ++ map (pair ["P"]) (findall "ELEMENTS/*" p)) by (rewrite E; vm_compute; reflexivity).
  constructor. replace (packages_of p) with (@nil xml) by (rewrite E; vm_compute; reflexivity). constructor.
Qed.
Definition registered_i : val := Eval vm_compute in walked_to registered_u ["P"; "i"].
Definition registered_h : val := Eval vm_compute in walked_to registered_u ["P"; "w"; "h"].
Definition registered_k : val := Eval vm_compute in walked_to registered_u ["P"; "k"].
Definition registered_b : val := Eval vm_compute in walked_to registered_u ["P"; "b"].
Lemma registered_lives : lives registered_u ["P"; "i"] registered_i /\ lives registered_u ["P"; "w"; "h"] registered_h /\ lives registered_u ["P"; "k"] registered_k.
Proof.
  split; [apply (walked_lives registered_u ["P"; "i"])|split; [apply (walked_lives registered_u ["P"; "w"; "h"])|apply (walked_lives registered_u ["P"; "k"])]]; vm_compute; reflexivity.
Qed.
Lemma registered_maps : forall a i, type_map registered_l a i <-> (a = "/P/a" \/ a = "/P/b") /\ i = "/P/i".
Proof.
  intros a i. rewrite <- type_maps_are. replace (type_maps (calls_of registered_l)) with [("/P/a", "/P/i"); ("/P/b", "/P/i")] by (vm_compute; reflexivity).
  cbn [In]. split; [intros [H|[H|[]]]; injection H as <- <-; auto|intros [[-> | ->] ->]; auto].
Qed.
Lemma registered_behaviors : forall i b, behavior_map registered_l i b <-> i = "/P/k" /\ b = "/P/w/h".
Proof.
  intros i b. rewrite <- beh_maps_in. replace (beh_maps (calls_of registered_l)) with [("/P/k", "/P/w/h")] by (vm_compute; reflexivity).
  cbn [In]. split; [intros [H|[]]; injection H as <- <-; auto|intros [-> ->]; auto].
Qed.
Lemma registered_lists : type_maps_in registered_l = [("/P/a", "/P/i"); ("/P/b", "/P/i")] /\ behavior_maps_in registered_l = [("/P/k", "/P/w/h")].
Proof. vm_compute. auto. Qed.
Lemma registered_names : names_of "SYSTEM" registered_l = ["t"; "s"] /\ names_of "COMPOSITION-SW-COMPONENT-TYPE" registered_l = ["c"] /\ root_names registered_l = ["r"; "q"].
Proof. vm_compute. auto. Qed.
Lemma registered_run : exists d, registries 2 registered_doc = Done d /\ to_implementation_type d registered_u "/P/a" = Done (Some registered_i) /\
  behavior_of d registered_u "/P/k" = Done (Some registered_h) /\ implementation_of d registered_u "/P/w/h" = Done (Some registered_k) /\
  map o_name (getSystems d) = ["s"; "t"] /\ to_application_type d registered_u "/P/i" = Done (Some registered_b) /\ option_map o_name (d_root d) = Some "r".
Proof.
  exists (drun (calls_of registered_l)). split; [vm_compute; reflexivity|]. unfold to_implementation_type, to_application_type, behavior_of, implementation_of.
  replace (d_appl_impl (drun (calls_of registered_l))) with [("/P/a", "/P/i"); ("/P/b", "/P/i")] by (vm_compute; reflexivity).
  replace (d_impl_appl (drun (calls_of registered_l))) with [("/P/i", "/P/b")] by (vm_compute; reflexivity).
  replace (d_impl_beh (drun (calls_of registered_l))) with [("/P/k", "/P/w/h")] by (vm_compute; reflexivity).
  replace (d_beh_impl (drun (calls_of registered_l))) with [("/P/w/h", "/P/k")] by (vm_compute; reflexivity).
  cbn [dget fst snd String.eqb Ascii.eqb Bool.eqb]. rewrite !find_rows. repeat split; vm_compute; reflexivity.
Qed.
Definition registered_a : val := Eval vm_compute in walked_to registered_u ["P"; "a"].
Lemma registered_first : type_map registered_l "/P/a" "/P/i".
Proof. apply registered_maps. auto. Qed.
Lemma registered_found : doc_find_path registered_u "/P/a" = Done (Some registered_a).
Proof. rewrite find_rows. vm_compute. reflexivity. Qed.
Lemma registered_last : after_reading registered_doc (fun d => to_application_type d registered_u "/P/i" = Done (Some registered_b)).
Proof.
  apply (after_intro _ _ _ registered_holds). unfold to_application_type.
  replace (d_impl_appl (drun (calls_of registered_l))) with [("/P/i", "/P/b")] by (vm_compute; reflexivity).
  cbn [dget fst snd String.eqb Ascii.eqb Bool.eqb]. rewrite find_rows. vm_compute. reflexivity.
Qed.
Lemma registered_other : registered_a <> registered_b.
Proof. discriminate. Qed.
Lemma registered_roots : "r" <> "q".
Proof. discriminate. Qed.
Lemma registered_root : after_reading registered_doc (fun d => option_map o_name (d_root d) = Some "r").
Proof. apply (after_intro _ _ _ registered_holds). vm_compute. reflexivity. Qed.
Lemma registered_files : Forall2 file_holds [listed_doc; registered_doc] [listed_l; registered_l] /\
  exists d, registries_of 3 [listed_doc; registered_doc] = Done d /\ map o_name (getSystems d) = ["s"; "t"] /\
    getComposition d "k" = Ok (mkNamed 0 "k") /\ getComposition d "c" = Ok (mkNamed 0 "c") /\ getComposition d "a" = Raise KeyError.
Proof.
  split; [constructor; [exact listed_holds|constructor; [exact registered_holds|constructor]]|].
  exists (drun (calls_of (listed_l ++ registered_l))). repeat split; vm_compute; reflexivity.
Qed.
