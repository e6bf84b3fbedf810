(** Consequences of C59 and documents for it. *)
From Coq Require Import String Ascii List Bool.
From Verif Require Import PyBase Primitives Xml Leaf ClassTable Ir Access IrSem SpecRoundTrip RoundTripLoss SpecKeep KeepSound.
Import ListNotations.
Open Scope string_scope.
Open Scope list_scope.

(** *** places *)
Lemma nth_two : forall A B (R : A -> B -> Prop) l l', Forall2 R l l' -> forall i a, nth_error l i = Some a -> exists b, nth_error l' i = Some b /\ R a b.
Proof.
  intros A B R l l' F. induction F as [|a b l l' H F IH]; intros [|i] a' E; try discriminate E.
  - injection E as <-. exists b. auto.
  - exact (IH i a' E).
Qed.
Lemma kept_at : forall way x c v c' y, kept_in x v -> class_name v = Some c -> Forall (fun p => In (fst p) kept_rows) way ->
  element_at c way x = Some (c', y) -> exists o, object_at way v = Some o /\ class_name o = Some c' /\ kept_in y o.
Proof.
  induction way as [|[r i] way IH]; intros x c v c' y K C I E; cbn [element_at object_at] in *.
  - injection E as <- <-. exists v. auto.
  - inversion I as [|? ? I1 I2]; subst. cbn [fst] in I1. destruct (applies r c) eqn:A; [|discriminate E].
    destruct (nth_error (picked (r_path r) (r_kinds r) x) i) as [y1|] eqn:N; [|discriminate E].
    destruct (pick (r_kinds r) (xtag y1)) as [c1|] eqn:P; [|discriminate E].
    destruct K as [x c0 fs KN KR _]. injection C as <-. destruct (KR r I1 A) as (w & W & F). cbn [field]. rewrite W.
    destruct (nth_two _ _ _ _ _ F i y1 N) as (o & O & Q & K1). rewrite O. rewrite P in Q. exact (IH y1 c1 o c' y K1 Q I2 E).
Qed.
Lemma kept_name : forall x v c, kept_in x v -> class_name v = Some c -> has_name c = true -> named_after x v.
Proof. intros x v c [x' c' fs N _ _] C H. injection C as <-. exact (N H). Qed.
Lemma loaded_root : forall warn x u, loaded warn x u -> class_name u = Some "AUTOSAR".
Proof.
  intros warn x u (n & H). unfold read in H. destruct (KeepProps.init_obj "AUTOSAR") as (fs & E). rewrite E in H. apply KeepProps.run_same in H.
  destruct H as (fs' & ->). reflexivity.
Qed.
Lemma c59_at : forall warn x u way c y, loaded warn x u -> Forall (fun p => In (fst p) kept_rows) way -> element_at "AUTOSAR" way x = Some (c, y) ->
  exists o, object_at way u = Some o /\ class_name o = Some c /\ (has_name c = true -> named_after y o).
Proof.
  intros warn x u way c y L I E. destruct (kept_at way x "AUTOSAR" u c y (kept_loaded _ _ _ L) (loaded_root _ _ _ L) I E) as (o & O & C & K).
  exists o. split; [exact O|]. split; [exact C|]. exact (kept_name y o c K C).
Qed.

(** *** induction over [kept_in] *)
Section Ind.
Context (P : xml -> val -> Prop).
Hypothesis H : forall x c fs,
  (has_name c = true -> exists n, short_name x = Ok n /\ assoc "short_name" fs = Some (of_opt_str n)) ->
  (forall r, In r kept_rows -> applies r c = true -> exists w, assoc (r_attr r) fs = Some w /\
     Forall2 (fun y v => class_name v = pick (r_kinds r) (xtag y) /\ kept_in y v /\ P y v) (picked (r_path r) (r_kinds r) x) (items w)) ->
  P x (VObj c fs).
Fixpoint kept_rec (x : xml) (v : val) (K : kept_in x v) {struct K} : P x v :=
  match K with
  | kept_obj x c fs N R _ => H x c fs N (fun r I A =>
      match R r I A with
      | ex_intro _ w (conj W F) => ex_intro _ w (conj W
          ((fix go l l' (F : Forall2 (fun y v => class_name v = pick (r_kinds r) (xtag y) /\ kept_in y v) l l') {struct F} :
              Forall2 (fun y v => class_name v = pick (r_kinds r) (xtag y) /\ kept_in y v /\ P y v) l l' :=
             match F with
             | Forall2_nil _ => Forall2_nil _
             | Forall2_cons y v (conj Q K1) F1 => Forall2_cons y v (conj Q (conj K1 (kept_rec y v K1))) (go _ _ F1)
             end) _ _ F))
      end)
  end.
End Ind.

(** *** packages *)
Definition packages_row (c : string) : row := mkRow c [] "arPackages" [All "AR-PACKAGES/*"] [("AR-PACKAGE", "ARPackage")].
Definition elements_kinds : kinds := Eval vm_compute in
  match List.find (fun r => String.eqb (r_class r) "ARPackage" && String.eqb (r_attr r) "elements") kept_rows with Some r => r_kinds r | None => [] end.
Definition elements_row : row := mkRow "ARPackage" [] "elements" [All "ELEMENTS/*"] elements_kinds.
Fixpoint row_in (p : row -> bool) (l : list row) : option row := match l with [] => None | r :: l => if p r then Some r else row_in p l end.
Lemma row_in_in : forall p l r, row_in p l = Some r -> In r l.
Proof. intros p l r. induction l as [|q l IH]; intros E; [discriminate E|]. cbn in E. destruct (p q); [injection E as <-; now left|right; exact (IH E)]. Qed.
Definition is_row (c a : string) (r : row) : bool := if String.eqb (r_class r) c then String.eqb (r_attr r) a else false.
Lemma root_packages : In (packages_row "AUTOSAR") kept_rows.
Proof. apply (row_in_in (is_row "AUTOSAR" "arPackages")). vm_compute. reflexivity. Qed.
Lemma sub_packages : In (packages_row "ARPackage") kept_rows.
Proof. apply (row_in_in (is_row "ARPackage" "arPackages")). vm_compute. reflexivity. Qed.
Lemma package_elements_row : In elements_row kept_rows.
Proof. apply (row_in_in (is_row "ARPackage" "elements")). vm_compute. reflexivity. Qed.

Lemma flat_map_one : forall A (l : list A), flat_map (fun x => [x]) l = l.
Proof. induction l as [|a l IH]; [reflexivity|]. cbn. now rewrite IH. Qed.
Lemma picked_one : forall A p (ks : list (string * A)) x, picked [All p] ks x = filter (fun y => match pick ks (xtag y) with Some _ => true | None => false end) (findall p x).
Proof. intros. unfold picked. cbn [select]. now rewrite flat_map_one. Qed.
Lemma pick_assoc : forall A (ks : list (string * A)) t, forallb (fun p => negb (String.eqb (fst p) "*")) ks = true -> pick ks t = assoc t ks.
Proof.
  intros A. induction ks as [|[k a] ks IH]; intros t C; [reflexivity|]. cbn [forallb fst] in C. apply andb_true_iff in C. destruct C as [C1 C2].
  apply negb_true_iff in C1. cbn [pick assoc]. rewrite C1, orb_false_r, (IH t C2). now rewrite String.eqb_sym.
Qed.
Definition opt_eqb (a b : option string) : bool := match a, b with Some s, Some t => String.eqb s t | None, None => true | _, _ => false end.
Lemma opt_eqb_ok : forall a b, opt_eqb a b = true -> a = b.
Proof. intros [a|] [b|] E; cbn in E; try discriminate E; [apply String.eqb_eq in E; now subst|reflexivity]. Qed.
Definition same_table (a b : list (string * string)) : bool :=
  forallb (fun p => opt_eqb (assoc (fst p) b) (assoc (fst p) a)) a && forallb (fun p => opt_eqb (assoc (fst p) b) (assoc (fst p) a)) b.
Lemma assoc_key : forall A (l : list (string * A)) k v, assoc k l = Some v -> exists p, In p l /\ fst p = k.
Proof.
  intros A. induction l as [|[q a] l IH]; intros k v E; [discriminate E|]. cbn in E. destruct (String.eqb_spec k q) as [Q|_].
  - exists (q, a). split; [now left|now subst].
  - destruct (IH k v E) as (p & I & F). exists p. split; [now right|exact F].
Qed.
Lemma same_table_ok : forall a b, same_table a b = true -> forall k, assoc k b = assoc k a.
Proof.
  intros a b E k. unfold same_table in E. apply andb_true_iff in E. destruct E as [E1 E2]. rewrite forallb_forall in E1, E2.
  destruct (assoc k a) as [v|] eqn:A.
  - destruct (assoc_key _ _ _ _ A) as (p & I & <-). specialize (E1 p I). apply opt_eqb_ok in E1. now rewrite E1.
  - destruct (assoc k b) as [v|] eqn:B; [|reflexivity]. destruct (assoc_key _ _ _ _ B) as (p & I & <-). specialize (E2 p I). apply opt_eqb_ok in E2. congruence.
Qed.
Lemma elements_readable : forall t, pick elements_kinds t = assoc t readable_elements.
Proof. intros t. rewrite pick_assoc by (vm_compute; reflexivity). apply same_table_ok. vm_compute. reflexivity. Qed.
Lemma readable_named : forallb (fun p => has_name (snd p)) readable_elements = true.
Proof. vm_compute. reflexivity. Qed.
Lemma two_impl : forall A B (R R' : A -> B -> Prop) l l', (forall a b, R a b -> R' a b) -> Forall2 R l l' -> Forall2 R' l l'.
Proof. intros A B R R' l l' I F. induction F; constructor; auto. Qed.
Lemma assoc_in : forall A (l : list (string * A)) k v, assoc k l = Some v -> exists k', In (k', v) l.
Proof.
  intros A. induction l as [|[q a] l IH]; intros k v E; [discriminate E|]. cbn in E. destruct (String.eqb k q).
  - injection E as <-. exists q. now left.
  - destruct (IH k v E) as (k' & I). exists k'. now right.
Qed.
Lemma two_right : forall A B (R : A -> B -> Prop) (S1 : A -> Prop) l l', Forall S1 l -> Forall2 R l l' -> Forall2 (fun a b => S1 a /\ R a b) l l'.
Proof. intros A B R S1 l l' S2 F. induction F; [constructor|]. inversion S2; subst. constructor; auto. Qed.
Lemma filter_all : forall A (p : A -> bool) l, Forall (fun a => p a = true) (filter p l).
Proof. intros A p l. apply Forall_forall. intros a I. apply filter_In in I. tauto. Qed.

Lemma pick_package : forall t, pick [("AR-PACKAGE", "ARPackage")] t = if String.eqb t "AR-PACKAGE" then Some "ARPackage" else None.
Proof. intros t. cbn [pick]. rewrite String.eqb_sym, orb_false_r. reflexivity. Qed.
Lemma packages_picked : forall x, picked [All "AR-PACKAGES/*"] [("AR-PACKAGE", "ARPackage")] x = filter (with_tag "AR-PACKAGE") (findall "AR-PACKAGES/*" x).
Proof. intros x. rewrite picked_one. apply filter_ext. intros y. rewrite pick_package. unfold with_tag. destruct (String.eqb (xtag y) "AR-PACKAGE"); reflexivity. Qed.
Lemma elements_picked : forall x, picked [All "ELEMENTS/*"] elements_kinds x = filter readable (findall "ELEMENTS/*" x).
Proof. intros x. rewrite picked_one. apply filter_ext. intros y. rewrite elements_readable. reflexivity. Qed.

Lemma package_has_name : has_name "ARPackage" = true.
Proof. vm_compute. reflexivity. Qed.
Lemma root_applies : applies (packages_row "AUTOSAR") "AUTOSAR" = true.
Proof. vm_compute. reflexivity. Qed.
Lemma sub_applies : applies (packages_row "ARPackage") "ARPackage" = true.
Proof. vm_compute. reflexivity. Qed.
Lemma elements_applies : applies elements_row "ARPackage" = true.
Proof. vm_compute. reflexivity. Qed.

Lemma package_of : forall x v, kept_in x v -> class_name v = Some "ARPackage" -> package_kept x v.
Proof.
  apply (kept_rec (fun x v => class_name v = Some "ARPackage" -> package_kept x v)). intros x c fs N R C. injection C as ->.
  destruct (R _ sub_packages sub_applies) as (ps & PS & F). destruct (R _ package_elements_row elements_applies) as (es & ES & G).
  cbn [r_attr r_path r_kinds packages_row elements_row] in *. rewrite packages_picked in F. rewrite elements_picked in G.
  apply (package_kept_intro x (VObj "ARPackage" fs) ps es eq_refl (N package_has_name) PS); [|exact ES|].
  - apply (two_right _ _ _ _ _ _ (filter_all _ _ _)) in F. apply (two_impl _ _ _ _ _ _) with (2 := F). intros y w (T & Q & _ & IH). apply IH. rewrite Q, pick_package.
    unfold with_tag in T. now rewrite T.
  - apply (two_right _ _ _ _ _ _ (filter_all _ _ _)) in G. apply (two_impl _ _ _ _ _ _) with (2 := G). intros y w (T & Q & K & _). rewrite elements_readable in Q. split; [exact Q|].
    unfold readable in T. destruct (assoc (xtag y) readable_elements) as [d|] eqn:A; [|discriminate T]. apply (kept_name y w d K Q).
    destruct (assoc_in _ _ _ _ A) as (k & I). pose proof readable_named as RN. rewrite forallb_forall in RN. exact (RN _ I).
Qed.
Lemma c59_packages : forall warn x u, loaded warn x u -> exists ps, field u "arPackages" = Some ps /\
  Forall2 package_kept (filter (with_tag "AR-PACKAGE") (findall "AR-PACKAGES/*" x)) (items ps).
Proof.
  intros warn x u L. pose proof (loaded_root _ _ _ L) as C. destruct (kept_loaded _ _ _ L) as [x c fs N R _]. injection C as ->.
  destruct (R _ root_packages root_applies) as (ps & PS & F). cbn [r_attr r_path r_kinds packages_row] in *. exists ps. split; [exact PS|].
  rewrite packages_picked in F. apply (two_right _ _ _ _ _ _ (filter_all _ _ _)) in F. apply (two_impl _ _ _ _ _ _) with (2 := F).
  intros y w (T & Q & K). apply package_of; [exact K|]. rewrite Q, pick_package. unfold with_tag in T. now rewrite T.
Qed.

(** *** classes whose readers skip the general content *)
Lemma kept_bare : forall x v c, kept_in x v -> class_name v = Some c -> In c bare -> forall a, In a unread -> field v a = Some VNone.
Proof. intros x v c [x' c' fs _ _ B] C I. injection C as <-. exact (B I). Qed.
Lemma c59_bare : forall warn x u way c y, loaded warn x u -> Forall (fun p => In (fst p) kept_rows) way -> element_at "AUTOSAR" way x = Some (c, y) ->
  In c bare -> exists o, object_at way u = Some o /\ class_name o = Some c /\ forall a, In a unread -> field o a = Some VNone.
Proof.
  intros warn x u way c y L I E B. destruct (kept_at way x "AUTOSAR" u c y (kept_loaded _ _ _ L) (loaded_root _ _ _ L) I E) as (o & O & C & K).
  exists o. split; [exact O|]. split; [exact C|]. exact (kept_bare y o c K C B).
Qed.

(** *** documents *)
(** the row of a class and attribute *)
Definition the_row (c a : string) : row := match row_in (is_row c a) kept_rows with Some r => r | None => mkRow "" [] "" [] [] end.
Lemma the_row_in : forall c a, match row_in (is_row c a) kept_rows with Some _ => true | None => false end = true -> In (the_row c a) kept_rows.
Proof. intros c a E. unfold the_row. destruct (row_in (is_row c a) kept_rows) as [r|] eqn:Q; [exact (row_in_in _ _ _ Q)|discriminate E]. Qed.

Definition kept_doc : xml :=
  tagged "AUTOSAR" [tagged "AR-PACKAGES" [named_xml "AR-PACKAGE" "P" [
    tagged "ELEMENTS" [
      named_xml "SYSTEM-SIGNAL" "s" [];
      named_xml "APPLICATION-SW-COMPONENT-TYPE" "a" [tagged "INTERNAL-BEHAVIORS" [named_xml "SWC-INTERNAL-BEHAVIOR" "b"
        [tagged "RUNNABLES" [named_xml "RUNNABLE-ENTITY" "r" []; named_xml "RUNNABLE-ENTITY" "q" []]]]]];
    tagged "AR-PACKAGES" [named_xml "AR-PACKAGE" "Q" []]]]].
Definition kept_u : val := Eval vm_compute in value (load_run false kept_doc).
Lemma kept_doc_loaded : loaded false kept_doc kept_u.
Proof. apply loaded_run. vm_compute. reflexivity. Qed.
Definition way : list (row * nat) := Eval vm_compute in
  [(the_row "AUTOSAR" "arPackages", 0); (the_row "ARPackage" "elements", 1); (the_row "AtomicSwComponentType" "internalBehavior", 0);
   (the_row "SwcInternalBehavior" "elements/RunnableEntity", 1)].
Lemma way_rows : Forall (fun p => In (fst p) kept_rows) way.
Proof.
  constructor; [exact (the_row_in "AUTOSAR" "arPackages" eq_refl)|]. constructor; [exact (the_row_in "ARPackage" "elements" eq_refl)|].
  constructor; [exact (the_row_in "AtomicSwComponentType" "internalBehavior" eq_refl)|]. constructor; [exact (the_row_in "SwcInternalBehavior" "elements/RunnableEntity" eq_refl)|]. constructor.
Qed.
Lemma way_element : element_at "AUTOSAR" way kept_doc = Some ("RunnableEntity", named_xml "RUNNABLE-ENTITY" "q" []).
Proof. vm_compute. reflexivity. Qed.
Lemma way_object : exists o, object_at way kept_u = Some o /\ field o "short_name" = Some (VStr "q").
Proof. destruct (object_at way kept_u) as [o|] eqn:E; [|vm_compute in E; discriminate E]. exists o. split; [reflexivity|]. revert E. vm_compute. intros E. injection E as <-. reflexivity. Qed.

(** a mode with a description *)
Definition mode_doc : xml :=
  tagged "AUTOSAR" [tagged "AR-PACKAGES" [named_xml "AR-PACKAGE" "P" [
    tagged "ELEMENTS" [named_xml "MODE-DECLARATION-GROUP" "g" [tagged "MODE-DECLARATIONS"
      [named_xml "MODE-DECLARATION" "m" [tagged "DESC" [El "L-2" [("L", "EN")] (Some "text") []]]]]]]]].
Definition mode_u : val := Eval vm_compute in value (load_run false mode_doc).
Lemma mode_loaded : forall warn, loaded warn mode_doc mode_u.
Proof. intros warn. apply loaded_run. destruct warn; vm_compute; reflexivity. Qed.
Definition mode_way : list (row * nat) := Eval vm_compute in
  [(the_row "AUTOSAR" "arPackages", 0); (the_row "ARPackage" "elements", 0); (the_row "ModeDeclarationGroup" "elements/ModeDeclaration", 0)].
Definition mode_v : val := Eval vm_compute in match object_at mode_way mode_u with Some o => o | None => VNone end.
Lemma mode_rows : Forall (fun p => In (fst p) kept_rows) mode_way.
Proof.
  constructor; [exact (the_row_in "AUTOSAR" "arPackages" eq_refl)|]. constructor; [exact (the_row_in "ARPackage" "elements" eq_refl)|].
  constructor; [exact (the_row_in "ModeDeclarationGroup" "elements/ModeDeclaration" eq_refl)|]. constructor.
Qed.
Lemma mode_case : forall warn, exists x u way c y d o, loaded warn x u /\ Forall (fun p => In (fst p) kept_rows) way /\
  element_at "AUTOSAR" way x = Some (c, y) /\ isinst c "Identifiable" = true /\ find "DESC" y = Some d /\
  object_at way u = Some o /\ named_after y o /\ field o "desc" = Some VNone.
Proof.
  intros warn. exists mode_doc, mode_u, mode_way, "ModeDeclaration", (named_xml "MODE-DECLARATION" "m" [tagged "DESC" [El "L-2" [("L", "EN")] (Some "text") []]]),
    (tagged "DESC" [El "L-2" [("L", "EN")] (Some "text") []]), mode_v.
  split; [apply mode_loaded|]. split; [exact mode_rows|]. split; [vm_compute; reflexivity|]. split; [vm_compute; reflexivity|]. split; [vm_compute; reflexivity|].
  split; [vm_compute; reflexivity|]. split; [exists (Some "m"); split; vm_compute; reflexivity|vm_compute; reflexivity].
Qed.
