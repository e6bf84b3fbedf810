(** The elements of a package: dispatch by tag and by class, and their round trip (C36, C37). *)
From Coq Require Import String Ascii List Bool Arith Lia Floats.SpecFloat.
From Verif Require Import PyBase PyBaseFacts Primitives Xml Leaf SpecLeaf XmlFacts ClassTable Ir Access WriterCode ReaderCode IrSem
  IrFacts IrGo Domain SpecDomain IrCheck IrEq IrClosure IrWrite IrLocate IrItems IrMix IrActs IrEntry IrEntries SpecRoundTrip RoundTripParts RoundTripProps.
Import ListNotations.
Open Scope string_scope.
Open Scope list_scope.

Local Opaque access_of attrs_of wfuns rfuns domain ancestors access_table attr_table fuel document_entries document_wobjs one_group group_code.


Lemma dispatch_go : forall warn n l t a x key it o o', dispatch n l t = Some a -> xtag x = t -> rgo warn a key x it o o' -> rgo warn l key x it o o'.
Proof.
  induction n as [|n IH]; intros l t a x key it o o' D T R; [discriminate|]. cbn [dispatch] in D.
  destruct l as [|[] [|]]; try discriminate; try (destruct c; discriminate). destruct c; try discriminate.
  assert (CT : cgo warn (CTag s) key x it o (String.eqb (xtag x) s)) by (exists 1; reflexivity). rewrite T in CT.
  destruct (String.eqb t s).
  - inversion D; subst. eapply rgo_if; [exact CT|exact R].
  - eapply rgo_if; [exact CT|]. eapply IH; eassumption.
Qed.
Lemma body_eq : assoc "readARPackageElements" rfuns = Some ([RFor (PLit "ELEMENTS/*") element_body], None).
Proof. vm_compute. reflexivity. Qed.
Local Opaque element_body dispatch.


Lemma element_ready : forall repr warn t c u, In (t, c) package_elements -> ok u -> class_of u = Some c ->
  exists x nm, written repr warn write_element u (mkElem [] None [x]) /\ xtag x = t /\ field u "short_name" = Some (VStr nm) /\
    forall d fs o' it, store (VObj "ARPackage" fs) (PList "elements") u = Done o' -> rgo warn element_body "" (reload d x) it (VObj "ARPackage" fs) o'.
Proof.
  intros repr warn t c u I O C. pose proof (element_checks _ _ I) as K. unfold element_check in K. destruct (one_group c write_element t) eqn:G; [|discriminate K].
  unfold handler in K. destruct (dispatch 200 element_body t) as [a|] eqn:DD; [|discriminate K].
  destruct a as [|[] [|]]; try discriminate K; try (destruct named; discriminate K). destruct named; [|discriminate K].
  destruct (access_of "ARPackage" m) as [[| | | |c' [|] [f|f]]|] eqn:AC; try discriminate K.
  destruct (String.eqb_spec c c'); [subst c'|discriminate]. destruct (String.eqb_spec f "elements"); [subst f|discriminate].
  apply (in_of _ _ entry_sound) in K.
  destruct (one_group_ok repr warn _ _ _ u G O C) as (s & W & S). pose proof (document_entries_ok repr warn u _ K) as EN. unfold entry_ok in EN.
  cbn [en_cls en_named en_tag en_wb en_wk en_rb en_rk] in EN.
  destruct (EN _ 0 s C O W eq_refl) as (nm & _ & F & _). exists (to_xml t s), nm. split; [exact S|]. split; [reflexivity|]. split; [exact F|].
  intros d fs o' it ST. destruct (EN _ d s C O W eq_refl) as (nm' & N & F' & R). rewrite F in F'. injection F' as <-.
  eapply dispatch_go; [exact DD|rewrite reload_tag; reflexivity|]. eapply rgo_create_named; [exact AC|exact N|apply R|exact ST].
Qed.

Theorem element_written : forall repr warn t c u, In (t, c) package_elements -> ok u -> class_of u = Some c ->
  exists x, written repr warn write_element u (mkElem [] None [x]) /\ xtag x = t.
Proof. intros repr warn t c u I O C. destruct (element_ready repr warn _ _ _ I O C) as (x & nm & W & T & _). exists x. auto. Qed.

Lemma set_elements : forall fs l l', set_field (set_field (VObj "ARPackage" fs) "elements" (VList l)) "elements" (VList l') = set_field (VObj "ARPackage" fs) "elements" (VList l').
Proof. intros. apply set_set. Qed.

(** names in use below an object *)
Lemma store_ok : forall fs l u nm, assoc "elements" fs = Some (VList l) -> field u "short_name" = Some (VStr nm) ->
  ~ In nm (names_below (VObj "ARPackage" fs)) -> store (VObj "ARPackage" fs) (PList "elements") u = Done (set_field (VObj "ARPackage" fs) "elements" (VList (l ++ [u]))).
Proof.
  intros fs l u nm A F N. unfold store. rewrite F, A. destruct (existsb (name_is nm) (children (VObj "ARPackage" fs))) eqn:E; [|reflexivity].
  exfalso. apply N. apply existsb_exists in E. destruct E as (v & I & E). unfold names_below. apply in_flat_map. exists v. split; [exact I|].
  unfold name_is in E. unfold name_of. destruct (field v "short_name") as [[]|]; try discriminate. apply String.eqb_eq in E. subst. left. reflexivity.
Qed.
Lemma items_added : forall fs f l u v, assoc f fs = Some (VList l) ->
  In v (flat_map (fun p => items_of (snd p)) (set_assoc fs f (VList (l ++ [u])))) -> v = u \/ In v (flat_map (fun p => items_of (snd p)) fs).
Proof.
  induction fs as [|[g w] fs IH]; intros f l u v A I; [discriminate|]. cbn [assoc] in A. cbn [set_assoc] in I. destruct (String.eqb f g).
  - injection A as ->. cbn [flat_map snd items_of] in *. rewrite !in_app_iff in *. cbn [In] in I. destruct I as [[I|[I|[]]]|I]; auto.
  - cbn [flat_map snd] in *. rewrite in_app_iff in *. destruct I as [I|I]; [auto|]. destruct (IH _ _ _ _ A I); auto.
Qed.
Lemma names_added : forall fs l u nm n, assoc "elements" fs = Some (VList l) -> field u "short_name" = Some (VStr nm) ->
  In n (names_below (VObj "ARPackage" (set_assoc fs "elements" (VList (l ++ [u]))))) -> n = nm \/ In n (names_below (VObj "ARPackage" fs)).
Proof.
  intros fs l u nm n A F I. unfold names_below in *. apply in_flat_map in I. destruct I as (v & I & N). cbn [children] in *.
  destruct (items_added _ _ _ _ _ A I) as [->|J].
  - left. unfold name_of in N. rewrite F in N. destruct N as [N|[]]. now symmetry.
  - right. apply in_flat_map. exists v. auto.
Qed.

(** reading the written elements of a package appends the objects *)
Theorem elements_round_trip : forall repr warn us, elements_ok us -> exists xs,
  Forall2 (fun u x => exists t c, class_of u = Some c /\ In (t, c) package_elements /\
                      written repr warn write_element u (mkElem [] None [x]) /\ xtag x = t) us xs /\
  forall y d fs l, findall "ELEMENTS/*" y = map (reload d) xs -> assoc "elements" fs = Some (VList l) ->
    NoDup (names_below (VObj "ARPackage" fs) ++ flat_map name_of us) ->
    read warn read_elements y (VObj "ARPackage" fs) (set_field (VObj "ARPackage" fs) "elements" (VList (l ++ us))).
Proof.
  intros repr warn us E.
  assert (X : exists xs, Forall2 (fun u x => exists t c, class_of u = Some c /\ In (t, c) package_elements /\
                      written repr warn write_element u (mkElem [] None [x]) /\ xtag x = t) us xs /\
    forall d it fs l, assoc "elements" fs = Some (VList l) ->
    NoDup (flat_map name_of us) -> (forall n, In n (flat_map name_of us) -> ~ In n (names_below (VObj "ARPackage" fs))) ->
    rchain warn element_body "" it (map (reload d) xs) (VObj "ARPackage" fs) (set_field (VObj "ARPackage" fs) "elements" (VList (l ++ us)))).
  { induction E as [|u us [O (t & c & C & T)] _ IH].
    - exists []. split; [constructor|]. intros d it fs l A _ _. rewrite app_nil_r. cbn [map].
      assert (S : set_field (VObj "ARPackage" fs) "elements" (VList l) = VObj "ARPackage" fs).
      { cbn [set_field]. f_equal. clear - A. induction fs as [|[g w] fs IH]; [discriminate|]. cbn [assoc set_assoc] in *. destruct (String.eqb_spec "elements" g).
        - injection A as ->. now subst. - now rewrite IH. }
      rewrite S. constructor.
    - destruct IH as (xs & F2 & R).
      destruct (element_ready repr warn _ _ _ T O C) as (x & nm & W & TG & F & ER). exists (x :: xs). split; [constructor; [exists t, c; auto|exact F2]|].
      intros d it fs l A ND FR. cbn [map]. assert (N1 : name_of u = [nm]) by (unfold name_of; now rewrite F). cbn [flat_map] in ND, FR. rewrite N1 in ND, FR. inversion ND; subst.
      eapply rc_cons; [apply ER; eapply store_ok; [exact A|exact F|apply FR; left; reflexivity]|]. cbn [set_field].
      assert (L : l ++ u :: us = (l ++ [u]) ++ us) by (now rewrite <- app_assoc). rewrite L.
      specialize (R d it (set_assoc fs "elements" (VList (l ++ [u]))) (l ++ [u]) (set_assoc_same _ _ _)). cbn [set_field] in R.
      assert (SS : set_assoc (set_assoc fs "elements" (VList (l ++ [u]))) "elements" (VList ((l ++ [u]) ++ us)) = set_assoc fs "elements" (VList ((l ++ [u]) ++ us))).
      { pose proof (set_elements fs (l ++ [u]) ((l ++ [u]) ++ us)) as Q. cbn [set_field] in Q. now injection Q. }
      rewrite SS in R. apply R; [assumption|]. intros n I J. destruct (names_added _ _ _ _ _ A F J) as [->|J']; [contradiction|].
      apply (FR n); [right; exact I|exact J']. }
  destruct X as (xs & F2 & R). exists xs. split; [exact F2|]. intros y d fs l FA A ND.
  assert (RG : rgo warn read_elements "" y VNone (VObj "ARPackage" fs) (set_field (VObj "ARPackage" fs) "elements" (VList (l ++ us)))).
  { eapply rgo_call; [exact body_eq|]. apply rgo_for. cbn [rkey]. rewrite FA. apply R; [exact A| |].
    - clear - ND. induction (names_below (VObj "ARPackage" fs)) as [|a r IH]; [exact ND|]. inversion ND; subst. auto.
    - intros n I J. clear - ND I J. induction (names_below (VObj "ARPackage" fs)) as [|a r IH]; [contradiction|]. inversion ND; subst. destruct J as [->|J]; [|auto].
      apply H1. apply in_or_app. right. exact I. }
  exact RG.
Qed.
