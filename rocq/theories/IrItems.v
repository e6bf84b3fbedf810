(** The reader code run at the element of one object: [csim], [robj] and [ract] (IrCheck.v)
    are sound. *)
From Coq Require Import String Ascii List Bool Arith Lia Floats.SpecFloat.
From Verif Require Import PyBase PyBaseFacts Primitives Xml Leaf SpecLeaf XmlFacts ClassTable Ir Access WriterCode ReaderCode IrSem
  IrFacts IrGo Domain SpecDomain IrCheck IrLeaf IrWrite IrLocate.
Import ListNotations.
Open Scope string_scope.
Open Scope list_scope.

Local Opaque access_of attrs_of init named_init wfuns rfuns domain ancestors access_table attr_table fuel.
Strategy expand [find_at findall]. Strategy opaque [locate steps].

Lemma bnd_inv : forall A B (m : M A) (f : A -> M B) b l, bnd m f = Some (b, l) ->
  exists a l1 l2, m = Some (a, l1) /\ f a = Some (b, l2) /\ l = l1 ++ l2.
Proof.
  intros A B m f b l H. unfold bnd in H. destruct m as [[a l1]|]; [|discriminate].
  destruct (f a) as [[b' l2]|] eqn:E; [|discriminate]. inversion H; subst. exists a, l1, l2. auto.
Qed.
Lemma ret_inv : forall A (a b : A) l, ret a = Some (b, l) -> a = b /\ l = [].
Proof. intros A a b l H. inversion H. auto. Qed.
Ltac bnd_in H := let a := fresh "a" in let l1 := fresh "l" in let l2 := fresh "l" in let E := fresh "E" in
  apply bnd_inv in H; destruct H as (a & l1 & l2 & E & H & ->).
Ltac ret_in H := apply ret_inv in H; destruct H as [<- ->].

(** ** Texts *)
Lemma strip_spaces : forall s, all_chars is_space s = true -> PyBase.strip s = "".
Proof.
  intros s H. unfold PyBase.strip, lstrip.
  assert (E : snd (span is_space s) = "").
  { induction s as [|c s IH]; [reflexivity|]. cbn in *. apply andb_true_iff in H. destruct H as [H1 H2]. rewrite H1.
    specialize (IH H2). destruct (span is_space s). exact IH. }
  now rewrite E.
Qed.
Lemma blanks_space : forall d, all_chars is_space (blanks d) = true.
Proof. induction d; cbn; auto. Qed.
Lemma pad_no_word : forall d, has_word (nl ++ blanks d)%string = false.
Proof. intros. unfold has_word. rewrite strip_spaces; [reflexivity|]. cbn. apply blanks_space. Qed.
Lemma text_kids : forall d t a tx ks, ks <> [] -> xtext (reload d (El t a tx ks)) =
  Some (match text_or_none tx with Some s => (nl ++ blanks (S d)) ++ s ++ (nl ++ blanks (S d)) | None => nl ++ blanks (S d) end)%string.
Proof. intros d t a tx [|k ks] H; [now elim H|reflexivity]. Qed.

Section Items.
Context (repr : spec_float -> string) (warn : bool) (WE : list (string * (list wi * string))).
Notation wgo := (wgo repr warn).
Notation rgo := (rgo warn).
Notation vgo := (vgo warn).
Notation cgo := (cgo warn).
Notation dens := (dens repr warn WE).
Notation at_ := (at_ repr warn WE).
Notation loc_ok := (loc_ok repr warn WE).
Context (HWE : WE_ok WE).

(** an object of the entry is read back *)
Definition entry_ok (e : entry) (u : val) : Prop :=
  forall x d s, class_of u = Some (en_cls e) -> ok u -> wgo (en_wb e) (en_wk e) u elem0 s -> x = reload d (to_xml (en_tag e) s) ->
  if en_named e then exists nm, short_name x = Ok (Some nm) /\ field u "short_name" = Some (VStr nm) /\
                      forall it, rgo (en_rb e) (en_rk e) x it (named_init (en_cls e) (VStr nm)) u
  else field u "short_name" = None /\ forall it, rgo (en_rb e) (en_rk e) x it (init (en_cls e)) u.
Definition ents (l : list entry) (u : val) : Prop := forall e, In e l -> entry_ok e u.
Lemma ents_app : forall a b u, ents (a ++ b) u <-> ents a u /\ ents b u.
Proof.
  intros. unfold ents. split.
  - intros H. split; intros e I; apply H; apply in_or_app; auto.
  - intros [H1 H2] e I. apply in_app_or in I. destruct I; auto.
Qed.

Definition tgok (tg : target) (o : val) : Prop :=
  match tg with
  | None => True
  | Some (ci, R) => (exists fs, o = VObj (ci_cls ci) fs) /\ ci = cinfo_of (ci_cls ci) /\
      forall f, must ci f = true -> covered ci R f = true -> exists w, field o f = Some w /\ w <> VNone
  end.
Definition fresh (o u : val) : Prop :=
  match field u "short_name" with Some (VStr n) => existsb (name_is n) (children o) = false | _ => True end.
Definition do_eff (e : option eff) (u o o' : val) : Prop :=
  match e with
  | None => o' = o
  | Some EAppend => exists l, o = VList l /\ o' = VList (l ++ [u])
  | Some (EAdd f) => exists c fs l, o = VObj c fs /\ assoc f fs = Some (VList l) /\ o' = set_field o f (VList (l ++ [u])) /\ fresh o u
  | Some (ESlot f) => exists c fs, o = VObj c fs /\ assoc f fs = Some VNone /\ o' = set_field o f u /\ fresh o u
  end.

Lemma set_assoc_same : forall fs f w, assoc f (set_assoc fs f w) = Some w.
Proof.
  induction fs as [|[g a] fs IH]; intros f w; cbn; [now rewrite String.eqb_refl|].
  destruct (String.eqb f g) eqn:E; cbn; rewrite E; [reflexivity|apply IH].
Qed.
Lemma set_assoc_other : forall fs f g w, f <> g -> assoc g (set_assoc fs f w) = assoc g fs.
Proof.
  induction fs as [|[h a] fs IH]; intros f g w N; cbn.
  - destruct (String.eqb_spec g f); [congruence|reflexivity].
  - destruct (String.eqb_spec f h) as [->|N2]; cbn.
    + destruct (String.eqb_spec g h); [congruence|reflexivity].
    + destruct (String.eqb g h); [reflexivity|auto].
Qed.
Lemma tgok_set : forall tg o f w, tgok tg o -> w <> VNone -> tgok tg (set_field o f w).
Proof.
  intros [[ci R]|] o f w T N; [|exact I]. destruct T as ((fs & ->) & E & T). split; [eexists; reflexivity|]. split; [exact E|].
  intros g Mg Cg. cbn [set_field field]. destruct (String.eqb_spec f g) as [->|NE].
  - rewrite set_assoc_same. eauto.
  - rewrite set_assoc_other by exact NE. exact (T g Mg Cg).
Qed.
Lemma tgok_eff : forall tg e u o o', tgok tg o -> do_eff e u o o' -> u <> VNone -> tgok tg o'.
Proof.
  intros tg [[|f|f]|] u o o' T D N; cbn in D.
  - destruct D as (l & -> & ->). destruct tg as [[ci R]|]; [|exact I]. destruct T as ((fs & E) & _). discriminate.
  - destruct D as (c & fs & l & _ & _ & -> & _). apply tgok_set; [exact T|discriminate].
  - destruct D as (c & fs & _ & _ & -> & _). now apply tgok_set.
  - subst. exact T.
Qed.

Lemma find_findall : forall key x, find key x = hd_error (findall key x).
Proof. reflexivity. Qed.
Lemma find_none_of : forall key x, findall key x = [] -> find key x = None.
Proof. intros. unfold find. now rewrite H. Qed.
Lemma find_one_of : forall key x y l, findall key x = y :: l -> find key x = Some y.
Proof. intros. unfold find. now rewrite H. Qed.

Lemma at_obj : forall cx d tag wb wk u x, at_ cx u x -> cx_code cx = Some (d, tag, wb, wk) ->
  class_of u = Some d /\ ok u /\ exists s dd, wgo wb wk u elem0 s /\ x = reload dd (to_xml tag s).
Proof.
  intros [ci t its bk|c t b k|lt s] d tag wb wk u x A C; cbn [cx_code] in C.
  - destruct bk as [[b k]|]; [|discriminate]. inversion C; subst. destruct A as (evs & dd & D & X & G & W).
    destruct G as [[G1 G2]|[G _]]; [|discriminate]. split; [exact G1|]. split; [exact G2|]. exists (apply evs elem0), dd. split; [apply W; reflexivity|exact X].
  - inversion C; subst. destruct A as (A1 & A2 & _ & s & dd & W & X). repeat split; auto. exists s, dd. auto.
  - discriminate.
Qed.
Lemma at_some : forall ci t its b k u x, at_ (CxE ci t its (Some (b, k))) u x -> exists c, class_of u = Some c.
Proof. intros ci t its b k u x (evs & d & _ & _ & [[G _]|[G _]] & _); [eauto|discriminate]. Qed.
Lemma at_leaf_ref : forall s u x, at_ (CxL (LtKind RRef) s) u x -> exists r, u = VLeaf (LRef r).
Proof. intros s u x (l & y & d & -> & (r & -> & _) & _). eauto. Qed.

(** a leaf is read back *)
Lemma rkind_eqb_eq : forall a b, rkind_eqb a b = true -> a = b.
Proof. intros [] []; cbn; congruence. Qed.
Lemma leaf_back : forall k t wk u x, at_ (CxL (LtKind k) (LEnd t wk)) u x -> exists l, u = VLeaf l /\ leaf_of k x = Ok (Some l).
Proof.
  intros k t wk u x (l & y & d & -> & L & (C & E) & ->). cbn in C, L. exists l. split; [reflexivity|].
  destruct (leaf_rt repr wk k t l C L) as (a & tx & X & R). rewrite E in X. inversion X; subst. rewrite reload_leaf. apply R.
Qed.
Lemma wrap_back : forall c t wk u x, at_ (CxL (LtWrap c) (LEnd t wk)) u x -> exists s, u = VLeaf (LLit c (mkLit None None (Some s))) /\
  leaf_of RLiteral x = Ok (Some (LLit "ARLiteral" (mkLit None None (Some s)))).
Proof.
  intros c t wk u x (l & y & d & -> & L & (C & E) & ->). cbn in C. destruct wk; try discriminate. destruct L as (s & ->). exists s. split; [reflexivity|].
  destruct (wrap_rt repr c s t) as (a & tx & X & R). rewrite E in X. inversion X; subst. rewrite reload_leaf. apply R.
Qed.

Lemma is_text_cond_eq : forall c, is_text_cond c = true -> c = CBoth CHasText CHasWord.
Proof. intros c H. destruct c; try discriminate. destruct c1; try discriminate. destruct c2; try discriminate. reflexivity. Qed.
Lemma cond_text : forall key x it o, cgo (CBoth CHasText CHasWord) key x it o
  (match xtext x with Some s => has_word s | None => false end).
Proof.
  intros. exists 3. cbn. destruct (xtext x); reflexivity.
Qed.

Lemma no_text_open : forall cx u x ci t its, at_ cx u x -> cx_open cx = Some (ci, t, its) -> flat_map itexts its = [] ->
  match xtext x with Some s => has_word s | None => false end = false.
Proof.
  intros cx u x ci t its A O T. destruct (open_ok _ _ _ HWE _ _ _ _ _ _ A O) as (evs & d & D & -> & _).
  pose proof (dens_texts _ _ _ _ _ _ D T) as ET. unfold to_xml. rewrite apply_ev_text, ET. cbn [elem0 e_text last_str fold_left].
  destruct (e_kids (apply evs elem0)) as [|k ks] eqn:K; [reflexivity|].
  rewrite text_kids by discriminate. cbn [text_or_none]. apply pad_no_word.
Qed.
Lemma no_attr_open : forall cx u x ci t its a, at_ cx u x -> cx_open cx = Some (ci, t, its) -> no_foreign its = true ->
  mem a (flat_map iattrs its) = false -> xattr a x = None.
Proof.
  intros cx u x ci t its a A O NF T. destruct (open_ok _ _ _ HWE _ _ _ _ _ _ A O) as (evs & d & D & -> & _).
  unfold xattr. rewrite reload_attrs. unfold to_xml. cbn [xattrs]. rewrite apply_ev_attr.
  rewrite (dens_no_attr _ _ _ _ _ _ _ D NF T). reflexivity.
Qed.

Lemma vtot_ok : forall n v key x it o, vtot n v = true -> exists w, vgo v key x it o w.
Proof.
  induction n as [|n IH]; intros v key x it o H; [discriminate|]. destruct v; try discriminate; cbn [vtot] in H.
  - exists VNone. apply vgo_none.
  - destruct (vtot n v1) eqn:E1; [|discriminate]. destruct (find (rkey key p) x) as [y|] eqn:F.
    + destruct (IH v1 key y it o E1) as [w W]. exists w. eapply vgo_find; eassumption.
    + destruct (IH v2 key x it o H) as [w W]. exists w. eapply vgo_find_none; eassumption.
Qed.

Lemma must_getter : forall ci g f o w, getter ci g = Some f -> must ci f = true -> (exists fs, o = VObj (ci_cls ci) fs) ->
  ci = cinfo_of (ci_cls ci) -> field o f = Some w -> gets o [g] = Done w.
Proof.
  intros ci g f o w G Mf (fs & ->) E F. cbn [field] in F. cbn [gets]. unfold getter in G. destruct g as [m|a].
  - assert (A : acc ci m = access_of (ci_cls ci) m) by (rewrite E; apply acc_of).
    destruct (acc ci m) as [[g0|g0|g0 gd|g0 gd|c0 nm pl]|] eqn:EA; try discriminate.
    + destruct (dfl ci g0); [|discriminate]. inversion G; subst. cbn [get1]. rewrite <- A, F. reflexivity.
    + unfold must in Mf. destruct (dom ci g0) as [t|] eqn:T.
      * destruct t as [| | | |[] cs| | | | | | |]; try discriminate. destruct (dfl ci g0); [|discriminate]. inversion G; subst. rewrite T in Mf. discriminate.
      * destruct (is_dlist (dfl ci g0)); [|discriminate]. inversion G; subst. rewrite T in Mf. discriminate.
  - destruct (dfl ci a); [|discriminate]. inversion G; subst. cbn [get1]. rewrite F. reflexivity.
Qed.

Definition csim_sound (n : nat) : Prop := forall c key cx tg b l, csim n c key cx tg = Some (b, l) ->
  forall u x o it, at_ cx u x -> ents l u -> tgok tg o -> u <> VNone -> cgo c key x it o b.
Definition robj_sound (n : nat) : Prop := forall v key cx tg t l, robj n v key cx tg = Some (t, l) ->
  forall u x o it, at_ cx u x -> ents l u -> tgok tg o -> u <> VNone -> vgo v key x it o u.
Definition ract_sound (n : nat) : Prop := forall code key cx tg e l, ract n code key cx tg = Some (e, l) ->
  forall u x o o' it, at_ cx u x -> ents l u -> tgok tg o -> u <> VNone -> do_eff e u o o' -> rgo code key x it o o'.

Lemma csim_step : forall n, csim_sound n -> robj_sound n -> csim_sound (S n).
Proof.
  intros n HC HV c key cx tg b l H u x o it A En T NN. cbn [csim] in H.
  destruct (is_text_cond c) eqn:ET.
  { apply is_text_cond_eq in ET. subst c. destruct (cx_open cx) as [[[ci t] its]|] eqn:O; [|discriminate].
    destruct (flat_map itexts its) eqn:TX; [|discriminate]. destruct (no_foreign its); [|discriminate]. ret_in H.
    rewrite <- (no_text_open _ _ _ _ _ _ A O TX). apply cond_text. }
  assert (HASATTR : forall a, (match cx_open cx with
        | Some (_, _, its) => if (if mem a (flat_map iattrs its) then false else no_foreign its) then ret false else None
        | None => None
        end = Some (b, l)) -> b = false /\ xattr a x = None).
  { intros a Ha. destruct (cx_open cx) as [[[ci t] its]|] eqn:O; [|discriminate].
    destruct (mem a (flat_map iattrs its)) eqn:Ma; [discriminate|]. destruct (no_foreign its) eqn:NF; [|discriminate]. ret_in Ha.
    split; [reflexivity|]. eapply no_attr_open; eassumption. }
  destruct c; try discriminate.
  - ret_in H. exists 1. reflexivity.
  - ret_in H. exists 1. cbn. now rewrite (at_tag _ _ _ _ _ _ A).
  - ret_in H. exists 1. reflexivity.
  - destruct (HASATTR _ H) as [-> X]. exists 1. cbn. now rewrite X.
  - destruct (find_at cx (rkey key p)) as [[|c'|f c'|f alts]|] eqn:F; try discriminate;
      pose proof (find_at_ok _ _ _ HWE _ _ _ _ _ F A) as L; cbn [IrLocate.loc_ok] in L.
    + ret_in H. apply cgo_at_none. now apply find_none_of.
    + destruct L as (y & L & A'). eapply cgo_at; [eapply find_one_of; exact L|]. eapply HC; eassumption.
  - assert (GOT : match cx with CxL _ _ => let! _ := robj n v key cx tg in ret true | _ => None end = Some (b, l) -> cgo (CGot v) key x it o b).
    { clear H. intros H. destruct cx as [| |lt s]; try discriminate. bnd_in H. ret_in H. apply ents_app in En. destruct En as [En _].
      pose proof (HV _ _ _ _ _ _ E u x o it A En T NN) as V. apply cgo_got in V.
      destruct A as (l9 & y & d & -> & _). exact V. }
    destruct v; try (exact (GOT H)).
    destruct (HASATTR _ H) as [-> X]. pose proof (cgo_got warn (VAttrX a) key x it o _ (vgo_attr warn a key x it o)) as V.
    rewrite X in V. exact V.
  - destruct tg as [[ci R]|]; [|discriminate]. ret_in H. destruct T as ((fs & ->) & E & _). exists 1. cbn.
    assert (AN : ci_anc ci = ancestors 20 (ci_cls ci)) by (rewrite E at 1; reflexivity). rewrite AN. reflexivity.
  - destruct p as [|g [|]]; try discriminate. destruct tg as [[ci R]|]; [|discriminate].
    destruct (getter ci g) as [f|] eqn:G; [|discriminate]. destruct (must ci f) eqn:Mf; [|discriminate].
    destruct (covered ci R f) eqn:Cf; [|discriminate]. ret_in H. destruct T as (T1 & E & T).
    destruct (T _ Mf Cf) as (w & F & N). exists 1. cbn [crun]. rewrite (must_getter _ _ _ _ _ G Mf T1 E F). cbn [obind].
    destruct w; try reflexivity. now elim N.
  - bnd_in H. ret_in H. apply ents_app in En. apply cgo_neg. eapply HC; [eassumption|eassumption|apply En|assumption|assumption].
  - bnd_in H. apply ents_app in En. destruct a.
    + eapply cgo_both_true; eapply HC; try eassumption; apply En.
    + ret_in H. apply cgo_both_false. eapply HC; try eassumption; apply En.
  - bnd_in H. apply ents_app in En. destruct a.
    + ret_in H. apply cgo_either_true. eapply HC; try eassumption; apply En.
    + eapply cgo_either_false; eapply HC; try eassumption; apply En.
Qed.

Lemma robj_step : forall n, csim_sound n -> robj_sound n -> ract_sound n -> robj_sound (S n).
Proof.
  intros n HC HV HR v key cx tg tt l H u x o it A En T NN. cbn [robj] in H. destruct v; try discriminate.
  - (* VLeafX *)
    destruct cx; try discriminate. destruct (find_at (CxL lt s) (rkey key p)) as [[|c'|f c'|f alts]|] eqn:F; try discriminate.
    destruct c' as [| |[k'|] [|t wk]]; try discriminate. unfold guard in H. destruct (rkind_eqb k k') eqn:K; [|discriminate].
    apply rkind_eqb_eq in K. subst k'. destruct (find_at_ok _ _ _ HWE _ _ _ _ _ F A) as (y & L & A').
    destruct (leaf_back _ _ _ _ _ A') as (l0 & -> & B). change (VLeaf l0) with (of_leaf (Some l0)). apply vgo_leaf. unfold leaf_read.
    rewrite (find_one_of _ _ _ _ L). exact B.
  - (* VNewX *)
    destruct (cx_code cx) as [[[[d' tag] wb] wk]|] eqn:C; [|discriminate]. destruct (String.eqb_spec c d'); [subst d'|discriminate].
    inversion H; subst. destruct (at_obj _ _ _ _ _ _ _ A C) as (Cu & Ou & s & dd & W & X).
    pose proof (En _ (or_introl eq_refl) x dd s Cu Ou W X) as EO. cbn [en_named en_rb en_rk en_cls] in EO. destruct named.
    + destruct EO as (nm & S & _ & R). eapply vgo_new_named; [exact S|apply R].
    + destruct EO as (_ & R). apply vgo_new. apply R.
  - (* VGetX *)
    destruct (assoc f rfuns) as [[b [r|]]|] eqn:F; try discriminate. bnd_in H. destruct a; [discriminate|]. apply ents_app in En.
    eapply vgo_get; [exact F| |]; rewrite (at_rtag _ _ _ _ _ _ key t A).
    + eapply HR; [exact E|exact A|apply En|exact I|exact NN|reflexivity].
    + eapply HV; [exact H|exact A|apply En|exact I|exact NN].
  - (* VFindX *)
    destruct (find_at cx (rkey key p)) as [[|c'|f c'|f alts]|] eqn:F; try discriminate;
      pose proof (find_at_ok _ _ _ HWE _ _ _ _ _ F A) as L; cbn [IrLocate.loc_ok] in L.
    + eapply vgo_find_none; [now apply find_none_of|]. eapply HV; eassumption.
    + destruct L as (y & L & A'). eapply vgo_find; [eapply find_one_of; exact L|]. eapply HV; eassumption.
  - (* VIfX *)
    bnd_in H. apply ents_app in En. eapply vgo_if; [eapply HC; [exact E|exact A|apply En|exact T|exact NN]|]. eapply HV; [exact H|exact A|apply En|exact T|exact NN].
  - (* VOrX *)
    apply vgo_or.
    + destruct cx as [ci t its [bk|]|c t b k|[[]|] s]; try discriminate; eapply HV; eassumption.
    + destruct cx as [ci t its [[b k]|]|c t b k|[[]|] s]; try discriminate.
      * destruct (at_some _ _ _ _ _ _ _ A) as (c & C). destruct u; try discriminate. exact I.
      * destruct A as (C & _). destruct u; try discriminate. exact I.
      * destruct (at_leaf_ref _ _ _ A) as (r & ->). exact I.
Qed.

Lemma ract_step : forall n, csim_sound n -> robj_sound n -> ract_sound n -> ract_sound (S n).
Proof.
  intros n HC HV HR code key cx tg e l H u x o o' it A En T NN D. cbn [ract] in H. destruct code as [|i rest].
  { ret_in H. cbn in D. subst. apply rgo_nil. }
  bnd_in H. bnd_in H. apply ents_app in En. destruct En as [En1 En2]. apply ents_app in En2. destruct En2 as [En2 _].
  assert (FIRST : forall o1, do_eff a u o o1 -> rgo [i] key x it o o1).
  { clear H D E0. intros o1 D. destruct i; try discriminate.
    - (* RPut *)
      bnd_in E. apply ents_app in En1. pose proof (HV _ _ _ _ _ _ E0 u x o it A (proj1 En1) T NN) as V.
      eapply rgo_put; [exact V|]. destruct tg as [[ci R]|].
      + destruct T as ((fs & ->) & EC & _). assert (AC : acc ci m = access_of (ci_cls ci) m) by (rewrite EC; apply acc_of).
        cbn [put1]. rewrite <- AC. destruct (acc ci m) as [[]|]; try discriminate; ret_in E; cbn [do_eff] in D.
        * destruct D as (c & fs' & Eo & _ & -> & _). inversion Eo; subst. destruct u; try (now elim NN); rewrite andb_false_r; reflexivity.
        * destruct D as (c & fs' & l' & Eo & As & -> & _). inversion Eo; subst. rewrite As.
          destruct u; try (now elim NN); rewrite andb_false_r; reflexivity.
      + destruct (String.eqb_spec m "append"); [subst m|discriminate]. ret_in E. destruct D as (l' & -> & ->). reflexivity.
    - (* RSet *)
      bnd_in E. apply ents_app in En1. pose proof (HV _ _ _ _ _ _ E0 u x o it A (proj1 En1) T NN) as V.
      destruct tg; [|discriminate]. ret_in E. destruct D as (c & fs & -> & _ & -> & _). now apply rgo_set.
    - (* RCall *)
      destruct (assoc f rfuns) as [[b r]|] eqn:F; [|discriminate].
      assert (RB : (if match r with Some r => vtot 30 r | None => true end then ract n b (ckey key cx t) cx tg else None) = Some (a, l0)) by exact E.
      destruct r as [r|].
      + destruct (vtot 30 r) eqn:V; [|discriminate]. destruct (vtot_ok 30 r (rtag key x t) x VNone o1 V) as [w W].
        eapply rgo_call_val; [exact F| |exact W]. rewrite (at_rtag _ _ _ _ _ _ key t A). eapply HR; eassumption.
      + eapply rgo_call; [exact F|]. rewrite (at_rtag _ _ _ _ _ _ key t A). eapply HR; eassumption.
    - (* RCreate *)
      destruct tg as [[ci R]|]; [|discriminate]. destruct (cx_code cx) as [[[[d' tag] wb] wk]|] eqn:C; [|discriminate].
      destruct (acc ci m) as [[| | | |d named' p]|] eqn:EA; try discriminate.
      destruct (Bool.eqb named named') eqn:EN; [|discriminate]. apply eqb_prop in EN. subst named'.
      destruct (String.eqb_spec d d'); [subst d'|discriminate]. inversion E; subst a l0. clear E.
      destruct T as ((fs & ->) & EC & _). assert (AC : acc ci m = access_of (ci_cls ci) m) by (rewrite EC; apply acc_of).
      destruct (at_obj _ _ _ _ _ _ _ A C) as (Cu & Ou & s & dd & W & X).
      pose proof (En1 _ (or_introl eq_refl) x dd s Cu Ou W X) as EO. cbn [en_named en_rb en_rk en_cls] in EO.
      assert (ST : store (VObj (ci_cls ci) fs) p u = Done o1).
      { unfold store. destruct p as [g|g]; cbn [do_eff] in D.
        - destruct D as (c & fs' & l' & Eo & As & -> & FR). inversion Eo; subst. unfold fresh in FR. rewrite As.
          destruct (field u "short_name") as [[]|]; try reflexivity. rewrite FR. reflexivity.
        - destruct D as (c & fs' & Eo & As & -> & FR). inversion Eo; subst. unfold fresh in FR. rewrite As.
          destruct (field u "short_name") as [[]|]; try reflexivity. rewrite FR. reflexivity. }
      destruct named.
      + destruct EO as (nm & S & _ & R0). eapply rgo_create_named; [rewrite <- AC; exact EA|exact S|apply R0|exact ST].
      + destruct EO as (_ & R0). eapply rgo_create; [rewrite <- AC; exact EA|apply R0|exact ST].
    - (* RFind *)
      destruct (find_at cx (rkey key p)) as [[|c'|f c'|f alts]|] eqn:F; try discriminate;
        pose proof (find_at_ok _ _ _ HWE _ _ _ _ _ F A) as L; cbn [IrLocate.loc_ok] in L.
      + eapply rgo_find_none; [now apply find_none_of|]. eapply HR; eassumption.
      + destruct L as (y & L & A'). eapply rgo_find; [eapply find_one_of; exact L|]. eapply HR; eassumption.
    - (* RFor *)
      destruct (find_at cx (rkey key p)) as [[|c'|f c'|f alts]|] eqn:F; try discriminate;
        pose proof (find_at_ok _ _ _ HWE _ _ _ _ _ F A) as L; cbn [IrLocate.loc_ok] in L.
      + ret_in E. cbn in D. subst. apply rgo_for. rewrite L. constructor.
      + destruct L as (y & L & A'). apply rgo_for. rewrite L. econstructor; [eapply HR; eassumption|constructor].
    - (* RIf *)
      bnd_in E. apply ents_app in En1. eapply rgo_if; [eapply HC; [exact E0|exact A|apply En1|exact T|exact NN]|].
      eapply HR; [exact E|exact A|apply En1|exact T|exact NN|exact D]. }
  destruct a as [ea|].
  - destruct a0; [discriminate|]. ret_in H. eapply rgo_cons; [apply FIRST; exact D|].
    eapply HR; [exact E0|exact A|exact En2|eapply tgok_eff; eassumption|exact NN|reflexivity].
  - assert (EE : a0 = e) by (destruct a0; inversion H; reflexivity). subst a0. eapply rgo_cons; [apply FIRST; reflexivity|].
    eapply HR; [exact E0|exact A|exact En2|exact T|exact NN|exact D].
Qed.
Lemma items_sound : forall n, csim_sound n /\ robj_sound n /\ ract_sound n.
Proof.
  induction n as [|n (HC & HV & HR)].
  - repeat split; intros ? ? ? ? ? ? H; discriminate.
  - split; [now apply csim_step|]. split; [now apply robj_step|now apply ract_step].
Qed.
Lemma csim_ok : forall n, csim_sound n.
Proof. intro. apply items_sound. Qed.
Lemma robj_ok : forall n, robj_sound n.
Proof. intro. apply items_sound. Qed.
Lemma ract_ok : forall n, ract_sound n.
Proof. intro. apply items_sound. Qed.
End Items.
