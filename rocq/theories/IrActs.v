(** Steps of the soundness proof of the reader half of IrCheck.v: objects found below an element,
    XML attributes and texts, parts written into the element of their owner. *)
From Coq Require Import String Ascii List Bool Arith Lia Floats.SpecFloat.
From Verif Require Import PyBase PyBaseFacts Primitives Xml Leaf SpecLeaf XmlFacts ClassTable Ir Access WriterCode ReaderCode IrSem
  IrFacts IrGo Domain SpecDomain IrCheck IrLeaf IrWrite IrLocate IrItems IrMix.
Import ListNotations.
Open Scope string_scope.
Open Scope list_scope.

Local Opaque access_of attrs_of init named_init wfuns rfuns domain ancestors access_table attr_table fuel.
Strategy expand [find_at findall]. Strategy opaque [locate steps].

(** ** More on objects *)
Lemma own_obj : forall ci v, own ci v -> v <> VNone.
Proof. intros ci v (fs & -> & _). discriminate. Qed.
Lemma class_some : forall cs v, in_class cs v -> v <> VNone.
Proof. intros cs v (c & C & _) ->. discriminate. Qed.
Lemma fok_units : forall t w u, fok t w -> In u (units w) -> u <> VNone.
Proof.
  intros t w u K I. inversion K; subst; cbn [units In] in I; try contradiction;
    try (destruct I as [<-|[]]; discriminate).
  - apply in_map_iff in I. destruct I as (l & <- & _). discriminate.
  - destruct w; cbn [units] in I; try contradiction; try (destruct I as [<-|[]]; discriminate).
    match goal with H : in_class _ _ |- _ => destruct H as (c & C & _); discriminate end.
  - rewrite Forall_forall in *. match goal with H : forall x, In x vs -> in_class _ x |- _ => exact (class_some _ _ (H _ I)) end.
  - destruct w; try discriminate. destruct I as [<-|[]]. discriminate.
Qed.
Lemma own_units : forall ci v f w u, own ci v -> field v f = Some w -> In u (units w) -> u <> VNone.
Proof.
  intros ci v f w u O F I. destruct (own_key _ _ _ _ O F) as (d & D). destruct (dom ci f) as [t|] eqn:T.
  - eapply fok_units; [|exact I]. eapply own_fok; eassumption.
  - rewrite (own_dflt _ _ _ _ _ O T D F) in I. destruct d; cbn in I; try contradiction; destruct I as [<-|[]]; discriminate.
Qed.
Lemma set_set : forall o f a b, set_field (set_field o f a) f b = set_field o f b.
Proof.
  intros [| | |c fs|] f a b; try reflexivity. cbn [set_field]. f_equal. induction fs as [|[g w] fs IH]; cbn [set_assoc].
  - now rewrite String.eqb_refl.
  - destruct (String.eqb f g) eqn:E; cbn [set_assoc]; rewrite E; [reflexivity|]. now rewrite IH.
Qed.
Lemma mix_swap : forall ci f g R v, good ci -> mix ci ((f, None) :: (g, None) :: R) v = mix ci ((g, None) :: (f, None) :: R) v.
Proof.
  intros ci f g R v G. apply mix_eq; [apply G|]. intros h d D. unfold mixf. cbn [fst snd]. destruct (field v h); [|reflexivity].
  rewrite !has_rest_cons. destruct (String.eqb f h), (String.eqb g h); reflexivity.
Qed.
Lemma tgok_mix : forall ci R v, good ci -> own ci v -> tgok (Some (ci, R)) (mix ci R v).
Proof.
  intros ci R v G O. split; [eexists; reflexivity|]. split; [eapply own_ci; exact O|]. intros f Mf Cf.
  assert (T : exists t, dom ci f = Some t) by (unfold must in Mf; destruct (dom ci f); [eauto|discriminate]). destruct T as (t & T).
  destruct (g_dom _ G _ _ T) as (d & D). destruct (own_field _ _ _ _ O D) as (w & F). pose proof (must_val _ _ _ _ O Mf F) as N.
  destruct (covered_val _ _ _ _ _ O Cf F) as [H|[-> _]]; [|now elim N]. exists w. split; [|exact N]. eapply mix_set; eassumption.
Qed.

Definition conc (ci : cinfo) (md : mode) (v o : val) : Prop :=
  match md with
  | MObj R => o = mix ci R v
  | MList None => o = VList []
  | MList (Some f) => field v f = Some o
  | MDummy => o = VObj "" []
  end.
Lemma conc_fun : forall ci md v o o', conc ci md v o -> conc ci md v o' -> o = o'.
Proof. intros ci [R|[f|]|] v o o' H H'; cbn in *; congruence. Qed.
Lemma conc_tgok : forall ci md v o, good ci -> own ci v -> conc ci md v o -> tgok (mtarget ci md) o.
Proof. intros ci [R|f|] v o G O C; cbn in *; auto. subst. now apply tgok_mix. Qed.

Lemma classes_some : forall l cs c, classes l = Some cs -> In c l -> exists d, c = Some d /\ In d cs.
Proof.
  induction l as [|a l IH]; intros cs c H I; [contradiction|]. cbn in H. destruct a as [a|]; [|discriminate].
  destruct (classes l) as [cs'|] eqn:E; [|discriminate]. cbn in H. inversion H; subst. destruct I as [<-|I].
  - exists a. split; [reflexivity|left; reflexivity].
  - destruct (IH _ _ eq_refl I) as (d & -> & J). exists d. split; [reflexivity|right; exact J].
Qed.
Lemma classes_in : forall l cs d, classes l = Some cs -> In d cs -> In (Some d) l.
Proof.
  induction l as [|a l IH]; intros cs d H I; cbn in H.
  - inversion H; subst. contradiction.
  - destruct a as [a|]; [|discriminate]. destruct (classes l) as [cs'|] eqn:E; [|discriminate]. cbn in H. inversion H; subst.
    destruct I as [<-|I]; [left; reflexivity|right; eauto].
Qed.
Lemma alook_in : forall k alts a, alook k alts = Some a -> In (k, a) alts.
Proof.
  induction alts as [|[c b] alts IH]; intros a H; [discriminate|]. cbn in H. destruct (oeqb_spec k c).
  - inversion H; subst. left. reflexivity.
  - right. auto.
Qed.
Lemma all_some_look : forall (alts : list (option string * option ctx)) k a, all_some alts = true -> alook k alts = Some a -> exists cx, a = Some cx.
Proof.
  intros alts k a H L. apply alook_in in L. unfold all_some in H. rewrite forallb_forall in H. specialize (H _ L). cbn in H.
  destruct a; [eauto|discriminate].
Qed.

Section Acts.
Context (repr : spec_float -> string) (warn : bool) (WE : list (string * (list wi * string))).
Notation wgo := (wgo repr warn).
Notation rgo := (rgo warn).
Notation vgo := (vgo warn).
Notation cgo := (cgo warn).
Notation rchain := (rchain warn).
Notation ichain := (ichain warn).
Notation den := (den repr warn WE).
Notation dens := (dens repr warn WE).
Notation at_ := (at_ repr warn WE).
Notation alt_at := (alt_at repr warn WE).
Notation loc_ok := (loc_ok repr warn WE).
Notation entry_ok := (entry_ok repr warn).
Notation ents := (ents repr warn).
Context (HWE : WE_ok WE).

(** the objects below v are small, and small objects of the entries are read back *)
Definition sub (N : nat) (l : list entry) (v : val) : Prop :=
  (forall u, vsize u < N -> ents l u) /\ forall f w u, field v f = Some w -> In u (units w) -> vsize u < N.
Lemma sub_app : forall N a b v, sub N (a ++ b) v <-> sub N a v /\ sub N b v.
Proof.
  intros. unfold sub. split.
  - intros [H1 H2]. split; (split; [|exact H2]); intros u L; specialize (H1 u L); apply ents_app in H1; apply H1.
  - intros [[H1 H2] [H3 _]]. split; [|exact H2]. intros u L. apply ents_app. auto.
Qed.
Lemma sub_ents : forall N l v f w u, sub N l v -> field v f = Some w -> In u (units w) -> ents l u.
Proof. intros N l v f w u [H1 H2] F I. eauto. Qed.
Lemma sub_part : forall N l v f p, sub N l v -> field v f = Some p -> units p = [p] -> sub N l p.
Proof.
  intros N l v f p [H1 H2] F U. split; [exact H1|]. intros g w u Fg I. apply Nat.lt_trans with (vsize p).
  - apply Nat.le_lt_trans with (vsize w); [now apply vsize_units|]. destruct p; try discriminate. cbn [field] in Fg. eapply vsize_field; exact Fg.
  - eapply H2; [exact F|]. rewrite U. left. reflexivity.
Qed.

(** ** Objects found below an element *)
Lemma acts_some : forall n code key tg alts la l, acts_of n code key tg alts = Some (la, l) ->
  forall k cx, alook k alts = Some (Some cx) -> exists e l0, ract n code key cx tg = Some (e, l0) /\ In (k, e) la /\ incl l0 l.
Proof.
  intros n code key tg. induction alts as [|[c [cx0|]] alts IH]; intros la l H k cx L; cbn [acts_of] in H; cbn [alook] in L; [discriminate| |].
  - bnd_in H. bnd_in H. ret_in H. destruct (oeqb_spec k c) as [->|N].
    + inversion L; subst. exists a, l0. split; [exact E|]. split; [left; reflexivity|]. intros z I. apply in_or_app. auto.
    + destruct (IH _ _ E0 _ _ L) as (e & l' & R & I & J). exists e, l'. split; [exact R|]. split; [right; exact I|].
      intros z Iz. apply in_or_app. right. apply in_or_app. left. auto.
  - destruct (oeqb_spec k c); [discriminate|]. eauto.
Qed.
Lemma acts_keys : forall n code key tg alts la l, acts_of n code key tg alts = Some (la, l) -> forall k, In k (map fst la) ->
  In k (map fst alts) /\ (NoDup (map fst alts) -> exists cx, alook k alts = Some (Some cx)).
Proof.
  intros n code key tg. induction alts as [|[c [cx0|]] alts IH]; intros la l H k I; cbn [acts_of] in H.
  - ret_in H. contradiction.
  - bnd_in H. bnd_in H. ret_in H. cbn [map fst] in I. cbn [map fst alook]. destruct I as [<-|I].
    + split; [left; reflexivity|]. intros _. rewrite oeqb_refl. eauto.
    + destruct (IH _ _ E0 _ I) as [J K]. split; [right; exact J|]. intros ND. inversion ND; subst. destruct (oeqb_spec k c); [subst; contradiction|auto].
  - destruct (IH _ _ H _ I) as [J K]. cbn [map fst alook]. split; [right; exact J|]. intros ND. inversion ND; subst. destruct (oeqb_spec k c); [subst; contradiction|auto].
Qed.
Lemma objs_some : forall n code key tg alts la l, objs_of n code key tg alts = Some (la, l) ->
  forall k cx, alook k alts = Some (Some cx) -> exists t l0, robj n code key cx tg = Some (t, l0) /\ In k la /\ incl l0 l.
Proof.
  intros n code key tg. induction alts as [|[c [cx0|]] alts IH]; intros la l H k cx L; cbn [objs_of] in H; cbn [alook] in L; [discriminate| |].
  - bnd_in H. bnd_in H. ret_in H. destruct (oeqb_spec k c) as [->|N].
    + inversion L; subst. exists a, l0. split; [exact E|]. split; [left; reflexivity|]. intros z I. apply in_or_app. auto.
    + destruct (IH _ _ E0 _ _ L) as (e & l' & R & I & J). exists e, l'. split; [exact R|]. split; [right; exact I|].
      intros z Iz. apply in_or_app. right. apply in_or_app. left. auto.
  - destruct (oeqb_spec k c); [discriminate|]. eauto.
Qed.
Lemma objs_keys : forall n code key tg alts la l, objs_of n code key tg alts = Some (la, l) -> forall k, In k la ->
  In k (map fst alts) /\ (NoDup (map fst alts) -> exists cx, alook k alts = Some (Some cx)).
Proof.
  intros n code key tg. induction alts as [|[c [cx0|]] alts IH]; intros la l H k I; cbn [objs_of] in H.
  - ret_in H. contradiction.
  - bnd_in H. bnd_in H. ret_in H. cbn [map fst alook]. destruct I as [<-|I].
    + split; [left; reflexivity|]. intros _. rewrite oeqb_refl. eauto.
    + destruct (IH _ _ E0 _ I) as [J K]. split; [right; exact J|]. intros ND. inversion ND; subst. destruct (oeqb_spec k c); [subst; contradiction|auto].
  - destruct (IH _ _ H _ I) as [J K]. cbn [map fst alook]. split; [right; exact J|]. intros ND. inversion ND; subst. destruct (oeqb_spec k c); [subst; contradiction|auto].
Qed.
Lemma ents_incl : forall a b u, incl a b -> ents b u -> ents a u.
Proof. intros a b u H E e I. apply E. auto. Qed.

(** a run over the elements of the objects in an attribute *)
Lemma chain_inv : forall (P : list val -> val -> Prop) code key it alts us yss o,
  Forall2 (alt_at alts) us yss ->
  (forall a u b y o cx, us = a ++ u :: b -> P a o -> alook (class_of u) alts = Some (Some cx) -> at_ cx u y ->
     exists o', rgo code key y it o o' /\ P (a ++ [u]) o') ->
  (forall a u b o, us = a ++ u :: b -> P a o -> alook (class_of u) alts = Some None -> P (a ++ [u]) o) ->
  P [] o -> exists o', rchain code key it (concat yss) o o' /\ P us o'.
Proof.
  intros P code key it alts us yss o F H1 H2 P0.
  assert (G : forall b yss a o, Forall2 (alt_at alts) b yss -> us = a ++ b -> P a o -> exists o', rchain code key it (concat yss) o o' /\ P us o').
  { clear F o P0 yss. induction b as [|u b IH]; intros yss a o F E Pa; inversion F; subst.
    - exists o. split; [constructor|]. now rewrite app_nil_r in *.
    - match goal with H : alt_at alts u _ |- _ => destruct H as (r & L & Y) end. cbn [concat]. destruct r as [cx|].
      + destruct Y as (z & -> & A). destruct (H1 _ _ _ _ _ _ eq_refl Pa L A) as (o1 & R & P1).
        match goal with H : Forall2 _ b _ |- _ => destruct (IH _ (a ++ [u]) o1 H) as (o2 & C & P2); [now rewrite <- app_assoc|exact P1|] end.
        exists o2. split; [|exact P2]. cbn [app]. econstructor; eassumption.
      + subst. cbn [app]. eapply (IH _ (a ++ [u])); [eassumption|now rewrite <- app_assoc|]. eapply H2; [reflexivity|exact Pa|exact L]. }
  eapply (G us yss [] o); [exact F|reflexivity|exact P0].
Qed.

Lemma items_act_ok : forall n ci md key code f alts md' l N v o w yss it,
  items_act n ci md key code f alts = Some (md', l) -> good ci -> own ci v -> sub N l v -> conc ci md v o ->
  field v f = Some w -> Forall2 (alt_at alts) (units w) yss -> NoDup (map fst alts) ->
  exists o', rchain code key it (concat yss) o o' /\ conc ci md' v o'.
Proof.
  intros n ci md key code f alts md' l N v o w yss it H G O SB C F F2 ND. unfold items_act in H. bnd_in H. rename a into la.
  apply sub_app in SB. destruct SB as [SB _].
  pose proof (acts_some _ _ _ _ _ _ _ E) as AS. pose proof (acts_keys _ _ _ _ _ _ _ E) as AK. pose proof (conc_tgok _ _ _ _ G O C) as TG.
  assert (RUN : forall u cx y o o' e l', In u (units w) -> at_ cx u y -> ract n code key cx (mtarget ci md) = Some (e, l') -> incl l' l0 ->
     tgok (mtarget ci md) o -> do_eff e u o o' -> rgo code key y it o o').
  { intros u cx y o1 o2 e l' I A R J T D. eapply (ract_ok _ _ _ HWE); [exact R|exact A| |exact T| |exact D].
    - eapply ents_incl; [exact J|]. eapply sub_ents; eassumption.
    - eapply own_units; eassumption. }
  destruct (quiet la) eqn:Q.
  { ret_in H. destruct (chain_inv (fun _ o1 => o1 = o) code key it alts (units w) yss o F2) as (o' & X & ->).
    - intros a u b y o1 cx Eu -> L A. destruct (AS _ _ L) as (e & l' & R & I & J). exists o. split; [|reflexivity].
      assert (e = None) by (unfold quiet in Q; rewrite forallb_forall in Q; specialize (Q _ I); cbn in Q; destruct e; [discriminate|reflexivity]).
      subst e. eapply RUN; try eassumption; [rewrite Eu; apply in_elt|reflexivity].
    - intros a u b o1 _ -> _. reflexivity.
    - reflexivity.
    - exists o. split; [exact X|exact C]. }
  clear Q. destruct (many ci f) eqn:MN.
  { destruct (many_val _ _ _ O MN) as (D & us & F' & NN). rewrite F in F'. inversion F'; subst w. clear F'. cbn [units] in *.
    destruct (all_some alts) eqn:AL; [|discriminate].
    match type of H with (if ?c then _ else _) = _ => destruct c eqn:EF; [|discriminate] end. rewrite forallb_forall in EF.
    destruct md as [R|[g|]|]; try discriminate.
    - destruct (in_rest R f) eqn:IR; [discriminate|]. ret_in H. cbn [conc] in *. subst o.
      assert (ST : mix ci R v = set_field (mix ci R v) f (VList [])).
      { symmetry. eapply set_same; [exact G|exact D|]. unfold mixf. cbn [fst snd]. now rewrite F, in_rest_no by exact IR. }
      destruct (chain_inv (fun a o1 => o1 = set_field (mix ci R v) f (VList a)) code key it alts us yss (mix ci R v) F2) as (o' & X & ->).
      + intros a u b y o1 cx -> -> L A. destruct (AS _ _ L) as (e & l' & Re & I & J). eexists. split; [|reflexivity].
        specialize (EF _ I). cbn [snd] in EF. destruct e as [[|g|g]|]; try discriminate. cbn [eff_add] in EF. apply String.eqb_eq in EF. subst g.
        eapply RUN; try eassumption.
        * apply in_elt.
        * apply tgok_set; [exact TG|discriminate].
        * cbn [do_eff mix set_field]. eexists _, _, a. split; [reflexivity|]. split; [apply set_assoc_same|]. split.
          -- symmetry. exact (set_set (mix ci R v) f (VList a) (VList (a ++ [u]))).
          -- exact (fresh_list ci v R f a u b G O F).
      + intros a u b o1 -> _ L. destruct (all_some_look _ _ _ AL L) as (cx & X). discriminate.
      + exact ST.
      + exists (set_field (mix ci R v) f (VList us)). split; [exact X|]. apply set_new; auto.
    - ret_in H. cbn [conc] in *. subst o.
      destruct (chain_inv (fun a o1 => o1 = VList a) code key it alts us yss (VList []) F2) as (o' & X & ->).
      + intros a u b y o1 cx -> -> L A. destruct (AS _ _ L) as (e & l' & Re & I & J). eexists. split; [|reflexivity].
        specialize (EF _ I). cbn [snd] in EF. destruct e as [[|g|g]|]; try discriminate.
        eapply RUN; try eassumption; [apply in_elt|exists a; auto].
      + intros a u b o1 -> _ L. destruct (all_some_look _ _ _ AL L) as (cx & X). discriminate.
      + reflexivity.
      + exists (VList us). auto. }
  destruct (single ci f) eqn:SG; [|discriminate]. destruct md as [R|g|]; try discriminate.
  match type of H with (if ?c then _ else _) = _ => destruct c eqn:EF; [|discriminate] end. rewrite forallb_forall in EF.
  destruct (single_val _ _ _ O SG) as (D & w' & F' & W). rewrite F in F'. inversion F'; subst w'. clear F'. cbn [conc] in C. subst o.
  destruct W as [->|[U NW]].
  { cbn [units] in F2. inversion F2; subst. cbn [concat]. exists (mix ci R v). split; [constructor|].
    destruct (classes (map fst la)) as [cs|].
    - destruct (forallb _ cs) in H; [|discriminate]. ret_in H. cbn [conc]. eapply skip_default; [exact G|exact D|exact F].
    - destruct (in_rest R f); [discriminate|]. destruct (all_some alts); [|discriminate]. ret_in H. cbn [conc]. eapply skip_default; [exact G|exact D|exact F]. }
  rewrite U in F2. inversion F2 as [|? ys ? yss' A1 A2]; subst. inversion A2; subst. cbn [concat]. rewrite app_nil_r.
  destruct A1 as (r & L & Y). destruct r as [cx|].
  - destruct Y as (y & -> & A). destruct (AS _ _ L) as (e & l' & Re & I & J). specialize (EF _ I). cbn [snd] in EF.
    destruct e as [[|g|g]|]; try discriminate. cbn [eff_is] in EF. apply String.eqb_eq in EF. subst g.
    assert (X : has_rest R f (class_of w) = false /\ exists cs, md' = MObj ((f, cs) :: R) /\
       match cs with None => True | Some l => exists c, class_of w = Some c /\ In c l end).
    { apply (in_map fst) in I. cbn [fst] in I. destruct (classes (map fst la)) as [cs|] eqn:CL.
      - destruct (forallb _ cs) eqn:FC in H; [|discriminate]. ret_in H. destruct (classes_some _ _ _ CL I) as (c & Ec & Ic).
        rewrite forallb_forall in FC. specialize (FC _ Ic). apply negb_true_iff in FC. rewrite Ec. split; [exact FC|]. exists (Some cs). split; [reflexivity|]. eauto.
      - destruct (in_rest R f) eqn:IR; [discriminate|]. destruct (all_some alts); [|discriminate]. ret_in H.
        split; [now apply in_rest_no|]. exists None. auto. }
    destruct X as (HR & cs & -> & MC). exists (set_field (mix ci R v) f w). split; [|cbn [conc]; now apply set_new].
    econstructor; [|constructor]. eapply RUN; try eassumption.
    + rewrite U. left. reflexivity.
    + cbn [do_eff]. eexists _, _. split; [reflexivity|]. split; [exact (mix_unset _ _ _ _ _ _ F D HR)|]. split; [reflexivity|].
      eapply fresh_slot; eassumption.
  - subst ys. exists (mix ci R v). split; [constructor|]. destruct (classes (map fst la)) as [cs|] eqn:CL.
    + destruct (forallb _ cs) in H; [|discriminate]. ret_in H. cbn [conc]. eapply skip_class; [exact G|exact F|].
      destruct (class_of w) as [c|] eqn:Cw; [|exact I]. intro Ic. apply (classes_in _ _ _ CL) in Ic. destruct (AK _ Ic) as [_ K].
      destruct (K ND) as (cx & Lc). congruence.
    + destruct (in_rest R f); [discriminate|]. destruct (all_some alts) eqn:AL; [|discriminate]. destruct (all_some_look _ _ _ AL L) as (cx & X). discriminate.
Qed.

(** the object in an attribute that holds one *)
Lemma single_found : forall ci v f alts ys, own ci v -> single ci f = true -> loc_ok (LItems f alts) v ys ->
  exists w, field v f = Some w /\ NoDup (map fst alts) /\
    ((ys = [] /\ (w = VNone \/ alook (class_of w) alts = Some None)) \/
     exists y cx, ys = [y] /\ w <> VNone /\ units w = [w] /\ alook (class_of w) alts = Some (Some cx) /\ at_ cx w y).
Proof.
  intros ci v f alts ys O S (w & yss & F & -> & F2 & ND). destruct (single_val _ _ _ O S) as (D & w' & F' & W).
  assert (w' = w) by congruence. subst w'. exists w. split; [exact F|]. split; [exact ND|]. destruct W as [->|[U NW]].
  - cbn in F2. inversion F2; subst. left. auto.
  - rewrite U in F2. inversion F2 as [|? ys ? yss' A1 A2]; subst. inversion A2; subst. cbn [concat]. rewrite app_nil_r.
    destruct A1 as (r & L & Y). destruct r as [cx|]; [|left; auto]. destruct Y as (y & -> & A). right. exists y, cx. auto.
Qed.
Lemma objs_sel : forall n a key tg alts la l f a0 l0 v w (M0 : M aval), objs_of n a key tg alts = Some (la, l) ->
  match classes la with Some cs => ret (AVSel f (Some cs)) | None => if all_some alts then ret (AVSel f None) else None end = Some (a0, l0) ->
  field v f = Some w -> NoDup (map fst alts) ->
  exists cs, a0 = AVSel f cs /\
    (w = VNone \/ alook (class_of w) alts = Some None -> sel v f cs VNone) /\
    (forall cx, alook (class_of w) alts = Some (Some cx) -> sel v f cs w).
Proof.
  intros n a key tg alts la l f a0 l0 v w _ HO H F ND. pose proof (objs_keys _ _ _ _ _ _ _ HO) as OK. pose proof (objs_some _ _ _ _ _ _ _ HO) as OS.
  destruct (classes la) as [cs|] eqn:CL.
  - ret_in H. exists (Some cs). split; [reflexivity|]. split.
    + intros X. exists w. split; [exact F|]. destruct X as [->|L]; [reflexivity|]. destruct (class_of w) as [c|] eqn:C; [|reflexivity].
      destruct (mem c cs) eqn:Mc; [|reflexivity]. apply mem_in in Mc. apply (classes_in _ _ _ CL) in Mc. destruct (OK _ Mc) as [_ K].
      destruct (K ND) as (cx & Lc). congruence.
    + intros cx L. destruct (OS _ _ L) as (t & l1 & _ & I & _). destruct (classes_some _ _ _ CL I) as (c & C & Ic).
      exists w. split; [exact F|]. rewrite C. apply mem_in in Ic. now rewrite Ic.
  - destruct (all_some alts) eqn:AL; [|discriminate]. ret_in H. exists None. split; [reflexivity|]. split.
    + intros [->|L]; [exists VNone; auto|]. destruct (all_some_look _ _ _ AL L) as (cx & X). discriminate.
    + intros cx L. exists w. auto.
Qed.
(** code run at an element that is there iff the attribute is not empty *)
Lemma join_ok : forall ci (md m2 m' : mode) f (l : list entry) v o w,
  match md, m2 with
  | MObj R, MObj ((g, None) :: R') =>
      if (if String.eqb f g then if many ci f then rest_eqb R' R else false else false) then ret m2 else None
  | MList None, MList (Some g) => if (if String.eqb f g then many ci f else false) then ret m2 else None
  | _, _ => if mode_eqb m2 md then ret md else None
  end = Some (m', l) -> good ci -> own ci v -> conc ci md v o -> field v f = Some w ->
  l = [] /\ m' = m2 /\ (units w = [] -> conc ci m2 v o).
Proof.
  intros ci md m2 m' f l v o w H G O C F.
  assert (GEN : (if mode_eqb m2 md then ret md else None) = Some (m', l) -> l = [] /\ m' = m2 /\ (units w = [] -> conc ci m2 v o)).
  { clear H. intros H. destruct (mode_eqb m2 md) eqn:E; [|discriminate]. apply mode_eqb_eq in E. subst m2. ret_in H. auto. }
  assert (NIL : many ci f = true -> units w = [] -> w = VList [] /\ dfl ci f = Some DList).
  { intros MN U. destruct (many_val _ _ _ O MN) as (D & us & F' & _). rewrite F in F'. inversion F'; subst. cbn in U. subst. auto. }
  destruct md as [R|[g|]|], m2 as [R2|[h|]|]; try (exact (GEN H)).
  - destruct R2 as [|[g [c|]] R']; try (exact (GEN H)). destruct (String.eqb_spec f g); [subst g|discriminate].
    destruct (many ci f) eqn:MN; [|discriminate]. destruct (rest_eqb R' R) eqn:E; [|discriminate]. apply rest_eqb_eq in E. subst R'. ret_in H.
    split; [reflexivity|]. split; [reflexivity|]. intros U. destruct (NIL eq_refl U) as [-> D]. cbn [conc] in *. subst o. eapply skip_default; [exact G|exact D|exact F].
  - destruct (String.eqb_spec f h); [subst h|discriminate]. destruct (many ci f) eqn:MN; [|discriminate]. ret_in H.
    split; [reflexivity|]. split; [reflexivity|]. intros U. destruct (NIL eq_refl U) as [-> D]. cbn [conc] in *. subst o. exact F.
Qed.

(** ** XML attributes and text *)
Lemma at_vals : forall ci tag its bk v x, at_ (CxE ci tag its bk) v x -> exists evs, dens v its evs /\
  (forall k, xattr k x = last_str (attr_vals k (ev_attrs evs)) None) /\
  (flat_map itags its = [] -> xtext x = text_or_none (last_str (ev_texts evs) None)).
Proof.
  intros ci tag its bk v x (evs & d & D & -> & _). exists evs. split; [exact D|]. split.
  - intros k. unfold xattr. rewrite reload_attrs. unfold to_xml. cbn [xattrs]. now rewrite apply_ev_attr.
  - intros T. unfold to_xml.
    assert (K : e_kids (apply evs elem0) = []).
    { rewrite apply_ev_kids. cbn. destruct (ev_kids evs) as [|k ks] eqn:E; [reflexivity|].
      pose proof (dens_tags _ _ _ _ _ _ D k) as X. rewrite T, E in X. elim X. left. reflexivity. }
    rewrite K, apply_ev_text. reflexivity.
Qed.
Lemma text_one : forall f its v evs, dens v its evs -> flat_map itexts its = [f] ->
  existsb (fun i => match i with IText g => String.eqb g f | _ => false end) its = true ->
  exists w, field v f = Some w /\ (w = VNone /\ ev_texts evs = [] \/ exists s, str_in w s /\ ev_texts evs = [s]).
Proof.
  intros f. induction its as [|i its IH]; intros v evs D T X; [discriminate|]. destruct D as (a & b & -> & D1 & D2).
  cbn [flat_map] in T. rewrite ev_texts_app. destruct (itexts i) as [|t ts] eqn:TI.
  - cbn [app] in T. rewrite (den_texts _ _ _ _ _ _ D1 TI). cbn [app]. apply IH; auto. cbn [existsb] in X. destruct i; try exact X.
    cbn in TI. discriminate.
  - cbn [app] in T. injection T as -> T2. apply app_eq_nil in T2. destruct T2 as [T1 T2]. subst ts. rewrite (dens_texts _ _ _ _ _ _ D2 T2), app_nil_r.
    assert (i = IText f).
    { cbn [existsb] in X. apply orb_true_iff in X. destruct X as [X|X].
      - destruct i; try discriminate. apply String.eqb_eq in X. now subst.
      - apply existsb_exists in X. destruct X as (j & Ij & X). destruct j; try discriminate. apply String.eqb_eq in X. subst.
        assert (Z : In f (flat_map itexts its)) by (apply in_flat_map; exists (IText f); split; [exact Ij|left; reflexivity]). rewrite T2 in Z. contradiction. }
    subst i. cbn in D1. destruct D1 as (w & F & D1). exists w. split; [exact F|]. destruct D1 as [[-> ->]|(s & S & ->)]; [left; split; reflexivity|right; exists s; split; [exact S|reflexivity]].
Qed.
Lemma filter_one : forall A (g : A -> list string) k its i, NoDup (flat_map g its) -> In i its -> In k (g i) ->
  filter (fun j => mem k (g j)) its = [i].
Proof.
  intros A g k. induction its as [|j its IH]; intros i ND I K; [contradiction|]. cbn [flat_map] in ND. apply nodup_app in ND.
  destruct ND as (N1 & N2 & X). cbn [filter]. destruct I as [->|I].
  - rewrite (proj2 (mem_in _ _) K). f_equal. apply filter_none. intros x Ix. apply mem_out. intro Kx. eapply X; [exact K|]. apply in_flat_map. eauto.
  - assert (M : mem k (g j) = false) by (apply mem_out; intro Kj; eapply X; [exact Kj|]; apply in_flat_map; eauto). rewrite M. auto.
Qed.
Lemma attrs_of_iattrs : forall ci tag its bk v x, at_ (CxE ci tag its bk) v x -> no_foreign its = true ->
  In IAttrs its -> NoDup (flat_map iattrs its) ->
  xattr "T" x = opt_str (field v "timestamp") /\ xattr "UUID" x = opt_str (field v "uuid").
Proof.
  intros ci tag its bk v x A NF I ND. destruct (at_vals _ _ _ _ _ _ A) as (evs & D & XA & _). rewrite !XA.
  assert (ONE : forall k, In k ["T"; "UUID"] -> attr_vals k (ev_attrs evs) = attr_vals k (ev_attrs (attr_evs v))).
  { intros k K. destruct (dens_attr_filter _ _ _ k _ _ _ D NF) as (evs' & D' & ->). rewrite (filter_one _ iattrs k its IAttrs ND I K) in D'.
    apply dens_single in D'. cbn in D'. now rewrite D'. }
  rewrite (ONE "T"), (ONE "UUID") by (cbn; auto). unfold attr_evs. rewrite !ev_attrs_app, !attr_vals_app.
  destruct (opt_str (field v "timestamp")), (opt_str (field v "uuid")); split; reflexivity.
Qed.
Lemma set_attr_ok : forall ci R v f, good ci -> own ci v -> attr_ok ci f = true ->
  set_field (mix ci R v) f (of_opt_str (opt_str (field v f))) = mix ci ((f, None) :: R) v.
Proof.
  intros ci R v f G O A. unfold attr_ok in A. destruct (dfl ci f) as [d|] eqn:D; [|discriminate].
  destruct d; try discriminate. destruct (own_field _ _ _ _ O D) as (w & F). rewrite F.
  assert (W : w = VNone \/ exists s, w = VStr s).
  { destruct (dom ci f) as [[]|] eqn:T; try discriminate.
    - pose proof (own_fok _ _ _ _ _ O T F) as K. inversion K; subst; eauto.
    - left. exact (own_dflt _ _ _ _ _ O T D F). }
  destruct W as [->|(s & ->)]; cbn [opt_str of_opt_str]; now apply set_new.
Qed.
Lemma attr_free_ok : forall ci R v f, good ci -> attr_free ci R f = true -> set_field (mix ci R v) f VNone = mix ci R v.
Proof.
  intros ci R v f G A. unfold attr_free in A. destruct (dfl ci f) as [[]|] eqn:D; try discriminate.
  assert (H : forall c, has_rest R f c = false).
  { intros c. destruct (has_rest R f c) eqn:Q; [|reflexivity]. exfalso. unfold has_rest in Q. apply existsb_exists in Q. destruct Q as ([g x] & I & Q).
    cbn [fst snd] in Q. destruct (String.eqb_spec g f) as [->|]; [|discriminate]. apply negb_true_iff in A. apply (in_map fst) in I. cbn in I.
    apply mem_in in I. congruence. }
  unfold mix. cbn [set_field]. f_equal.
  assert (E : assoc f (map (fun p => (fst p, mixf R v p)) (ci_attrs ci)) = Some VNone).
  { rewrite (assoc_map _ _ _ _ D). unfold mixf. cbn [fst snd]. destruct (field v f); rewrite ?H; reflexivity. }
  revert E. generalize (map (fun p => (fst p, mixf R v p)) (ci_attrs ci)). clear. intros l E. induction l as [|[g a] l IH]; [discriminate|]. cbn in *.
  destruct (String.eqb f g) eqn:Q.
  - apply String.eqb_eq in Q. subst g. rewrite ?String.eqb_refl. congruence.
  - rewrite ?Q, ?(String.eqb_sym g f), ?Q. f_equal. auto.
Qed.
(** an attribute of the element *)
Lemma xattr_one : forall ci tag its bk v x k n f, at_ (CxE ci tag its bk) v x -> no_foreign its = true ->
  filter (fun i => mem k (iattrs i)) its = [IXAttr n f] -> n = k /\
  exists w, field v f = Some w /\ (w = VNone /\ xattr k x = None \/ exists s, str_in w s /\ xattr k x = Some s).
Proof.
  intros ci tag its bk v x k n f A NF E.
  assert (K : n = k).
  { assert (I : In (IXAttr n f) (filter (fun i => mem k (iattrs i)) its)) by (rewrite E; left; reflexivity). apply filter_In in I.
    destruct I as [_ I]. cbn in I. rewrite orb_false_r in I. apply String.eqb_eq in I. now subst. }
  subst n. split; [reflexivity|]. destruct (at_vals _ _ _ _ _ _ A) as (evs & D & XA & _). rewrite XA.
  destruct (dens_attr_filter _ _ _ k _ _ _ D NF) as (evs' & D' & ->). rewrite E in D'. apply dens_single in D'. cbn in D'.
  destruct D' as (w & F & W). exists w. split; [exact F|]. destruct W as [[-> ->]|(s & S & ->)]; [left; split; reflexivity|right].
  exists s. split; [exact S|]. cbn. now rewrite String.eqb_refl.
Qed.

(** ** Parts *)
Lemma part_cons : forall f i its, part_items f (i :: its) =
  match i with IInl g _ l => if String.eqb f g then l else [IForeign (itags i)] | _ => [IForeign (itags i)] end ++ part_items f its.
Proof. reflexivity. Qed.
Lemma den_foreign : forall i v evs, den i v evs -> itexts i = [] -> forall p, dens p [IForeign (itags i)] evs.
Proof.
  intros i v evs D T p. apply dens_one. cbn. apply Forall_forall. intros e I. destruct e as [k s|x|s]; [exact Logic.I| |].
  - eapply den_tags; [exact D|]. apply in_flat_map. exists (EvK x). split; [exact I|left; reflexivity].
  - pose proof (den_texts _ _ _ _ _ _ D T) as X. assert (Z : In s (ev_texts evs)) by (apply in_flat_map; exists (EvT s); split; [exact I|left; reflexivity]).
    rewrite X in Z. exact Z.
Qed.
Lemma part_dens : forall f d v p its evs, dens v its evs -> flat_map itexts its = [] -> forallb (inl_class d) (inl_count f its) = true ->
  (forall c l a, In (IInl f c l) its -> c = d -> den (IInl f c l) v a -> dens p l a) ->
  dens p (part_items f its) evs.
Proof.
  intros f d v p. induction its as [|i its IH]; intros evs D T C H; [exact D|]. destruct D as (a & b & -> & D1 & D2).
  cbn [flat_map] in T. apply app_eq_nil in T. destruct T as [T1 T2]. rewrite part_cons. apply dens_app.
  - destruct i as [| | | | | | |g c l|]; try (now apply (den_foreign _ v)). destruct (String.eqb_spec f g); [subst g|now apply (den_foreign _ v)].
    eapply H; [left; reflexivity| |exact D1]. cbn [inl_count filter] in C. rewrite String.eqb_refl in C. cbn [forallb inl_class] in C.
    apply andb_true_iff in C. destruct C as [C _]. now apply String.eqb_eq.
  - apply IH; auto.
    + unfold inl_count in *. cbn [filter] in C. destruct (match i with IInl g _ _ => String.eqb f g | _ => false end); [|exact C].
      cbn [forallb] in C. apply andb_true_iff in C. apply C.
    + intros c l a' I. apply H. right. exact I.
Qed.
Lemma nest_nil : forall wr, nest wr false [] = [].
Proof. intros [|t wr]; reflexivity. Qed.
Transparent init.
Lemma init_field : forall d f df, dfl (cinfo_of d) f = Some df -> field (init d) f = Some (init_val 1 df).
Proof.
  intros d f df D. change (assoc f (map (fun p => (fst p, (fun q => init_val 1 (snd q)) p)) (attrs_of d)) = Some ((fun q => init_val 1 (snd q)) (f, df))).
  now apply (assoc_map (fun q => init_val 1 (snd q))).
Qed.
Lemma init_key : forall d f w, field (init d) f = Some w -> exists df, dfl (cinfo_of d) f = Some df /\ w = init_val 1 df.
Proof.
  intros d f w H. change (assoc f (map (fun p => (fst p, init_val 1 (snd p))) (attrs_of d)) = Some w) in H. change (dfl (cinfo_of d) f) with (assoc f (attrs_of d)).
  induction (attrs_of d) as [|[g a] l IHl]; [discriminate|]. cbn [map fst snd assoc] in *. destruct (String.eqb f g); [inversion H; eauto|auto].
Qed.
Lemma init_class : forall d, class_of (init d) = Some d.
Proof. reflexivity. Qed.
Opaque init.
Lemma plain_dflt : forall d f df, plain_class (cinfo_of d) = true -> dfl (cinfo_of d) f = Some df -> df = DNone \/ df = DList.
Proof.
  intros d f df P D. unfold plain_class in P. destruct (forallb _ (ci_attrs (cinfo_of d))) eqn:E in P; [|discriminate].
  rewrite forallb_forall in E. apply assoc_In in D. specialize (E _ D). cbn in E. destruct df; auto; discriminate.
Qed.
Lemma plain_dom : forall d f t, plain_class (cinfo_of d) = true -> dom (cinfo_of d) f = Some t ->
  match t with
  | FLeafs _ | FObjs _ _ => dfl (cinfo_of d) f = Some DList
  | FLeaf false _ | FObj false _ => dfl (cinfo_of d) f = Some DNone
  | _ => False end.
Proof.
  intros d f t P D. unfold plain_class in P. destruct (forallb _ (ci_attrs (cinfo_of d))) in P; [|discriminate].
  rewrite forallb_forall in P. apply assoc_In in D. specialize (P _ D). cbn [fst snd] in P.
  destruct t as [[] k|k|c|[] cs|s cs| | | | | | |]; try discriminate; try (now apply is_dlist_eq); now apply is_dnone_eq.
Qed.
Lemma plain_units : forall d f w, plain_class (cinfo_of d) = true -> field (init d) f = Some w -> units w = [].
Proof.
  intros d f w P F. destruct (init_key _ _ _ F) as (df & D & ->). destruct (plain_dflt _ _ _ P D) as [->| ->]; reflexivity.
Qed.
Lemma plain_dens : forall d its, plain_class (cinfo_of d) = true -> forallb (plain_item (cinfo_of d)) its = true -> dens (init d) its [].
Proof.
  intros d. induction its as [|i its IH]; intros P H; [reflexivity|]. cbn [forallb] in H. apply andb_true_iff in H. destruct H as [H1 H2].
  exists [], []. split; [reflexivity|]. split; [|now apply IH]. destruct i; try discriminate; cbn [plain_item] in H1; destruct always; try discriminate;
    destruct (dfl (cinfo_of d) f) as [df|] eqn:D; try discriminate; pose proof (init_field _ _ _ D) as F; pose proof (plain_units _ _ _ P F) as U.
  - exists (init_val 1 df), [], []. split; [exact F|]. split; [exact U|]. split; [constructor|]. split; [constructor|]. now rewrite nest_nil.
  - exists (init_val 1 df), []. split; [exact F|]. split; [rewrite U; constructor|]. split; [now rewrite nest_nil|]. now apply nodupb_ok.
Qed.
Lemma plain_own : forall d, good (cinfo_of d) -> plain_class (cinfo_of d) = true -> own (cinfo_of d) (init d).
Proof.
  intros d G P. pose proof (init_class d) as C. destruct (init d) as [| | |c fs|] eqn:EI; try discriminate. inversion C; subst c.
  assert (FI : forall f w, assoc f fs = Some w -> field (init d) f = Some w) by (intros; rewrite EI; assumption).
  exists fs. split; [reflexivity|]. split; [reflexivity|]. split; [|split; [|split]].
  - Transparent init. unfold init in EI. cbn [init_val] in EI. inversion EI. Opaque init. rewrite map_map. reflexivity.
  - intros f w t A D. destruct (init_key _ _ _ (FI _ _ A)) as (df & Df & ->). pose proof (plain_dom _ _ _ P D) as X.
    destruct t as [[] k|k|c0|[] cs|s cs| | | | | | |]; try contradiction; rewrite Df in X; inversion X; subst; cbn.
    + constructor.
    + apply (fok_leafs k []). constructor.
    + constructor.
    + apply fok_objs; constructor; reflexivity.
  - intros f w df A _ D. destruct (init_key _ _ _ (FI _ _ A)) as (df' & Df & ->). congruence.
  - rewrite names_below_eq. assert (Z : forall f w, In (f, w) fs -> names w = []).
    { intros f w I. assert (exists df, In (f, df) (ci_attrs (cinfo_of d)) /\ w = init_val 1 df).
      { Transparent init. unfold init in EI. cbn [init_val] in EI. inversion EI. Opaque init. subst fs. apply in_map_iff in I. destruct I as ([g df] & Q & I). inversion Q; subst. exists df. auto. }
      destruct H as (df & Idf & ->). eapply names_default; [exact G|]. apply in_assoc; [apply G|exact Idf]. }
    clear - Z. induction fs as [|[f w] fs IH]; [constructor|]. cbn [flat_map snd]. rewrite (Z f w) by (left; reflexivity). cbn [app]. apply IH.
    intros g y I. apply (Z g y). right. exact I.
Qed.
Lemma plain_sub : forall N l v d, sub N l v -> plain_class (cinfo_of d) = true -> sub N l (init d).
Proof. intros N l v d [H _] P. split; [exact H|]. intros f w u F I. rewrite (plain_units _ _ _ P F) in I. contradiction. Qed.
Lemma plain_list : forall d p h, own (cinfo_of d) p -> plain_class (cinfo_of d) = true -> dfl (cinfo_of d) h = Some DList -> exists l, field p h = Some (VList l).
Proof.
  intros d p h O P D. destruct (own_field _ _ _ _ O D) as (w & F). destruct (dom (cinfo_of d) h) as [t|] eqn:T.
  - pose proof (plain_dom _ _ _ P T) as X. pose proof (own_fok _ _ _ _ _ O T F) as K.
    destruct t as [[] k|k|c|[] cs|s cs| | | | | | |]; try contradiction; try congruence; inversion K; subst; eauto.
  - rewrite (own_dflt _ _ _ _ _ O T D F) in F. exists []. exact F.
Qed.
Lemma plain_is_list : forall d p h l, own (cinfo_of d) p -> plain_class (cinfo_of d) = true -> field p h = Some (VList l) -> dfl (cinfo_of d) h = Some DList.
Proof.
  intros d p h l O P F. destruct (own_key _ _ _ _ O F) as (df & D). destruct (plain_dflt _ _ _ P D) as [->| ->]; [|exact D]. exfalso.
  destruct (dom (cinfo_of d) h) as [t|] eqn:T.
  - pose proof (plain_dom _ _ _ P T) as X. pose proof (own_fok _ _ _ _ _ O T F) as K.
    destruct t as [[] k|k|c|[] cs|s cs| | | | | | |]; try contradiction; try congruence; inversion K; subst.
    match goal with I : in_class _ _ |- _ => destruct I as (c0 & C0 & _); discriminate end.
  - pose proof (own_dflt _ _ _ _ _ O T D F) as X. discriminate.
Qed.
(** is one of the lists of the part not empty? *)
Definition nonempty (p : val) (h : string) : bool := match field p h with Some (VList (_ :: _)) => true | _ => false end.
Lemma any_ok : forall d p gs s, own (cinfo_of d) p -> plain_class (cinfo_of d) = true ->
  forallb (fun g => match acc (cinfo_of d) g with Some (AGet h) => is_dlist (dfl (cinfo_of d) h) | _ => false end) gs = true ->
  fold_out (fun g s => do l <- get1 p (GM g); match l with VList [] => Done s | VList _ => Done true | _ => Stuck end) gs s =
  Done (s || existsb (fun g => match acc (cinfo_of d) g with Some (AGet h) => nonempty p h | _ => false end) gs)%bool.
Proof.
  intros d p gs s O P. revert s. induction gs as [|g gs IH]; intros s H; cbn [fold_out existsb].
  - now rewrite orb_false_r.
  - cbn [forallb] in H. apply andb_true_iff in H. destruct H as [H1 H2]. destruct (acc (cinfo_of d) g) as [[h| | | |]|] eqn:A; try discriminate.
    apply is_dlist_eq in H1. destruct (plain_list _ _ _ O P H1) as (l & F). 
    assert (GE : get1 p (GM g) = Done (VList l)).
    { destruct O as (fs & -> & _). cbn [get1]. rewrite acc_of in A. cbn [cinfo_of ci_cls]. rewrite A. cbn [field] in F. now rewrite F. }
    assert (NE : nonempty p h = match l with [] => false | _ => true end) by (unfold nonempty; rewrite F; destruct l; reflexivity).
    rewrite GE, NE. cbn [obind].
    destruct l; cbn [obind orb]; rewrite IH by exact H2.
    + reflexivity.
    + now rewrite orb_true_r.
Qed.
End Acts.
