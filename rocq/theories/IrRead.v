(** The reader half of IrCheck.v is sound: [vsim], [inline], [rsim] and [check_entry]. *)
From Coq Require Import String Ascii List Bool Arith Lia Floats.SpecFloat.
From Verif Require Import PyBase PyBaseFacts Primitives Xml Leaf SpecLeaf XmlFacts ClassTable Ir Access WriterCode ReaderCode IrSem
  IrFacts IrGo Domain SpecDomain IrCheck IrLeaf IrWrite IrLocate IrItems IrMix IrActs.
Import ListNotations.
Open Scope string_scope.
Open Scope list_scope.

Local Opaque access_of attrs_of init named_init wfuns rfuns domain ancestors access_table attr_table fuel.
Strategy expand [find_at findall]. Strategy opaque [locate steps].

Section Read.
Context (repr : spec_float -> string) (warn : bool) (WE : list (string * (list wi * string))).
Notation wgo := (wgo repr warn).
Notation rgo := (rgo warn).
Notation vgo := (vgo warn).
Notation cgo := (cgo warn).
Notation rchain := (rchain warn).
Notation ichain := (ichain warn).
Notation den := (den repr warn WE).
Notation dens := (dens repr warn WE).
Notation at_ := (at_ repr warn WE).
Notation alt_at := (alt_at repr warn WE).
Notation loc_ok := (loc_ok repr warn WE).
Notation entry_ok := (entry_ok repr warn).
Notation ents := (ents repr warn).
Notation sub := (sub repr warn).
Context (HWE : WE_ok WE).

Definition vsim_sound (n : nat) : Prop := forall v key cx ci md kn a l, vsim n v key cx ci md kn = Some (a, l) ->
  forall N u x o it, good ci -> own ci u -> sub N l u -> at_ cx u x -> kn_ok kn u -> conc ci md u o ->
  exists w, vgo v key x it o w /\ aconc a u w.
Definition part_of (ci : cinfo) (cx : ctx) (v : val) (f d : string) (p : val) : Prop :=
  (class_of p = Some d /\ ok p /\ field v f = Some p) \/
  (field v f = Some VNone /\ p = init d /\ plain_class (cinfo_of d) = true /\
   exists tag its bk c0, cx = CxE c0 tag its bk /\ forallb (inl_plain (cinfo_of d)) (inl_count f its) = true).
Definition inline_sound (n : nat) : Prop := forall b key cx ci f d t l, inline n b key cx ci f d = Some (t, l) ->
  forall N u x p it, sub N l p -> at_ cx u x -> part_of ci cx u f d p -> rgo b key x it (init d) p.
Definition rsim_sound (n : nat) : Prop := forall code key cx ci md kn md' l, rsim n code key cx ci md kn = Some (md', l) ->
  forall N u x o it, good ci -> own ci u -> sub N l u -> at_ cx u x -> kn_ok kn u -> conc ci md u o ->
  exists o', rgo code key x it o o' /\ conc ci md' u o'.

Lemma kn_nil : forall u, kn_ok [] u.
Proof. intros u f cs w []. Qed.
Lemma csim0_ok : forall n c key cx ci md b u x o it, csim0 n c key cx (mtarget ci md) = Some b -> good ci -> own ci u ->
  at_ cx u x -> conc ci md u o -> cgo c key x it o b.
Proof.
  intros n c key cx ci md b u x o it H G O A C. unfold csim0 in H. destruct (csim n c key cx (mtarget ci md)) as [[b' [|]]|] eqn:E; try discriminate.
  inversion H; subst. eapply (csim_ok _ _ _ HWE); [exact E|exact A| |eapply conc_tgok; eassumption|eapply own_obj; exact O]. intros e [].
Qed.
Lemma leaf_items_ok : forall k t wk us yss, Forall2 (alt_at [(None, Some (CxL (LtKind k) (LEnd t wk)))]) us yss ->
  exists ls, us = map VLeaf ls /\ leaf_items k (concat yss) = Ok ls.
Proof.
  intros k t wk us yss F. induction F as [|u ys us yss A F IH].
  - exists []. auto.
  - destruct IH as (ls & -> & E). destruct A as (a & L & Y). cbn [alook] in L. destruct (oeqb (class_of u) None); [|discriminate].
    inversion L; subst. destruct Y as (y & -> & A). destruct (leaf_back _ _ _ _ _ _ _ _ A) as (l & -> & B). exists (l :: ls). split; [reflexivity|].
    cbn [concat app leaf_items]. rewrite B. cbn [bind]. rewrite E. reflexivity.
Qed.
Lemma no_items : forall us yss, Forall2 (alt_at [(None, None)]) us yss -> concat yss = [].
Proof.
  intros us yss F. induction F as [|u ys us yss A F IH]; [reflexivity|]. destruct A as (a & L & Y). cbn [alook] in L.
  destruct (oeqb (class_of u) None); [|discriminate]. inversion L; subst a. subst ys. cbn [concat app]. exact IH.
Qed.
Lemma alook_one : forall k a r, alook k [(None, a)] = Some r -> r = a.
Proof. intros k a r H. cbn [alook] in H. destruct (oeqb k None); congruence. Qed.

Lemma vsim_step : forall n, vsim_sound n -> inline_sound n -> rsim_sound n -> vsim_sound (S n).
Proof.
  intros n HV HI HR v key cx ci md kn a l H N u x o it G O SB A KN C. cbn [vsim] in H.
  destruct v; try discriminate.
  - (* VNoneX *) ret_in H. exists VNone. split; [apply vgo_none|reflexivity].
  - (* VLeafX *)
    destruct (find_at cx (rkey key p)) as [[|c'|f c'|f alts]|] eqn:F; try discriminate;
      pose proof (find_at_ok _ _ _ HWE _ _ _ _ _ F A) as L; cbn [IrLocate.loc_ok] in L.
    + ret_in H. exists VNone. split; [|reflexivity]. change VNone with (of_leaf None). apply vgo_leaf. unfold leaf_read. now rewrite (find_none_of _ _ L).
    + destruct alts as [|[[c0|] [cx1|]] [|]]; try discriminate; try (destruct cx1 as [| |[] [|]]; discriminate).
      * destruct cx1 as [| |lt [|t wk]]; try discriminate. destruct (single ci f) eqn:S; [|discriminate].
        destruct (single_found _ _ _ _ _ _ _ _ O S L) as (w & Fw & _ & [[Y W]|(y & cx2 & Y & NW & _ & AL & A')]).
        -- destruct W as [->|W]; [|apply alook_one in W; discriminate].
           assert (RD : vgo (VLeafX k p) key x it o VNone).
           { change VNone with (of_leaf None). apply vgo_leaf. unfold leaf_read. now rewrite (find_none_of _ _ Y). }
           exists VNone. split; [exact RD|]. destruct lt as [k'|c].
           ++ destruct (rkind_eqb k k'); [|discriminate]. ret_in H. exists VNone. auto.
           ++ destruct k; try discriminate. ret_in H. exists VNone. auto.
        -- apply alook_one in AL. inversion AL; subst cx2. destruct lt as [k'|c].
           ++ destruct (rkind_eqb k k') eqn:K; [|discriminate]. apply rkind_eqb_eq in K. subst k'. ret_in H.
              destruct (leaf_back _ _ _ _ _ _ _ _ A') as (l0 & -> & B). exists (of_leaf (Some l0)). split.
              ** apply vgo_leaf. unfold leaf_read. now rewrite (find_one_of _ _ _ _ Y).
              ** exists (VLeaf l0). auto.
           ++ destruct k; try discriminate. ret_in H. destruct (wrap_back _ _ _ _ _ _ _ _ A') as (s & -> & B).
              exists (of_leaf (Some (LLit "ARLiteral" (mkLit None None (Some s))))). split.
              ** apply vgo_leaf. unfold leaf_read. now rewrite (find_one_of _ _ _ _ Y).
              ** eexists. split; [exact Fw|]. right. eauto.
      * ret_in H. destruct L as (w & yss & Fw & Y & F2 & _). rewrite (no_items _ _ F2) in Y. exists VNone. split; [|reflexivity].
        change VNone with (of_leaf None). apply vgo_leaf. unfold leaf_read. now rewrite (find_none_of _ _ Y).
  - (* VReqX *)
    destruct (find_at cx (rkey key p)) as [[|c'|f c'|f alts]|] eqn:F; try discriminate;
      pose proof (find_at_ok _ _ _ HWE _ _ _ _ _ F A) as L; cbn [IrLocate.loc_ok] in L.
    destruct alts as [|[[c0|] [[| |[[]|] [|t wk]]|]] [|]]; try discriminate. destruct k; try discriminate.
    destruct (single ci f) eqn:S; [|discriminate]. destruct (must ci f) eqn:Mf; [|discriminate]. ret_in H.
    destruct (single_found _ _ _ _ _ _ _ _ O S L) as (w & Fw & _ & [[Y W]|(y & cx2 & Y & NW & _ & AL & A')]).
    + destruct W as [->|W]; [|apply alook_one in W; discriminate]. elim (must_val _ _ _ _ O Mf Fw). reflexivity.
    + apply alook_one in AL. inversion AL; subst cx2. destruct (leaf_back _ _ _ _ _ _ _ _ A') as (l0 & -> & B).
      destruct (at_leaf_ref _ _ _ _ _ _ A') as (r & Er). inversion Er; subst l0. exists (VLeaf (LRef r)). split; [|exists (VLeaf (LRef r)); auto].
      apply vgo_req_ref. unfold ref_required. rewrite (find_one_of _ _ _ _ Y). cbn [leaf_of] in B. inversion B. reflexivity.
  - (* VLeafsX *)
    destruct (find_at cx (rkey key p)) as [[|c'|f c'|f alts]|] eqn:F; try discriminate;
      pose proof (find_at_ok _ _ _ HWE _ _ _ _ _ F A) as L; cbn [IrLocate.loc_ok] in L.
    + ret_in H. exists (VList (map VLeaf [])). split; [|reflexivity]. apply vgo_leafs. unfold leaf_list. now rewrite L.
    + destruct alts as [|[[c0|] [cx1|]] [|]]; try discriminate; try (destruct cx1 as [| |[] [|]]; discriminate).
      * destruct cx1 as [| |[k'|] [|t wk]]; try discriminate. destruct (many ci f) eqn:MN; [|discriminate].
        destruct (rkind_eqb k k') eqn:K; [|discriminate]. apply rkind_eqb_eq in K. subst k'. ret_in H.
        destruct L as (w & yss & Fw & Y & F2 & _). destruct (many_val _ _ _ O MN) as (_ & us & Fu & _). rewrite Fw in Fu. inversion Fu; subst w.
        cbn [units] in F2. destruct (leaf_items_ok _ _ _ _ _ F2) as (ls & -> & E). exists (VList (map VLeaf ls)). split.
        -- apply vgo_leafs. unfold leaf_list. now rewrite Y.
        -- exists (VList (map VLeaf ls)). auto.
      * ret_in H. destruct L as (w & yss & Fw & Y & F2 & _). rewrite (no_items _ _ F2) in Y.
        exists (VList (map VLeaf [])). split; [|reflexivity]. apply vgo_leafs. unfold leaf_list. now rewrite Y.
  - (* VTextX *)
    destruct cx as [c0 tag its bk| |]; try discriminate.
    destruct (flat_map itags its) eqn:TG; [|discriminate]. destruct (no_foreign its); [|discriminate].
    destruct (at_vals _ _ _ _ _ _ _ _ _ A) as (evs & D & _ & XT). specialize (XT TG).
    destruct (flat_map itexts its) as [|f [|]] eqn:TX; try discriminate.
    + ret_in H. exists (of_opt_str (xtext x)). split; [apply vgo_text|]. rewrite XT, (dens_texts _ _ _ _ _ _ D TX). reflexivity.
    + destruct (dom ci f) as [[]|] eqn:DM; try discriminate. destruct (existsb _ its) eqn:EX in H; [|discriminate]. ret_in H.
      destruct (text_one _ _ _ _ _ _ _ D TX EX) as (w & Fw & W). pose proof (own_fok _ _ _ _ _ O DM Fw) as K. inversion K; subst.
      destruct W as [[W _]|(s' & [W|(c1 & W)] & ET)]; try discriminate. inversion W; subst s'.
      exists (of_opt_str (xtext x)). split; [apply vgo_text|]. exists s. split; [exact Fw|]. rewrite XT, ET. reflexivity.
  - (* VWrapX *)
    bnd_in H. apply sub_app in SB. destruct (HV _ _ _ _ _ _ _ _ E N u x o it G O (proj1 SB) A KN C) as (w & V & AC).
    destruct a0; try discriminate. destruct (dom ci f) as [[]|] eqn:DM; try discriminate. destruct (String.eqb_spec c c0); [subst c0|discriminate].
    destruct (String.eqb_spec m "setValue"); [subst m|discriminate]. destruct (isinst c "ARLiteral") eqn:IA; [|discriminate]. ret_in H.
    destruct AC as (c1 & s & Fw & ->). pose proof (own_fok _ _ _ _ _ O DM Fw) as K. inversion K; subst.
    eexists. split; [eapply vgo_wrap; [exact V|]|].
    + unfold wrap. rewrite IA. cbn [andb String.eqb]. reflexivity.
    + eexists. split; [exact Fw|reflexivity].
  - (* VValueX *)
    bnd_in H. apply sub_app in SB. destruct (HV _ _ _ _ _ _ _ _ E N u x o it G O (proj1 SB) A KN C) as (w & V & AC).
    destruct a0; try discriminate. destruct (known ci kn f None) eqn:K; [|discriminate]. ret_in H.
    destruct AC as (w0 & Fw & [[-> ->]|(c & s & -> & ->)]).
    + elim (known_ok _ _ _ _ _ VNone K O KN); [|reflexivity]. exists VNone. auto.
    + exists (VStr s). split; [|exists c, s; auto]. eapply vgo_value; [exact V|]. reflexivity.
  - (* VNewX *)
    destruct named; [discriminate|]. destruct (part_field ci c) as [f|]; [|discriminate]. destruct (dom ci f) as [[]|] eqn:DM; try discriminate.
    destruct (String.eqb_spec c0 c); [subst c0|discriminate]. bnd_in H. ret_in H. apply sub_app in SB. destruct SB as [SB _].
    destruct (g_dom _ G _ _ DM) as (df & D). destruct (own_field _ _ _ _ O D) as (p & Fp). pose proof (own_fok _ _ _ _ _ O DM Fp) as K. inversion K; subst.
    assert (U : units p = [p]) by (destruct p; try discriminate; reflexivity).
    exists p. split; [|exists p; auto]. apply vgo_new. eapply HI; [exact E|eapply sub_part; eassumption|exact A|]. left. auto.
  - (* VListX *)
    bnd_in H. apply sub_app in SB. destruct (HR _ _ _ _ _ _ _ _ E N u x (VList []) it G O (proj1 SB) A (kn_nil u) eq_refl) as (o' & R & CC).
    exists o'. split; [now apply vgo_list|]. destruct a0 as [|[f|]|]; try discriminate; ret_in H.
    + exists o'. auto.
    + exact CC.
  - (* VGetX *)
    destruct (assoc f rfuns) as [[b [r|]]|] eqn:F; try discriminate. bnd_in H. apply sub_app in SB. destruct SB as [SB1 SB2].
    destruct a0; try discriminate.
    destruct (HR _ _ _ _ _ _ _ _ E N u x (VObj "" []) VNone G O SB1 A (kn_nil u) eq_refl) as (o1 & R & CC).
    destruct (HV _ _ _ _ _ _ _ _ H N u x o1 VNone G O SB2 A KN CC) as (w & V & AC).
    exists w. split; [|exact AC]. eapply vgo_get; [exact F| |]; rewrite (at_rtag _ _ _ _ _ _ key t A); eassumption.
  - (* VFindX *)
    destruct (find_at cx (rkey key p)) as [[|c'|f c'|f alts]|] eqn:F; try discriminate;
      pose proof (find_at_ok _ _ _ HWE _ _ _ _ _ F A) as L.
    + destruct (HV _ _ _ _ _ _ _ _ H N u x o it G O SB A KN C) as (w & V & AC). exists w. split; [|exact AC].
      eapply vgo_find_none; [now apply find_none_of|exact V].
    + destruct L as (y & L & A'). destruct (HV _ _ _ _ _ _ _ _ H N u y o it G O SB A' KN C) as (w & V & AC). exists w. split; [|exact AC].
      eapply vgo_find; [eapply find_one_of; exact L|exact V].
    + bnd_in H. bnd_in H. apply sub_app in SB. destruct SB as [SB1 SB2]. apply sub_app in SB2. destruct SB2 as [SB2 _].
      destruct L as (w & Fw & [[U Y]|[U (y & Y & A')]]).
      * destruct (HV _ _ _ _ _ _ _ _ E N u x o it G O SB1 A KN C) as (w1 & V & AC). exists w1. split.
        -- eapply vgo_find_none; [now apply find_none_of|exact V].
        -- destruct a0; try discriminate; destruct a1 as [| |g [cs|]| | |]; try discriminate.
           ++ ret_in H. exact AC.
           ++ destruct (String.eqb_spec f g); [subst g|discriminate]. destruct (many ci f) eqn:MN; [|discriminate]. ret_in H. cbn in AC. subst w1.
              destruct (many_val _ _ _ O MN) as (_ & us & Fu & _). rewrite Fw in Fu. inversion Fu; subst w. cbn in U. subst us. exists (VList []). auto.
      * destruct (HV _ _ _ _ _ _ _ _ E0 N u y o it G O SB2 A' KN C) as (w1 & V & AC). exists w1. split.
        -- eapply vgo_find; [eapply find_one_of; exact Y|exact V].
        -- destruct a0; try discriminate; destruct a1 as [| |g [cs|]| | |]; try discriminate.
           ++ ret_in H. exact AC.
           ++ destruct (if String.eqb f g then many ci f else false); [|discriminate]. ret_in H. exact AC.
    + bnd_in H. destruct a0; try discriminate. destruct (single ci f) eqn:S; [|discriminate]. bnd_in H.
      apply sub_app in SB. destruct SB as [SB1 SB2]. apply sub_app in SB2. destruct SB2 as [SB2 _].
      destruct (single_found _ _ _ _ _ _ _ _ O S L) as (w & Fw & ND & CASE).
      destruct (objs_sel _ _ _ _ _ _ _ _ _ _ _ _ None E0 H Fw ND) as (cs & -> & S1 & S2).
      destruct CASE as [[Y W]|(y & cx2 & Y & NW & U & AL & A')].
      * destruct (HV _ _ _ _ _ _ _ _ E N u x o it G O SB1 A KN C) as (w1 & V & AC). cbn in AC. subst w1. exists VNone. split; [|now apply S1].
        eapply vgo_find_none; [now apply find_none_of|exact V].
      * exists w. split; [|eapply S2; exact AL]. eapply vgo_find; [eapply find_one_of; exact Y|].
        destruct (objs_some _ _ _ _ _ _ _ E0 _ _ AL) as (t & l' & RO & _ & IN).
        eapply (robj_ok _ _ _ HWE); [exact RO|exact A'| |eapply conc_tgok; eassumption|exact NW].
        eapply ents_incl; [exact IN|]. eapply sub_ents; [exact SB2|exact Fw|rewrite U; left; reflexivity].
  - (* VLastX *)
    destruct (find_at cx (rkey key p)) as [[|c'|f c'|f alts]|] eqn:F; try discriminate;
      pose proof (find_at_ok _ _ _ HWE _ _ _ _ _ F A) as L.
    + ret_in H. exists VNone. split; [now apply vgo_last_none|reflexivity].
    + destruct (single ci f) eqn:S; [|discriminate]. bnd_in H. apply sub_app in SB. destruct SB as [SB2 _].
      destruct (single_found _ _ _ _ _ _ _ _ O S L) as (w & Fw & ND & CASE).
      destruct (objs_sel _ _ _ _ _ _ _ _ _ _ _ _ None E H Fw ND) as (cs & -> & S1 & S2).
      destruct CASE as [[Y W]|(y & cx2 & Y & NW & U & AL & A')].
      * exists VNone. split; [now apply vgo_last_none|now apply S1].
      * exists w. split; [|eapply S2; exact AL]. eapply vgo_last_one; [exact Y|].
        destruct (objs_some _ _ _ _ _ _ _ E _ _ AL) as (t & l' & RO & _ & IN).
        eapply (robj_ok _ _ _ HWE); [exact RO|exact A'| |eapply conc_tgok; eassumption|exact NW].
        eapply ents_incl; [exact IN|]. eapply sub_ents; [exact SB2|exact Fw|rewrite U; left; reflexivity].
  - (* VIfX *)
    destruct (csim0 n c key cx (mtarget ci md)) as [b|] eqn:E; [|discriminate].
    destruct (HV _ _ _ _ _ _ _ _ H N u x o it G O SB A KN C) as (w & V & AC). exists w. split; [|exact AC].
    eapply vgo_if; [eapply csim0_ok; eassumption|exact V].
Qed.

Lemma inline_step : forall n, rsim_sound n -> inline_sound (S n).
Proof.
  intros n HR b key cx ci f d t l H N u x p it SB A P. cbn [inline] in H. destruct cx as [c0 tag its bk| |]; try discriminate.
  destruct (forallb (inl_class d) (inl_count f its)) eqn:IC; [|discriminate].
  assert (CK : cls_ok (cinfo_of d) = true).
  { destruct (inl_count f its); [discriminate|]. destruct (cls_ok (cinfo_of d)); [reflexivity|discriminate]. }
  match type of H with (if ?c then _ else _) = _ => destruct c; [|discriminate] end.
  destruct (flat_map itexts its) eqn:TX; [|discriminate]. bnd_in H. destruct a as [R| |]; try discriminate. unfold guard in H.
  destruct (covers (cinfo_of d) R) eqn:CV; [|discriminate]. inversion H; subst. clear H. apply sub_app in SB. destruct SB as [SB _].
  pose proof (cls_ok_good _ CK) as G. destruct A as (evs & dd & D & X & _ & _).
  assert (OP : own (cinfo_of d) p).
  { destruct P as [(Cp & Op & _)|(_ & -> & PC & _)]; [now apply own_of|now apply plain_own]. }
  assert (DP : dens p (part_items f its) evs).
  { eapply part_dens; [exact D|exact TX|exact IC|]. intros c l a I -> (w & F & W). destruct P as [(Cp & Op & Fp)|(Fp & -> & PC & tag' & its' & bk' & c1 & Ecx & PL)].
    - assert (w = p) by congruence. subst w. destruct W as [[-> _]|(_ & _ & W)]; [discriminate|exact W].
    - assert (w = VNone) by congruence. subst w. destruct W as [[_ ->]|(W & _)]; [|discriminate]. apply plain_dens; [exact PC|].
      inversion Ecx; subst. rewrite forallb_forall in PL. apply (PL (IInl f d l)). apply filter_In. split; [exact I|apply String.eqb_refl]. }
  assert (AP : at_ (CxE (cinfo_of d) tag (part_items f its) None) p x).
  { exists evs, dd. split; [exact DP|]. split; [exact X|]. split; [|intros; discriminate].
    destruct P as [(Cp & Op & Fp)|(Fp & -> & PC & tag' & its' & bk' & c1 & Ecx & PL)]; [left; auto|right]. split; [reflexivity|].
    inversion Ecx; subst. clear - PL. induction its' as [|i its' IH]; [reflexivity|]. rewrite part_cons, existsb_app. unfold inl_count in PL, IH. cbn [filter] in PL.
    destruct i as [| | | | | | |g c l|]; try (cbn; apply IH; exact PL). destruct (String.eqb f g).
    - cbn [forallb] in PL. apply andb_true_iff in PL. destruct PL as [P1 P2]. rewrite (IH P2), orb_false_r. cbn [inl_plain] in P1.
      clear - P1. induction l as [|j l IH]; [reflexivity|]. cbn [forallb] in P1. apply andb_true_iff in P1. destruct P1 as [P1 P2]. cbn [existsb].
      rewrite (IH P2), orb_false_r. destruct j; try reflexivity. discriminate.
    - cbn. apply IH. exact PL. }
  assert (C0 : conc (cinfo_of d) (MObj []) p (init d)) by (cbn [conc]; symmetry; apply (mix_init (cinfo_of d)); exact OP).
  destruct (HR _ _ _ _ _ _ _ _ E N p x (init d) it G OP SB AP (kn_nil p) C0) as (o' & R' & CC).
  cbn [conc] in CC. rewrite (mix_whole _ _ _ G OP CV) in CC. subst o'. exact R'.
Qed.

Lemma put_mix : forall ci R v m f g w, own ci v -> acc ci m = Some (ASet f g) ->
  put1 (mix ci R v) m w = Done (set_if g (mix ci R v) f w).
Proof.
  intros ci R v m f g w O A. assert (AC : acc ci m = access_of (ci_cls ci) m) by (rewrite (own_ci _ _ O); apply acc_of).
  unfold mix, put1. rewrite <- AC, A. reflexivity.
Qed.
Lemma set_if_some : forall g o f w, w <> VNone -> set_if g o f w = set_field o f w.
Proof. intros g o f w N. unfold set_if. assert (X : is_none w = false) by (destruct w; try reflexivity; now elim N). now rewrite X, andb_false_r. Qed.
Lemma put_md_ok : forall ci md kn f g a md' l v o w, put_md ci md kn f g a = Some (md', l) -> good ci -> own ci v -> kn_ok kn v ->
  conc ci md v o -> aconc a v w -> exists R, md = MObj R /\ l = [] /\ conc ci md' v (set_if g (mix ci R v) f w).
Proof.
  intros ci md kn f g a md' l v o w H G O KN C AC. unfold put_md in H. destruct md as [R| |]; try discriminate.
  destruct (put_av ci R kn f g a) as [R'|] eqn:P; [|discriminate]. ret_in H. exists R. split; [reflexivity|]. split; [reflexivity|].
  cbn [conc]. eapply put_ok; eassumption.
Qed.
Lemma sel_fun : forall v f cs w w', sel v f cs w -> sel v f cs w' -> w = w'.
Proof. intros v f cs w w' (a & Fa & ->) (b & Fb & ->). assert (a = b) by congruence. now subst. Qed.
Lemma part_units : forall d p, class_of p = Some d -> units p = [p].
Proof. intros d p C. destruct p; try discriminate. reflexivity. Qed.
(** an attribute of the element kept as a string or as a literal *)
Lemma attr_if : forall ci tag its bk v x at1 R m g f n vx key it o c cx0, good ci -> own ci v -> at_ (CxE cx0 tag its bk) v x ->
  filter (fun i => mem at1 (iattrs i)) its = [IXAttr n f] -> acc ci m = Some (ASet f g) -> no_foreign its = true ->
  dfl ci f = Some DNone -> o = mix ci R v ->
  (forall b, (match xattr at1 x with Some _ => true | None => false end) = b -> cgo c key x it o b) ->
  match vx, dom ci f with
  | VAttrX at2, Some (FAttr _) => at1 = at2
  | VWrapX cl m2 (VAttrX at2), Some (FAttrOf cl') => at1 = at2 /\ cl = cl' /\ m2 = "setValue" /\ isinst cl "ARLiteral" = true
  | _, _ => False
  end ->
  rgo [RIf c [RPut m vx] []] key x it o (mix ci ((f, None) :: R) v).
Proof.
  intros ci tag its bk v x at1 R m g f n vx key it o c cx0 G O A FL AC NF D -> HC HV.
  destruct (xattr_one _ _ _ _ _ _ _ _ _ _ _ _ A NF FL) as (-> & w & Fw & [[-> X]|(s & S & X)]).
  - eapply rgo_if; [apply HC; rewrite X; reflexivity|]. rewrite <- (skip_default ci R v f None DNone G D Fw). apply rgo_nil.
  - eapply rgo_if; [apply HC; rewrite X; reflexivity|]. cbn iota.
    assert (VG : vgo vx key x it (mix ci R v) w /\ w <> VNone).
    { destruct vx; try contradiction.
      - destruct (dom ci f) as [[]|] eqn:T; try contradiction. subst a. pose proof (own_fok _ _ _ _ _ O T Fw) as K.
        assert (w = VStr s) by (destruct S as [S|(c1 & S)]; [exact S|subst; inversion K]). subst w. split; [|discriminate].
        pose proof (vgo_attr warn at1 key x it (mix ci R v)) as V. rewrite X in V. exact V.
      - destruct vx; try contradiction. destruct (dom ci f) as [[]|] eqn:T; try contradiction. destruct HV as (<- & <- & -> & IA).
        pose proof (own_fok _ _ _ _ _ O T Fw) as K. inversion K; subst; [destruct S as [S|(c1 & S)]; discriminate|].
        destruct S as [S|(c1 & S)]; inversion S; subst. split; [|discriminate].
        pose proof (vgo_attr warn at1 key x it (mix ci R v)) as V. rewrite X in V. eapply vgo_wrap; [exact V|].
        unfold wrap. rewrite IA. reflexivity. }
    destruct VG as [VG NW]. eapply rgo_put; [exact VG|]. rewrite (put_mix _ _ _ _ _ _ _ O AC), set_if_some by exact NW. f_equal. now apply set_new.
Qed.

Lemma rsim_step : forall n, vsim_sound n -> inline_sound n -> rsim_sound n -> rsim_sound (S n).
Proof.
  intros n HV HI HR code key cx ci md kn md' l H N u x o it G O SB A KN C. cbn [rsim] in H. destruct code as [|i rest].
  { ret_in H. exists o. split; [apply rgo_nil|exact C]. }
  bnd_in H. rename a into md1. apply sub_app in SB. destruct SB as [SB SB2].
  assert (FIRST : exists o1, rgo [i] key x it o o1 /\ conc ci md1 u o1).
  { clear H SB2. destruct i; try discriminate.
    - (* RAttrs *)
      destruct md as [R| |]; try discriminate. destruct cx as [c0 tag its bk| |]; try discriminate. destruct (no_foreign its) eqn:NF; [|discriminate].
      cbn [conc] in C. subst o.
      destruct (existsb _ its) eqn:EX in E.
      + destruct (nodupb (flat_map iattrs its)) eqn:ND; [|discriminate]. destruct (attr_ok ci "timestamp") eqn:A1; [|discriminate].
        destruct (attr_ok ci "uuid") eqn:A2; [|discriminate]. ret_in E. apply nodupb_ok in ND.
        assert (IA : In IAttrs its) by (apply existsb_exists in EX; destruct EX as (j & Ij & Ej); destruct j; try discriminate; exact Ij).
        destruct (attrs_of_iattrs _ _ _ _ _ _ _ _ _ A NF IA ND) as [XT XU].
        exists (mix ci (("timestamp", None) :: ("uuid", None) :: R) u). split; [|reflexivity]. apply rgo_attrs.
        rewrite (mix_swap _ "timestamp" "uuid" R u G). rewrite <- (set_attr_ok _ (("timestamp", None) :: R) _ "uuid" G O A2), <- (set_attr_ok _ R _ "timestamp" G O A1).
        unfold read_attrs, mix at 1. cbn iota. rewrite XT, XU. reflexivity.
      + destruct (mem "T" (flat_map iattrs its)) eqn:M1; [discriminate|]. destruct (mem "UUID" (flat_map iattrs its)) eqn:M2; [discriminate|].
        destruct (attr_free ci R "timestamp") eqn:F1; [|discriminate]. destruct (attr_free ci R "uuid") eqn:F2; [|discriminate]. ret_in E.
        exists (mix ci R u). split; [|reflexivity]. apply rgo_attrs.
        pose proof (no_attr_open _ _ _ HWE _ _ _ _ _ _ "T" A eq_refl NF M1) as XT. pose proof (no_attr_open _ _ _ HWE _ _ _ _ _ _ "UUID" A eq_refl NF M2) as XU.
        assert (Q : read_attrs (mix ci R u) x = Done (set_field (set_field (mix ci R u) "timestamp" VNone) "uuid" VNone)) by (unfold read_attrs, mix; now rewrite XT, XU).
        now rewrite Q, (attr_free_ok ci R u "timestamp" G F1), (attr_free_ok ci R u "uuid" G F2).
    - (* RPut *)
      destruct (acc ci m) as [[| |f g| |]|] eqn:AC; try discriminate. bnd_in E. apply sub_app in SB.
      destruct (HV _ _ _ _ _ _ _ _ E0 N u x o it G O (proj1 SB) A KN C) as (w & V & AW).
      destruct (put_md_ok _ _ _ _ _ _ _ _ _ _ _ E G O KN C AW) as (R & -> & _ & CC). cbn [conc] in C. subst o.
      eexists. split; [|exact CC]. eapply rgo_put; [exact V|]. now apply put_mix.
    - (* RPutAny *)
      destruct v; try discriminate. destruct named; [discriminate|]. rename c into d.
      destruct (acc ci m) as [[| |f g| |]|] eqn:AC; try discriminate. destruct md as [R| |]; try discriminate. destruct cx as [c0 tag its bk| |]; try discriminate.
      destruct (dom ci f) as [[]|] eqn:DM; try discriminate. destruct (String.eqb_spec d c); [subst c|discriminate].
      destruct (in_rest R f) eqn:IR; [discriminate|]. destruct (is_dnone (dfl ci f)) eqn:DN; [|discriminate]. apply is_dnone_eq in DN. cbv zeta in E.
      destruct (forallb (inl_plain (cinfo_of d)) (inl_count f its)) eqn:PL; [|discriminate]. destruct (plain_class (cinfo_of d)) eqn:PC; [|discriminate].
      destruct (forallb _ gs) eqn:GS in E; [|discriminate]. destruct (forallb _ (ci_attrs (cinfo_of d))) eqn:GA in E; [|discriminate].
      bnd_in E. ret_in E. apply sub_app in SB. destruct SB as [SB _]. cbn [conc] in C. subst o.
      destruct (own_field _ _ _ _ O DN) as (w & Fw). pose proof (own_fok _ _ _ _ _ O DM Fw) as K.
      assert (GD : good (cinfo_of d)).
      { destruct n as [|n']; [discriminate|]. cbn [inline] in E0. apply cls_ok_good. destruct (forallb (inl_class d) (inl_count f its)); [|discriminate].
        destruct (inl_count f its); [discriminate|]. destruct (cls_ok (cinfo_of d)); [reflexivity|discriminate]. }
      inversion K; subst.
      + pose proof (plain_own _ GD PC) as OI.
        assert (V : vgo (VNewX d false b) key x it (mix ci R u) (init d)).
        { apply vgo_new. eapply HI; [exact E0|eapply plain_sub; eassumption|exact A|]. right. split; [exact Fw|]. split; [reflexivity|]. split; [exact PC|].
          exists tag, its, bk, c0. auto. }
        exists (mix ci R u). split; [|cbn [conc]; eapply skip_default; [exact G|exact DN|exact Fw]].
        eapply rgo_putany; [exact V|eapply any_ok; eassumption|]. cbn [orb].
        assert (X : existsb (fun g0 => match acc (cinfo_of d) g0 with Some (AGet h) => nonempty (init d) h | _ => false end) gs = false).
        { clear - PC. induction gs as [|g0 gs IH]; [reflexivity|]. cbn [existsb]. rewrite IH, orb_false_r.
          destruct (acc (cinfo_of d) g0) as [[h| | | |]|]; try reflexivity. unfold nonempty. destruct (field (init d) h) as [w|] eqn:F; [|reflexivity].
          pose proof (plain_units _ _ _ PC F) as U. destruct w as [| | | |[|]]; try reflexivity. discriminate. }
        rewrite X. reflexivity.
      + match goal with H : ok (VObj d fs) |- _ => pose proof (own_of d (VObj d fs) eq_refl H) as OP; rename H into OKP end.
        assert (V : vgo (VNewX d false b) key x it (mix ci R u) (VObj d fs)).
        { apply vgo_new. eapply HI; [exact E0|eapply sub_part; [exact SB|exact Fw|reflexivity]|exact A|]. left. auto. }
        exists (set_field (mix ci R u) f (VObj d fs)). split; [|cbn [conc]; now apply set_new].
        eapply rgo_putany; [exact V|eapply any_ok; eassumption|]. cbn [orb].
        assert (EH : exists hh w1 ws1, In (hh, VList (w1 :: ws1)) fs) by eauto. destruct EH as (hh & w1 & ws1 & EH).
        assert (FH : field (VObj d fs) hh = Some (VList (w1 :: ws1))).
        { pose proof OP as (fs' & Q & _ & Kq & _). inversion Q; subst fs'. cbn [field]. apply in_assoc; [rewrite Kq; apply GD|exact EH]. }
        pose proof (plain_is_list _ _ _ _ OP PC FH) as DH.
        assert (X : existsb (fun g0 => match acc (cinfo_of d) g0 with Some (AGet h) => nonempty (VObj d fs) h | _ => false end) gs = true).
        { rewrite forallb_forall in GA. specialize (GA (hh, DList)). cbn [snd fst] in GA. apply assoc_In in DH. specialize (GA DH).
          apply existsb_exists in GA. destruct GA as (g0 & Ig & Eg). apply existsb_exists. exists g0. split; [exact Ig|].
          destruct (acc (cinfo_of d) g0) as [[h| | | |]|]; try discriminate. apply String.eqb_eq in Eg. subst h. unfold nonempty. now rewrite FH. }
        rewrite X. rewrite (put_mix _ _ _ _ _ _ _ O AC). f_equal. apply set_if_some. discriminate.
    - (* RSet *)
      bnd_in E. apply sub_app in SB. destruct (HV _ _ _ _ _ _ _ _ E0 N u x o it G O (proj1 SB) A KN C) as (w & V & AW).
      destruct (put_md_ok _ _ _ _ _ _ _ _ _ _ _ E G O KN C AW) as (R & -> & _ & CC). cbn [conc] in C. subst o.
      eexists. split; [|exact CC]. unfold set_if, mix in *. cbn [andb]. now apply rgo_set.
    - (* RCall *)
      destruct (assoc f rfuns) as [[b r]|] eqn:F; [|discriminate]. destruct r as [r|].
      + destruct (vtot 30 r) eqn:V; [|discriminate]. destruct (HR _ _ _ _ _ _ _ _ E N u x o VNone G O SB A (kn_nil u) C) as (o1 & R & CC).
        destruct (vtot_ok warn 30 r (rtag key x t) x VNone o1 V) as [w W]. exists o1. split; [|exact CC].
        eapply rgo_call_val; [exact F| |exact W]. now rewrite (at_rtag _ _ _ _ _ _ key t A).
      + destruct (HR _ _ _ _ _ _ _ _ E N u x o VNone G O SB A (kn_nil u) C) as (o1 & R & CC). exists o1. split; [|exact CC].
        eapply rgo_call; [exact F|]. now rewrite (at_rtag _ _ _ _ _ _ key t A).
    - (* RFind *)
      destruct (find_at cx (rkey key p)) as [[|c'|f c'|f alts]|] eqn:F; try discriminate;
        pose proof (find_at_ok _ _ _ HWE _ _ _ _ _ F A) as L.
      + destruct (HR _ _ _ _ _ _ _ _ E N u x o it G O SB A KN C) as (o1 & R & CC). exists o1. split; [|exact CC].
        eapply rgo_find_none; [now apply find_none_of|exact R].
      + destruct L as (y & L & A'). destruct (HR _ _ _ _ _ _ _ _ E N u y o it G O SB A' KN C) as (o1 & R & CC). exists o1. split; [|exact CC].
        eapply rgo_find; [eapply find_one_of; exact L|exact R].
      + bnd_in E. bnd_in E. apply sub_app in SB. destruct SB as [SB1 SB2]. apply sub_app in SB2. destruct SB2 as [SB2 _].
        destruct (mode_eqb a0 md) eqn:EM; [|discriminate]. apply mode_eqb_eq in EM. subst a0.
        destruct L as (w & Fw & L). destruct (join_ok _ _ _ _ _ _ _ _ _ E G O C Fw) as (_ & -> & JN). destruct L as [[U Y]|[U (y & Y & A')]].
        * destruct (HR _ _ _ _ _ _ _ _ E0 N u x o it G O SB1 A KN C) as (o1 & R & CC). pose proof (conc_fun _ _ _ _ _ C CC). subst o1.
          exists o. split; [|now apply JN]. eapply rgo_find_none; [now apply find_none_of|exact R].
        * destruct (HR _ _ _ _ _ _ _ _ E1 N u y o it G O SB2 A' KN C) as (o1 & R & CC). exists o1. split; [|exact CC].
          eapply rgo_find; [eapply find_one_of; exact Y|exact R].
      + bnd_in E. apply sub_app in SB. destruct SB as [SB1 SB2]. destruct (mode_eqb a0 md) eqn:EM; [|discriminate]. apply mode_eqb_eq in EM. subst a0.
        destruct (single ci f) eqn:S; [|discriminate]. pose proof L as (w & yss & Fw & Y & F2 & ND).
        destruct (items_act_ok _ _ _ HWE _ _ _ _ _ _ _ _ _ N u o w yss it E G O SB2 C Fw F2 ND) as (o1 & R & CC). rewrite <- Y in R. exists o1. split; [|exact CC].
        destruct (single_found _ _ _ _ _ _ _ _ O S L) as (w' & _ & _ & [[Y' _]|(y & cx2 & Y' & _)]); rewrite Y' in R; inversion R; subst.
        * destruct (HR _ _ _ _ _ _ _ _ E0 N u x o1 it G O SB1 A KN C) as (o2 & R2 & C2). pose proof (conc_fun _ _ _ _ _ C C2). subst o2.
          eapply rgo_find_none; [now apply find_none_of|exact R2].
        * match goal with H : IrGo.rchain _ _ _ _ [] _ _ |- _ => inversion H; subst end. eapply rgo_find; [eapply find_one_of; exact Y'|assumption].
    - (* RFor *)
      destruct (find_at cx (rkey key p)) as [[|c'|f c'|f alts]|] eqn:F; try discriminate;
        pose proof (find_at_ok _ _ _ HWE _ _ _ _ _ F A) as L.
      + ret_in E. exists o. split; [|exact C]. apply rgo_for. cbn [IrLocate.loc_ok] in L. rewrite L. constructor.
      + destruct L as (y & L & A'). destruct (HR _ _ _ _ _ _ _ _ E N u y o it G O SB A' KN C) as (o1 & R & CC). exists o1. split; [|exact CC].
        apply rgo_for. rewrite L. econstructor; [exact R|constructor].
      + bnd_in E. apply sub_app in SB. destruct SB as [SB1 SB2].
        destruct L as (w & Fw & L). destruct (join_ok _ _ _ _ _ _ _ _ _ E G O C Fw) as (_ & -> & JN). destruct L as [[U Y]|[U (y & Y & A')]].
        * exists o. split; [|now apply JN]. apply rgo_for. rewrite Y. constructor.
        * destruct (HR _ _ _ _ _ _ _ _ E0 N u y o it G O SB1 A' KN C) as (o1 & R & CC). exists o1. split; [|exact CC].
          apply rgo_for. rewrite Y. econstructor; [exact R|constructor].
      + destruct L as (w & yss & Fw & Y & F2 & ND).
        destruct (items_act_ok _ _ _ HWE _ _ _ _ _ _ _ _ _ N u o w yss it E G O SB C Fw F2 ND) as (o1 & R & CC). exists o1. split; [|exact CC].
        apply rgo_for. now rewrite Y.
    - (* RForVal *)
      destruct b as [|[] [|]]; try discriminate; try (destruct v0; discriminate). destruct v0; try discriminate. destruct (acc ci m) as [[| | |f g|]|] eqn:AC; try discriminate.
      destruct md as [R| |]; try discriminate. bnd_in E. apply sub_app in SB.
      destruct (HV _ _ _ _ _ _ _ _ E0 N u x o it G O (proj1 SB) A KN C) as (w & V & AW). cbn [conc] in C. subst o.
      destruct a as [| |h [cs|]| | |]; try discriminate.
      + ret_in E. cbn in AW. subst w. exists (mix ci R u). split; [|reflexivity]. eapply rgo_forval; [exact V|constructor].
      + destruct (String.eqb_spec f h); [subst h|discriminate]. destruct (many ci f) eqn:MN; [|discriminate]. destruct (in_rest R f) eqn:IR; [discriminate|]. ret_in E.
        destruct (many_val _ _ _ O MN) as (D & us & Fu & NN). destruct AW as (w0 & F0 & ->). rewrite Fu in F0. inversion F0; subst w0. clear F0.
        exists (set_field (mix ci R u) f (VList us)). split; [|cbn [conc]; now apply set_new]. eapply rgo_forval; [exact V|].
        assert (ST : mix ci R u = set_field (mix ci R u) f (VList [])).
        { symmetry. eapply set_same; [exact G|exact D|]. unfold mixf. cbn [fst snd]. now rewrite Fu, in_rest_no by exact IR. }
        assert (GO : forall b a, us = a ++ b -> ichain [RPut m VItemX] key x b (set_field (mix ci R u) f (VList a)) (set_field (mix ci R u) f (VList us))).
        { induction b as [|z b IHb]; intros a Ea.
          - rewrite app_nil_r in Ea. subst a. constructor.
          - apply ic_cons with (set_field (mix ci R u) f (VList (a ++ [z]))); [|apply IHb; now rewrite <- app_assoc].
            eapply rgo_put; [apply vgo_item|]. assert (ACC : acc ci m = access_of (ci_cls ci) m) by (rewrite (own_ci _ _ O); apply acc_of).
            assert (NZ : z <> VNone) by (apply NN; rewrite Ea; apply in_elt). rewrite <- (set_set (mix ci R u) f (VList a) (VList (a ++ [z]))).
            unfold mix, set_field at 1, put1. rewrite <- ACC, AC, set_assoc_same. destruct z; try (now elim NZ); rewrite andb_false_r; reflexivity. }
        rewrite ST at 1. apply GO. reflexivity.
    - (* RIf *)
      rename a into ca, b into cb. destruct (csim0 n c key cx (mtarget ci md)) as [t|] eqn:CS.
      { destruct (HR _ _ _ _ _ _ _ _ E N u x o it G O SB A KN C) as (o1 & R & CC). exists o1. split; [|exact CC].
        eapply rgo_if; [eapply csim0_ok; eassumption|exact R]. }
      assert (ATTR : forall at1 R, md = MObj R -> (forall b', (match xattr at1 x with Some _ => true | None => false end) = b' -> cgo c key x it o b') ->
        match ca, cb, cx with
        | [RPut m v], [], CxE _ _ its _ =>
            match filter (fun i => mem at1 (iattrs i)) its, acc ci m with
            | [IXAttr _ f], Some (ASet f' _) =>
                if (if no_foreign its then if String.eqb f f' then is_dnone (dfl ci f) else false else false) then
                  match v, dom ci f with
                  | VAttrX at2, Some (FAttr _) =>
                      if String.eqb at1 at2 then ret (MObj ((f, None) :: R)) else None
                  | VWrapX cl m2 (VAttrX at2), Some (FAttrOf cl') =>
                      if (if String.eqb at1 at2 then if String.eqb cl cl' then if String.eqb m2 "setValue" then isinst cl "ARLiteral" else false else false else false)
                      then ret (MObj ((f, None) :: R)) else None
                  | _, _ => None
                  end
                else None
            | _, _ => None
            end
        | _, _, _ => None
        end = Some (md1, l0) -> exists o1, rgo [RIf c ca cb] key x it o o1 /\ conc ci md1 u o1).
      { clear E. intros at1 R -> HC E. cbn [conc] in C. subst o. destruct ca as [|[] [|]]; try discriminate. destruct cb; [|discriminate].
        destruct cx as [c0 tag its bk| |]; try discriminate. destruct (filter _ its) as [|[] [|]] eqn:FL; try discriminate.
        destruct (acc ci m) as [[| |f' g| |]|] eqn:AC; try discriminate. destruct (no_foreign its) eqn:NF; [|discriminate].
        destruct (String.eqb_spec f f'); [subst f'|discriminate]. destruct (is_dnone (dfl ci f)) eqn:DN; [|discriminate]. apply is_dnone_eq in DN.
        exists (mix ci ((f, None) :: R) u).
        assert (HVX : match v, dom ci f with
          | VAttrX at2, Some (FAttr _) => at1 = at2
          | VWrapX cl m2 (VAttrX at2), Some (FAttrOf cl') => at1 = at2 /\ cl = cl' /\ m2 = "setValue" /\ isinst cl "ARLiteral" = true
          | _, _ => False
          end /\ md1 = MObj ((f, None) :: R)).
        { destruct v; try discriminate.
          - destruct (dom ci f) as [[]|]; try discriminate. destruct (String.eqb_spec at1 a); [|discriminate]. ret_in E. auto.
          - destruct v; try discriminate. destruct (dom ci f) as [[]|]; try discriminate. destruct (String.eqb_spec at1 a); [|discriminate].
            destruct (String.eqb_spec c1 c2); [|discriminate]. destruct (String.eqb_spec m0 "setValue"); [|discriminate]. destruct (isinst c1 "ARLiteral") eqn:IA; [|discriminate].
            ret_in E. auto. }
        destruct HVX as [HVX ->]. split; [|reflexivity]. eapply attr_if; eauto. }
      destruct c; try discriminate.
      + (* CHasAttr *)
        destruct md as [R| |]; try discriminate. eapply ATTR; [reflexivity| |exact E]. intros b' <-. exists 1. cbn. destruct (xattr a x); reflexivity.
      + (* CGot *)
        assert (GEN : forall R, md = MObj R -> (let! w := vsim n v key cx ci md kn in
                    match w with
                    | AVNone => rsim n cb key cx ci md kn
                    | AVSel f cs =>
                        let! m := rsim n ca key cx ci md ((f, cs) :: kn) in
                        match cb with
                        | [] => if (if single ci f then mode_eqb m (MObj ((f, cs) :: R)) else false) then ret m else None
                        | _ => None
                        end
                    | AVLit f =>
                        let! m := rsim n ca key cx ci md ((f, None) :: kn) in
                        match cb with
                        | [] => if (if single ci f then mode_eqb m (MObj ((f, None) :: R)) else false) then ret m else None
                        | _ => None
                        end
                    | _ => None
                    end) = Some (md1, l0) -> exists o1, rgo [RIf (CGot v) ca cb] key x it o o1 /\ conc ci md1 u o1).
        { clear E ATTR. intros R -> E. bnd_in E. apply sub_app in SB. destruct SB as [SB1 SB2].
          destruct (HV _ _ _ _ _ _ _ _ E0 N u x o it G O SB1 A KN C) as (w & V & AW). apply cgo_got in V. destruct a; try discriminate.
          - cbn in AW. subst w. destruct (HR _ _ _ _ _ _ _ _ E N u x o it G O SB2 A KN C) as (o1 & R1 & CC). exists o1. split; [|exact CC]. eapply rgo_if; [exact V|exact R1].
          - bnd_in E. destruct cb; [|discriminate]. destruct (single ci f) eqn:S; [|discriminate]. destruct (mode_eqb a _) eqn:EM; [|discriminate].
            apply mode_eqb_eq in EM. subst a. ret_in E. apply sub_app in SB2. destruct SB2 as [SB2 _]. cbn [aconc] in AW.
            destruct (is_none w) eqn:NW.
            + assert (w = VNone) by (destruct w; try discriminate; reflexivity). subst w. exists o. split; [eapply rgo_if; [exact V|apply rgo_nil]|].
              cbn [conc] in *. subst o. rewrite <- (sel_set ci R u f cs VNone true kn G O S KN (or_introl eq_refl) AW). reflexivity.
            + assert (KN' : kn_ok ((f, cs) :: kn) u).
              { intros f' cs' w' [Q|Q] SL; [|eapply KN; eassumption]. inversion Q; subst f' cs'. rewrite (sel_fun _ _ _ _ _ SL AW). intros ->. discriminate. }
              destruct (HR _ _ _ _ _ _ _ _ E1 N u x o it G O SB2 A KN' C) as (o1 & R1 & CC). exists o1. split; [|exact CC]. eapply rgo_if; [exact V|exact R1].
          - bnd_in E. destruct cb; [|discriminate]. destruct (single ci f) eqn:S; [|discriminate]. destruct (mode_eqb a _) eqn:EM; [|discriminate].
            apply mode_eqb_eq in EM. subst a. ret_in E. apply sub_app in SB2. destruct SB2 as [SB2 _]. destruct AW as (w0 & F0 & [[-> ->]|(c1 & s & -> & ->)]).
            + exists o. split; [eapply rgo_if; [exact V|apply rgo_nil]|]. cbn [conc] in *. subst o.
              destruct (single_val _ _ _ O S) as (D & _). eapply skip_default; [exact G|exact D|exact F0].
            + assert (KN' : kn_ok ((f, None) :: kn) u).
              { intros f' cs' w' [Q|Q] SL; [|eapply KN; eassumption]. inversion Q; subst f' cs'. destruct SL as (w1 & F1 & ->). rewrite F0 in F1. inversion F1; subst. discriminate. }
              destruct (HR _ _ _ _ _ _ _ _ E1 N u x o it G O SB2 A KN' C) as (o1 & R1 & CC). exists o1. split; [|exact CC]. eapply rgo_if; [exact V|exact R1]. }
        destruct md as [R| |]; [|destruct v; discriminate|destruct v; discriminate].
        destruct v; try (eapply GEN; [reflexivity|exact E]). eapply ATTR; [reflexivity| |exact E].
        intros b' <-. pose proof (cgo_got _ _ key x it o _ (vgo_attr warn a key x it o)) as Q. destruct (xattr a x); exact Q.
      + (* CEmpty *)
        destruct md as [R| |]; try discriminate. clear ATTR. bnd_in E. apply sub_app in SB. destruct SB as [SB1 SB2].
        destruct (HV _ _ _ _ _ _ _ _ E0 N u x o it G O SB1 A KN C) as (w & V & AW). destruct a as [| |f [cs|]| | |]; try discriminate.
        * cbn in AW. subst w. apply cgo_empty in V. destruct (HR _ _ _ _ _ _ _ _ E N u x o it G O SB2 A KN C) as (o1 & R1 & CC). exists o1. split; [|exact CC]. eapply rgo_if; [exact V|exact R1].
        * bnd_in E. bnd_in E. destruct (many ci f) eqn:MN; [|discriminate]. destruct (mode_eqb a _) eqn:EM; [|discriminate]. destruct (mode_eqb a0 _) eqn:EM2; [|discriminate].
          apply mode_eqb_eq in EM. apply mode_eqb_eq in EM2. subst a a0. ret_in E. apply sub_app in SB2. destruct SB2 as [SB2 SB3]. apply sub_app in SB3. destruct SB3 as [SB3 _].
          destruct (many_val _ _ _ O MN) as (D & us & Fu & _). destruct AW as (w0 & F0 & ->). rewrite Fu in F0. inversion F0; subst w0. apply cgo_empty in V. destruct us as [|z us].
          -- destruct (HR _ _ _ _ _ _ _ _ E1 N u x o it G O SB2 A KN C) as (o1 & R1 & CC). pose proof (conc_fun _ _ _ _ _ C CC). subst o1.
             exists o. split; [eapply rgo_if; [exact V|exact R1]|]. cbn [conc] in *. subst o. eapply skip_default; [exact G|exact D|exact Fu].
          -- destruct (HR _ _ _ _ _ _ _ _ E2 N u x o it G O SB3 A KN C) as (o1 & R1 & CC). exists o1. split; [|exact CC]. eapply rgo_if; [exact V|exact R1].
      + (* CBoth *)
        destruct c1; try discriminate. destruct c2; try discriminate. destruct md as [R| |]; try discriminate. clear ATTR. destruct ca as [|[] [|]]; try discriminate; try (destruct v; try discriminate; destruct v; discriminate).
        destruct v; try discriminate. destruct v; try discriminate. destruct cb; [|discriminate]. destruct cx as [c0 tag its bk| |]; try discriminate.
        destruct (acc ci m) as [[| |f g| |]|] eqn:AC; try discriminate. destruct (flat_map itags its) eqn:TG; [|discriminate].
        destruct (flat_map itexts its) as [|f' [|]] eqn:TX; try discriminate. destruct (dom ci f) as [[]|] eqn:DM; try discriminate.
        destruct (no_foreign its) eqn:NF; [|discriminate]. destruct (String.eqb_spec f f'); [subst f'|discriminate].
        destruct (is_dnone (dfl ci f)) eqn:DN; [|discriminate]. apply is_dnone_eq in DN. destruct (String.eqb_spec c c1); [subst c1|discriminate].
        destruct (String.eqb_spec m0 "setValue"); [subst m0|discriminate]. destruct (isinst c "ARLiteral") eqn:IA; [|discriminate].
        destruct (existsb _ its) eqn:EX in E; [|discriminate]. ret_in E. cbn [conc] in C. subst o.
        destruct (at_vals _ _ _ _ _ _ _ _ _ A) as (evs & D & _ & XT). specialize (XT TG).
        destruct (text_one _ _ _ _ _ _ _ D TX EX) as (w & Fw & W). pose proof (own_fok _ _ _ _ _ O DM Fw) as K.
        pose proof (cond_text warn key x it (mix ci R u)) as CT. rewrite XT in CT.
        inversion K; subst.
        * assert (T0 : ev_texts evs = []) by (destruct W as [[_ W]|(s & [S|(c1 & S)] & _)]; [exact W|discriminate|discriminate]). rewrite T0 in CT.
          exists (mix ci R u). split; [eapply rgo_if; [exact CT|apply rgo_nil]|]. cbn [conc]. eapply skip_default; [exact G|exact DN|exact Fw].
        * assert (T0 : ev_texts evs = [s]) by (destruct W as [[W _]|(s' & [S|(c1 & S)] & W)]; [discriminate|discriminate|inversion S; subst; exact W]). rewrite T0 in CT, XT.
          assert (TN : text_or_none (last_str [s] None) = Some s) by (cbn; destruct s; [discriminate|reflexivity]). rewrite TN in CT, XT.
          match goal with H : has_word s = true |- _ => rewrite H in CT end.
          eexists. split; [|cbn [conc]; apply (set_new ci R u f None _ G O Fw); exact Logic.I].
          eapply rgo_if; [exact CT|]. eapply rgo_put.
          -- eapply vgo_wrap; [apply vgo_text|]. rewrite XT. unfold wrap. rewrite IA. reflexivity.
          -- rewrite (put_mix _ _ _ _ _ _ _ O AC). f_equal. apply set_if_some. discriminate.
    - (* RSub *)
      destruct (getter ci g) as [f|] eqn:GT; [|discriminate]. destruct md as [R| |]; try discriminate. cbn [conc] in C. subst o.
      destruct (dom ci f) as [[]|] eqn:DM; try discriminate. destruct (dfl ci f) as [[| | |d']|] eqn:D; try discriminate.
      destruct (String.eqb_spec c d'); [subst d'|discriminate]. destruct (in_rest R f) eqn:IR; [discriminate|].
      destruct (no_new (cinfo_of c)) eqn:NNW; [|discriminate]. bnd_in E. ret_in E. apply sub_app in SB. destruct SB as [SB _].
      destruct (own_field _ _ _ _ O D) as (p & Fp). pose proof (own_fok _ _ _ _ _ O DM Fp) as K. inversion K; subst.
      assert (RG : rgo b key x it (init c) p).
      { eapply HI; [exact E0|eapply sub_part; [exact SB|exact Fp|now apply (part_units c)]|exact A|]. left. auto. }
      assert (II : init_val 1 (DNew c) = init c).
      { Transparent init. unfold init. Opaque init. cbn [init_val]. f_equal. apply map_ext_in. intros [h dh] Ih. cbn [fst snd]. f_equal.
        unfold no_new in NNW. rewrite forallb_forall in NNW. specialize (NNW _ Ih). destruct dh; try reflexivity. discriminate. }
      pose proof (mix_unset ci R u f p (DNew c) Fp D (in_rest_no _ _ _ IR)) as FM. rewrite II in FM.
      exists (set_field (mix ci R u) f p). split; [|cbn [conc]; now apply set_new].
      unfold mix in FM |- *. cbn [field] in FM. destruct g as [m|a1].
      + unfold getter in GT. destruct (acc ci m) as [[h|h| | |]|] eqn:AC; try discriminate.
        * destruct (dfl ci h); [|discriminate]. inversion GT; subst h. eapply rgo_sub_m; [|exact FM|exact RG].
          rewrite <- AC. rewrite (own_ci _ _ O) at 2. symmetry. apply acc_of.
        * destruct (dom ci h) as [[]|] eqn:Dh; try discriminate.
          -- destruct sorted; [|discriminate]. destruct (dfl ci h); [|discriminate]. inversion GT; subst h. congruence.
          -- destruct (is_dlist (dfl ci h)); [|discriminate]. inversion GT; subst h. congruence.
      + cbn [getter] in GT. destruct (dfl ci a1); [|discriminate]. inversion GT; subst a1. eapply rgo_sub_a; eassumption. }
  destruct FIRST as (o1 & R1 & C1). destruct (HR _ _ _ _ _ _ _ _ H N u x o1 it G O SB2 A KN C1) as (o2 & R2 & C2).
  exists o2. split; [|exact C2]. eapply rgo_cons; eassumption.
Qed.
End Read.
