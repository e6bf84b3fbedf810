(** [check_entry] is sound: what the reader rebuilds from the written element is the object itself. *)
From Coq Require Import String Ascii List Bool Arith Lia Floats.SpecFloat.
From Verif Require Import PyBase PyBaseFacts Primitives Xml Leaf SpecLeaf XmlFacts ClassTable Ir Access WriterCode ReaderCode IrSem
  IrFacts IrGo Domain SpecDomain IrCheck IrLeaf IrWrite IrLocate IrItems IrMix IrActs IrRead.
Import ListNotations.
Open Scope string_scope.
Open Scope list_scope.

Local Opaque access_of attrs_of init named_init wfuns rfuns domain ancestors access_table attr_table fuel.
Strategy expand [find_at findall]. Strategy opaque [locate steps].

Section Entry.
Context (repr : spec_float -> string) (warn : bool) (WE : list (string * (list wi * string))).
Notation wgo := (wgo repr warn).
Notation rgo := (rgo warn).
Notation dens := (dens repr warn WE).
Notation at_ := (at_ repr warn WE).
Notation entry_ok := (entry_ok repr warn).
Notation ents := (ents repr warn).
Notation sub := (sub repr warn).
Context (HWE : WE_ok WE).

Lemma read_sound : forall n, vsim_sound repr warn WE n /\ inline_sound repr warn WE n /\ rsim_sound repr warn WE n.
Proof.
  induction n as [|n (HV & HI & HR)].
  - split; [|split]; intros until l; intros H; discriminate.
  - split; [|split].
    + apply vsim_step; assumption.
    + apply inline_step; assumption.
    + apply rsim_step; assumption.
Qed.

Lemma hits_mem : forall i, existsb (hits "SHORT-NAME") (itags i) = mem "SHORT-NAME" (itags i).
Proof. intros. unfold mem, hits. reflexivity. Qed.

Lemma name_found : forall its v evs tag d, dens v its evs -> filter (fun i => mem "SHORT-NAME" (itags i)) its = [IName] ->
  exists s, field v "short_name" = Some (VStr s) /\
    find "SHORT-NAME" (reload d (to_xml tag (apply evs elem0))) = Some (El "SHORT-NAME" [] (text_or_none (Some s)) []).
Proof.
  intros its v evs tag d D FL. destruct (dens_hit repr warn WE "SHORT-NAME" _ _ _ D) as (evs' & D' & E).
  rewrite (filter_ext _ (fun i => mem "SHORT-NAME" (itags i)) hits_mem), FL in D'. apply dens_single in D'.
  destruct D' as (s & Fs & ->). exists s. split; [exact Fs|]. rewrite find_plain by (repeat split; discriminate).
  rewrite reload_kids. assert (K : xkids (to_xml tag (apply evs elem0)) = ev_kids evs) by (cbn [to_xml xkids]; rewrite apply_ev_kids; reflexivity). rewrite K.
  assert (T : forall l, filter (has_tag "SHORT-NAME") l = filter (hitk "SHORT-NAME") l).
  { intros l. apply filter_ext. intros x. unfold has_tag, hitk, hits. rewrite String.eqb_sym. reflexivity. }
  rewrite T, filter_reload_hit, E. reflexivity.
Qed.

Theorem check_entry_ok : forall e l u, check_entry e = Some l -> (forall u', vsize u' < vsize u -> ents l u') ->
  In (en_cls e, (en_wb e, en_wk e)) WE -> entry_ok e u.
Proof.
  intros e l u H SB IW x d s C O W ->. unfold check_entry in H. cbv zeta in H.
  destruct (wsim fuel (cinfo_of (en_cls e)) (en_wb e) (en_wk e)) as [its|] eqn:WS; [|discriminate].
  destruct (cls_ok (cinfo_of (en_cls e))) eqn:CO; [|discriminate]. pose proof (cls_ok_good _ CO) as G. pose proof (own_of _ _ C O) as OW.
  destruct (write_ok repr warn WE HWE u _ _ _ O C IW) as (its' & evs & WS' & D & WG). assert (its' = its) by congruence. subst its'. clear WS'.
  specialize (WG elem0). rewrite (wgo_det _ _ _ _ _ _ _ _ W WG). set (x := reload d (to_xml (en_tag e) (apply evs elem0))).
  match type of H with (if ?c then _ else _) = _ => destruct c eqn:NM; [|discriminate] end.
  destruct (rsim fuel (en_rb e) _ _ _ _ _) as [[[R| |] l']|] eqn:RS; try discriminate. destruct (covers _ R) eqn:CV; [|discriminate]. inversion H; subst l'. clear H.
  assert (CC : class_of u = Some (ci_cls (cinfo_of (en_cls e)))) by exact C.
  assert (AT : at_ (CxE (cinfo_of (en_cls e)) (en_tag e) its (Some (en_wb e, en_wk e))) u x).
  { exists evs, d. split; [exact D|]. split; [reflexivity|]. split; [left; split; assumption|]. intros b k Q. inversion Q; subst. exact WG. }
  assert (S : sub (vsize u) l u).
  { split; [exact SB|]. intros f w u' F I. apply Nat.le_lt_trans with (vsize w); [now apply vsize_units|].
    destruct u; try discriminate. cbn [field] in F. eapply vsize_field; exact F. }
  assert (RD : forall o it, conc (cinfo_of (en_cls e)) (MObj (start (en_named e))) u o -> rgo (en_rb e) (en_rk e) x it o u).
  { intros o it CO'. destruct (proj2 (proj2 (read_sound fuel)) _ _ _ _ _ _ _ _ RS (vsize u) u x o it G OW S AT (kn_nil u) CO') as (o' & RG & C').
    cbn [conc] in C'. subst o'. rewrite (mix_whole _ _ _ G OW CV) in RG. exact RG. }
  destruct (en_named e).
  - destruct (filter _ its) as [|[] [|]] eqn:FL in NM; try discriminate. destruct (dom (cinfo_of (en_cls e)) "short_name") as [[]|] eqn:DM; try discriminate.
    destruct (name_found _ _ _ (en_tag e) d D FL) as (nm & Fn & FD). exists nm. split; [|split; [exact Fn|]].
    + unfold short_name. fold x in FD. rewrite FD. cbn [xtext]. pose proof (own_fok _ _ _ _ _ OW DM Fn) as K. inversion K; subst.
      destruct nm; [congruence|reflexivity].
    + intros it. apply RD. cbn [conc start]. symmetry. apply (mix_named _ _ _ G OW Fn).
  - destruct (dfl (cinfo_of (en_cls e)) "short_name") eqn:DN; [discriminate|]. split.
    + destruct (field u "short_name") eqn:F; [|reflexivity]. destruct (own_key _ _ _ _ OW F) as (d' & D'). congruence.
    + intros it. apply RD. cbn [conc start]. symmetry. apply (mix_init _ _ OW).
Qed.

Context (RE : list entry).
Context (HRE : forall e, In e RE -> In (en_cls e, (en_wb e, en_wk e)) WE /\ exists l, check_entry e = Some l /\ incl l RE).
Theorem entries_ok : forall u e, In e RE -> entry_ok e u.
Proof.
  intros u. remember (vsize u) as n eqn:N. revert u N. induction n as [n IH] using lt_wf_ind. intros u N e I.
  destruct (HRE _ I) as (IW & l & CE & IN). eapply check_entry_ok; [exact CE| |exact IW].
  intros u' L e' I'. apply (IH (vsize u')); [lia|reflexivity|]. apply IN. exact I'.
Qed.
End Entry.
