(** Soundness of the analysis of KeepText.v. *)
From Coq Require Import String Ascii List Bool Arith Lia.
From Verif Require Import PyBase Primitives Xml Leaf ClassTable Ir Access ReaderCode IrSem SpecKeep Keep KeepProps SpecText KeepText.
Import ListNotations.
Open Scope string_scope.
Open Scope list_scope.

Definition tsound (e : option (option (list string * source))) (f : string) (x : xml) (fs fs' : list (string * val)) : Prop :=
  match e with
  | None => True
  | Some None => assoc f fs' = assoc f fs
  | Some (Some (ps, s)) => assoc f fs = Some (nothing s) -> exists w, assoc f fs' = Some w /\ held ps s x w
  end.
Lemma tsound_seq : forall e1 e2 f x fs fs1 fs2, tsound e1 f x fs fs1 -> tsound e2 f x fs1 fs2 -> tsound (tseq e1 e2) f x fs fs2.
Proof.
  intros [[[p s]|]|] [[[q t]|]|] f x fs fs1 fs2; cbn; trivial; intros A B.
  - intros Q. destruct (A Q) as (w & C & D). exists w. now rewrite B.
  - intros Q. apply B. now rewrite A.
  - now rewrite B.
Qed.

Section Run.
Context (warn : bool).

Lemma of_res_done : forall A (r : res A) a, of_res r = Done a -> r = Ok a.
Proof. intros A [b|e] a H; cbn in H; [now injection H as <-|discriminate H]. Qed.

Lemma vtext_ok : forall n key ky v x it o w s, fits key ky -> vrun warn n v ky x it o = Done w -> vtext key v = Some s -> held [] s x w /\ nothing s = VNone.
Proof.
  intros n key ky v x it o w s F H V. destruct n as [|n]; [discriminate H|]. destruct v; cbn [vtext] in V; try discriminate V; cbn [vrun] in H.
  - destruct (apath key p) as [q|] eqn:P; [|discriminate V]. injection V as <-. rewrite (path_fits _ _ _ _ F P) in H. step H l E. apply of_res_done in E.
    injection H as <-. split; [|reflexivity]. cbn [held]. eauto.
  - destruct k; try discriminate V; (destruct (apath key p) as [q|] eqn:P; [|discriminate V]); injection V as <-; rewrite (path_fits _ _ _ _ F P) in H; step H l E;
      apply of_res_done in E; injection H as <-; (split; [|reflexivity]); cbn [held]; unfold leaf_read.
    unfold ref_required in E. destruct (find q x) as [y|]; [injection E as <-; eexists; split; reflexivity|].
    destruct warn; [injection E as <-; eexists; split; reflexivity|discriminate E].
  - injection V as <-. injection H as <-. split; reflexivity.
Qed.

Lemma tput_ok : forall n c f m v fs w ky it x key o', fits key ky -> vrun warn n v ky x it (VObj c fs) = Done w -> put1 (VObj c fs) m w = Done o' ->
  exists fs', o' = VObj c fs' /\ tsound (tput (access_of c) f key m v) f x fs fs'.
Proof.
  intros n c f m v fs w ky it x key o' F H E. unfold tput. cbn [put1] in E. destruct (access_of c m) as [[g|g|g gd|g gd|c' nm' p]|] eqn:A; try discriminate E.
  - injection E as <-. destruct (String.eqb_spec g f) as [Q|N].
    + subst g. destruct (vtext key v) as [s|] eqn:V.
      * destruct (vtext_ok _ _ _ _ _ _ _ _ _ F H V) as [HE NO]. destruct (gd && _) eqn:G.
        -- exists fs. split; [reflexivity|]. cbn [tsound]. intros Q. exists VNone. rewrite Q, NO. split; [reflexivity|].
           apply andb_true_iff in G. destruct G as [_ G]. destruct w; try discriminate G. exact HE.
        -- cbn [set_field]. eexists. split; [reflexivity|]. cbn [tsound]. intros _. exists w. rewrite assoc_set, String.eqb_refl. auto.
      * destruct (gd && _); eexists; (split; [reflexivity|exact I]).
    + destruct (gd && _); [exists fs; split; reflexivity|]. cbn [set_field]. eexists. split; [reflexivity|]. cbn [tsound]. rewrite assoc_set.
      destruct (String.eqb_spec f g); [congruence|reflexivity].
  - assert (K : exists fs', o' = VObj c fs' /\ (g <> f -> assoc f fs' = assoc f fs)).
    { destruct (gd && _); [injection E as <-; exists fs; auto|]. destruct (assoc g fs) as [[]|]; try discriminate E. injection E as <-. cbn [set_field].
      eexists. split; [reflexivity|]. intros N. rewrite assoc_set. destruct (String.eqb_spec f g); [congruence|reflexivity]. }
    destruct K as (fs' & -> & K). exists fs'. split; [reflexivity|]. destruct (String.eqb_spec g f) as [Q|N]; [exact I|exact (K N)].
Qed.

Lemma tloop_ok : forall n c f m gd ky x, access_of c m = Some (AAdd f gd) -> forall ls fs o',
  fold_out (fun y s => rrun warn n [RPut m VItemX] ky x y s) (map VLeaf ls) (VObj c fs) = Done o' ->
  exists fs', o' = VObj c fs' /\ forall l0, assoc f fs = Some (VList l0) -> assoc f fs' = Some (VList (l0 ++ map VLeaf ls)).
Proof.
  intros n c f m gd ky x A. induction ls as [|a ls IH]; intros fs o' E; cbn [map fold_out] in E.
  - injection E as <-. exists fs. split; [reflexivity|]. intros l0. now rewrite app_nil_r.
  - step E s E1. destruct n as [|n]; [discriminate E1|]. cbn [rrun] in E1. step E1 o1 E2. step E2 w E3. destruct n as [|n]; [discriminate E1|]. injection E1 as <-.
    cbn [vrun] in E3. injection E3 as <-. cbn [put1] in E2. rewrite A in E2. rewrite andb_false_r in E2.
    destruct (assoc f fs) as [[| | | |l]|] eqn:Q; try discriminate E2. injection E2 as <-. cbn [set_field] in E. destruct (IH _ _ E) as (fs' & -> & S1).
    exists fs'. split; [reflexivity|]. intros l0 Q0. injection Q0 as <-. rewrite (S1 (l ++ [VLeaf a])); [|now rewrite assoc_set, String.eqb_refl].
    now rewrite <- app_assoc.
Qed.

Definition TS (n : nat) : Prop := forall k c f key code ky x it fs o', fits key ky -> rrun warn n code ky x it (VObj c fs) = Done o' ->
  exists fs', o' = VObj c fs' /\ tsound (text look (access_of c) f k key code) f x fs fs'.

(** one statement that is only looked at by [eff] *)
Lemma one_eff : forall n k c f key i ky x it fs o1, fits key ky -> rrun warn (S (S n)) [i] ky x it (VObj c fs) = Done o1 ->
  exists fs1, o1 = VObj c fs1 /\ tsound (match eff look (access_of c) f k key [i] with Some None => Some None | _ => None end) f x fs fs1.
Proof.
  intros n k c f key i ky x it fs o1 F H. destruct (RS_all warn _ k c f key [i] ky x it fs o1 F H) as (fs1 & -> & S1). exists fs1. split; [reflexivity|].
  destruct (eff look (access_of c) f k key [i]) as [[g|]|]; [exact I|exact S1|exact I].
Qed.

Lemma TS_step : forall n, TS n -> TS (S n).
Proof.
  intros n HT k c f key code ky x it fs o' F H.
  destruct k as [|k]; [destruct (same_fields _ _ _ _ _ _ _ _ _ H) as (fs' & ->); exists fs'; split; [reflexivity|exact I]|].
  destruct code as [|i rest]; [injection H as <-; exists fs; split; [reflexivity|cbn; reflexivity]|].
  destruct n as [|n]; [exfalso; cbn [rrun] in H; step H o1 E; discriminate H|].
  assert (K1 : exists o1, rrun warn (S (S n)) [i] ky x it (VObj c fs) = Done o1 /\ rrun warn (S n) rest ky x it o1 = Done o').
  { cbn [rrun] in H |- *. step H o1 E. exists o1. rewrite E. split; [reflexivity|exact H]. }
  destruct K1 as (o1 & E & H1). cbn [text].
  match goal with |- exists fs', _ /\ tsound (tseq ?e _) _ _ _ _ => set (e1 := e) end.
  assert (K : exists fs1, o1 = VObj c fs1 /\ tsound e1 f x fs fs1).
  2:{ destruct K as (fs1 & -> & S1). destruct (HT k c f key rest ky x it fs1 o' F H1) as (fs2 & -> & S2). exists fs2. split; [reflexivity|].
      exact (tsound_seq _ _ _ _ _ _ _ S1 S2). }
  clear H H1 rest o'. pose proof (one_eff n (S k) c f key i ky x it fs o1 F E) as ONE.
  assert (K0 : exists fs', o1 = VObj c fs') by exact (same_fields _ _ _ _ _ _ _ _ _ E).
  destruct i as [|m v|m gs v|a v|g t|m nm b|p a b|p b|v b|cc a b|g b|e soft|]; subst e1; try exact ONE.
  - clear ONE. cbn [rrun] in E. step E o2 E2. injection E as <-. cbn [read_attrs] in E2. injection E2 as <-.
    cbn [set_field]; eexists; (split; [reflexivity|]);
      (destruct (String.eqb_spec f "timestamp") as [->|N1]; [|destruct (String.eqb_spec f "uuid") as [->|N2]]); cbn [tsound nothing held]; rewrite ?assoc_set;
      try (intros Q; eexists; split; [|reflexivity]; solve [reflexivity|exact Q]).
    all: repeat match goal with |- context [String.eqb ?h ?g] => destruct (String.eqb_spec h g); [congruence|] end; reflexivity.
  - clear ONE. cbn [rrun] in E. step E o2 E2. injection E as <-. step E2 w E3. exact (tput_ok (S n) c f m v fs w ky it x key o2 F E3 E2).
  - clear ONE. cbn [rrun] in E. step E o2 E2. injection E as <-. unfold look. destruct (assoc g rfuns) as [[b r]|]; [|discriminate E2]. step E2 o3 E3.
    assert (Q : o2 = o3) by (destruct r as [r|]; [step E2 w Ew|]; now injection E2 as <-). subst o3.
    exact (HT k c f (akey key t) b (rtag ky x t) x VNone fs o2 (rtag_fits key ky x t F) E3).
  - clear ONE. cbn [rrun] in E. step E o2 E2. injection E as <-.
    destruct (text look (access_of c) f k key a) as [[[st s]|]|] eqn:TA; destruct (eff look (access_of c) f k key b) as [[gb|]|] eqn:GB;
      try (destruct K0 as (fs' & ->); exists fs'; split; [reflexivity|exact I]).
    + destruct (apath key p) as [q|] eqn:P; [|destruct K0 as (fs' & ->); exists fs'; split; [reflexivity|exact I]]. rewrite (path_fits _ _ _ _ F P) in E2.
      destruct (find q x) as [y|] eqn:Y.
      * destruct (HT k c f key a ky y it fs o2 F E2) as (fs' & -> & S1). rewrite TA in S1. exists fs'. split; [reflexivity|]. cbn [tsound held] in *. rewrite Y. exact S1.
      * destruct (RS_all warn (S n) k c f key b ky x it fs o2 F E2) as (fs' & -> & S1). rewrite GB in S1. exists fs'. split; [reflexivity|]. cbn [tsound held sound] in *. rewrite Y, S1.
        intros Q. exists (nothing s). auto.
    + destruct (find (rkey ky p) x) as [y|].
      * destruct (HT k c f key a ky y it fs o2 F E2) as (fs' & -> & S1). rewrite TA in S1. exists fs'. split; [reflexivity|exact S1].
      * destruct (RS_all warn (S n) k c f key b ky x it fs o2 F E2) as (fs' & -> & S1). rewrite GB in S1. exists fs'. split; [reflexivity|exact S1].
  - destruct (tloop (access_of c) f key v b) as [[ps s]|] eqn:TL; [|exact ONE]. clear ONE. unfold tloop in TL. destruct v; try discriminate TL.
    destruct b as [|[|m v0|m gs v0|a v0|g0 t0|m nm0 b0|p0 a b0|p0 b0|v0 b0|cc a b0|g0 b0|e0 soft|] [|i2 rest]]; try discriminate TL; destruct v0; try discriminate TL.
    destruct (access_of c m) as [[g|g|g gd|g gd|c' nm' p1]|] eqn:A; try discriminate TL. destruct (String.eqb_spec g f) as [->|]; [|discriminate TL].
    destruct (apath key p) as [q|] eqn:P; [|discriminate TL]. injection TL as <- <-.
    cbn [rrun] in E. step E o2 E2. injection E as <-. step E2 w E3. cbn [vrun] in E3. rewrite (path_fits _ _ _ _ F P) in E3.
    step E3 l E4. apply of_res_done in E4. injection E3 as <-. destruct (tloop_ok (S n) c f m gd ky x A l fs o2 E2) as (fs' & -> & S1).
    exists fs'. split; [reflexivity|]. cbn [tsound nothing held]. intros Q. exists (VList (map VLeaf l)). rewrite (S1 [] Q). split; [reflexivity|]. eauto.
Qed.
Lemma TS_all : forall n, TS n.
Proof. induction n as [|n IH]; [|exact (TS_step n IH)]. intros k c f key code ky x it fs o' F H. discriminate H. Qed.
End Run.
