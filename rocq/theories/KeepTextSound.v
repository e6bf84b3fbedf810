(** C60 from the check of KeepTextCheck.v and the soundness of the analysis (KeepTextProps.v). *)
From Coq Require Import String Ascii List Bool Arith Lia.
From Verif Require Import PyBase Primitives Xml Leaf ClassTable Ir Access ReaderCode IrSem Trie Term SpecRoundTrip SpecKeep SpecText Keep KeepProps KeepEq KeepCheck KeepSound
  KeepText KeepTextProps KeepTextCheck.
Import ListNotations.
Open Scope string_scope.
Open Scope list_scope.

Lemma all_texts_ok : texts_ok 200 rfun_trie anc_trie acc_trie (trow_trie text_rows) spots = true.
Proof. vm_cast_no_check (eq_refl true). Qed.

Lemma text_ext : forall lk lk' ac ac' f n key code, (forall g, lk g = lk' g) -> (forall m, ac m = ac' m) ->
  text lk ac f n key code = text lk' ac' f n key code.
Proof.
  intros lk lk' ac ac' f n key code L A. revert key code. induction n as [|n IH]; intros key code; [reflexivity|].
  destruct code as [|i rest]; [reflexivity|]. cbn [text]. rewrite <- (IH key rest). f_equal. clear rest.
  destruct i as [|m v|m gs v|a v|g t|m nm b|p a b|p b|v b|cc a b|g b|e soft|]; try (now rewrite (eff_ext lk lk' ac ac' f (S n) key _ L A)).
  - reflexivity.
  - unfold tput. now rewrite A.
  - rewrite <- L. destruct (lk g) as [[b r]|]; [apply IH|reflexivity].
  - rewrite (eff_ext lk lk' ac ac' f n key b L A). now rewrite IH.
  - rewrite (eff_ext lk lk' ac ac' f (S n) key _ L A). replace (tloop ac f key v b) with (tloop ac' f key v b); [reflexivity|].
    unfold tloop. destruct v; try reflexivity. destruct b as [|[] [|]]; try reflexivity. destruct v; try reflexivity. now rewrite A.
Qed.
Lemma text_trie : forall c f n key code, text (fun f => tfind f rfun_trie) (acc_in anc_trie acc_trie c) f n key code = text look (access_of c) f n key code.
Proof. intros. apply text_ext; [exact rfun_look|exact (acc_in_ok c)]. Qed.
Lemma trow_trie_in : forall l r, In r l -> exists rs, tfind (t_class r) (trow_trie l) = Some rs /\ In r rs.
Proof.
  induction l as [|r0 l IH]; intros r H; [destruct H|]. unfold trow_trie in *. cbn [fold_right]. rewrite tfind_tins.
  destruct (String.eqb_spec (t_class r) (t_class r0)) as [Q|N].
  - eexists. split; [reflexivity|]. destruct H as [->|H]; [now left|]. right. destruct (IH r H) as (rs & E & I). rewrite <- Q, E. exact I.
  - destruct H as [->|H]; [congruence|]. exact (IH r H).
Qed.
Lemma trows_in_in : forall l r c, In r l -> isinst c (t_class r) = true -> In r (trows_in (trow_trie l) (anc_in anc_trie c)).
Proof.
  intros l r c H I. unfold trows_in. apply in_flat_map. exists (t_class r). split.
  - rewrite anc_in_ok. unfold isinst in I. apply existsb_exists in I. destruct I as (d & D & E). apply String.eqb_eq in E. now subst.
  - destruct (trow_trie_in l r H) as (rs & -> & J). exact J.
Qed.
Lemma yes_ok : forall A B (d : {A} + {B}), yes d = true -> A.
Proof. intros A B [a|b] H; [exact a|discriminate H]. Qed.
Lemma source_eqb_ok : forall a b, source_eqb a b = true -> a = b.
Proof.
  intros [k p|k p|a] [k' p'|k' p'|a'] H; cbn [source_eqb] in H; try discriminate H.
  - destruct (String.eqb_spec p p') as [->|]; [|discriminate H]. now rewrite (yes_ok _ _ _ H).
  - destruct (String.eqb_spec p p') as [->|]; [|discriminate H]. now rewrite (yes_ok _ _ _ H).
  - apply String.eqb_eq in H. now subst.
Qed.
Lemma strs_eqb_ok : forall a b, list_eqb String.eqb a b = true -> a = b.
Proof.
  induction a as [|x a IH]; intros [|y b] H; cbn in H; try discriminate H; [reflexivity|]. destruct (String.eqb_spec x y) as [->|]; [|discriminate H]. now rewrite (IH b H).
Qed.

Section Main.
Context (fuel : nat) (warn : bool) (rws : list trow) (l : list spot).
Hypothesis all_ok : texts_ok fuel rfun_trie anc_trie acc_trie (trow_trie rws) l = true.
Lemma text_body : forall c k b, In (c, k, b) l -> text_ok fuel rfun_trie anc_trie acc_trie (trow_trie rws) c k b = true.
Proof.
  intros c k b H. pose proof all_ok as AO. unfold texts_ok in AO. rewrite forallb_forall in AO. specialize (AO _ H). cbv beta iota in AO. exact AO.
Qed.
Lemma untouched_eff : forall rt at_ ac c key b a, (forall g, tfind g rt = look g) -> (forall m, acc_in at_ ac c m = access_of c m) ->
  untouched fuel rt at_ ac c key b a = true ->
  eff look (access_of c) a fuel key b = Some None /\ String.eqb a "short_name" = false /\ assoc a (attrs_of c) = Some DNone.
Proof.
  intros rt at_ ac c key b a L A C. unfold untouched in C. rewrite (eff_ext _ look _ (access_of c) a fuel key b L A) in C.
  destruct (eff look (access_of c) a fuel key b) as [[g|]|]; try discriminate C. destruct (String.eqb a "short_name"); [discriminate C|].
  destruct (assoc a (attrs_of c)) as [[]|]; try discriminate C. auto.
Qed.
Lemma untouched_ok : forall n cl nm s b key ky x it fs a, fits key ky -> rrun warn n b ky x it (fresh nm cl s) = Done (VObj cl fs) ->
  untouched fuel rfun_trie anc_trie acc_trie cl key b a = true -> assoc a fs = Some VNone.
Proof.
  intros n cl nm s b key ky x it fs a F R C. destruct (untouched_eff _ _ _ _ _ _ _ rfun_look (acc_in_ok cl) C) as (U1 & U2 & U3).
  destruct (fresh_field nm cl s a) as (fs1 & E1 & Z & _). rewrite E1 in R.
  destruct (RS_all warn n fuel cl a key b ky x it fs1 _ F R) as (fs' & Q & S1). injection Q as <-.
  rewrite U1 in S1. cbn [sound] in S1. rewrite S1, (Z U2), U3. reflexivity.
Qed.
Lemma ran_text : forall n x v, ran warn l n x v -> exists c fs, v = VObj c fs /\
  (forall t, In t rws -> t_applies t c = true -> exists w, assoc (t_attr t) fs = Some w /\ held (t_path t) (t_source t) x w) /\
  (In c bare -> assoc "category" fs = Some VNone) /\
  (In c stampless -> assoc "timestamp" fs = Some VNone /\ assoc "uuid" fs = Some VNone).
Proof.
  intros n x v (cl & nm & s & b & key & ky & it & IL & F & HN & SN & R). pose proof (text_body _ _ _ IL) as C. unfold text_ok in C. cbv zeta in C.
  destruct (fresh_field nm cl s "") as (fs0 & E0 & _). pose proof R as R0. rewrite E0 in R0. apply run_same in R0. destruct R0 as (fs & ->). clear fs0 E0.
  match type of C with (if ?a then _ else _) = true => destruct a eqn:CB; [|discriminate C] end.
  match type of C with (if ?a then _ else _) = true => destruct a eqn:CS; [|discriminate C] end.
  exists cl, fs. split; [reflexivity|]. split; [|split].
  - intros t I A. apply andb_true_iff in A. destruct A as [A1 A2]. apply negb_true_iff in A2.
    rewrite forallb_forall in C. specialize (C t (trows_in_in _ _ _ I A1)). rewrite A2, text_trie in C.
    destruct (fresh_field nm cl s (t_attr t)) as (fs1 & E1 & Z & _). rewrite E1 in R.
    destruct (TS_all warn n fuel cl (t_attr t) key b ky x it fs1 _ F R) as (fs' & Q & S1). injection Q as <-.
    destruct (text look (access_of cl) (t_attr t) fuel key b) as [[[ps so]|]|]; try discriminate C. cbn [tsound] in S1.
    destruct (String.eqb (t_attr t) "short_name"); [discriminate C|]. specialize (Z eq_refl).
    destruct (tstart_ok (attrs_of cl) (t_attr t) so) eqn:ST; [|discriminate C].
    destruct (list_eqb String.eqb ps (t_path t)) eqn:CP; [|discriminate C]. apply strs_eqb_ok in CP. apply source_eqb_ok in C. rewrite <- CP, <- C. apply S1.
    rewrite Z. unfold tstart_ok in ST. destruct (assoc (t_attr t) (attrs_of cl)) as [[]|]; destruct so; try discriminate ST; reflexivity.
  - intros B. assert (EB : existsb (String.eqb cl) bare = true) by (apply existsb_exists; exists cl; split; [exact B|apply String.eqb_refl]).
    rewrite EB in CB. exact (untouched_ok _ _ _ _ _ _ _ _ _ _ _ F R CB).
  - intros B. assert (EB : existsb (String.eqb cl) stampless = true) by (apply existsb_exists; exists cl; split; [exact B|apply String.eqb_refl]).
    rewrite EB in CS. destruct (untouched fuel rfun_trie anc_trie acc_trie cl key b "timestamp") eqn:U1; [|discriminate CS].
    split; [exact (untouched_ok _ _ _ _ _ _ _ _ _ _ _ F R U1)|exact (untouched_ok _ _ _ _ _ _ _ _ _ _ _ F R CS)].
Qed.
End Main.

Lemma root_class : forall warn x u, loaded warn x u -> class_name u = Some "AUTOSAR".
Proof.
  intros warn x u (n & H). unfold read in H. destruct (KeepProps.init_obj "AUTOSAR") as (fs & E). rewrite E in H. apply KeepProps.run_same in H.
  destruct H as (fs' & ->). reflexivity.
Qed.
Lemma c60_all : forall warn x u way c y, loaded warn x u -> Forall (fun p => In (fst p) kept_rows) way -> element_at "AUTOSAR" way x = Some (c, y) ->
  exists o, object_at way u = Some o /\ class_name o = Some c /\
  (forall t, In t text_rows -> t_applies t c = true -> exists w, field o (t_attr t) = Some w /\ held (t_path t) (t_source t) y w) /\
  (In c bare -> field o "category" = Some VNone) /\
  (In c stampless -> field o "timestamp" = Some VNone /\ field o "uuid" = Some VNone).
Proof.
  intros warn x u way c y L I E. destruct (root_ran _ _ _ L) as (n & R).
  destruct (ran_at warn kept_rows spots eq_refl all_spots_ok way n x "AUTOSAR" u c y R (root_class _ _ _ L) I E) as (o & m & O & C & RO).
  destruct (ran_text 200 warn text_rows spots all_texts_ok m y o RO) as (c' & fs & -> & T & B & S1). injection C as ->.
  eexists. split; [exact O|]. split; [reflexivity|]. split; [exact T|]. split; [exact B|exact S1].
Qed.
