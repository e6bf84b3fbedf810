(** Soundness of the analysis of the writer code (TypeCheck.v): if all requirements hold, a run
    (IrSem.v) raises nothing else than the allowed exceptions. *)
From Coq Require Import String Ascii List Bool Floats.SpecFloat.
From Verif Require Import PyBase PyBaseFacts Primitives Xml Leaf ClassTable Ir Access WriterCode IrSem TypeCheck TypeFacts.
Import ListNotations.
Open Scope string_scope.
Open Scope list_scope.

Local Opaque wfuns access_table attr_table attrs_of ancestors access_of isinst init.
Strategy 100 [w_code].
Ltac bad A := apply all_cons in A; destruct A as [A _]; exact (False_ind _ A).

Lemma gets_app : forall p v g, gets v (p ++ [g]) = do u <- gets v p; get1 u g.
Proof.
  induction p as [|h p IH]; intros v g; cbn [gets app]; [cbn [obind]; destruct (get1 v g); reflexivity|].
  destruct (get1 v h) as [u|e| |]; cbn [obind]; try reflexivity. apply IH.
Qed.

Section Sound.
Context (acc : string -> string -> option access) (acc_ok : forall c m, acc c m = access_of c m).
Context (isin : string -> string -> bool) (isin_ok : forall c d, isin c d = isinst c d).
Context (fty : string -> string -> ty) (W : list (string * ty)).
Context (repr : spec_float -> string) (warn : bool) (allowed : exn -> Prop) (called : string -> string -> Prop) (names : bool).
Context (type_error : allowed TypeError \/ ~ allowed TypeError).

Definition wty (f : string) : ty := match assoc f W with Some t => t | None => tempty end.
Let all := TypeFacts.all fty wty warn allowed called names.
Let hasb := TypeFacts.hasb fty.
Let hast := TypeFacts.hast fty.

Definition wf1 (v : val) (f : list gstep * ty) : Prop := exists x, gets v (fst f) = Done x /\ hast x (snd f).
Definition wfs (v : val) (F : wfacts) : Prop := Forall (wf1 v) F.
Lemma path_eqb_ok : forall p q, path_eqb p q = true -> p = q.
Proof.
  induction p as [|a p IH]; intros [|b q] H; cbn in H; try discriminate; [reflexivity|]. apply andb_true_iff in H. destruct H as [H1 H2].
  apply IH in H2. subst. destruct a; destruct b; cbn in H1; try discriminate; apply String.eqb_eq in H1; now subst.
Qed.
Lemma wknown_ok : forall F v p t, wfs v F -> wknown F p = Some t -> exists x, gets v p = Done x /\ hast x t.
Proof.
  induction F as [|[q u] F IH]; intros v p t H E; cbn in E; [discriminate|]. inversion H as [|? ? X Y]; subst. destruct (path_eqb p q) eqn:EP.
  - apply path_eqb_ok in EP. inversion E; subst. exact X.
  - eapply IH; eauto.
Qed.
Lemma path_ok : forall p F v pre t u, wfs v F -> gets v pre = Done u -> hast u t -> all (fst (path_ty acc fty F pre t p)) ->
  okres allowed (gets u p) (fun x => hast x (snd (path_ty acc fty F pre t p)) /\ gets v (pre ++ p) = Done x).
Proof.
  induction p as [|g p IH]; intros F v pre t u HF G H A.
  - cbn [path_ty gets fst snd] in *. cbn [okres]. rewrite app_nil_r. split; [|exact G].
    destruct (wknown F pre) as [t'|] eqn:E; [|exact H]. destruct (wknown_ok _ _ _ _ HF E) as (x & G' & X). congruence.
  - cbn [path_ty gets fst snd] in *.
    set (t' := match wknown F pre with Some u0 => u0 | None => t end) in *.
    assert (H' : hast u t').
    { subst t'. destruct (wknown F pre) as [t'|] eqn:E; [|exact H]. destruct (wknown_ok _ _ _ _ HF E) as (x & G' & X). congruence. }
    apply all_app in A. destruct A as [A1 A2].
    pose proof (get_ty_ok _ _ acc_ok _ _ _ _ _ type_error u t' g H' A1) as X.
    destruct (get1 u g) as [y|e| |] eqn:EG; cbn [obind okres] in X |- *; try exact X.
    assert (Gy : gets v (pre ++ [g]) = Done y) by (rewrite gets_app, G; exact EG).
    eapply okres_weaken; [apply (IH F v (pre ++ [g]) _ y HF Gy X A2)|]. cbn beta. intros x [Hx Ex]. split; [exact Hx|].
    rewrite <- app_assoc in Ex. exact Ex.
Qed.
Lemma path0 : forall p F v t, wfs v F -> hast v t -> all (fst (path_ty acc fty F [] t p)) ->
  okres allowed (gets v p) (fun x => hast x (snd (path_ty acc fty F [] t p)) /\ gets v p = Done x).
Proof. intros p F v t HF H A. exact (path_ok p F v [] t v HF eq_refl H A). Qed.

Lemma no_list_ok : forall x t s, hast x t -> all (no_list t s) -> exists b, In b (ts t) /\ hasb x b.
Proof.
  intros x t s H A. unfold no_list in A. inversion H as [? b ? I B|vs bs ? E F]; subst; [eauto|]. rewrite E in A. bad A.
Qed.
Lemma only_ok : forall t f b, all (only t f) -> In b (ts t) -> all (f b).
Proof. intros t f b A I. exact (all_flat _ _ _ _ _ _ _ _ _ _ A I). Qed.

Definition wcc (v : val) (r : wcres) (b : bool) : Prop := (b = true -> wfs v (w_true r)) /\ (b = false -> wfs v (w_false r)).
Lemma test_ok : forall v p a f r x b (k : bool), gets v p = Done x -> In b (ts (snd a)) -> hasb x b ->
  (k = true -> fst (f b) = true) -> (k = false -> snd (f b) = true) -> wcc v (test p a f r) k.
Proof.
  intros v p a f r x b k G I B H1 H2. unfold wcc, test. cbn [w_true w_false]. split; intros E; (constructor; [|constructor]); exists x; (split; [exact G|]);
    cbn [snd]; eapply T_s; try exact B; cbn [ts]; apply filter_In; split; auto.
Qed.
Lemma isin_cs : forall k cs, existsb (isin k) cs = existsb (isinst k) cs.
Proof. intros k. induction cs as [|c cs IH]; [reflexivity|]. cbn. now rewrite isin_ok, IH. Qed.
Lemma dead_facts : forall v F, wfs v F -> existsb (fun x : list gstep * ty => is_empty_ty (snd x)) F = false.
Proof.
  intros v F H. destruct (existsb _ F) eqn:E; [|reflexivity]. apply existsb_exists in E. destruct E as ([p t] & I & E). unfold wfs in H. rewrite Forall_forall in H.
  destruct (H _ I) as (x & _ & X). cbn [snd] in *. destruct t as [[|? ?] [|]]; try discriminate. inversion X as [? ? ? Ib|? ? ? Q]; [destruct Ib|discriminate].
Qed.
Lemma wcond_ok : forall c F v t, wfs v F -> hast v t -> all (w_req (w_cond acc isin fty F t c)) ->
  okres allowed (wcheck v c) (wcc v (w_cond acc isin fty F t c)).
Proof.
  induction c as [p|p|p cs|p c|p|c IH|a IHa b IHb]; intros F v t HF H A; cbn [w_cond w_req test wcheck] in A |- *.
  - eapply okres_bind; [apply path0; eassumption|]. intros x [X G]. cbn [okres]. unfold wcc. cbn [w_true w_false].
    split; intros E; (constructor; [|constructor]); exists x; (split; [exact G|]); cbn [snd].
    + inversion X as [? b ? I B|vs bs ? EL F0]; subst; [|eapply T_l; [exact EL|exact F0]]. eapply T_s; [|exact B]. cbn. apply not_none_ok; [exact I|].
      intros ->. inversion B; subst. discriminate.
    + destruct x; try discriminate. inversion X as [? b ? I B|]; subst. eapply T_s; [|exact B]. inversion B; subst. cbn [ts]. apply filter_In. split; [exact I|reflexivity].
  - apply all_app in A. destruct A as [A1 A2]. eapply okres_bind; [apply path0; eassumption|]. intros x [X G].
    inversion X as [? b ? I B|vs bs ? EL F0]; subst; [|split; intros _; constructor]. pose proof (only_ok _ _ _ A2 I) as A3. cbn beta in A3.
    destruct B; try bad A3. apply all_cons in A3. exact (proj1 A3).
  - apply all_app in A. destruct A as [A1 A2]. apply all_app in A2. destruct A2 as [A2 A3]. eapply okres_bind; [apply path0; eassumption|]. intros x [X G].
    destruct (no_list_ok _ _ _ X A2) as (b & I & B). pose proof (only_ok _ _ _ A3 I) as A4. cbn beta in A4.
    destruct B; try bad A4; cbn [okres]; (eapply test_ok; [exact G|exact I|econstructor; eassumption| |]); cbn beta iota; cbn [fst snd]; rewrite ?isin_cs;
      intros E; rewrite ?E; try discriminate; reflexivity.
  - apply all_app in A. destruct A as [A1 A2]. apply all_app in A2. destruct A2 as [A2 A3]. eapply okres_bind; [apply path0; eassumption|]. intros x [X G].
    destruct (no_list_ok _ _ _ X A2) as (b & I & B). pose proof (only_ok _ _ _ A3 I) as A4. cbn beta in A4.
    destruct B; try bad A4; cbn [okres]; (eapply test_ok; [exact G|exact I|econstructor; eassumption| |]); cbn beta iota; cbn [fst snd];
      intros E; rewrite ?E; try discriminate; reflexivity.
  - apply all_app in A. destruct A as [A1 A3]. eapply okres_bind; [apply path0; eassumption|]. intros x [X G].
    inversion X as [? b ? I B|vs bs ? EL F0]; subst.
    + pose proof (only_ok _ _ _ A3 I) as A4. cbn beta in A4.
      destruct B; try bad A4; cbn [okres]; (eapply test_ok; [exact G|exact I|econstructor; eassumption| |]); cbn beta iota; cbn [fst snd];
        intros E; try discriminate; reflexivity.
    + cbn [okres]. split; intros _; (constructor; [|constructor]); exists (VList vs); (split; [exact G|]); (eapply T_l; [exact EL|exact F0]).
  - eapply okres_bind; [eapply IH; eassumption|]. intros b [B1 B2]. cbn [okres]. unfold wcc. cbn [w_true w_false]. split; intros E.
    + apply B2. now destruct b.
    + apply B1. now destruct b.
  - assert (A1 : all (w_req (w_cond acc isin fty F t a))).
    { destruct (existsb _ _); cbn [w_req] in A; [exact A|]. apply all_app in A. apply A. }
    eapply okres_bind; [eapply IHa; eassumption|]. intros x [B1 B2]. destruct x.
    + specialize (B1 eq_refl). rewrite (dead_facts _ _ B1) in A |- *. cbn [w_req] in A. apply all_app in A. destruct A as [_ A].
      eapply okres_weaken; [apply IHb with (F := w_true (w_cond acc isin fty F t a) ++ F); [unfold wfs; now apply Forall_app|exact H|exact A]|].
      intros y [D1 D2]. unfold wcc. cbn [w_true w_false]. split; [|intros _; constructor]. intros E. unfold wfs. apply Forall_app. split; [now apply D1|exact B1].
    + cbn [okres]. destruct (existsb _ _); (split; [discriminate|]); intros _; constructor.
Qed.

Lemma leaf_ok : forall k tag x b e, hasb x b -> all (leaf_fits k b) ->
  okres allowed (do l <- as_leaf x; do xs <- of_res (leaf_write repr k tag l); Done (fold_left add_kid xs e)) (fun _ => True).
Proof.
  intros k tag x b e B A. destruct B; cbn [leaf_fits] in A; destruct k; try bad A; cbn; try exact I; apply all_cons in A; exact (proj1 A).
Qed.

Hypothesis funs_ok : forall f t, assoc f W = Some t -> all (w_fun acc isin fty W f).

Lemma w_sound : forall n m code F t key v e, wfs v F -> hast v t -> all (w_code acc isin fty m code F t) ->
  okres allowed (wrun repr warn n code key v e) (fun _ => True).
Proof.
  induction n as [|n IH]; intros m code F t key v e HF H A; [exact I|]. destruct m as [|m]; [cbn in A; bad A|].
  destruct code as [|i rest]; [exact I|]. cbn [w_code] in A. apply all_app in A. destruct A as [A1 A2].
  cbn [wrun]. eapply okres_bind with (P := fun _ => True); [|intros e' _; eapply IH; eassumption]. clear A2.
  destruct i as [p|p|k tg p|f tg p|tg b|c a b|p b|nm p|nm s|nm mp p|p|x soft|].
  - apply all_app in A1. destruct A1 as [A1 A2]. apply all_app in A2. destruct A2 as [A2 A3]. eapply okres_bind; [apply path0; eassumption|]. intros x [X _].
    destruct (no_list_ok _ _ _ X A2) as (b & I0 & B). pose proof (only_ok _ _ _ A3 I0) as A4. cbn beta in A4. destruct B; try bad A4.
    + apply all_cons in A4. exact (proj1 A4).
    + exact I.
  - apply all_app in A1. destruct A1 as [A1 A2]. apply all_app in A2. destruct A2 as [A2 A3]. eapply okres_bind; [apply path0; eassumption|]. intros x [X _].
    destruct (no_list_ok _ _ _ X A2) as (b & I0 & B). pose proof (only_ok _ _ _ A3 I0) as A4. cbn beta in A4. destruct B; try bad A4; exact I.
  - apply all_app in A1. destruct A1 as [A1 A2]. apply all_app in A2. destruct A2 as [A2 A3]. eapply okres_bind; [apply path0; eassumption|]. intros x [X _].
    destruct (no_list_ok _ _ _ X A2) as (b & I0 & B). pose proof (only_ok _ _ _ A3 I0) as A4. cbn beta in A4. eapply leaf_ok; eassumption.
  - apply all_app in A1. destruct A1 as [A1 A2]. apply all_cons in A2. destruct A2 as [A2 _]. eapply okres_bind; [apply path0; eassumption|]. intros x [X _].
    pose proof (hast_tsub _ _ _ _ X A2) as Y. unfold wty in Y. destruct (assoc f W) as [u|] eqn:Ef.
    + pose proof (funs_ok _ _ Ef) as Q. unfold w_fun in Q. rewrite Ef in Q. destruct (assoc f wfuns) as [body|]; [|bad Q].
      destruct (is_empty_ty u) eqn:Eu.
      * destruct u as [[|? ?] [|]]; try discriminate. inversion Y as [? ? ? Ib|? ? ? Q1]; [destruct Ib|discriminate].
      * eapply IH; [constructor|exact Y|exact Q].
    + inversion Y as [? ? ? Ib|? ? ? Q1]; [destruct Ib|discriminate].
  - eapply okres_bind with (P := fun _ => True); [eapply IH; eassumption|]. intros; exact I.
  - apply all_app in A1. destruct A1 as [A1 A2]. apply all_app in A2. destruct A2 as [A2 A3]. eapply okres_bind; [eapply wcond_ok; eassumption|]. intros x [B1 B2]. destruct x.
    + specialize (B1 eq_refl). rewrite (dead_facts _ _ B1) in A2. eapply IH; [|exact H|exact A2]. unfold wfs. now apply Forall_app.
    + specialize (B2 eq_refl). rewrite (dead_facts _ _ B2) in A3. eapply IH; [|exact H|exact A3]. unfold wfs. now apply Forall_app.
  - apply all_app in A1. destruct A1 as [A1 A2]. apply all_app in A2. destruct A2 as [A2 A3]. eapply okres_bind; [apply path0; eassumption|]. intros x [X _].
    inversion X as [? b0 ? I0 B|vs bs ? EL F0]; subst.
    + pose proof (only_ok _ _ _ A2 I0) as A4. cbn beta in A4. destruct B; try bad A4. apply all_cons in A4. exact (proj1 A4).
    + apply okres_fold; [|exact I]. intros y s Iy _. rewrite EL in A3. rewrite Forall_forall in F0. destruct (F0 y Iy) as (b0 & Ib & B).
      destruct bs as [|b1 bs]; [destruct Ib|]. eapply IH; [constructor| |exact A3]. apply hast_base. eauto.
  - apply all_app in A1. destruct A1 as [A1 A2]. apply all_app in A2. destruct A2 as [A2 A3]. eapply okres_bind; [apply path0; eassumption|]. intros x [X _].
    destruct (no_list_ok _ _ _ X A2) as (b & I0 & B). pose proof (only_ok _ _ _ A3 I0) as A4. cbn beta in A4. destruct B; try bad A4; exact I.
  - exact I.
  - apply all_app in A1. destruct A1 as [A1 A2]. apply all_app in A2. destruct A2 as [A2 A3]. apply all_cons in A3. destruct A3 as [QN A3].
    eapply okres_bind; [apply path0; eassumption|]. intros x [X _].
    destruct (no_list_ok _ _ _ X A2) as (b & I0 & B). pose proof (only_ok _ _ _ A3 I0) as A4. cbn beta in A4. destruct B; try bad A4.
    destruct (assoc s mp); [exact I|]. cbn in QN. destruct warn; [exact I|]. cbn. auto.
  - apply all_app in A1. destruct A1 as [A1 A2]. apply all_app in A2. destruct A2 as [A2 A3]. eapply okres_bind; [apply path0; eassumption|]. intros x [X _].
    destruct (no_list_ok _ _ _ X A2) as (b & I0 & B). pose proof (only_ok _ _ _ A3 I0) as A4. cbn beta in A4. destruct B; try bad A4; exact I.
  - apply all_cons in A1. destruct A1 as [A1 _]. destruct soft; cbn [andb]; [|exact A1]. cbn in A1. destruct warn; [exact I|]. cbn. auto.
  - bad A1.
Qed.
End Sound.
