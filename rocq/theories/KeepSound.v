(** C59 from the check of KeepCheck.v and the soundness of the analysis (KeepProps.v). *)
From Coq Require Import String Ascii List Bool Arith Lia.
From Verif Require Import PyBase Primitives Xml Leaf ClassTable Ir Access ReaderCode IrSem Trie Term SpecRoundTrip SpecKeep Keep KeepEq KeepProps KeepCheck.
Import ListNotations.
Open Scope string_scope.
Open Scope list_scope.

(** *** the tries *)
Lemma eff_ext : forall lk lk' ac ac' f n key code, (forall g, lk g = lk' g) -> (forall m, ac m = ac' m) ->
  eff lk ac f n key code = eff lk' ac' f n key code.
Proof.
  intros lk lk' ac ac' f n key code L A. revert key code.
  assert (V : forall n key v, vgain lk n key v = vgain lk' n key v).
  { clear n. induction n as [|n IH]; intros key v; [reflexivity|]. destruct v; cbn [vgain]; try reflexivity.
    - rewrite L. destruct (lk' f0) as [[b [r|]]|]; [apply IH|reflexivity|reflexivity].
    - destruct v2; try reflexivity. now rewrite IH.
    - destruct c; try reflexivity. now rewrite !IH. }
  induction n as [|n IH]; intros key code; [reflexivity|]. destruct code as [|i rest]; [reflexivity|]. cbn [eff]. rewrite <- (IH key rest). f_equal. clear rest.
  destruct i as [|m v|m gs v|a v|g t|m nm b|p a b|p b|v b|cc a b|g b|e soft|]; rewrite <- ?A, <- ?V, <- ?L; try reflexivity.
  1: destruct (lk g) as [[b r]|]; [apply IH|reflexivity].
  all: try (now rewrite ?IH).
  destruct g as [m|g]; [now rewrite A|reflexivity].
Qed.
Lemma row_trie_in : forall l r, In r l -> exists rs, tfind (r_class r) (row_trie l) = Some rs /\ In r rs.
Proof.
  induction l as [|r0 l IH]; intros r H; [destruct H|]. unfold row_trie in *. cbn [fold_right]. rewrite tfind_tins.
  destruct (String.eqb_spec (r_class r) (r_class r0)) as [Q|N].
  - eexists. split; [reflexivity|]. destruct H as [->|H]; [now left|]. right. destruct (IH r H) as (rs & E & I). rewrite <- Q, E. exact I.
  - destruct H as [->|H]; [congruence|]. exact (IH r H).
Qed.
Lemma rows_in_in : forall l r c, In r l -> isinst c (r_class r) = true -> In r (rows_in (row_trie l) (anc_in anc_trie c)).
Proof.
  intros l r c H I. unfold rows_in. apply in_flat_map. exists (r_class r). split.
  - rewrite anc_in_ok. unfold isinst in I. apply existsb_exists in I. destruct I as (d & D & E). apply String.eqb_eq in E. now subst.
  - destruct (row_trie_in l r H) as (rs & -> & J). exact J.
Qed.
Lemma key_eqb_ok : forall a b, key_eqb a b = true -> a = b.
Proof. intros [a|] [b|] H; cbn in H; try discriminate H; [apply String.eqb_eq in H; now subst|reflexivity]. Qed.
Lemma spots_trie_in : forall l c s k b, tfind c (spots_trie l) = Some s -> In (k, b) s -> In (c, k, b) l.
Proof.
  induction l as [|[[c0 k0] b0] l IH]; intros c s k b H I.
  - unfold spots_trie in H. cbn [fold_right] in H. rewrite tfind_t0 in H. discriminate H.
  - unfold spots_trie in *. cbn [fold_right] in H. unfold put_spot at 1 in H. rewrite tfind_tins in H. destruct (String.eqb_spec c c0) as [Q|N].
    + injection H as <-. subst c0. destruct I as [E|I]; [left; now injection E as <- <-|]. right.
      match type of I with In _ (match ?q with _ => _ end) => destruct q as [l'|] eqn:E end; [exact (IH c l' k b E I)|destruct I].
    + right. exact (IH c s k b H I).
Qed.
(** a place of the list, possibly with an unknown key parameter *)
Definition listed (l : list spot) (c : string) (k : option string) (b : list ri) : Prop := exists k', In (c, k', b) l /\ forall s, fits k s -> fits k' s.
Lemma spot_in_ok : forall l c k b, spot_in (spots_trie l) c k b = true -> listed l c k b.
Proof.
  intros l c k b H. unfold spot_in in H. destruct (tfind c (spots_trie l)) as [s|] eqn:E; [|discriminate H].
  apply existsb_exists in H. destruct H as ([k' b'] & I & Q). cbn [same_spot] in Q.
  destruct (match k' with None => true | Some _ => key_eqb k k' end) eqn:K; [|discriminate Q]. apply code_eqb_ok in Q. subst b'.
  exists k'. split; [exact (spots_trie_in _ _ _ _ _ E I)|]. intros s0 F. destruct k' as [k'|]; [|exact Logic.I]. apply key_eqb_ok in K. now subst k.
Qed.
Lemma steps_eqb_ok : forall a b, steps_eqb a b = true -> a = b.
Proof.
  induction a as [|x a IH]; intros [|y b] H; cbn in H; try discriminate H; [reflexivity|]. destruct (step_eqb x y) eqn:E; [|discriminate H].
  rewrite (IH b H). f_equal. destruct x, y; cbn in E; try discriminate E; apply String.eqb_eq in E; now subst.
Qed.
Lemma kinds_pick : forall d ks t, kinds_eqb d ks = true -> pick ks t = match pick d t with Some (c, _, _, _) => Some c | None => None end.
Proof.
  induction d as [|[t0 [[[c nm] b] k]] d IH]; intros [|[t' c'] ks] t H; cbn in H; try discriminate H; [reflexivity|].
  destruct (String.eqb_spec t0 t') as [->|]; [|discriminate H]. destruct (String.eqb_spec c c') as [->|]; [|discriminate H].
  cbn [pick]. destruct (String.eqb t' t || String.eqb t' "*"); [reflexivity|]. exact (IH ks t H).
Qed.
Lemma picked_same : forall st d ks x, kinds_eqb d ks = true -> picked st ks x = picked st d x.
Proof.
  intros st d ks x H. unfold picked. apply filter_ext. intros y. rewrite (kinds_pick d ks (xtag y) H). destruct (pick d (xtag y)) as [[[[c nm] b] k]|]; reflexivity.
Qed.
Lemma pick_in : forall A (d : list (string * A)) t e, pick d t = Some e -> exists k, In (k, e) d.
Proof.
  intros A. induction d as [|[k a] d IH]; intros t e H; [discriminate H|]. cbn [pick] in H. destruct (_ || _); [injection H as <-; exists k; now left|].
  destruct (IH t e H) as (k' & I). exists k'. now right.
Qed.

(** *** new objects *)
Lemma init_field : forall c f, exists fs, init c = VObj c fs /\ assoc f fs = option_map (init_val 1) (assoc f (attrs_of c)).
Proof.
  intros c f. unfold init. cbn [init_val]. eexists. split; [reflexivity|].
  exact (Trie.assoc_map _ _ (fun _ d => init_val 1 d) (attrs_of c) f).
Qed.
Definition fresh (nm : bool) (cl : string) (s : option string) : val := if nm then named_init cl (of_opt_str s) else init cl.
Lemma fresh_field : forall nm cl s f, exists fs, fresh nm cl s = VObj cl fs /\
  (String.eqb f "short_name" = false -> assoc f fs = option_map (init_val 1) (assoc f (attrs_of cl))) /\
  (nm = true -> assoc "short_name" fs = Some (of_opt_str s)).
Proof.
  intros nm cl s f. unfold fresh, named_init. destruct (init_field cl f) as (fs & -> & E). destruct nm.
  - exists (set_assoc fs "short_name" (of_opt_str s)). split; [reflexivity|]. split; intros Q; rewrite assoc_set; [now rewrite Q|reflexivity].
  - exists fs. split; [reflexivity|]. split; [intros _; exact E|discriminate].
Qed.

Lemma eff_trie : forall c f n key code, eff (fun f => tfind f rfun_trie) (acc_in anc_trie acc_trie c) f n key code = eff look (access_of c) f n key code.
Proof. intros. apply eff_ext; [exact rfun_look|exact (acc_in_ok c)]. Qed.

Section Main.
Context (warn : bool) (rws : list row) (l : list spot).
Hypothesis same_rows : rws = kept_rows.
Hypothesis all_ok : spots_ok rfun_trie anc_trie acc_trie (row_trie rws) (spots_trie l) l = true.

Lemma spot_body : forall c k b, In (c, k, b) l -> spot_ok rfun_trie anc_trie acc_trie (row_trie rws) (spots_trie l) c k b = true.
Proof.
  intros c k b H. pose proof all_ok as AO. unfold spots_ok in AO. rewrite forallb_forall in AO. specialize (AO _ H). cbv beta iota in AO. exact AO.
Qed.

(** [v] was made from [x] by the code of a listed place *)
Definition ran (n : nat) (x : xml) (v : val) : Prop := exists cl nm s b key ky it, In (cl, key, b) l /\ fits key ky /\ (has_name cl = true -> nm = true) /\
  (nm = true -> short_name x = Ok s) /\ rrun warn n b ky x it (fresh nm cl s) = Done v.

Lemma ran_step : forall n x v, ran n x v -> exists c fs, v = VObj c fs /\
  (has_name c = true -> exists s, short_name x = Ok s /\ assoc "short_name" fs = Some (of_opt_str s)) /\
  (forall r, In r kept_rows -> applies r c = true -> exists w, assoc (r_attr r) fs = Some w /\
     Forall2 (fun y o => class_name o = pick (r_kinds r) (xtag y) /\ exists m, m < n /\ ran m y o) (picked (r_path r) (r_kinds r) x) (items w)) /\
  (In c bare -> forall a, In a unread -> assoc a fs = Some VNone).
Proof.
  intros n x v (cl & nm & s & b & key & ky & it & IL & F & HN & SN & R). pose proof (spot_body _ _ _ IL) as C. unfold spot_ok in C. cbv zeta in C. rewrite eff_trie in C.
  destruct (fresh_field nm cl s "") as (fs0 & E0 & _). pose proof R as R0. rewrite E0 in R0. apply run_same in R0. destruct R0 as (fs & ->). clear fs0 E0.
  match type of C with (if ?a then _ else _) = true => destruct a eqn:CN; [|discriminate C] end.
  match type of C with (if ?a then _ else _) = true => destruct a eqn:CB; [|discriminate C] end.
  exists cl, fs. split; [reflexivity|]. split; [|split].
  - intros H. pose proof (HN H) as NM. destruct (fresh_field nm cl s "") as (fs1 & E1 & _ & N1). rewrite E1 in R.
    destruct (RS_all warn n 200 cl "short_name" key b ky x it fs1 _ F R) as (fs' & Q & S1). injection Q as <-.
    exists s. split; [exact (SN NM)|]. unfold has_name in H. destruct (assoc "short_name" (attrs_of cl)); [|discriminate H].
    destruct (eff look (access_of cl) "short_name" 200 key b) as [[g|]|]; try discriminate CN. cbn [sound] in S1. rewrite S1. exact (N1 NM).
  - intros r I A. rewrite <- same_rows in I. apply andb_true_iff in A. destruct A as [A1 A2]. apply negb_true_iff in A2.
    rewrite forallb_forall in C. specialize (C r (rows_in_in _ _ _ I A1)). rewrite A2, eff_trie in C.
    destruct (fresh_field nm cl s (r_attr r)) as (fs1 & E1 & Z & _). rewrite E1 in R.
    destruct (RS_all warn n 200 cl (r_attr r) key b ky x it fs1 _ F R) as (fs' & Q & S1). injection Q as <-.
    destruct (eff look (access_of cl) (r_attr r) 200 key b) as [[g|]|]; try discriminate C. cbn [sound] in S1.
    destruct (String.eqb (r_attr r) "short_name"); [discriminate C|]. specialize (Z eq_refl).
    destruct (start_ok (attrs_of cl) (r_attr r) (g_once g)) eqn:CS; [|discriminate C].
    destruct (steps_eqb (g_steps g) (r_path r)) eqn:CP; [|discriminate C]. apply steps_eqb_ok in CP.
    destruct (kinds_eqb (g_disp g) (r_kinds r)) eqn:CK; [|discriminate C].
    assert (W : exists w0, assoc (r_attr r) fs1 = Some w0 /\ (g_once g = true -> w0 = VNone) /\ items_of w0 = []).
    { unfold start_ok in CS. rewrite Z. destruct (assoc (r_attr r) (attrs_of cl)) as [[]|]; try discriminate CS.
      - exists VNone. auto.
      - exists (VList []). split; [reflexivity|]. split; [|reflexivity]. destruct (g_once g); [discriminate CS|discriminate]. }
    destruct W as (w0 & W1 & W2 & W3). destruct (S1 w0 W1 W2) as (w1 & ws & Q1 & Q2 & M). rewrite W3 in Q2. cbn [app] in Q2.
    exists w1. split; [exact Q1|]. rewrite (picked_same _ _ _ _ CK), <- CP. change items with items_of. rewrite Q2.
    clear CB Q1 Q2 w1 W1 W2 W3 w0 S1 R Z CS E1 fs1 fs CN SN HN. rewrite forallb_forall in C.
    induction M as [|y v ys vs M _ IHM]; constructor; [|exact IHM].
    destruct M as (cl' & nm' & b' & k' & ky' & it' & m & s' & P & F' & L & N' & R'). split.
    + rewrite (kinds_pick _ _ _ CK), P. destruct (fresh_field nm' cl' s' "") as (fs0 & E0 & _). unfold fresh in E0. rewrite E0 in R'.
      apply run_same in R'. destruct R' as (gs & ->). reflexivity.
    + destruct (pick_in _ _ _ _ P) as (t & J). specialize (C _ J). cbn [snd] in C.
      assert (HN' : has_name cl' = true -> nm' = true).
      { intros H. destruct nm'; [reflexivity|]. rewrite H in C. discriminate C. }
      assert (C' : spot_in (spots_trie l) cl' k' b' = true).
      { destruct (if nm' then true else negb (has_name cl')); [exact C|discriminate C]. }
      apply spot_in_ok in C'. destruct C' as (k2 & I2 & F2). exists m. split; [exact L|]. exists cl', nm', s', b', k2, ky', it'. auto.
  - intros B a IA. assert (EB : existsb (String.eqb cl) bare = true) by (apply existsb_exists; exists cl; split; [exact B|apply String.eqb_refl]).
    rewrite EB in CB. rewrite forallb_forall in CB. specialize (CB a IA). rewrite eff_trie in CB.
    destruct (fresh_field nm cl s a) as (fs1 & E1 & Z & _). rewrite E1 in R.
    destruct (RS_all warn n 200 cl a key b ky x it fs1 _ F R) as (fs' & Q & S1). injection Q as <-.
    destruct (eff look (access_of cl) a 200 key b) as [[g|]|]; try discriminate CB. cbn [sound] in S1.
    destruct (String.eqb a "short_name"); [discriminate CB|]. specialize (Z eq_refl). rewrite S1, Z.
    destruct (assoc a (attrs_of cl)) as [[]|]; try discriminate CB. reflexivity.
Qed.
Lemma keep_all : forall n x v, ran n x v -> kept_in x v.
Proof.
  intros n. induction n as [n IH] using (well_founded_induction lt_wf). intros x v R. destruct (ran_step n x v R) as (c & fs & -> & N & K & B). constructor; [exact N| |exact B].
  intros r I A. destruct (K r I A) as (w & W & F). exists w. split; [exact W|]. clear W. induction F as [|y o ys os [F1 (m & L & F2)] _ IHF]; constructor; [|exact IHF].
  split; [exact F1|exact (IH m L y o F2)].
Qed.
(** the run behind each object of the document *)
Lemma nth_two : forall A B (R : A -> B -> Prop) l l', Forall2 R l l' -> forall i a, nth_error l i = Some a -> exists b, nth_error l' i = Some b /\ R a b.
Proof.
  intros A B R l1 l' F. induction F as [|a b l1 l' H F IH]; intros [|i] a' E; try discriminate E.
  - injection E as <-. exists b. auto.
  - exact (IH i a' E).
Qed.
Lemma ran_at : forall way n x c v c' y, ran n x v -> class_name v = Some c -> Forall (fun p => In (fst p) kept_rows) way ->
  element_at c way x = Some (c', y) -> exists o m, object_at way v = Some o /\ class_name o = Some c' /\ ran m y o.
Proof.
  induction way as [|[r i] way IH]; intros n x c v c' y K C I E; cbn [element_at object_at] in *.
  - injection E as <- <-. exists v, n. auto.
  - pose proof (Forall_inv I) as I1. pose proof (Forall_inv_tail I) as I2. cbn [fst] in I1. destruct (applies r c) eqn:A; [|discriminate E].
    destruct (nth_error (picked (r_path r) (r_kinds r) x) i) as [y1|] eqn:N; [|discriminate E].
    destruct (pick (r_kinds r) (xtag y1)) as [c1|] eqn:P; [|discriminate E].
    destruct (ran_step _ _ _ K) as (c0 & fs & -> & _ & KR & _). injection C as <-. destruct (KR r I1 A) as (w & W & F). cbn [field]. rewrite W.
    destruct (nth_two _ _ _ _ _ F i y1 N) as (o & O & Q & m & _ & K1). rewrite O. rewrite P in Q. exact (IH m y1 c1 o c' y K1 Q I2 E).
Qed.
End Main.

Lemma root_name : has_name "AUTOSAR" = true -> false = true.
Proof. vm_compute. trivial. Qed.
Lemma root_ran : forall warn x u, loaded warn x u -> exists n, ran warn spots n x u.
Proof.
  intros warn x u (n & H). destruct (spot_in_ok _ _ _ _ root_in) as (k & I & F). exists n, "AUTOSAR", false, None, load_code, k, "", VNone.
  split; [exact I|]. split; [exact (F "" eq_refl)|]. split; [exact root_name|]. split; [discriminate|exact H].
Qed.
Lemma kept_loaded : forall warn x u, loaded warn x u -> kept_in x u.
Proof. intros warn x u H. destruct (root_ran _ _ _ H) as (n & R). exact (keep_all warn kept_rows spots eq_refl all_spots_ok n x u R). Qed.
