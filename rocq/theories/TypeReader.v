(** Soundness of the analysis of the reader code (TypeCheck.v): if all requirements hold, a run
    (IrSem.v) raises nothing else than the allowed exceptions and leaves what was computed. *)
From Coq Require Import String Ascii List Bool PeanoNat.
From Verif Require Import PyBase PyBaseFacts Primitives Xml Leaf ClassTable Ir Access WriterCode ReaderCode IrSem TypeCheck TypeFacts.
Import ListNotations.
Open Scope string_scope.
Open Scope list_scope.

Local Opaque rfuns wfuns access_table attr_table attrs_of ancestors access_of isinst init.

Strategy 100 [fun_reqs an_code an_val an_cond].
Ltac bad A := apply all_cons in A; destruct A as [A _]; exact (False_ind _ A).

(** ** Leaves *)
Definition leafs (k : rkind) (r : res (option lval)) : Prop :=
  match r with Ok None => True | Ok (Some l) => forall fty, hasb fty (VLeaf l) (kind_base k) | Raise e => e = ValueError end.
Lemma set_str_err : forall n s n' e, set_str n s = (n', Some e) -> e = ValueError.
Proof.
  intros n s n' e. unfold set_str, convert.
  destruct (String.eqb s "true"); [discriminate|]. destruct (String.eqb s "false"); [discriminate|].
  destruct (match_hex s); [discriminate|]. destruct (match_bin s) as [d|].
  - destruct (all_chars is_bit d); [discriminate|]. congruence.
  - destruct (match_decimal s); [discriminate|]. destruct (py_int s); [discriminate|]. congruence.
Qed.
Lemma set_str_val : forall n s n', set_str n s = (n', None) -> n_value n' <> None.
Proof. intros n s n'. unfold set_str. destruct (convert s); [|discriminate]. intros H. inversion H. cbn. discriminate. Qed.
Lemma leaf_of_ok : forall k x, leafs k (leaf_of k x).
Proof.
  intros k x. destruct k; cbn [leaf_of leafs kind_base]; try (intros; constructor).
  - destruct (xtext x); [|exact I]. destruct (revision_ok s); cbn; [intros; constructor|reflexivity].
  - destruct (xtext x) as [s|]; [|exact I]. unfold set_num, float_set. destruct (set_str (num_blank x) s) as [n [e|]] eqn:E; cbn; [now apply set_str_err in E|intros; constructor].
  - destruct (xtext x) as [s|]; [|exact I]. unfold set_num, float_set. destruct (set_str num_new s) as [n [e|]] eqn:E; cbn; [now apply set_str_err in E|intros; constructor].
  - destruct (is_empty (text_or_empty (xtext x))); [exact I|]. unfold bool_set. destruct (str_to_bool (strip (text_or_empty (xtext x)))) as [b|e] eqn:E; cbn; [intros; constructor|].
    unfold str_to_bool in E. destruct (String.eqb _ "true" || _); [discriminate|]. destruct (String.eqb _ "false" || _); [discriminate|].
    destruct (py_int _); [discriminate|]. congruence.
  - unfold set_num, num_set. destruct (xtext x) as [s|]; cbn [opt_pstr].
    + destruct (set_str _ s) as [n [e|]] eqn:E; cbn; [now apply set_str_err in E|intros; constructor].
    + cbn. intros; constructor.
  - unfold set_num, num_set. destruct (xtext x) as [s|]; cbn [opt_pstr].
    + destruct (set_str _ s) as [n [e|]] eqn:E; cbn; [now apply set_str_err in E|intros; constructor].
    + cbn. intros; constructor.
  - destruct (xtext x) as [s|]; [|exact I]. unfold set_num, pos_set. destruct (set_str (num_blank x) s) as [n [e|]] eqn:E.
    + cbn. now apply set_str_err in E.
    + apply set_str_val in E. destruct (n_value n) as [v|] eqn:V; [|congruence]. destruct (numv_neg v); cbn; [reflexivity|intros; constructor].
  - unfold set_num, float_set. destruct (xtext x) as [s|]; cbn [opt_pstr].
    + destruct (set_str _ s) as [n [e|]] eqn:E; cbn; [now apply set_str_err in E|intros; constructor].
    + cbn. intros; constructor.
  - unfold set_num, num_set. destruct (xtext x) as [s|]; cbn [opt_pstr].
    + destruct (set_str _ s) as [n [e|]] eqn:E; cbn; [now apply set_str_err in E|intros; constructor].
    + cbn. intros; constructor.
Qed.
Lemma leaf_read_ok : forall k key x, leafs k (leaf_read k key x).
Proof. intros k key x. unfold leaf_read. destruct (find key x); [apply leaf_of_ok|exact I]. Qed.
Lemma leaf_items_ok : forall k xs,
  match leaf_items k xs with
  | Ok l => forall fty, Forall (fun v => hasb fty (VLeaf v) (kind_base k)) l
  | Raise e => e = ValueError end.
Proof.
  intros k. induction xs as [|x xs IH]; cbn [leaf_items]; [constructor|].
  pose proof (leaf_of_ok k x) as L. destruct (leaf_of k x) as [o|e]; [|exact L]. cbn [bind]. destruct (leaf_items k xs) as [l|e]; [|exact IH].
  cbn [bind]. destruct o as [v|]; [|exact IH]. intros fty. constructor; [apply L|apply IH].
Qed.

Lemma literal_required_ok : forall w key x, match literal_required w key x with Ok _ => True | Raise e => e = ValueError end.
Proof. intros w key x. unfold literal_required. destruct (find key x); [exact I|]. now destruct w. Qed.
Lemma ref_required_ok : forall w key x, match ref_required w key x with Ok _ => True | Raise e => e = ValueError end.
Proof. intros w key x. unfold ref_required. destruct (find key x); [exact I|]. now destruct w. Qed.

(** ** Elements *)
Section Sound.
Context (acc : string -> string -> option access) (acc_ok : forall c m, acc c m = access_of c m).
Context (isin : string -> string -> bool) (isin_ok : forall c d, isin c d = isinst c d).
Context (fty : string -> string -> ty) (rty : string -> ty) (names : bool) (absent : list string).
Context (warn : bool) (allowed : exn -> Prop) (called : string -> string -> Prop).
Context (type_error : allowed TypeError \/ ~ allowed TypeError).
Context (value_error : allowed ValueError) (name_in_use : allowed NameInUse).

Let all := TypeFacts.all fty rty warn allowed called names.
Let holds := TypeFacts.holds fty rty warn allowed called names.
Let hasb := TypeFacts.hasb fty.
Let hast := TypeFacts.hast fty.

Inductive clean : xml -> Prop :=
| Clean : forall t a tx ks, ~ In t absent -> (names = true -> t = "SHORT-NAME" -> tx <> None) ->
    Forall clean ks -> clean (El t a tx ks).
Lemma clean_step : forall s x y, clean x -> In y (step s x) -> clean y.
Proof.
  intros s x y C I. unfold step in I. destruct (String.eqb s "*").
  - destruct C as [t a tx ks _ _ F]. cbn in I. rewrite Forall_forall in F. auto.
  - destruct (String.eqb s "."); [destruct I as [Q|[]]; now subst|].
    apply filter_In in I. destruct I as [I _]. destruct C as [t a tx ks _ _ F]. cbn in I. rewrite Forall_forall in F. auto.
Qed.
Lemma clean_steps : forall ss x y, clean x -> In y (steps ss x) -> clean y.
Proof.
  induction ss as [|s ss IH]; intros x y C I; cbn [steps] in I.
  - destruct I as [Q|[]]. now subst.
  - apply in_flat_map in I. destruct I as (z & Iz & I). eapply IH; [|exact I]. eapply clean_step; eauto.
Qed.
Lemma clean_findall : forall p x y, clean x -> In y (findall p x) -> clean y.
Proof. intros p x y. apply clean_steps. Qed.
Lemma clean_find : forall p x y, clean x -> find p x = Some y -> clean y.
Proof.
  intros p x y C H. unfold find in H. destruct (findall p x) as [|z l] eqn:E; [discriminate|]. inversion H; subst.
  eapply clean_findall; [exact C|]. rewrite E. now left.
Qed.
Hypothesis absent_names : forall t, In t absent -> t <> "*" /\ t <> ".".
Lemma no_steps : forall ss x t, clean x -> In t ss -> In t absent -> steps ss x = [].
Proof.
  induction ss as [|s ss IH]; intros x t C I A; [destruct I|]. cbn [steps].
  assert (X : forall l, Forall (fun y => clean y /\ (In t ss \/ has_tag t y = true)) l ->
              (In t ss \/ t = s) -> flat_map (steps ss) l = []).
  { intros l F D. induction F as [|y l [Cy Dy] F IHl]; [reflexivity|]. cbn [flat_map]. rewrite IHl, app_nil_r.
    destruct Dy as [Dy|Dy]; [now apply IH with t|]. exfalso. destruct Cy as [tg ? ? ? N _ _]. unfold has_tag in Dy. cbn in Dy. apply String.eqb_eq in Dy. congruence. }
  apply X.
  - apply Forall_forall. intros y Iy. split; [eapply clean_step; eauto|]. destruct I as [Q|I]; [|now left]. subst s. right.
    unfold step in Iy. destruct (absent_names t A) as [N1 N2].
    destruct (String.eqb_spec t "*"); [congruence|]. destruct (String.eqb_spec t "."); [congruence|]. apply filter_In in Iy. apply Iy.
  - destruct I as [Q|I]; [now right|now left].
Qed.
Lemma nowhere_ok : forall p x key, clean x -> nowhere absent p = true -> findall (rkey key p) x = [].
Proof.
  intros [s| |s] x key C H; cbn [nowhere] in H; try discriminate. apply existsb_exists in H. destruct H as (t & A & H).
  apply existsb_exists in H. destruct H as (u & Iu & E). apply String.eqb_eq in E. subst u. cbn [rkey]. unfold findall. now apply no_steps with t.
Qed.
Lemma nowhere_find : forall p x key, clean x -> nowhere absent p = true -> find (rkey key p) x = None.
Proof. intros p x key C H. unfold find. now rewrite (nowhere_ok p x key C H). Qed.
Lemma findall_short : forall x, findall "SHORT-NAME" x = filter (has_tag "SHORT-NAME") (xkids x).
Proof.
  intros x. unfold findall. change (steps (split_char "/" "SHORT-NAME") x) with (flat_map (fun y => [y]) (filter (has_tag "SHORT-NAME") (xkids x))).
  induction (filter (has_tag "SHORT-NAME") (xkids x)) as [|y l IH]; [reflexivity|]. cbn. now rewrite IH.
Qed.
Lemma short_ok : forall x, clean x -> okres allowed (do s <- of_res (short_name x); Done (of_opt_str s)) (fun v => name_ok names v).
Proof.
  intros x C. unfold short_name. destruct (find "SHORT-NAME" x) as [y|] eqn:E; [|exact value_error]. cbn.
  destruct (xtext y) as [s|] eqn:T; [exact I|]. cbn. destruct names eqn:N; [|reflexivity]. exfalso.
  pose proof (clean_find _ _ _ C E) as Cy. 
  assert (I : In y (filter (has_tag "SHORT-NAME") (xkids x))).
  { unfold find in E. rewrite findall_short in E. destruct (filter (has_tag "SHORT-NAME") (xkids x)) as [|z l]; cbn in E; [discriminate|].
    inversion E. now left. }
  apply filter_In in I. destruct I as [_ I]. destruct Cy as [t a tx ks _ N2 _]. unfold has_tag in I. cbn in I, T. apply String.eqb_eq in I.
  now apply (N2 N I).
Qed.

(** ** What is known of objects, elements and keys *)
Inductive fits : val -> rf -> Prop :=
| Fits : forall o c l, hasb o (BObj c) ->
    Forall (fun p => exists w, field o (fst p) = Some w /\ fits w (snd p)) l -> fits o (Rf c l).
Lemma fits_obj : forall o c l, fits o (Rf c l) -> hasb o (BObj c).
Proof. intros o c l H. now inversion H. Qed.
Definition items (bs : list base) (l : list val) : Prop := Forall (fun v => exists b, In b bs /\ hasb v b) l.
Definition sconf (o : val) (s : st) : Prop :=
  match s with
  | SObj r => fits o r
  | SList bs => exists l, o = VList l /\ items bs l
  | SAny => True
  | SWarn => warn = true /\ hasb o (BObj "")
  | SDead => False
  end.
Definition vconf (v : val) (t : ty * option rf) : Prop :=
  hast v (fst t) /\ match snd t with Some r => fits v r | None => True end.
Definition kconf (K : kfact) (key : string) : Prop :=
  match K with KIs s => key = s | KNot l => ~ In key l end.
Definition f1 (key : string) (x : xml) (f : fact) : Prop :=
  match f with
  | FAttr a => xattr a x <> None
  | FText => xtext x <> None
  | FGot k p => exists l, leaf_read k (rkey key p) x = Ok (Some l)
  end.
Definition fconf (F : list fact) (key : string) (x : xml) : Prop := Forall (f1 key x) F.
Definition iconf (it : list base) (v : val) : Prop := exists b, In b it /\ hasb v b.

Lemma forget_ok : forall o s, sconf o s -> sconf o (forget s).
Proof. intros o [[c l]|bs| | |] H; cbn in *; auto. inversion H; subst. now constructor. Qed.
Lemma items_sub : forall a b l, items a l -> (forall x, In x a -> In x b) -> items b l.
Proof. intros a b l H S. eapply Forall_impl; [|exact H]. cbn. intros v (c & I & B). exists c. auto. Qed.
Lemma fits_forget : forall o c l, fits o (Rf c l) -> fits o (Rf c []).
Proof. intros o c l H. inversion H; subst. now constructor. Qed.
Lemma hasb_fits : forall o c, hasb o (BObj c) -> fits o (Rf c []).
Proof. intros o c H. now constructor. Qed.
Lemma sjoin_l : forall o s t, sconf o s -> all (fst (sjoin s t)) -> sconf o (snd (sjoin s t)).
Proof.
  intros o s t H A.
  destruct s as [[c l]|bs| | |]; destruct t as [[d m]|cs| | |]; cbn [sjoin fst snd] in *; try exact H; try bad A; try (destruct H; fail).
  - now apply fits_forget with l.
  - destruct (String.eqb_spec c "") as [Q|N]; [|bad A]. subst. now apply fits_forget with l.
  - destruct H as (l & -> & H). exists l. split; [reflexivity|]. eapply items_sub; [exact H|]. intros. now apply bunion_l.
  - destruct (String.eqb_spec d "") as [Q|N]; [|bad A]. destruct H as [_ H]. now apply hasb_fits.
Qed.
Lemma sjoin_r : forall o s t, sconf o t -> all (fst (sjoin s t)) -> sconf o (snd (sjoin s t)).
Proof.
  intros o s t H A.
  destruct s as [[c l]|bs| | |]; destruct t as [[d m]|cs| | |]; cbn [sjoin fst snd] in *; try exact H; try bad A; try (destruct H; fail).
  - destruct (String.eqb_spec c d) as [Q|N]; [|bad A]. subst. now apply fits_forget with m.
  - destruct (String.eqb_spec c "") as [Q|N]; [|bad A]. destruct H as [_ H]. now apply hasb_fits.
  - destruct H as (l & -> & H). exists l. split; [reflexivity|]. eapply items_sub; [exact H|]. intros. now apply bunion_r.
  - destruct (String.eqb_spec d "") as [Q|N]; [|bad A]. subst. now apply fits_forget with m.
Qed.
Lemma ssub_ok : forall o s t, sconf o s -> ssub s t = true -> sconf o t.
Proof.
  intros o s t H E.
  destruct s as [[c l]|bs| | |]; destruct t as [[d [|? ?]]|cs| | |]; cbn [ssub] in E; try discriminate; try exact I; try exact H; try (destruct H; fail).
  - apply String.eqb_eq in E. subst. now apply fits_forget with l.
  - destruct H as (l & -> & H). exists l. split; [reflexivity|]. eapply items_sub; [exact H|]. intros. eapply bsub_ok; eauto.
  - apply String.eqb_eq in E. subst. apply hasb_fits. apply H.
Qed.
Lemma knows_ok : forall F f key x, fconf F key x -> knows F f = true -> f1 key x f.
Proof.
  intros F f key x C H. apply existsb_exists in H. destruct H as (g & I & E). unfold fconf in C. rewrite Forall_forall in C. specialize (C g I).
  assert (f = g) as ->; [|exact C].
  destruct f as [a| |k p]; destruct g as [b| |k' p']; cbn in E; try discriminate; auto.
  - apply String.eqb_eq in E. now subst.
  - apply andb_true_iff in E. destruct E as [E1 E2]. assert (k = k') as -> by (destruct k; destruct k'; cbn in E1; congruence).
    f_equal. destruct p; destruct p'; cbn in E2; try discriminate; try reflexivity; apply String.eqb_eq in E2; now subst.
Qed.
Lemma vconf_base : forall v l, (exists b, In b l /\ hasb v b) -> vconf v (tbase l, None).
Proof. intros v l H. split; [|exact I]. now apply hast_base. Qed.

(** *** storing *)
Lemma not_none_ty : forall v t, hast v t -> v <> VNone -> hast v (mkTy (not_none (ts t)) (tl t)).
Proof.
  intros v t H N. inversion H as [? b ? I B|vs bs ? E F]; subst.
  - eapply T_s; [|exact B]. cbn. apply not_none_ok; [exact I|]. intros ->. inversion B; subst. congruence.
  - eapply T_l; [exact E|exact F].
Qed.
Lemma add_item : forall c fs f v t, hasb (VObj c fs) (BObj c) -> hast v t -> tl t = None ->
  holds (QItems c f) -> holds (QHas c f) -> holds (QField c f (tlist (ts t))) ->
  exists l, assoc f fs = Some (VList l) /\ hasb (VObj c (set_assoc fs f (VList (l ++ [v])))) (BObj c).
Proof.
  intros c fs f v t H V E [bs Q1] Q2 Q3. apply hasb_obj_inv in H. destruct H as (fs' & Q & A & F). inversion Q; subst fs'. clear Q.
  specialize (A f Q2) as A1. destruct (assoc f fs) as [w|] eqn:EA; [|congruence].
  pose proof (typed_field _ _ _ _ _ F EA) as W. rewrite Q1 in W. apply hast_list_only in W. destruct W as (l & -> & L).
  exists l. split; [reflexivity|]. apply (hasb_set fty (VObj c fs) c f); [now constructor|]. rewrite Q1.
  eapply T_l; [reflexivity|]. apply Forall_app. split; [exact L|]. constructor; [|constructor].
  inversion V as [? b ? I B|? ? ? E']; subst; [|congruence]. exists b. split; [|exact B].
  cbn in Q3. rewrite Q1 in Q3. unfold tsub in Q3. cbn [ts tl tlist] in Q3. eapply bsub_ok; eauto.
Qed.
Lemma put_ok : forall o c m v t, hasb o (BObj c) -> hast v t -> all (put_ty acc c m t) ->
  okres allowed (put1 o m v) (fun o' => hasb o' (BObj c)).
Proof.
  intros o c m v t H V A. pose proof H as H0. apply hasb_obj_inv in H0. destruct H0 as (fs & -> & HA & HF). cbn [put1].
  unfold put_ty in A. rewrite acc_ok in A. destruct (access_of c m) as [[f|f|f g|f g|c' nm p]|]; try bad A.
  - apply all_cons in A. destruct A as [A _]. destruct (g && match v with VNone => true | _ => false end) eqn:G; [exact H|].
    apply hasb_set; [exact H|]. eapply hast_tsub; [|exact A]. destruct g; [|exact V]. apply not_none_ty; [exact V|]. intros ->. discriminate.
  - destruct (tl t) as [bs|] eqn:ET; [bad A|]. apply all_cons in A. destruct A as [A1 A]. apply all_cons in A.
    destruct A as [A2 A]. apply all_cons in A. destruct A as [A3 _].
    destruct (g && match v with VNone => true | _ => false end) eqn:G; [exact H|].
    assert (X : exists l, assoc f fs = Some (VList l) /\ hasb (VObj c (set_assoc fs f (VList (l ++ [v])))) (BObj c)).
    { destruct g.
      - apply add_item with (t := mkTy (not_none (ts t)) None); auto. rewrite <- ET. apply not_none_ty; [exact V|]. intros ->. discriminate.
      - now apply add_item with (t := t). }
    destruct X as (l & E & X). rewrite E. exact X.
Qed.
Lemma store_ok : forall o c p x d, hasb o (BObj c) -> hasb x (BObj d) ->
  all match p with
      | PList f => [QItems c f; QHas c f; QField c f (tlist [BObj d])]
      | PSlot f => [QHas c f; QField c f (tbase [BObj d])]
      end ->
  okres allowed (store o p x) (fun o' => hasb o' (BObj c)).
Proof.
  intros o c p x d H X A. pose proof H as H0. apply hasb_obj_inv in H0. destruct H0 as (fs & -> & HA & HF). unfold store.
  destruct (match field x "short_name" with Some (VStr n) => _ | _ => false end); [exact name_in_use|]. destruct p as [f|f].
  - apply all_cons in A. destruct A as [A1 A]. apply all_cons in A. destruct A as [A2 A]. apply all_cons in A. destruct A as [A3 _].
    destruct (add_item c fs f x (tbase [BObj d]) H) as (l & E & Y); auto.
    + apply hast_base. exists (BObj d). split; [now left|exact X].
    + rewrite E. exact Y.
  - apply all_cons in A. destruct A as [A1 A]. apply all_cons in A. destruct A as [A2 _]. specialize (HA f A1) as A0.
    destruct (assoc f fs) as [[| | | |]|]; try exact name_in_use; [|congruence].
    apply hasb_set; [exact H|]. eapply hast_tsub; [|exact A2]. apply hast_base. exists (BObj d). split; [now left|exact X].
Qed.
Lemma wrap_ok : forall c m v b, hasb v b -> all (fst (wrap_base isin c m b)) ->
  okres allowed (wrap c m v) (fun x => exists b', In b' (snd (wrap_base isin c m b)) /\ hasb x b').
Proof.
  intros c m v b H A. unfold wrap, wrap_base in *. rewrite isin_ok in *.
  destruct (isinst c "ARLiteral" && String.eqb m "setValue").
  - destruct H; cbn [fst snd] in *; try bad A; cbn; eexists; (split; [now left|constructor]).
  - destruct (String.eqb c "Numerical" && String.eqb m "setValue").
    + destruct H; cbn [fst snd] in *; try bad A.
      unfold num_set. destruct (set_str num_new s) as [n [e|]] eqn:E; cbn; [apply set_str_err in E; now subst|].
      eexists; (split; [now left|constructor]).
    + destruct (String.eqb c "RefType" && String.eqb m "setDest").
      * destruct H; cbn [fst snd] in *; try bad A; cbn; eexists; (split; [now left|constructor]).
      * cbn in A. bad A.
Qed.
Lemma attrs_read_ok : forall o c x, hasb o (BObj c) ->
  holds (QField c "timestamp" (tbase [BStr; BNone])) -> holds (QField c "uuid" (tbase [BStr; BNone])) ->
  okres allowed (read_attrs o x) (fun o' => hasb o' (BObj c)).
Proof.
  intros o c x H T U. pose proof H as H0. apply hasb_obj_inv in H0. destruct H0 as (fs & -> & _). unfold read_attrs. cbn [okres].
  assert (S1 : forall s f o, holds (QField c f (tbase [BStr; BNone])) -> hasb o (BObj c) -> hasb (set_field o f (of_opt_str s)) (BObj c)).
  { intros s f o Q B. apply hasb_set; [exact B|]. eapply hast_tsub; [|exact Q]. apply hast_base.
    destruct s; [exists BStr; split; [now left|constructor]|exists BNone; split; [right; now left|constructor]]. }
  auto.
Qed.

Lemma loop_ok : forall A (body : st -> list req * st) (run : A -> val -> out val) l s o,
  (forall y s o, In y l -> sconf o s -> all (fst (body s)) -> okres allowed (run y o) (fun o' => sconf o' (snd (body s)))) ->
  sconf o s -> all (fst (loop body s)) -> okres allowed (fold_out run l o) (fun o' => sconf o' (snd (loop body s))).
Proof.
  intros A body run l s o B H R. apply forget_ok in H. unfold loop in *.
  assert (Y : forall s0, sconf o s0 -> all (fst (body s0)) -> ssub (snd (body s0)) s0 = true -> okres allowed (fold_out run l o) (fun o' => sconf o' s0)).
  { intros s0 H0 R0 E. apply okres_fold; [|exact H0]. intros y o' I H'. eapply okres_weaken; [apply B; eassumption|].
    intros o2 H2. cbn beta in H2. now apply ssub_ok with (snd (body s0)). }
  assert (Z : forall s0, sconf o s0 -> all (fst (body s0) ++ (if ssub (snd (body s0)) s0 then [] else [QBad "loop"])) ->
              okres allowed (fold_out run l o) (fun o' => sconf o' s0)).
  { intros s0 H0 R0. apply all_app in R0. destruct R0 as [R0 R1]. apply Y; auto. destruct (ssub (snd (body s0)) s0); [reflexivity|bad R1]. }
  destruct (forget s) as [r|bs| | |]; cbn [fst snd] in *; try (now apply Z).
  apply all_app in R. destruct R as [_ R]. apply all_app in R. destruct R as [R1 R]. apply Z; [|exact R].
  now apply sjoin_l.
Qed.

(** ** Main induction *)
Hypothesis called_ok : forall f c, called f c -> all (an_pair acc isin fty rty names absent c f).

Let AC := an_code acc isin fty rty names absent.
Let AV := an_val acc isin fty rty names absent.
Let AK := an_cond acc isin fty rty names absent.

Definition RS (n : nat) : Prop := forall m code K F it s key x iv o,
  clean x -> kconf K key -> fconf F key x -> iconf it iv -> sconf o s -> all (fst (AC m code K F it s)) ->
  okres allowed (rrun warn n code key x iv o) (fun o' => sconf o' (snd (AC m code K F it s))).
Definition VS (n : nat) : Prop := forall m v K F it s key x iv o,
  clean x -> kconf K key -> fconf F key x -> iconf it iv -> sconf o s -> all (fst (AV m v K F it s)) ->
  okres allowed (vrun warn n v key x iv o) (fun w => vconf w (snd (AV m v K F it s))).
Definition cconf (key : string) (x : xml) (t : cres) (b : bool) : Prop :=
  (forall b', c_stat t = Some b' -> b = b') /\ (b = true -> fconf (c_true t) key x) /\ (b = false -> fconf (c_false t) key x).
Definition CS (n : nat) : Prop := forall m c K F it s key x iv o,
  clean x -> kconf K key -> fconf F key x -> iconf it iv -> sconf o s -> all (c_req (AK m c K F it s)) ->
  okres allowed (crun warn n c key x iv o) (cconf key x (AK m c K F it s)).

Lemma fnil : forall key x, fconf [] key x.
Proof. constructor. Qed.
Lemma fapp : forall F G key x, fconf F key x -> fconf G key x -> fconf (F ++ G) key x.
Proof. intros F G key x A B. unfold fconf. apply Forall_app. auto. Qed.
Lemma cconf_none : forall key x r b, cconf key x (mkC r None [] []) b.
Proof. intros. split; [discriminate|split; intros _; constructor]. Qed.
Lemma cconf_some : forall key x r b, cconf key x (mkC r (Some b) [] []) b.
Proof. intros. split; [intros b' H; cbn in H; congruence|split; intros _; constructor]. Qed.
Lemma key_is_ok : forall K key s b, kconf K key -> key_is K s = Some b -> String.eqb key s = b.
Proof.
  intros [k|l] key s b C H; cbn in *.
  - subst. congruence.
  - destruct (existsb (String.eqb s) l) eqn:E; [|discriminate]. inversion H; subst. apply existsb_exists in E. destruct E as (u & I & E).
    apply String.eqb_eq in E. subst u. destruct (String.eqb_spec key s); [congruence|reflexivity].
Qed.

Lemma CS_step : forall n, VS n -> CS n -> CS (S n).
Proof.
  intros n IV IC m c K F it s key x iv o Cx Ck Cf Ci Cs A. destruct m as [|m]; [cbn in A; bad A|].
  change (AK (S m) c K F it s) with (cond_body acc isin fty absent (AV m) (AK m) c K F it s) in *.
  destruct c as [|t|t|a| | |p c|v|v|k|p|c|c d|c d]; cbn [cond_body] in A |- *; cbn [crun].
  - apply cconf_some.
  - cbn [okres]. destruct (existsb (String.eqb t) absent) eqn:E; [|apply cconf_none].
    assert (String.eqb (xtag x) t = false) as ->; [|apply cconf_some].
    apply existsb_exists in E. destruct E as (u & I & E). apply String.eqb_eq in E. subst u. destruct Cx as [tg ? ? ? N _ _]. cbn.
    destruct (String.eqb_spec tg t); [congruence|reflexivity].
  - cbn [okres]. split; [|split; intros _; constructor]. intros b' H. cbn in H. eapply key_is_ok; eauto.
  - cbn [okres]. split; [discriminate|]. cbn. destruct (xattr a x) eqn:E; (split; [|]); intros H; try discriminate; repeat constructor. cbn. congruence.
  - cbn [okres]. split; [discriminate|]. cbn. destruct (xtext x) eqn:E; (split; [|]); intros H; try discriminate; repeat constructor. cbn. congruence.
  - cbn [c_req] in A. destruct (xtext x) eqn:E; [apply cconf_none|]. cbn. destruct (knows F FText) eqn:KT.
    + apply (knows_ok _ _ _ _ Cf) in KT. cbn in KT. congruence.
    + apply all_cons in A. exact (proj1 A).
  - destruct (nowhere absent p) eqn:NW.
    + rewrite (nowhere_find p x key Cx NW). apply cconf_some.
    + cbn [c_req] in A. destruct (find (rkey key p) x) as [y|] eqn:E; [|apply cconf_none].
      eapply okres_weaken; [eapply IC; [eapply clean_find; eauto|exact Ck|apply fnil|exact Ci|exact Cs|exact A]|]. intros. apply cconf_none.
  - cbn [c_req] in A. destruct v as [| k p | | | | | | | | | | | | | | | | | | | |];
      try (eapply okres_bind; [eapply IV; eassumption|]; intros w W; cbn [okres]; apply cconf_none).
    eapply okres_bind with (P := fun w => w <> VNone -> f1 key x (FGot k p)).
    + destruct n as [|n]; [exact I|]. cbn [vrun]. pose proof (leaf_read_ok k (rkey key p) x) as L. cbn [f1].
      destruct (leaf_read k (rkey key p) x) as [[l|]|e]; cbn in *; [intros _; eauto|congruence|now subst].
    + intros w W. cbn [okres]. split; [discriminate|]. cbn [c_true c_false]. split; [|intros _; constructor]. intros H. constructor; [|constructor].
      apply W. intros ->. discriminate.
  - cbn [c_req] in A. apply all_app in A. destruct A as [A1 A2]. eapply okres_bind; [eapply IV; eassumption|]. intros w [W _].
    inversion W as [? b ? Ib B|vs bs ? E Fv]; subst; [|apply cconf_none].
    destruct (ts (fst (snd (AV m v K F it s)))) as [|b0 l]; [destruct Ib|bad A2].
  - destruct s as [[c l]| | | |]; cbn [c_req] in A; try bad A. pose proof (fits_obj _ _ _ Cs) as B. apply hasb_obj_inv in B.
    destruct B as (fs & -> & _). rewrite isin_ok. apply cconf_some.
  - destruct s as [[c l]| | | |]; cbn [c_req] in A; try bad A. pose proof (fits_obj _ _ _ Cs) as B.
    eapply okres_bind; [eapply gets_ty_ok; [exact acc_ok|exact type_error| |exact A]|].
    2: { intros w W. cbn [okres]. destruct (existsb (base_eqb BNone) (ts (snd (gets_ty acc fty (tbase [BObj c]) p)))) eqn:NB; [apply cconf_none|].
         replace (negb (is_none w)) with true; [apply cconf_some|]. destruct w; try reflexivity. exfalso. inversion W as [? b ? Ib Bb|]; subst. inversion Bb; subst.
         assert (existsb (base_eqb BNone) (ts (snd (gets_ty acc fty (tbase [BObj c]) p))) = true) by (apply existsb_exists; exists BNone; split; [exact Ib|reflexivity]). congruence. }
    apply hast_base. exists (BObj c). split; [now left|exact B].
  - eapply okres_bind; [eapply IC; eassumption|]. intros b (B1 & B2 & B3). cbn [okres]. unfold cconf. cbn [c_stat c_true c_false].
    split; [|split].
    + intros b' H. destruct (c_stat (AK m c K F it s)) as [b0|] eqn:E; [|discriminate]. cbn in H. inversion H.
      f_equal. now apply B1.
    + intros H. apply B3. now destruct b.
    + intros H. apply B2. now destruct b.
  - assert (A1 : all (c_req (AK m c K F it s))).
    { destruct (c_stat (AK m c K F it s)) as [[|]|]; cbn [c_req] in A; [apply all_app in A; apply A|exact A|apply all_app in A; apply A]. }
    eapply okres_bind; [eapply IC; eassumption|]. intros b (B1 & B2 & B3). destruct b.
    + destruct (c_stat (AK m c K F it s)) as [b0|] eqn:E; [specialize (B1 b0 eq_refl); subst b0|];
      cbn [c_req] in A; apply all_app in A; destruct A as [_ A];
      (eapply okres_weaken; [eapply IC; [exact Cx|exact Ck|apply fapp; [apply B2; reflexivity|exact Cf]|exact Ci|exact Cs|exact A]|]);
      intros b (D1 & D2 & D3); unfold cconf; cbn [c_stat c_true c_false];
      (split; [|split; [intros H; apply fapp; [now apply B2|now apply D2]|intros _; constructor]]).
      * intros b' H. apply D1. destruct (c_stat (AK m d K (c_true (AK m c K F it s) ++ F) it s)) as [[|]|]; congruence.
      * intros b' H. apply D1. destruct (c_stat (AK m d K (c_true (AK m c K F it s) ++ F) it s)) as [[|]|]; congruence.
    + cbn [okres]. destruct (c_stat (AK m c K F it s)) as [b0|] eqn:E; [specialize (B1 b0 eq_refl); subst b0; apply cconf_some|].
      unfold cconf; cbn [c_stat c_true c_false]. split; [|split; [discriminate|intros _; constructor]].
      intros b' H. destruct (c_stat (AK m d K (c_true (AK m c K F it s) ++ F) it s)) as [[|]|]; congruence.
  - assert (A1 : all (c_req (AK m c K F it s))).
    { destruct (c_stat (AK m c K F it s)) as [[|]|]; cbn [c_req] in A; [exact A|apply all_app in A; apply A|apply all_app in A; apply A]. }
    eapply okres_bind; [eapply IC; eassumption|]. intros b (B1 & B2 & B3). destruct b.
    + cbn [okres]. destruct (c_stat (AK m c K F it s)) as [b0|] eqn:E; [specialize (B1 b0 eq_refl); subst b0; apply cconf_some|].
      unfold cconf; cbn [c_stat c_true c_false]. split; [|split; [intros _; constructor|discriminate]].
      intros b' H. destruct (c_stat (AK m d K (c_false (AK m c K F it s) ++ F) it s)) as [[|]|]; congruence.
    + destruct (c_stat (AK m c K F it s)) as [b0|] eqn:E; [specialize (B1 b0 eq_refl); subst b0|];
      cbn [c_req] in A; apply all_app in A; destruct A as [_ A];
      (eapply okres_weaken; [eapply IC; [exact Cx|exact Ck|apply fapp; [apply B3; reflexivity|exact Cf]|exact Ci|exact Cs|exact A]|]);
      intros b (D1 & D2 & D3); unfold cconf; cbn [c_stat c_true c_false];
      (split; [|split; [intros _; constructor|intros H; apply fapp; [now apply B3|now apply D3]]]).
      * intros b' H. apply D1. destruct (c_stat (AK m d K (c_false (AK m c K F it s) ++ F) it s)) as [[|]|]; congruence.
      * intros b' H. apply D1. destruct (c_stat (AK m d K (c_false (AK m c K F it s) ++ F) it s)) as [[|]|]; congruence.
Qed.

(** *** one function call *)
Lemma keys_cover : forall ks key, exists K, kconf K key /\ (K = KNot ks \/ exists k, In k ks /\ K = KIs k).
Proof.
  intros ks key. destruct (existsb (String.eqb key) ks) eqn:E.
  - apply existsb_exists in E. destruct E as (k & I & E). apply String.eqb_eq in E. subst k. exists (KIs key). split; [reflexivity|]. right. eauto.
  - exists (KNot ks). split; [|now left]. intros I. assert (X : existsb (String.eqb key) ks = true); [|congruence].
    apply existsb_exists. exists key. split; [exact I|apply String.eqb_refl].
Qed.
Definition FS (n : nat) : Prop := forall f c b r key x o, assoc f rfuns = Some (b, r) -> called f c -> clean x -> hasb o (BObj c) ->
  okres allowed (do o1 <- rrun warn n b key x VNone o;
                 do w <- match r with Some r => vrun warn n r key x VNone o1 | None => Done VNone end; Done (o1, w))
    (fun p => hasb (fst p) (BObj c) /\ (c = "" -> hast (snd p) (rty f))).
Lemma fun_ok : forall n c b r f w u key x o, RS n -> VS n -> clean x -> hasb o (BObj c) ->
  all (fun_reqs c r f w u) ->
  (all (fst w) -> okres allowed (rrun warn n b key x VNone o) (fun o' => sconf o' (snd w))) ->
  (forall r s o, sconf o s -> all (fst (u r s)) -> okres allowed (vrun warn n r key x VNone o) (fun v => vconf v (snd (u r s)))) ->
  okres allowed (do o1 <- rrun warn n b key x VNone o;
                 do w <- match r with Some r => vrun warn n r key x VNone o1 | None => Done VNone end; Done (o1, w))
    (fun p => hasb (fst p) (BObj c) /\ (c = "" -> hast (snd p) (rty f))).
Proof.
  intros n c b r f w u key x o IR IV Cx B A Hw Hu. unfold fun_reqs in A. apply all_app in A. destruct A as [A1 A2].
  assert (S1 : ssub (snd w) (SObj (Rf c [])) = true).
  { destruct (ssub (snd w) (SObj (Rf c []))); [reflexivity|bad A1]. }
  clear A1.
  assert (A3 : all (fst w)).
  { destruct r as [r|]; [|apply all_app in A2; apply A2]. destruct (is_dead (snd w)); [exact A2|apply all_app in A2; apply A2]. }
  eapply okres_bind; [apply Hw; exact A3|].
  intros o1 C1. cbn beta in C1. pose proof (ssub_ok _ _ _ C1 S1) as C2. cbn [sconf] in C2. pose proof (fits_obj _ _ _ C2) as B1.
  destruct r as [r|].
  - destruct (is_dead (snd w)) eqn:ED; [destruct (snd w); try discriminate; destruct C1|].
    apply all_app in A2. destruct A2 as [_ A2]. apply all_app in A2. destruct A2 as [X1 X2].
    eapply okres_bind; [eapply Hu; [apply forget_ok; exact C1|exact X1]|].
    intros v [W _]. cbn [okres fst snd]. split; [exact B1|]. intros ->. cbn [String.eqb] in X2. apply all_cons in X2. destruct X2 as [X2 _].
    eapply hast_tsub; [exact W|exact X2].
  - cbn [obind okres fst snd]. split; [exact B1|]. intros ->. cbn [String.eqb] in A2. apply all_app in A2. destruct A2 as [_ A2]. apply all_cons in A2.
    destruct A2 as [A2 _]. eapply hast_tsub; [|exact A2]. apply hast_base. exists BNone. split; [now left|constructor].
Qed.
Lemma pair_case : forall f c b r key, assoc f rfuns = Some (b, r) -> called f c ->
  exists K, kconf K key /\ all (an_fun acc isin fty rty names absent c b r f K).
Proof.
  intros f c b r key Ef Cl. pose proof (called_ok f c Cl) as A. unfold an_pair in A. rewrite Ef in A.
  apply all_app in A. destruct A as [A1 A2]. destruct (keys_cover (keys_code 20 b) key) as (K & CK & D). exists K. split; [exact CK|].
  destruct D as [D|(k & I & D)]; subst K; [exact A2|]. exact (all_flat _ _ _ _ _ _ _ _ _ _ A1 I).
Qed.
Lemma RS_FS : forall n, RS n -> VS n -> FS n.
Proof.
  intros n IR IV f c b r key x o Ef Cl Cx B. destruct (pair_case f c b r key Ef Cl) as (K & CK & A). unfold an_fun in A.
  revert A. generalize fuel. intros fl A.
  assert (CI : iconf [BNone] VNone) by (exists BNone; split; [now left|constructor]).
  eapply fun_ok; [exact IR|exact IV|exact Cx|exact B|exact A| |].
  - intros A1. eapply IR; [exact Cx|exact CK|apply fnil|exact CI|now apply hasb_fits|exact A1].
  - cbn beta. intros r' s o' C' A'. eapply IV; [exact Cx|exact CK|apply fnil|exact CI|exact C'|exact A'].
Qed.

Lemma init_obj : forall c, exists fs, init c = VObj c fs.
Proof. intros c. Local Transparent init. unfold init. cbn [init_val]. eauto. Local Opaque init. Qed.
Lemma hasb_empty : hasb (VObj "" []) (BObj "").
Proof. constructor; [|constructor]. intros f H. Local Transparent attrs_of ancestors attr_table. vm_compute in H. congruence. Local Opaque attrs_of ancestors attr_table. Qed.
Lemma new_ok : forall c (named : bool) x, clean x -> holds (QInit c named) ->
  okres allowed (do nm <- (if named then do s <- of_res (short_name x); Done (of_opt_str s) else Done VNone);
                 Done (if named then named_init c nm else init c)) (fun o => hasb o (BObj c)).
Proof.
  intros c named x Cx H. destruct named.
  - eapply okres_bind; [apply short_ok; exact Cx|]. intros v V. cbn [okres]. apply H. exact V.
  - exact H.
Qed.

Lemma VS_step : forall n, (forall k, k <= n -> RS k /\ VS k /\ CS k) -> VS (S n).
Proof.
  intros n IH m v K F it s key x iv o Cx Ck Cf Ci Cs A. destruct m as [|m]; [cbn in A; bad A|].
  destruct (IH n (le_n n)) as (IR & IV & IC). pose proof (RS_FS n IR IV) as IF.
  change (AV (S m) v K F it s) with (val_body acc isin fty rty names absent (AC m) (AV m) (AK m) v K F it s) in *.
  destruct v as [|k p|k p|k p| | |a|a mp| | |c mth v|v|c named b|b|f t|p a b|p a|c a b|a b| |e|]; cbn [val_body] in A |- *; cbn [vrun].
  - apply vconf_base. exists BNone. split; [now left|constructor].
  - cbn [snd]. pose proof (leaf_read_ok k (rkey key p) x) as L. destruct (knows F (FGot k p)) eqn:KN.
    + destruct (knows_ok _ _ _ _ Cf KN) as [l E]. rewrite E in L |- *. cbn. apply vconf_base. eexists. split; [now left|apply L].
    + destruct (leaf_read k (rkey key p) x) as [[l|]|e]; cbn in *.
      * apply vconf_base. eexists. split; [now left|apply L].
      * apply vconf_base. exists BNone. split; [right; now left|constructor].
      * now subst.
  - destruct k; cbn [fst] in A; try bad A; cbn [snd].
    + pose proof (literal_required_ok warn (rkey key p) x) as L. destruct (literal_required warn (rkey key p) x) as [[l|]|e]; cbn; [| |now subst]; apply vconf_base.
      * exists BLit. split; [now left|constructor].
      * exists BNone. split; [right; now left|constructor].
    + pose proof (ref_required_ok warn (rkey key p) x) as L. destruct (ref_required warn (rkey key p) x) as [[l|]|e]; cbn; [| |now subst]; apply vconf_base.
      * exists BRef. split; [now left|constructor].
      * exists BNone. split; [right; now left|constructor].
  - cbn [snd]. unfold leaf_list. pose proof (leaf_items_ok k (findall (rkey key p) x)) as L.
    destruct (leaf_items k (findall (rkey key p) x)) as [l|e]; cbn; [|now subst]. split; [|exact I]. cbn [fst]. eapply T_l; [reflexivity|].
    apply Forall_map. eapply Forall_impl; [|apply L]. cbn. intros v V. eexists. split; [now left|exact V].
  - cbn [snd okres]. apply vconf_base. destruct (xtext x) as [t|] eqn:E; cbn [of_opt_str].
    + exists BStr. split; [|constructor]. destruct (knows F FText); now left.
    + destruct (knows F FText) eqn:KN; [apply (knows_ok _ _ _ _ Cf) in KN; cbn in KN; congruence|]. exists BNone. split; [right; now left|constructor].
  - cbn [snd okres]. apply vconf_base. exists BStr. split; [now left|constructor].
  - cbn [snd okres]. apply vconf_base. destruct (xattr a x) as [t|] eqn:E; cbn [of_opt_str].
    + exists BStr. split; [|constructor]. destruct (knows F (FAttr a)); now left.
    + destruct (knows F (FAttr a)) eqn:KN; [apply (knows_ok _ _ _ _ Cf) in KN; cbn in KN; congruence|]. exists BNone. split; [right; now left|constructor].
  - cbn [snd fst] in *. destruct (xattr a x) as [t|] eqn:E.
    + cbn [okres]. apply vconf_base. destruct (key_of mp t); [exists BStr; split; [now left|constructor]|exists BNone; split; [right; now left|constructor]].
    + cbn [okres]. destruct (knows F (FAttr a)) eqn:KN; [apply (knows_ok _ _ _ _ Cf) in KN; cbn in KN; congruence|]. apply all_cons in A. exact (proj1 A).
  - cbn [snd]. eapply okres_weaken; [apply short_ok; exact Cx|]. intros v V. apply vconf_base. destruct v; cbn in V; try (destruct V; fail).
    + rewrite V. exists BNone. split; [right; now left|constructor].
    + exists BStr. split; [|constructor]. assert (X : forall b : bool, In BStr (if b then [BStr] else [BStr; BNone])) by (intros []; now left). apply X.
  - cbn [snd okres]. apply vconf_base. exists BStr. split; [now left|constructor].
  - destruct (tl (fst (snd (AV m v K F it s)))) as [bs|] eqn:ET; cbn [fst snd] in *; [bad A|]. apply all_app in A. destruct A as [A1 A2].
    eapply okres_bind; [eapply IV; eassumption|]. intros w [W _]. inversion W as [? b ? Ib B|? ? ? E]; subst; [|congruence].
    eapply okres_weaken; [apply wrap_ok with (b := b); [exact B|exact (all_flat _ _ _ _ _ _ _ _ _ _ A2 Ib)]|].
    cbn beta. intros y (b' & I' & B'). apply vconf_base. exists b'. split; [|exact B']. apply in_flat_map. eauto.
  - cbn [fst snd] in *. apply all_app in A. destruct A as [A1 A2]. eapply okres_bind; [eapply IV; eassumption|]. intros w [W _].
    eapply okres_weaken; [eapply get_ty_ok; [exact acc_ok|exact type_error|exact W|exact A2]|]. intros y Y. split; [exact Y|exact I].
  - set (w := match named, b with false, RSet a v :: b' => _ | _, _ => _ end) in *.
    assert (X : all (fst w) -> okres allowed (do nm <- (if named then do s <- of_res (short_name x); Done (of_opt_str s) else Done VNone);
        rrun warn n b key x iv (if named then named_init c nm else init c)) (fun o' => sconf o' (snd w))).
    { assert (G : w = (QInit c named :: fst (AC m b K F it (SObj (Rf c []))), snd (AC m b K F it (SObj (Rf c [])))) ->
                  all (fst w) -> okres allowed (do nm <- (if named then do s <- of_res (short_name x); Done (of_opt_str s) else Done VNone);
        rrun warn n b key x iv (if named then named_init c nm else init c)) (fun o' => sconf o' (snd w))).
      { intros -> Aw. cbn [fst snd] in *. apply all_cons in Aw. destruct Aw as [A1 A2]. pose proof (new_ok c named x Cx A1) as N.
        destruct (if named then do s <- of_res (short_name x); Done (of_opt_str s) else Done VNone) as [nm|e| |]; cbn in N |- *; try exact N.
        eapply IR; [exact Cx|exact Ck|exact Cf|exact Ci|apply hasb_fits; exact N|exact A2]. }
      destruct named; [apply G; reflexivity|]. destruct b as [|i b]; [apply G; reflexivity|].
      destruct i as [| | |a v| | | | | | | | |]; try (apply G; reflexivity). clear G. subst w. cbn [fst snd]. intros Aw.
      apply all_app in Aw. destruct Aw as [A1 Aw]. apply all_cons in Aw. destruct Aw as [A2 Aw]. apply all_cons in Aw. destruct Aw as [A3 A4].
      cbn [obind]. destruct n as [|n]; [exact I|]. cbn [rrun]. destruct (IH n (le_S _ _ (le_n n))) as (IR1 & IV1 & _).
      destruct (init_obj c) as [fs EI].
      eapply okres_bind with (P := fun o1 => sconf o1 (SObj (Rf c (match snd (snd (AV m v K F it SAny)) with Some r => [(a, r)] | None => [] end)))).
      - eapply okres_bind; [eapply IV1 with (s := SAny); [exact Cx|exact Ck|exact Cf|exact Ci|exact I|exact A1]|]. intros w [W WR]. rewrite EI. cbn [okres]. rewrite <- EI. cbn [sconf].
        constructor; [apply A2; eapply hast_tsub; [exact W|exact A3]|]. destruct (snd (snd (AV m v K F it SAny))) as [r|]; [|constructor].
        constructor; [|constructor]. cbn [fst snd]. exists w. split; [|exact WR]. rewrite EI. cbn [set_field field]. rewrite assoc_set. now rewrite String.eqb_refl.
      - intros o1 C1. eapply IR1; [exact Cx|exact Ck|exact Cf|exact Ci|exact C1|exact A4]. }
    destruct (snd w) as [[d l]|bs| | |] eqn:Ew; cbn [fst snd] in *; try bad A; specialize (X A); (eapply okres_weaken; [exact X|]); intros o' C'; [|destruct C'].
    split; [|exact C']. cbn [fst]. apply hast_base. exists (BObj d). split; [now left|]. exact (fits_obj _ _ _ C').
  - assert (X : all (fst (AC m b K F it (SList []))) -> okres allowed (rrun warn n b key x iv (VList [])) (fun o' => sconf o' (snd (AC m b K F it (SList []))))).
    { intros A1. eapply IR; [exact Cx|exact Ck|exact Cf|exact Ci| |exact A1]. exists []. split; [reflexivity|constructor]. }
    destruct (snd (AC m b K F it (SList []))) as [[d l]|bs| | |]; cbn [fst snd] in *; try bad A; specialize (X A); (eapply okres_weaken; [exact X|]); intros o' C'; [|destruct C'].
    destruct C' as (l & -> & L). split; [|exact I]. cbn [fst]. eapply T_l; [reflexivity|exact L].
  - cbn [fst snd] in *. apply all_cons in A. destruct A as [A _].
    change (okres allowed (match assoc f rfuns with
      | Some (b, r) => do o1 <- rrun warn n b (rtag key x t) x VNone (VObj "" []);
                       match r with Some r => vrun warn n r (rtag key x t) x VNone o1 | None => Done VNone end
      | None => Stuck end) (fun w => vconf w (rty f, None))).
    destruct (assoc f rfuns) as [[b r]|] eqn:Ef.
    + pose proof (IF f "" b r (rtag key x t) x (VObj "" []) Ef A Cx hasb_empty) as X.
      destruct (rrun warn n b (rtag key x t) x VNone (VObj "" [])) as [o1|e| |]; cbn [obind] in X |- *; try exact X.
      destruct r as [r|].
      * destruct (vrun warn n r (rtag key x t) x VNone o1); cbn [obind okres fst snd] in X |- *; try exact X. exact (conj (proj2 X eq_refl) I).
      * cbn [obind okres fst snd] in X |- *. exact (conj (proj2 X eq_refl) I).
    + pose proof (called_ok _ _ A) as Q. unfold an_pair in Q. rewrite Ef in Q. bad Q.
  - destruct (nowhere absent p) eqn:NW.
    + rewrite (nowhere_find p x key Cx NW). eapply IV; eassumption.
    + cbn [fst snd] in *. apply all_app in A. destruct A as [A1 A2]. destruct (find (rkey key p) x) as [y|] eqn:E.
      * eapply okres_weaken; [eapply IV; [eapply clean_find; eauto|exact Ck|apply fnil|exact Ci|exact Cs|exact A1]|].
        intros w [W _]. split; [|exact I]. cbn [fst]. now apply hast_union_l.
      * eapply okres_weaken; [eapply IV; eassumption|]. intros w [W _]. split; [|exact I]. cbn [fst]. now apply hast_union_r.
  - cbn [fst snd] in *. apply okres_fold.
    + intros y w Iy W. eapply okres_bind; [eapply IV; [eapply clean_findall; eauto|exact Ck|apply fnil|exact Ci|exact Cs|exact A]|].
      intros u [U _]. cbn [okres]. assert (U' : vconf u (tunion (fst (snd (AV m a K [] it s))) (tbase [BNone]), None)).
      { split; [|exact I]. cbn [fst]. now apply hast_union_l. }
      destruct u; try exact U'. exact W.
    + split; [|exact I]. cbn [fst]. apply hast_union_r. apply hast_base. exists BNone. split; [now left|constructor].
  - assert (A1 : all (c_req (AK m c K F it s))).
    { destruct (c_stat (AK m c K F it s)) as [[|]|]; cbn [fst] in A; apply all_app in A; apply A. }
    eapply okres_bind; [eapply IC; eassumption|]. intros b0 (B1 & B2 & B3).
    destruct (c_stat (AK m c K F it s)) as [b1|] eqn:E; [specialize (B1 b1 eq_refl); subst b1; destruct b0|destruct b0]; cbn [fst snd] in *; apply all_app in A; destruct A as [_ A].
    + eapply IV; [exact Cx|exact Ck|apply fapp; [now apply B2|exact Cf]|exact Ci|exact Cs|exact A].
    + eapply IV; [exact Cx|exact Ck|apply fapp; [now apply B3|exact Cf]|exact Ci|exact Cs|exact A].
    + apply all_app in A. destruct A as [A _]. eapply okres_weaken; [eapply IV; [exact Cx|exact Ck|apply fapp; [now apply B2|exact Cf]|exact Ci|exact Cs|exact A]|].
      intros w [W _]. split; [|exact I]. cbn [fst]. now apply hast_union_l.
    + apply all_app in A. destruct A as [_ A]. eapply okres_weaken; [eapply IV; [exact Cx|exact Ck|apply fapp; [now apply B3|exact Cf]|exact Ci|exact Cs|exact A]|].
      intros w [W _]. split; [|exact I]. cbn [fst]. now apply hast_union_r.
  - cbn [fst snd] in *. apply all_app in A. destruct A as [A1 A]. apply all_app in A. destruct A as [A2 A]. apply all_app in A. destruct A as [A3 A4].
    eapply okres_bind; [eapply IV; eassumption|]. intros w [W _].
    destruct (tl (fst (snd (AV m a K F it s)))) as [bs|] eqn:ET; [bad A3|]. inversion W as [? b0 ? Ib B|? ? ? E]; subst; [|congruence].
    pose proof (all_flat _ _ _ _ _ _ _ _ _ _ A4 Ib) as A5. cbn beta in A5.
    assert (Y : forall w b0, In b0 (ts (fst (snd (AV m a K F it s)))) -> hasb w b0 -> b0 <> BNone ->
              vconf w (tunion (tbase (not_none (ts (fst (snd (AV m a K F it s)))))) (fst (snd (AV m b K F it s))), None)).
    { intros w0 b1 I1 H1 N1. split; [|exact I]. cbn [fst]. apply hast_union_l. apply hast_base. exists b1. split; [|exact H1]. now apply not_none_ok. }
    destruct B as [|st|c0 l0|c0 n0|bb|l0|r0|c0 fs HA HF]; try bad A5.
    + eapply okres_weaken; [eapply IV; eassumption|]. intros w [W' _]. split; [|exact I]. cbn [fst]. now apply hast_union_r.
    + cbn [okres]. eapply Y; [exact Ib|constructor|discriminate].
    + cbn [okres]. eapply Y; [exact Ib|now constructor|discriminate].
  - cbn [snd okres]. apply vconf_base. exact Ci.
  - cbn [fst snd] in *. apply all_cons in A. destruct A as [A _]. cbn [okres]. destruct s as [r|bs| | |]; try exact A. apply A. apply Cs.
  - cbn [fst] in A. bad A.
Qed.

Lemma fits_set : forall o c l a v, fits o (Rf c l) -> hast v (fty c a) -> fits (set_field o a v) (Rf c (rdrop l a)).
Proof.
  intros o c l a v H V. inversion H as [? ? ? B FL]; subst. constructor; [now apply hasb_set|].
  pose proof B as B0. apply hasb_obj_inv in B0. destruct B0 as (fs & -> & _). unfold rdrop. rewrite Forall_forall in *. intros [f r] I.
  apply filter_In in I. destruct I as [I N]. destruct (FL _ I) as (w & E & W). exists w. split; [|exact W]. cbn [fst snd set_field field] in *.
  rewrite assoc_set. destruct (String.eqb_spec a f); [discriminate|]. destruct (String.eqb_spec f a); [congruence|exact E].
Qed.
Lemma fits_set_with : forall o c l a v r, fits o (Rf c l) -> hast v (fty c a) -> fits v r -> fits (set_field o a v) (Rf c ((a, r) :: rdrop l a)).
Proof.
  intros o c l a v r H V R. pose proof (fits_set o c l a v H V) as X. inversion X as [? ? ? B FL]; subst. constructor; [exact B|].
  constructor; [|exact FL]. exists v. split; [|exact R]. pose proof (fits_obj _ _ _ H) as B0. apply hasb_obj_inv in B0. destruct B0 as (fs & -> & _).
  cbn [fst set_field field]. rewrite assoc_set. now rewrite String.eqb_refl.
Qed.
Lemma empty_ty : forall v t, hast v t -> is_empty_ty t = false.
Proof. intros v t H. inversion H as [? b ? I B|vs bs ? E F]; subst; destruct t as [[|? ?] [|]]; cbn in *; try reflexivity; [destruct I|discriminate]. Qed.
Lemma empty_seq : forall (r : out val) (w : list req * (ty * option rf)) (k : val -> out val) P,
  okres allowed r (fun v => vconf v (snd w)) -> is_empty_ty (fst (snd w)) = true -> okres allowed (obind r k) P.
Proof.
  intros r w k P H E. eapply okres_bind; [exact H|]. intros v [V _]. apply empty_ty in V. congruence.
Qed.
Lemma sconf_nowarn : forall e s o, holds (QExcS e) -> sconf o s ->
  okres allowed (if warn then Done o else Exc e) (fun o' => sconf o' (match s with SObj (Rf "" _) => SWarn | _ => s end)).
Proof.
  intros e s o H C. cbn in H. destruct warn eqn:W; [|cbn; auto]. cbn [okres].
  destruct s as [[c l]|bs| | |]; try exact C. destruct c as [|ch c]; [|exact C]. split; [exact W|]. exact (fits_obj _ _ _ C).
Qed.

Lemma RS_step : forall n, RS n -> VS n -> CS n -> RS (S n).
Proof.
  intros n IR IV IC m code K F it s key x iv o Cx Ck Cf Ci Cs A. destruct m as [|m]; [cbn in A; bad A|].
  pose proof (RS_FS n IR IV) as IF.
  change (AC (S m) code K F it s) with (code_body acc fty absent (AC m) (AV m) (AK m) code K F it s) in *.
  destruct code as [|i rest]; [cbn [code_body fst snd] in *; exact Cs|].
  cbn [code_body] in A |- *. destruct (is_dead s) eqn:ED; [destruct s; try discriminate; destruct Cs|].
  cbn [fst snd] in A |- *. apply all_app in A. destruct A as [A1 A2]. cbn [rrun].
  refine (okres_bind _ _ _ _ _ (fun o' => sconf o' (snd _)) _ _ (fun o' C' => IR m rest K F it _ key x iv o' Cx Ck Cf Ci C' A2)).
  clear A2.
  destruct i as [|mth v|mth gs v|a v|f t|mth named b|p a b|p b|v b|c a b|g b|e soft|].
  - destruct s as [[c l]|bs| | |]; cbn [fst snd] in *; try bad A1. apply all_cons in A1. destruct A1 as [A1 A2]. apply all_cons in A2. destruct A2 as [A2 _].
    eapply okres_weaken; [apply attrs_read_ok with (c := c); [exact (fits_obj _ _ _ Cs)|exact A1|exact A2]|]. intros o' B. now apply hasb_fits.
  - destruct (is_empty_ty (fst (snd (AV m v K F it s)))) eqn:EE; cbn [fst snd] in *.
    + eapply empty_seq; [eapply IV; eassumption|exact EE].
    + destruct s as [[c l]|bs| | |]; cbn [fst snd] in *; try bad A1.
      * apply all_app in A1. destruct A1 as [A1 A2]. eapply okres_bind; [eapply IV; eassumption|]. intros w [W _].
        eapply okres_weaken; [eapply put_ok; [exact (fits_obj _ _ _ Cs)|exact W|exact A2]|]. intros o' B. now apply hasb_fits.
      * destruct (tl (fst (snd (AV m v K F it (SList bs))))) as [cs|] eqn:ET; cbn [fst snd] in *; [bad A1|].
        apply all_app in A1. destruct A1 as [A1 A2]. eapply okres_bind; [eapply IV; eassumption|]. intros w [W _].
        destruct Cs as (l & -> & L). unfold put1. destruct (String.eqb mth "append"); [|bad A2]. cbn [okres]. exists (l ++ [w]). split; [reflexivity|].
        apply Forall_app. split; [eapply items_sub; [exact L|]; intros; now apply bunion_r|]. constructor; [|constructor].
        inversion W as [? b0 ? Ib B|? ? ? E]; subst; [|congruence]. exists b0. split; [now apply bunion_l|exact B].
  - destruct s as [[c l]|bs| | |]; cbn [fst snd] in *; try bad A1. apply all_app in A1. destruct A1 as [A1 A2]. apply all_app in A2. destruct A2 as [A2 A3].
    eapply okres_bind; [eapply IV; eassumption|]. intros w [W _].
    eapply okres_bind with (P := fun _ => True).
    + apply okres_fold; [|exact I]. intros g b0 Ig _. pose proof (all_flat _ _ _ _ _ _ _ _ _ _ A3 Ig) as A4. cbn beta zeta in A4. apply all_app in A4. destruct A4 as [A4 A5].
      eapply okres_bind; [eapply get_ty_ok; [exact acc_ok|exact type_error|exact W|exact A4]|]. intros y Y. cbn beta in Y.
      inversion Y as [? b1 ? Ib B|vs bs ? E Fv]; subst.
      * destruct (ts (snd (get_ty acc fty (fst (snd (AV m v K F it (SObj (Rf c l))))) (GM g)))); [destruct Ib|bad A5].
      * destruct vs; exact I.
    + intros b0 _. destruct b0.
      * eapply okres_weaken; [eapply put_ok; [exact (fits_obj _ _ _ Cs)|exact W|exact A2]|]. intros o' B. now apply hasb_fits.
      * cbn [okres]. cbn. now apply fits_forget with l.
  - destruct (is_empty_ty (fst (snd (AV m v K F it s)))) eqn:EE; cbn [fst snd] in *.
    + eapply empty_seq; [eapply IV; eassumption|exact EE].
    + destruct s as [[c l]|bs| | |]; cbn [fst snd] in *; try bad A1. apply all_app in A1. destruct A1 as [A1 A2]. apply all_cons in A2. destruct A2 as [A2 _].
      eapply okres_bind; [eapply IV; eassumption|]. intros w [W R]. pose proof (fits_obj _ _ _ Cs) as B. apply hasb_obj_inv in B. destruct B as (fs & EQ & _). rewrite EQ in Cs |- *.
      cbn [okres sconf].
      assert (W' : hast w (fty c a)) by (eapply hast_tsub; [exact W|exact A2]).
      destruct (snd (snd (AV m v K F it (SObj (Rf c l))))) as [r|]; [now apply fits_set_with|now apply fits_set].
  - destruct s as [[c l]|bs| | |]; cbn [fst snd] in *; try bad A1. apply all_cons in A1. destruct A1 as [A _].
    change (okres allowed (match assoc f rfuns with
      | Some (b, r) => do o1 <- rrun warn n b (rtag key x t) x VNone o;
                       match r with Some r => do _w <- vrun warn n r (rtag key x t) x VNone o1; Done o1 | None => Done o1 end
      | None => Stuck end) (fun o' => sconf o' (SObj (Rf c [])))).
    destruct (assoc f rfuns) as [[b r]|] eqn:Ef.
    + pose proof (IF f c b r (rtag key x t) x o Ef A Cx (fits_obj _ _ _ Cs)) as X.
      destruct (rrun warn n b (rtag key x t) x VNone o) as [o1|e| |]; cbn [obind] in X |- *; try exact X.
      destruct r as [r|].
      * destruct (vrun warn n r (rtag key x t) x VNone o1); cbn [obind okres fst snd] in X |- *; try exact X. apply hasb_fits. exact (proj1 X).
      * cbn [obind okres fst snd] in X |- *. apply hasb_fits. exact (proj1 X).
    + pose proof (called_ok _ _ A) as Q. unfold an_pair in Q. rewrite Ef in Q. bad Q.
  - destruct s as [[c l]|bs| | |]; cbn [fst snd] in *; try bad A1. rewrite acc_ok in A1 |- *. pose proof (fits_obj _ _ _ Cs) as B. pose proof B as B0.
    apply hasb_obj_inv in B0. destruct B0 as (fs & EQ & _). rewrite EQ.
    destruct (access_of c mth) as [[| | | |c' named' p]|]; cbn [fst snd] in *; try bad A1.
    assert (X : all ((if Bool.eqb named named' then [] else [QBad (c ++ "." ++ mth)%string]) ++ QInit c' named :: fst (AC m b K F it (SObj (Rf c' []))))).
    { destruct (snd (AC m b K F it (SObj (Rf c' [])))) as [[d r]|bs| | |]; cbn [fst] in A1; try bad A1; [|exact A1].
      apply all_app in A1. apply A1. }
    apply all_app in X. destruct X as [X1 X2]. apply all_cons in X2. destruct X2 as [X2 X3].
    destruct (Bool.eqb named named'); [|bad X1]. cbn [negb].
    pose proof (new_ok c' named x Cx X2) as N.
    destruct (if named then do s <- of_res (short_name x); Done (of_opt_str s) else Done VNone) as [nm|e| |]; cbn [obind okres] in N |- *; try exact N.
    eapply okres_bind; [eapply IR with (s := SObj (Rf c' [])); [exact Cx|exact Ck|exact Cf|exact Ci|apply hasb_fits; exact N|exact X3]|]. intros w W. cbn beta in W.
    destruct (snd (AC m b K F it (SObj (Rf c' [])))) as [[d r]|bs| | |]; cbn [fst snd] in *; try bad A1; [|destruct W].
    apply all_app in A1. destruct A1 as [_ A1]. rewrite <- EQ. eapply okres_weaken; [eapply store_ok; [exact B|exact (fits_obj _ _ _ W)|exact A1]|].
    intros o' B'. now apply hasb_fits.
  - destruct (nowhere absent p) eqn:NW.
    + rewrite (nowhere_find p x key Cx NW). eapply IR; eassumption.
    + cbn [fst snd] in *. apply all_app in A1. destruct A1 as [A1 A2]. apply all_app in A2. destruct A2 as [A2 A3]. destruct (find (rkey key p) x) as [y|] eqn:E.
      * eapply okres_weaken; [eapply IR; [eapply clean_find; eauto|exact Ck|apply fnil|exact Ci|exact Cs|exact A1]|]. intros o' C'. now apply sjoin_l.
      * eapply okres_weaken; [eapply IR; eassumption|]. intros o' C'. now apply sjoin_r.
  - destruct (nowhere absent p) eqn:NW.
    + rewrite (nowhere_ok p x key Cx NW). exact Cs.
    + apply loop_ok; [|exact Cs|exact A1]. intros y s1 o1 Iy C1 R1. eapply IR; [eapply clean_findall; eauto|exact Ck|apply fnil|exact Ci|exact C1|exact R1].
  - assert (X : all (fst (AV m v K F it s) ++ match ts (fst (snd (AV m v K F it s))) with [] => [] | [BNone] => [QExc TypeError] | _ => [QBad "RForVal"] end)).
    { destruct (tl (fst (snd (AV m v K F it s)))); cbn [fst] in A1; [|exact A1]. apply all_app in A1. destruct A1 as [A1 A2]. apply all_app in A2. apply all_app. split; [exact A1|apply A2]. }
    apply all_app in X. destruct X as [X1 X2]. eapply okres_bind; [eapply IV; eassumption|]. intros w [W _].
    inversion W as [? b1 ? Ib B|vs bs ? E Fv]; subst.
    + destruct (ts (fst (snd (AV m v K F it s)))) as [|b2 [|b3 bs]]; [destruct Ib| |destruct b2; bad X2].
      destruct b2; try bad X2. destruct Ib as [Q|[]]. subst b1. inversion B; subst. cbn [okres]. apply all_cons in X2. exact (proj1 X2).
    + rewrite E in A1 |- *. cbn [fst snd] in *. apply all_app in A1. destruct A1 as [_ A1]. apply all_app in A1. destruct A1 as [_ A1].
      apply loop_ok; [|exact Cs|exact A1]. intros y s1 o1 Iy C1 R1. eapply IR; [exact Cx|exact Ck|exact Cf| |exact C1|exact R1].
      rewrite Forall_forall in Fv. exact (Fv y Iy).
  - assert (X : all (c_req (AK m c K F it s))).
    { destruct (c_stat (AK m c K F it s)) as [[|]|]; cbn [fst] in A1; apply all_app in A1; apply A1. }
    eapply okres_bind; [eapply IC; eassumption|]. intros b0 (B1 & B2 & B3).
    destruct (c_stat (AK m c K F it s)) as [b1|] eqn:E; [specialize (B1 b1 eq_refl); subst b1; destruct b0|destruct b0]; cbn [fst snd] in *; apply all_app in A1; destruct A1 as [_ A].
    + eapply IR; [exact Cx|exact Ck|apply fapp; [now apply B2|exact Cf]|exact Ci|exact Cs|exact A].
    + eapply IR; [exact Cx|exact Ck|apply fapp; [now apply B3|exact Cf]|exact Ci|exact Cs|exact A].
    + apply all_app in A. destruct A as [A A']. apply all_app in A'. destruct A' as [A' J]. eapply okres_weaken; [eapply IR; [exact Cx|exact Ck|apply fapp; [now apply B2|exact Cf]|exact Ci|exact Cs|exact A]|].
      intros o' C'. now apply sjoin_l.
    + apply all_app in A. destruct A as [A A']. apply all_app in A'. destruct A' as [A' J]. eapply okres_weaken; [eapply IR; [exact Cx|exact Ck|apply fapp; [now apply B3|exact Cf]|exact Ci|exact Cs|exact A']|].
      intros o' C'. now apply sjoin_r.
  - destruct s as [[c l]|bs| | |]; cbn [fst snd] in *; try bad A1. pose proof (fits_obj _ _ _ Cs) as B. pose proof B as B0.
    apply hasb_obj_inv in B0. destruct B0 as (fs & EQ & HA & HF).
    set (fo := match g with GA f => Some f | GM mm => match acc c mm with Some (AGet f) => Some f | _ => None end end) in *.
    assert (Z : forall f (r0 : out val) P, fo = Some f ->
       (assoc f fs <> None -> okres allowed (match assoc f fs with
                | Some w => do w' <- rrun warn n b key x iv w; Done (set_field o f w')
                | None => Exc AttributeError end) P) -> assoc f (attrs_of c) <> None ->
       okres allowed (match o, g with
            | VObj c fs, GA f =>
                match assoc f fs with
                | Some w => do w' <- rrun warn n b key x iv w; Done (set_field o f w')
                | None => Exc AttributeError end
            | VObj c fs, GM m =>
                match access_of c m with
                | Some (AGet f) =>
                    match assoc f fs with
                    | Some w => do w' <- rrun warn n b key x iv w; Done (set_field o f w')
                    | None => Exc AttributeError end
                | _ => Stuck end
            | _, _ => Stuck
            end) P).
    { intros f r0 P Ef H Hd. specialize (H (HA f Hd)). subst fo. rewrite EQ in H |- *. destruct g as [mm|a].
      - rewrite acc_ok in Ef. destruct (access_of c mm) as [[f0| | | |]|]; try discriminate. inversion Ef; subst f0. exact H.
      - inversion Ef; subst a. exact H. }
    destruct fo as [f|] eqn:EF; [|cbn [fst] in A1; bad A1].
    set (ro := match assoc f l with Some r => Some r | None => match fty c f with mkTy [BObj c'] None => Some (Rf c' []) | _ => None end end) in *.
    assert (V : forall w r0, ro = Some r0 -> assoc f fs = Some w -> fits w r0).
    { intros w r0 Er Ew. subst ro. destruct (assoc f l) as [r1|] eqn:El.
      - inversion Er; subst r1. inversion Cs as [? ? ? _ FL]; subst. rewrite Forall_forall in FL. apply assoc_in in El. destruct (FL _ El) as (w1 & E1 & W1).
        cbn [fst snd field] in *. congruence.
      - pose proof (typed_field _ _ _ _ _ HF Ew) as T. destruct (fty c f) as [[|[| | | | | | |c'] [|? ?]] [|]]; try discriminate. inversion Er; subst r0.
        apply hast_base in T. destruct T as (b0 & [Q|[]] & T). subst b0. now apply hasb_fits. }
    destruct ro as [[c' l']|]; [|cbn [fst] in A1; bad A1]. specialize (fun w => V w (Rf c' l') eq_refl).
    assert (Y : holds (QHas c f) /\ all (fst (AC m b K F it (SObj (Rf c' l'))))).
    { destruct (snd (AC m b K F it (SObj (Rf c' l')))) as [[d r]|bs| | |]; cbn [fst] in A1; try bad A1.
      - apply all_cons in A1. destruct A1 as [H1 A1]. apply all_cons in A1. split; [exact H1|apply A1].
      - apply all_cons in A1. exact A1. }
    destruct Y as [Y1 Y2]. apply (Z f NoFuel _ eq_refl); [|exact Y1]. intros Hn. destruct (assoc f fs) as [w|] eqn:Ew; [|congruence].
    eapply okres_bind; [eapply IR with (s := SObj (Rf c' l')); [exact Cx|exact Ck|exact Cf|exact Ci|apply V; reflexivity|exact Y2]|]. intros w' W'. cbn beta in W'. cbn [okres].
    destruct (snd (AC m b K F it (SObj (Rf c' l')))) as [[d r]|bs| | |]; cbn [fst snd] in *; try bad A1; [|destruct W'].
    apply all_cons in A1. destruct A1 as [_ A1]. apply all_cons in A1. destruct A1 as [A1 _]. cbn [sconf]. apply fits_set_with; [exact Cs| |exact W'].
    eapply hast_tsub; [|exact A1]. apply hast_base. exists (BObj d). split; [now left|exact (fits_obj _ _ _ W')].
  - destruct soft; cbn [fst snd andb] in *.
    + apply all_cons in A1. destruct A1 as [A1 _]. now apply sconf_nowarn.
    + apply all_cons in A1. exact (proj1 A1).
  - cbn [fst] in A1. bad A1.
Qed.

Lemma all_sound : forall n, RS n /\ VS n /\ CS n.
Proof.
  assert (X : forall n k, k <= n -> RS k /\ VS k /\ CS k).
  { induction n as [|n IH]; intros k L.
    - assert (k = 0) as -> by (inversion L; reflexivity). split; [|split]; repeat intro; exact I.
    - apply Nat.le_succ_r in L. destruct L as [L| ->]; [now apply IH|]. destruct (IH n (le_n n)) as (IR & IV & IC).
      split; [|split]; [now apply RS_step|now apply VS_step|now apply CS_step]. }
  intros n. exact (X n n (le_n n)).
Qed.
Lemma call_sound : forall n f c b r key x o, assoc f rfuns = Some (b, r) -> called f c -> clean x -> hasb o (BObj c) ->
  okres allowed (rrun warn n [RCall f None] key x VNone o) (fun o' => hasb o' (BObj c)).
Proof.
  intros n f c b r key x o Ef Cl Cx B. destruct (all_sound n) as (IR & _ & _).
  assert (CI : iconf [BNone] VNone) by (exists BNone; split; [now left|constructor]).
  pose proof (IR 2 [RCall f None] (KIs key) [] [BNone] (SObj (Rf c [])) key x VNone o Cx eq_refl (fnil _ _) CI (hasb_fits _ _ B)) as X.
  eapply okres_weaken; [apply X|].
  - cbn. constructor; [exact Cl|constructor].
  - cbn. intros o' C'. exact (fits_obj _ _ _ C').
Qed.
End Sound.
