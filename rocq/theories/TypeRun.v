(** Deciding the requirements of TypeCheck.v for given tables of types.  Nothing here models code. *)
From Coq Require Import String Ascii List Bool.
From Verif Require Import PyBase PyBaseFacts Primitives Xml Leaf ClassTable Ir Access WriterCode ReaderCode IrSem SpecRoundTrip Trie TypeCheck TypeFacts TypeReader TypeWriter.
Import ListNotations.
Open Scope string_scope.
Open Scope list_scope.

Local Opaque rfuns wfuns access_table attr_table attrs_of ancestors access_of isinst.

(** ** Tables *)
Definition attr_info : Type := list (string * dflt) * trie dflt.
Definition attr_trie (cs : list string) : trie attr_info :=
  build (map (fun c => (c, (attrs_of c, build (attrs_of c)))) cs).
Definition attrs_in (a : trie attr_info) (c : string) : list (string * dflt) :=
  match tfind c a with Some p => fst p | None => attrs_of c end.
Definition has_in (a : trie attr_info) (c f : string) : bool :=
  match tfind c a with Some p => match tfind f (snd p) with Some _ => true | None => false end | None => false end.
(** the types of all attributes: those of the table, else those of the initial values *)
Definition field_trie (a : trie attr_info) (tb : list (string * list (string * ty))) : trie (trie ty) :=
  build (map (fun p => (fst p, build (snd p ++ map (fun q => (fst q, dflt_ty (snd q))) (attrs_in a (fst p))))) tb).
Definition fty_in (t : trie (trie ty)) (c f : string) : ty :=
  match tfind c t with Some u => match tfind f u with Some x => x | None => tempty end | None => tempty end.
Definition rty_in (t : trie ty) (f : string) : ty := match tfind f t with Some x => x | None => tempty end.
Definition call_trie (cl : list (string * list string)) : trie (trie unit) :=
  build (map (fun p => (fst p, build (map (fun f => (f, tt)) (snd p)))) cl).
Definition called_in (t : trie (trie unit)) (f c : string) : bool :=
  match tfind c t with Some u => match tfind f u with Some _ => true | None => false end | None => false end.

Lemma assoc_keys : forall A (g : string -> A) cs c x, assoc c (map (fun c => (c, g c)) cs) = Some x -> x = g c.
Proof.
  intros A g. induction cs as [|d cs IH]; intros c x H; [discriminate|]. cbn [map assoc] in H. destruct (String.eqb_spec c d) as [Q|N].
  - subst. now inversion H.
  - now apply IH.
Qed.
Lemma attr_find : forall cs c p, tfind c (attr_trie cs) = Some p -> p = (attrs_of c, build (attrs_of c)).
Proof. intros cs c p H. unfold attr_trie in H. rewrite tfind_build in H. exact (assoc_keys _ (fun c => (attrs_of c, build (attrs_of c))) _ _ _ H). Qed.
Lemma attrs_in_ok : forall cs c, attrs_in (attr_trie cs) c = attrs_of c.
Proof. intros cs c. unfold attrs_in. destruct (tfind c (attr_trie cs)) as [p|] eqn:E; [|reflexivity]. apply attr_find in E. now subst. Qed.
Lemma has_in_ok : forall cs c f, has_in (attr_trie cs) c f = true -> assoc f (attrs_of c) <> None.
Proof.
  intros cs c f. unfold has_in. destruct (tfind c (attr_trie cs)) as [p|] eqn:E; [|discriminate]. apply attr_find in E. subst. cbn [snd].
  rewrite tfind_build. destruct (assoc f (attrs_of c)); discriminate.
Qed.
Lemma called_in_ok : forall cl f c, called_in (call_trie cl) f c = true -> exists fs, In (c, fs) cl /\ In f fs.
Proof.
  intros cl f c. unfold called_in, call_trie. rewrite tfind_build.
  destruct (assoc c (map (fun p => (fst p, build (map (fun f => (f, tt)) (snd p)))) cl)) as [u|] eqn:E; [|discriminate]. intros H.
  apply assoc_in in E. apply in_map_iff in E. destruct E as ([d fs] & Q & I). cbn [fst snd] in Q. inversion Q. subst. exists fs. split; [exact I|].
  rewrite tfind_build in H. destruct (assoc f (map (fun f => (f, tt)) fs)) eqn:A; [|discriminate]. apply assoc_in in A.
  apply in_map_iff in A. destruct A as (g & Q' & I'). inversion Q'. now subst.
Qed.

(** ** New objects *)
Section New.
Context (at_ : trie attr_info) (ft : trie (trie ty)).
Definition conf0 (d : dflt) (t : ty) : bool :=
  match d with
  | DNone | DNew _ => bmem BNone (ts t)
  | DList => match tl t with Some _ => true | None => false end
  | DEmpty => bmem BStr (ts t)
  end.
Definition conf1 (d : dflt) (t : ty) : bool :=
  match d with
  | DNew c => bmem (BObj c) (ts t) && forallb (fun q => conf0 (snd q) (fty_in ft c (fst q))) (attrs_in at_ c)
  | d => conf0 d t
  end.
(** the attributes of a new object whose values do not fit *)
Definition misfits (c : string) : list string :=
  map fst (filter (fun q => negb (conf1 (snd q) (fty_in ft c (fst q)))) (attrs_in at_ c)).
Definition misfit_trie (cs : list string) : trie (list string) := build (map (fun c => (c, misfits c)) cs).
End New.

Lemma assoc_app : forall A f (a b : list (string * A)), assoc f (a ++ b) = match assoc f a with Some x => Some x | None => assoc f b end.
Proof. intros A f. induction a as [|[k v] a IH]; intros b; [reflexivity|]. cbn [app assoc]. destruct (String.eqb f k); auto. Qed.
Lemma assoc_not : forall A f (l : list (string * A)), assoc f l = None -> ~ In f (map fst l).
Proof.
  intros A f. induction l as [|[k v] l IH]; intros H; [intros []|]. cbn [assoc map fst] in *. destruct (String.eqb_spec f k) as [Q|N]; [discriminate|].
  intros [Q|I]; [congruence|exact (IH H I)].
Qed.
Lemma merge_nodup : forall l acc, NoDup (map fst acc) -> NoDup (map fst (merge_attrs acc l)).
Proof.
  induction l as [|[a d] l IH]; intros acc N; [exact N|]. cbn [merge_attrs]. apply IH. destruct (assoc a acc) eqn:E; [exact N|].
  rewrite map_app. cbn [map fst]. apply assoc_not in E. clear IH. induction (map fst acc) as [|k ks IH]; cbn [app]; [repeat constructor; intros []|].
  inversion N; subst. constructor.
  - intros I. apply in_app_or in I. destruct I as [I|[Q|[]]]; [auto|]. subst. apply E. now left.
  - apply IH; [assumption|]. intros I. apply E. now right.
Qed.
Lemma attrs_nodup : forall c, NoDup (map fst (attrs_of c)).
Proof.
  intros c. Local Transparent attrs_of. unfold attrs_of. Local Opaque attrs_of.
  assert (X : forall cs acc, NoDup (map fst acc) -> NoDup (map fst (fold_left (fun acc c' => match assoc c' attr_table with Some l => merge_attrs acc l | None => acc end) cs acc))).
  { induction cs as [|k cs IH]; intros acc N; [exact N|]. cbn [fold_left]. apply IH. destruct (assoc k attr_table); [now apply merge_nodup|exact N]. }
  apply X. constructor.
Qed.
Lemma key_assoc : forall A f (l : list (string * A)), assoc f l <> None <-> In f (map fst l).
Proof.
  intros A f. induction l as [|[k v] l IH]; cbn [assoc map fst In]; [tauto|]. destruct (String.eqb_spec f k) as [Q|N].
  - split; [left; congruence|discriminate].
  - rewrite IH. split; [right; assumption|intros [Q|H]; [congruence|exact H]].
Qed.

Lemma new_fields : forall n c, init_val (S n) (DNew c) = VObj c (map (fun p => (fst p, init_val n (snd p))) (attrs_of c)).
Proof. reflexivity. Qed.
Local Opaque init_val.

Section Conform.
Context (cs : list string) (ft : trie (trie ty)).
Let fty := fty_in ft.
Let hasb := TypeFacts.hasb fty.
Let hast := TypeFacts.hast fty.
Lemma conf0_ok : forall d t, conf0 d t = true -> hast (init_val 0 d) t.
Proof.
  intros d t. Local Transparent init_val. destruct d; cbn [conf0 init_val]; intros H. Local Opaque init_val.
  - eapply T_s; [apply bmem_ok; exact H|constructor].
  - destruct (tl t) eqn:E; [|discriminate]. eapply T_l; [exact E|constructor].
  - eapply T_s; [apply bmem_ok; exact H|constructor].
  - eapply T_s; [apply bmem_ok; exact H|constructor].
Qed.
Lemma keys_ok : forall n c f, assoc f (attrs_of c) <> None -> assoc f (map (fun p => (fst p, init_val n (snd p))) (attrs_of c)) <> None.
Proof. intros n c f H. apply key_assoc in H. apply key_assoc. rewrite map_map. exact H. Qed.
Lemma conf1_ok : forall d t, conf1 (attr_trie cs) ft d t = true -> hast (init_val 1 d) t.
Proof.
  intros d t. destruct d; cbn [conf1]; try (intros H; exact (conf0_ok _ _ H)).
  rewrite new_fields, attrs_in_ok. intros H. apply andb_true_iff in H. destruct H as [H1 H2]. eapply T_s; [apply bmem_ok; exact H1|].
  constructor; [intros f; apply keys_ok|]. apply Forall_forall. intros [f v] I. apply in_map_iff in I. destruct I as ([g d] & Q & I). cbn [fst snd] in *. inversion Q. subst.
  rewrite forallb_forall in H2. apply conf0_ok. exact (H2 (f, d) I).
Qed.
Lemma set_fresh : forall c (fs : list (string * val)) a v, NoDup (map fst fs) -> (forall f w, In (f, w) fs -> f <> a -> hast w (fty c f)) -> hast v (fty c a) ->
  Forall (fun p => hast (snd p) (fty c (fst p))) (set_assoc fs a v).
Proof.
  intros c. induction fs as [|[k w] fs IH]; intros a v N H V; cbn [set_assoc]; [repeat constructor; exact V|]. cbn [map fst] in N. inversion N as [|? ? N1 N2]; subst.
  destruct (String.eqb_spec a k) as [Q|M].
  - subst. constructor; [exact V|]. apply Forall_forall. intros [f u] I. apply H; [now right|]. intros Q. subst. apply N1. apply (in_map fst) in I. exact I.
  - constructor; [apply H; [now left|cbn [fst]; congruence]|]. apply IH; [exact N2| |exact V]. intros f u I Q. apply H; [now right|exact Q].
Qed.
Lemma fits_but : forall c a, (forall f, In f (misfits (attr_trie cs) ft c) -> f = a) -> forall v, hast v (fty c a) -> hasb (set_field (init c) a v) (BObj c).
Proof.
  intros c a M v V. unfold init. rewrite new_fields. cbn [set_field]. constructor.
  - intros f D. rewrite assoc_set. destruct (String.eqb f a); [discriminate|]. now apply keys_ok.
  - apply set_fresh; [|intros f w I N|exact V].
    + rewrite map_map. cbn [fst]. apply attrs_nodup.
    + apply in_map_iff in I. destruct I as ([g d] & Q & I). cbn [fst snd] in Q. inversion Q. subst. apply conf1_ok.
      destruct (conf1 (attr_trie cs) ft d (fty c f)) eqn:E; [reflexivity|]; elim N; apply M; unfold misfits; rewrite attrs_in_ok; apply in_map_iff; exists (f, d); split; [reflexivity|];
        apply filter_In; split; [exact I|]; cbn [fst snd]; fold fty; now rewrite E.
Qed.
Lemma fits_new : forall c, misfits (attr_trie cs) ft c = [] -> hasb (init c) (BObj c).
Proof.
  intros c M. unfold init. rewrite new_fields. constructor; [intros f; apply keys_ok|].
  apply Forall_forall. intros [f w] I. apply in_map_iff in I. destruct I as ([g d] & Q & I). cbn [fst snd] in *. inversion Q. subst. apply conf1_ok.
  destruct (conf1 (attr_trie cs) ft d (fty c f)) eqn:E; [reflexivity|]. exfalso. assert (X : In f (misfits (attr_trie cs) ft c)); [|now rewrite M in X].
  unfold misfits. rewrite attrs_in_ok. apply in_map_iff. exists (f, d). split; [reflexivity|]. apply filter_In. split; [exact I|]. cbn [fst snd]. fold fty. now rewrite E.
Qed.
End Conform.

(** ** Requirements *)
Definition one_of (l : list string) (a : string) : bool := forallb (fun f => String.eqb f a) l.
Section Sat.
Context (at_ : trie attr_info) (ft : trie (trie ty)) (rt : trie ty) (ct : trie (trie unit)) (mt : trie (list string)) (names : bool)
        (alw als : exn -> bool).   (* exceptions allowed with and without the warning option *)
Definition no_misfit (c : string) (P : list string -> bool) : bool :=
  match tfind c mt with Some l => P l | None => false end.
Definition name_ty : ty := tbase (if names then [BStr] else [BStr; BNone]).
Definition sat (q : req) : bool :=
  match q with
  | QField c f t => tsub t (fty_in ft c f)
  | QItems c f => match fty_in ft c f with mkTy [] (Some _) => true | _ => false end
  | QHas c f => has_in at_ c f
  | QGot c f => if has_in at_ c f then true else alw AttributeError && als AttributeError
  | QInit c named =>
      if named then no_misfit c (fun l => one_of l "short_name") && tsub name_ty (fty_in ft c "short_name")
      else no_misfit c (fun l => match l with [] => true | _ => false end)
  | QInitBut c a => no_misfit c (fun l => one_of l a)
  | QCall f c => called_in ct f c
  | QRes f t => tsub t (rty_in rt f)
  | QExc e => alw e && als e
  | QExcW e => alw e
  | QExcS e => als e
  | QBad _ => false
  end.
End Sat.

Definition may (alw als : exn -> bool) (warn : bool) (e : exn) : Prop := (if warn then alw e else als e) = true.
Lemma one_of_ok : forall l a, one_of l a = true -> forall f, In f l -> f = a.
Proof. intros l a H f I. unfold one_of in H. rewrite forallb_forall in H. now apply String.eqb_eq, H. Qed.

Section SatOk.
Context (cs ms : list string) (ft : trie (trie ty)) (rt : trie ty) (cl : list (string * list string)) (names : bool) (alw als : exn -> bool) (warn : bool).
Let at_ := attr_trie cs.
Let mt := misfit_trie at_ ft ms.
Definition called (f c : string) : Prop := called_in (call_trie cl) f c = true.
Lemma no_misfit_ok : forall c P, no_misfit mt c P = true -> P (misfits at_ ft c) = true.
Proof.
  intros c P. unfold no_misfit, mt, misfit_trie. rewrite tfind_build. destruct (assoc c (map (fun c => (c, misfits at_ ft c)) ms)) as [l|] eqn:E; [|discriminate].
  apply (assoc_keys _ (misfits at_ ft)) in E. now subst.
Qed.
Lemma both : forall e, alw e && als e = true -> may alw als warn e.
Proof. intros e H. apply andb_true_iff in H. destruct H. unfold may. now destruct warn. Qed.
Lemma sat_ok : forall q, sat at_ ft rt (call_trie cl) mt names alw als q = true ->
  holds (fty_in ft) (rty_in rt) warn (may alw als warn) called names q.
Proof.
  intros q H. destruct q; cbn [sat holds] in *.
  - exact H.
  - destruct (fty_in ft c f) as [[|] [bs|]]; try discriminate. now exists bs.
  - now apply has_in_ok in H.
  - destruct (has_in at_ c f) eqn:E; [left; now apply has_in_ok in E|right; now apply both].
  - destruct named.
    + apply andb_true_iff in H. destruct H as [H1 H2]. apply no_misfit_ok in H1. intros v V. unfold named_init. apply (fits_but cs); [exact (one_of_ok _ _ H1)|].
      eapply hast_tsub; [|exact H2]. apply hast_base. unfold name_ok in V. destruct v; try contradiction; [exists BNone|exists BStr; destruct names; (split; [now left|constructor])].
      rewrite V. split; [right; now left|constructor].
    + apply no_misfit_ok in H. apply (fits_new cs). fold at_. destruct (misfits at_ ft c); [reflexivity|discriminate].
  - apply no_misfit_ok in H. apply (fits_but cs). exact (one_of_ok _ _ H).
  - exact H.
  - exact H.
  - now apply both.
  - intros ->. exact H.
  - intros ->. exact H.
  - discriminate.
Qed.
Lemma sat_all : forall l, forallb (sat at_ ft rt (call_trie cl) mt names alw als) l = true ->
  all (fty_in ft) (rty_in rt) warn (may alw als warn) called names l.
Proof. intros l H. apply Forall_forall. intros q I. rewrite forallb_forall in H. apply sat_ok. auto. Qed.
End SatOk.

(** ** Reader *)
Definition rfun_trie : trie (list ri * option vx) := build rfuns.
Section ReadCheck.
Context (an : trie (list string)) (ac : trie (trie access)) (rf : trie (list ri * option vx))
        (at_ : trie attr_info) (ft : trie (trie ty)) (rt : trie ty) (ct : trie (trie unit)) (mt : trie (list string))
        (names : bool) (absent : list string) (alw als : exn -> bool).
Let ok := sat at_ ft rt ct mt names alw als.
Definition ok_pair (c f : string) : bool :=
  match tfind f rf with
  | None => false
  | Some (b, r) =>
      let ks := keys_code 20 b in
      forallb (fun k => forallb ok (an_fun (acc_in an ac) (isin_in an) (fty_in ft) (rty_in rt) names absent c b r f k)) (KNot ks :: map KIs ks)
  end.
Definition ok_root : bool :=
  let w := an_code (acc_in an ac) (isin_in an) (fty_in ft) (rty_in rt) names absent fuel load_code (KNot []) [] [BNone] (SObj (Rf "AUTOSAR" [])) in
  if forallb ok (fst w) then ssub (snd w) (SObj (Rf "AUTOSAR" [])) else false.
Definition ok_reader (cl : list (string * list string)) : bool :=
  if ok_root then if ok (QInit "AUTOSAR" false) then forallb (fun p => forallb (ok_pair (fst p)) (snd p)) cl else false else false.
End ReadCheck.
Definition read_check (tb : list (string * list (string * ty))) (rs : list (string * ty)) (cl : list (string * list string))
    (names : bool) (absent : list string) (alw als : exn -> bool) : bool :=
  (fun an ac rf at_ =>
    (fun ft rt ct =>
      (fun mt => ok_reader an ac rf at_ ft rt ct mt names absent alw als cl) (misfit_trie at_ ft (map fst tb)))
    (field_trie at_ tb) (build rs) (call_trie cl))
  anc_trie acc_trie rfun_trie (attr_trie (map fst tb)).

Lemma pair_eq : forall acc isin fty rty names absent c f b r, assoc f rfuns = Some (b, r) ->
  an_pair acc isin fty rty names absent c f =
  flat_map (fun k => an_fun acc isin fty rty names absent c b r f (KIs k)) (keys_code 20 b) ++ an_fun acc isin fty rty names absent c b r f (KNot (keys_code 20 b)).
Proof. intros acc isin fty rty names absent c f b r E. unfold an_pair. rewrite E. reflexivity. Qed.
Section ReadOk.
Context (tb : list (string * list (string * ty))) (rs : list (string * ty)) (cl : list (string * list string))
        (names : bool) (absent : list string) (alw als : exn -> bool).
Definition types_of : string -> string -> ty := fty_in (field_trie (attr_trie (map fst tb)) tb).
Context (an : trie (list string)) (ac : trie (trie access)) (rf : trie (list ri * option vx)) (ft : trie (trie ty)).
Hypothesis acc_ok : forall c m, acc_in an ac c m = access_of c m.
Hypothesis isin_ok : forall c d, isin_in an c d = isinst c d.
Hypothesis rf_ok : forall f, tfind f rf = assoc f rfuns.
Let at_ := attr_trie (map fst tb).
Let mt := misfit_trie at_ ft (map fst tb).
Hypothesis absent_names : forall t, In t absent -> t <> "*" /\ t <> ".".
Hypothesis value_error : alw ValueError && als ValueError = true.
Hypothesis name_in_use : alw NameInUse && als NameInUse = true.
Context (warn : bool).
Let ALL := all (fty_in ft) (rty_in (build rs)) warn (may alw als warn) (called cl) names.
Let ok := sat at_ ft (build rs) (call_trie cl) mt names alw als.
Lemma ok_pair_in : forall c f b r k, ok_pair an ac rf at_ ft (build rs) (call_trie cl) mt names absent alw als c f = true -> assoc f rfuns = Some (b, r) ->
  In k (KNot (keys_code 20 b) :: map KIs (keys_code 20 b)) ->
  forallb ok (an_fun (acc_in an ac) (isin_in an) (fty_in ft) (rty_in (build rs)) names absent c b r f k) = true.
Proof.
  unfold ok_pair. intros c f b r k H E. rewrite rf_ok, E in H. revert k. fold ok in H. apply forallb_forall. exact H.
Qed.
Lemma ok_pair_some : forall c f, ok_pair an ac rf at_ ft (build rs) (call_trie cl) mt names absent alw als c f = true -> exists b r, assoc f rfuns = Some (b, r).
Proof. unfold ok_pair. intros c f H. rewrite rf_ok in H. destruct (assoc f rfuns) as [[b r]|]; [eauto|discriminate]. Qed.
Lemma all_keys : forall (g : kfact -> list req) ks, (forall k, In k (KNot ks :: map KIs ks) -> ALL (g k)) -> ALL (flat_map (fun k => g (KIs k)) ks ++ g (KNot ks)).
Proof.
  intros g ks X. apply all_app. split; [|apply X; now left]. apply Forall_forall. intros q I. apply in_flat_map in I. destruct I as (k & Ik & Iq).
  assert (Z : ALL (g (KIs k))) by (apply X; right; now apply in_map).
  unfold ALL, all in Z. rewrite Forall_forall in Z. now apply Z.
Qed.
Lemma sat_ALL : forall l, forallb ok l = true -> ALL l.
Proof. exact (sat_all (map fst tb) (map fst tb) ft (build rs) cl names alw als warn). Qed.
Lemma pair_ok : forall c f, ok_pair an ac rf at_ ft (build rs) (call_trie cl) mt names absent alw als c f = true ->
  ALL (an_pair (acc_in an ac) (isin_in an) (fty_in ft) (rty_in (build rs)) names absent c f).
Proof.
  intros c f Q. destruct (ok_pair_some c f Q) as (b & r & E). rewrite (pair_eq _ _ _ _ _ _ _ _ _ _ E).
  apply (all_keys (fun k => an_fun (acc_in an ac) (isin_in an) (fty_in ft) (rty_in (build rs)) names absent c b r f k)).
  intros k I. apply sat_ALL. exact (ok_pair_in c f b r k Q E I).
Qed.
Lemma pairs_ok : forallb (fun p => forallb (ok_pair an ac rf at_ ft (build rs) (call_trie cl) mt names absent alw als (fst p)) (snd p)) cl = true ->
  forall f c, called cl f c -> ALL (an_pair (acc_in an ac) (isin_in an) (fty_in ft) (rty_in (build rs)) names absent c f).
Proof.
  intros checked f c K. apply called_in_ok in K. destruct K as (fs & I1 & I2). apply pair_ok.
  exact (proj1 (forallb_forall _ _) (proj1 (forallb_forall _ _) checked (c, fs) I1) f I2).
Qed.
Lemma read_sound : (forall f c, called cl f c -> ALL (an_pair (acc_in an ac) (isin_in an) (fty_in ft) (rty_in (build rs)) names absent c f)) ->
  forall m code c,
  let w := an_code (acc_in an ac) (isin_in an) (fty_in ft) (rty_in (build rs)) names absent m code (KNot []) [] [BNone] (SObj (Rf c [])) in
  forallb (sat at_ ft (build rs) (call_trie cl) mt names alw als) (fst w) = true -> ssub (snd w) (SObj (Rf c [])) = true ->
  forall n x o, clean names absent x -> hasb (fty_in ft) o (BObj c) ->
  okres (may alw als warn) (rrun warn n code "" x VNone o) (fun o => hasb (fty_in ft) o (BObj c)).
Proof.
  intros CO m code c w RQ RT n x o C I0.
  pose proof (sat_all (map fst tb) (map fst tb) ft (build rs) cl names alw als warn) as SA. fold at_ in SA. fold mt in SA.
  assert (TE : may alw als warn TypeError \/ ~ may alw als warn TypeError).
  { unfold may. destruct (if warn then alw TypeError else als TypeError); [now left|right; discriminate]. }
  pose proof (all_sound (acc_in an ac) acc_ok (isin_in an) isin_ok (fty_in ft) (rty_in (build rs)) names absent warn
    (may alw als warn) (called cl) TE (both alw als warn _ value_error) (both alw als warn _ name_in_use) absent_names CO n) as S.
  destruct S as (R & _ & _).
  assert (KC : kconf (KNot []) "") by (intros []).
  assert (IC : iconf (fty_in ft) [BNone] VNone) by (exists BNone; split; [now left|constructor]).
  pose proof (R m code (KNot []) [] [BNone] (SObj (Rf c [])) "" x VNone o C KC (fnil _ _) IC (hasb_fits _ _ _ I0) (SA _ RQ)) as X.
  eapply okres_weaken; [exact X|]. cbn beta. intros o' H. apply (fits_obj (fty_in ft) o' c []). exact (ssub_ok _ _ _ _ _ H RT).
Qed.
Lemma root_ok : forall m code,
  (let w := an_code (acc_in an ac) (isin_in an) (fty_in ft) (rty_in (build rs)) names absent m code (KNot []) [] [BNone] (SObj (Rf "AUTOSAR" [])) in
   if forallb ok (fst w) then ssub (snd w) (SObj (Rf "AUTOSAR" [])) else false) = true ->
  forallb (fun p => forallb (ok_pair an ac rf at_ ft (build rs) (call_trie cl) mt names absent alw als (fst p)) (snd p)) cl = true ->
  hasb (fty_in ft) (init "AUTOSAR") (BObj "AUTOSAR") ->
  forall n x, clean names absent x -> okres (may alw als warn) (rrun warn n code "" x VNone (init "AUTOSAR")) (fun o => hasb (fty_in ft) o (BObj "AUTOSAR")).
Proof.
  intros m code R P I0 n x C. cbv zeta in R. pose proof (read_sound (pairs_ok P) m code "AUTOSAR") as S. cbv zeta in S.
  set (w := an_code (acc_in an ac) (isin_in an) (fty_in ft) (rty_in (build rs)) names absent m code (KNot []) [] [BNone] (SObj (Rf "AUTOSAR" []))) in *. clearbody w.
  destruct (forallb ok (fst w)) eqn:Q; [|discriminate]. exact (S Q R n x (init "AUTOSAR") C I0).
Qed.
Lemma reader_ok : ok_reader an ac rf at_ ft (build rs) (call_trie cl) mt names absent alw als cl = true ->
  forall n x, clean names absent x -> okres (may alw als warn) (rrun warn n load_code "" x VNone (init "AUTOSAR")) (fun o => hasb (fty_in ft) o (BObj "AUTOSAR")).
Proof.
  unfold ok_reader. intros H n x C.
  destruct (ok_root an ac at_ ft (build rs) (call_trie cl) mt names absent alw als) eqn:RT; [|discriminate].
  destruct (sat at_ ft (build rs) (call_trie cl) mt names alw als (QInit "AUTOSAR" false)) eqn:IN; [|discriminate].
  apply (root_ok fuel load_code RT H); [|exact C].
  exact (sat_ok (map fst tb) (map fst tb) ft (build rs) cl names alw als warn _ IN).
Qed.
End ReadOk.
Lemma rfun_ok : forall f, tfind f rfun_trie = assoc f rfuns.
Proof. intros f. unfold rfun_trie. apply tfind_build. Qed.
Lemma read_ok : forall tb rs cl names absent alw als, read_check tb rs cl names absent alw als = true ->
  (forall t, In t absent -> t <> "*" /\ t <> ".") -> alw ValueError && als ValueError = true -> alw NameInUse && als NameInUse = true ->
  forall warn n x, clean names absent x ->
  okres (may alw als warn) (rrun warn n load_code "" x VNone (init "AUTOSAR")) (fun o => hasb (types_of tb) o (BObj "AUTOSAR")).
Proof.
  intros tb rs cl names absent alw als H A V N warn n x C.
  exact (reader_ok tb rs cl names absent alw als anc_trie acc_trie rfun_trie (field_trie (attr_trie (map fst tb)) tb) acc_in_ok isin_in_ok rfun_ok A V N warn H n x C).
Qed.

(** ** Writer *)
Definition wfun_trie : trie (list wi) := build wfuns.
Section WriteCheck.
Context (an : trie (list string)) (ac : trie (trie access)) (wf : trie (list wi))
        (at_ : trie attr_info) (ft : trie (trie ty)) (wt : trie ty) (alw als : exn -> bool).
Let ok := sat at_ ft wt t0 t0 true alw als.
Definition ok_fun (f : string) : bool :=
  match tfind f wf, tfind f wt with
  | Some b, Some t => if is_empty_ty t then true else forallb ok (w_code (acc_in an ac) (isin_in an) (fty_in ft) fuel b [] t)
  | _, _ => false
  end.
Definition ok_writer (W : list (string * ty)) : bool :=
  if forallb ok (w_code (acc_in an ac) (isin_in an) (fty_in ft) fuel save_code [] (tbase [BObj "AUTOSAR"])) then forallb (fun p => ok_fun (fst p)) W else false.
End WriteCheck.
Definition write_check (tb : list (string * list (string * ty))) (W : list (string * ty)) (alw als : exn -> bool) : bool :=
  (fun an ac wf at_ => (fun ft wt => ok_writer an ac wf at_ ft wt alw als W) (field_trie at_ tb) (build W)) anc_trie acc_trie wfun_trie (attr_trie (map fst tb)).

Lemma rty_all : forall fty r1 r2 warn al called names l, (forall f, r1 f = r2 f) -> all fty r1 warn al called names l -> all fty r2 warn al called names l.
Proof. intros fty r1 r2 warn al called names l E H. eapply Forall_impl; [|exact H]. intros q Hq. destruct q; cbn [holds] in *; try exact Hq. now rewrite <- E. Qed.

Section WriteOk.
Context (tb : list (string * list (string * ty))) (W : list (string * ty)) (alw als : exn -> bool).
Hypothesis checked : write_check tb W alw als = true.
Lemma write_ok : forall repr warn n v e, hasb (types_of tb) v (BObj "AUTOSAR") ->
  okres (may alw als warn) (wrun repr warn n save_code "" v e) (fun _ => True).
Proof.
  intros repr warn n v e H. unfold write_check, ok_writer in checked. unfold types_of in H. set (at_ := attr_trie (map fst tb)) in *. set (ft := field_trie at_ tb) in *.
  match type of checked with (if ?a then _ else _) = _ => destruct a eqn:RT; [|discriminate] end.
  assert (SA : forall l, forallb (sat at_ ft (build W) t0 t0 true alw als) l = true -> all (fty_in ft) (wty W) warn (may alw als warn) (called []) true l).
  { intros l Q. apply rty_all with (rty_in (build W)).
    - intros f. unfold rty_in, wty. now rewrite tfind_build.
    - exact (sat_all (map fst tb) [] ft (build W) [] true alw als warn l Q). }
  assert (TE : may alw als warn TypeError \/ ~ may alw als warn TypeError).
  { unfold may. destruct (if warn then alw TypeError else als TypeError); [now left|right; discriminate]. }
  assert (FO : forall f t, assoc f W = Some t -> all (fty_in ft) (wty W) warn (may alw als warn) (called []) true (w_fun (acc_in anc_trie acc_trie) (isin_in anc_trie) (fty_in ft) W f)).
  { intros f t A. rewrite forallb_forall in checked. specialize (checked _ (assoc_in _ _ _ _ A)). cbn [fst] in checked. unfold ok_fun in checked.
    unfold wfun_trie in checked. rewrite !tfind_build, A in checked. unfold w_fun. destruct (assoc f wfuns) as [b|]; [|discriminate]. rewrite A.
    destruct (is_empty_ty t); [constructor|]. now apply SA. }
  eapply (w_sound (acc_in anc_trie acc_trie) acc_in_ok (isin_in anc_trie) isin_in_ok (fty_in ft) W repr warn (may alw als warn) (called []) true TE FO n fuel save_code []
    (tbase [BObj "AUTOSAR"]) "" v e); [constructor| |].
  - apply hast_base. exists (BObj "AUTOSAR"). split; [now left|exact H].
  - now apply SA.
Qed.
End WriteOk.
