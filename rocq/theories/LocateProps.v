(** Proofs for C58: in a document built by the reader the names of the entered objects of one
    owner differ, hence find reaches them. *)
From Coq Require Import String Ascii List Bool Lia.
From Verif Require Import PyBase PyBaseFacts Primitives Xml Leaf ClassTable Ir Access ReaderCode IrSem ObjHeap SpecHeap HeapFacts
  Creators HeapProps SpecRoundTrip Locate SpecLocate LocateCheck.
Import ListNotations.
Open Scope string_scope.
Open Scope list_scope.

Lemma done_bind : forall A B (a : out A) (f : A -> out B) b, obind a f = Done b -> exists x, a = Done x /\ f x = Done b.
Proof. intros A B [x| | |] f b H; try discriminate. now exists x. Qed.
Ltac step H x E := apply done_bind in H; destruct H as (x & E & H).
Lemma fold_out_inv : forall A S (P : S -> Prop) (f : A -> S -> out S) l s s', P s ->
  (forall a s s', In a l -> P s -> f a s = Done s' -> P s') -> fold_out f l s = Done s' -> P s'.
Proof.
  intros A S P f. induction l as [|a l IH]; intros s s' H K E; cbn [fold_out] in E; [injection E as <-; exact H|].
  step E s1 E1. apply (IH s1); [apply (K a s); auto; now left| |exact E].
  intros a' t t' I. apply K. now right.
Qed.

(** *** names *)
Definition vname (v : val) : list string := match field v "short_name" with Some (VStr s) => [s] | _ => [] end.
Notation coll := (collection rows).
Definition names (o : val) : list string := flat_map vname (coll o).

Lemma assoc_set : forall fs f v g, assoc g (set_assoc fs f v) = if String.eqb g f then Some v else assoc g fs.
Proof.
  induction fs as [|[k w] fs IH]; intros f v g; cbn [set_assoc assoc].
  - reflexivity.
  - destruct (String.eqb_spec f k) as [Q|N]; cbn [assoc].
    + subst. destruct (String.eqb g k); reflexivity.
    + rewrite IH. destruct (String.eqb_spec g k) as [Q|M]; [|reflexivity]. subst.
      destruct (String.eqb_spec k f); [congruence|reflexivity].
Qed.
Lemma vname_set : forall c fs f v, f <> "short_name" -> vname (VObj c (set_assoc fs f v)) = vname (VObj c fs).
Proof.
  intros c fs f v N. unfold vname. cbn [field]. rewrite assoc_set. destruct (String.eqb_spec "short_name" f); [congruence|reflexivity].
Qed.
Lemma set_assoc_split : forall fs f v,
  (exists l w r, fs = l ++ (f, w) :: r /\ set_assoc fs f v = l ++ (f, v) :: r /\ assoc f fs = Some w) \/
  (assoc f fs = None /\ set_assoc fs f v = fs ++ [(f, v)]).
Proof.
  induction fs as [|[k w] fs IH]; intros f v; cbn [set_assoc assoc].
  - right. now split.
  - destruct (String.eqb_spec f k) as [Q|N].
    + subst. left. exists [], w, fs. now split.
    + destruct (IH f v) as [(l & w' & r & E & E' & A)|[A E]].
      * left. exists ((k, w) :: l), w', r. subst fs. rewrite E'. now split.
      * right. rewrite E. now split.
Qed.
Lemma names_quiet : forall c fs f v, enrols_in rows c f = false -> names (VObj c (set_assoc fs f v)) = names (VObj c fs).
Proof.
  intros c fs f v N. unfold names. f_equal. unfold collection.
  destruct (set_assoc_split fs f v) as [(l & w & r & E & E' & _)|[_ E]].
  - rewrite E', E, !flat_map_app. cbn [flat_map fst]. now rewrite N.
  - rewrite E, flat_map_app. cbn [flat_map fst]. rewrite N. now rewrite app_nil_r.
Qed.

(** *** the invariant *)
Inductive dist : val -> Prop :=
| dist_none : dist VNone
| dist_str : forall s, dist (VStr s)
| dist_leaf : forall l, dist (VLeaf l)
| dist_list : forall l, Forall dist l -> dist (VList l)
| dist_obj : forall c fs, NoDup (names (VObj c fs)) -> Forall (fun p => dist (snd p)) fs -> dist (VObj c fs).

Lemma dist_field : forall c fs f w, dist (VObj c fs) -> assoc f fs = Some w -> dist w.
Proof.
  intros c fs f w D A. inversion D as [| | | |c' fs' _ F]; subst. rewrite Forall_forall in F. exact (F _ (assoc_in _ _ _ _ A)).
Qed.
Lemma dist_items : forall l w, dist (VList l) -> In w l -> dist w.
Proof. intros l w D I. inversion D as [| | |l' F|]; subst. rewrite Forall_forall in F. now apply F. Qed.
Lemma fields_set : forall fs f v, Forall (fun p => dist (snd p)) fs -> dist v -> Forall (fun p => dist (snd p)) (set_assoc fs f v).
Proof.
  intros fs f v F D. destruct (set_assoc_split fs f v) as [(l & w & r & E & E' & _)|[_ E]].
  - rewrite E'. subst fs. apply Forall_app in F. destruct F as [F1 F2]. apply Forall_app. split; [exact F1|].
    inversion F2; subst. now constructor.
  - rewrite E. apply Forall_app. split; [exact F|]. now repeat constructor.
Qed.
Lemma dist_set : forall c fs f v, dist (VObj c fs) -> dist v -> enrols_in rows c f = false -> dist (VObj c (set_assoc fs f v)).
Proof.
  intros c fs f v D V N. inversion D as [| | | |c' fs' K F]; subst. constructor; [|now apply fields_set]. now rewrite names_quiet.
Qed.
Lemma dist_snoc : forall l v, dist (VList l) -> dist v -> dist (VList (l ++ [v])).
Proof. intros l v D V. inversion D; subst. constructor. apply Forall_app. split; [assumption|]. now constructor. Qed.

(** class and name stay *)
Definition kept (o o' : val) : Prop := match o with VObj c _ => (exists fs, o' = VObj c fs) /\ vname o' = vname o | _ => True end.
Lemma kept_refl : forall o, kept o o.
Proof. intros [| | |c fs|]; cbn [kept]; auto. split; [now exists fs|reflexivity]. Qed.
Lemma kept_trans : forall a b c, kept a b -> kept b c -> kept a c.
Proof.
  intros [| | |k fs|] b c H K; cbn [kept] in *; auto. destruct H as [[fs' ->] H]. cbn [kept] in K. destruct K as [E K]. split; [exact E|congruence].
Qed.
Definition fine (o o' : val) : Prop := dist o' /\ kept o o'.
Lemma kept_set : forall c fs f v, f <> "short_name" -> kept (VObj c fs) (VObj c (set_assoc fs f v)).
Proof. intros c fs f v N. split; [now exists (set_assoc fs f v)|now apply vname_set]. Qed.
Lemma set_fine : forall c fs f v, dist (VObj c fs) -> dist v -> enrols_in rows c f = false -> f <> "short_name" ->
  fine (VObj c fs) (set_field (VObj c fs) f v).
Proof. intros. split; [now apply dist_set|now apply kept_set]. Qed.

(** *** constructed objects *)
Lemma merge_in : forall (P : string * dflt -> Prop) l acc, Forall P acc -> Forall P l -> Forall P (merge_attrs acc l).
Proof.
  intros P. induction l as [|[a d] l IH]; intros acc A L; cbn [merge_attrs]; [exact A|]. inversion L; subst. apply IH; [|assumption].
  destruct (assoc a acc); [exact A|]. apply Forall_app. split; [exact A|]. now constructor.
Qed.
Definition nameless (p : string * dflt) : Prop := fst p = "short_name" -> snd p <> DEmpty.
Lemma attrs_nameless : forall c, Forall nameless (attrs_of c).
Proof.
  intros c. unfold attrs_of. generalize (ancestors 20 c). intros cs.
  assert (T : forall k l, assoc k attr_table = Some l -> Forall nameless l).
  { intros k l E. apply assoc_in in E. pose proof attrs_ok as K. rewrite forallb_forall in K. specialize (K _ E). cbn [snd] in K.
    rewrite forallb_forall in K. apply Forall_forall. intros p I Q R. specialize (K _ I). rewrite Q, R in K. discriminate. }
  revert T. generalize attr_table. intros tab T.
  assert (G : Forall nameless []) by constructor. revert G. generalize (@nil (string * dflt)).
  induction cs as [|k cs IH]; intros acc A; cbn [fold_left]; [exact A|]. apply IH.
  destruct (assoc k tab) as [l|] eqn:E; [|exact A]. apply merge_in; [exact A|exact (T _ _ E)].
Qed.
Lemma init_nameless : forall n d, vname (init_val n d) = [].
Proof.
  intros n d. destruct n as [|n]; destruct d as [| | |c]; try reflexivity. cbn [init_val]. unfold vname. cbn [field].
  pose proof (attrs_nameless c) as F. revert F. generalize (attrs_of c). intros l F.
  destruct (assoc "short_name" (map (fun p => (fst p, init_val n (snd p))) l)) as [w|] eqn:E; [|reflexivity].
  apply assoc_in in E. apply in_map_iff in E. destruct E as ([a d] & Q & I). cbn [fst snd] in Q. injection Q as Qa Qw.
  rewrite Forall_forall in F. specialize (F _ I Qa). cbn [snd] in F. subst w. destruct n as [|n']; destruct d as [| | |c']; try reflexivity; congruence.
Qed.
Lemma init_dist : forall n d, dist (init_val n d).
Proof.
  induction n as [|n IH]; intros [| | |c]; cbn [init_val]; try now repeat constructor.
  generalize (attrs_of c). intros l. constructor.
  - assert (E : names (VObj c (map (fun p => (fst p, init_val n (snd p))) l)) = []); [|rewrite E; constructor].
    unfold names, collection. induction l as [|[a d] l IHl]; [reflexivity|]. cbn [map flat_map fst snd]. rewrite flat_map_app, IHl, app_nil_r.
    destruct (enrols_in rows c a); [|reflexivity]. pose proof (init_nameless n d) as N. destruct n as [|n']; destruct d as [| | |k]; cbn [init_val] in *; try reflexivity.
    cbn [items_of flat_map]. now rewrite N.
  - apply Forall_forall. intros p I. apply in_map_iff in I. destruct I as (q & <- & _). apply IH.
Qed.
Lemma init_obj : forall c, exists fs, init c = VObj c fs.
Proof. intros c. unfold init. cbn [init_val]. eexists. reflexivity. Qed.
Lemma short_quiet : forall c, enrols_in rows c "short_name" = false.
Proof.
  intros c. destruct (enrols_in rows c "short_name") eqn:E; [|reflexivity]. pose proof (enrols_field _ _ E) as K. rewrite short_name_not_entered in K. discriminate.
Qed.
Lemma new_dist : forall (b : bool) c n, dist n -> dist (if b then named_init c n else init c).
Proof.
  intros b c n D. pose proof (init_dist 2 (DNew c)) as I. change (init_val 2 (DNew c)) with (init c) in I. destruct b; [|exact I].
  unfold named_init. destruct (init_obj c) as (fs & E). rewrite E in *. exact (dist_set c fs "short_name" n I D (short_quiet c)).
Qed.
Lemma new_obj : forall (b : bool) c n, exists fs, (if b then named_init c n else init c) = VObj c fs.
Proof. intros [|] c n; [|apply init_obj]. unfold named_init. destruct (init_obj c) as (fs & ->). eexists. reflexivity. Qed.
Lemma opt_dist : forall o, dist (of_opt_str o).
Proof. intros [s|]; constructor. Qed.

(** *** single steps *)
Lemma get_dist : forall v g w, dist v -> get1 v g = Done w -> dist w.
Proof.
  intros v g w D H. destruct v as [|s|l|c fs|l]; cbn [get1] in H; try discriminate.
  - destruct l; destruct g; try discriminate; repeat match goal with H : (if ?b then _ else _) = _ |- _ => destruct b end; try discriminate; injection H as <-; try constructor.
    destruct (r_value _); constructor.
  - destruct g as [m|a].
    + destruct (access_of c m) as [[f|f| | |]|]; try discriminate.
      * destruct (assoc f fs) as [x|] eqn:E; [|discriminate]. injection H as <-. exact (dist_field _ _ _ _ D E).
      * destruct (assoc f fs) as [[| | | |l]|] eqn:E; try discriminate. destruct (sortable l); [|discriminate]. injection H as <-.
        pose proof (dist_field _ _ _ _ D E) as K. constructor. apply Forall_forall. intros x I. apply py_sorted_In in I. exact (dist_items _ _ K I).
    + destruct (assoc a fs) as [x|] eqn:E; [|discriminate]. injection H as <-. exact (dist_field _ _ _ _ D E).
Qed.
Lemma wrap_dist : forall c m v w, wrap c m v = Done w -> dist w.
Proof.
  intros c m v w H. unfold wrap in H.
  repeat match type of H with
  | (if ?b then _ else _) = _ => destruct b
  | match ?x with _ => _ end = _ => destruct x
  end; try discriminate; injection H as <-; constructor.
Qed.
Lemma put_fine : forall o m v o', dist o -> dist v -> inb m risky = false -> put1 o m v = Done o' -> fine o o'.
Proof.
  intros o m v o' D V R H. destruct o as [| | |c fs|l]; cbn [put1] in H; try discriminate.
  - destruct (access_of c m) as [a|] eqn:A; [|discriminate]. destruct a as [| |f g|f g|]; try discriminate.
    + destruct (put_harmless _ _ _ f A eq_refl R) as [N M]. destruct (g && _); injection H as <-; [split; [exact D|apply kept_refl]|].
      now apply set_fine.
    + destruct (put_harmless _ _ _ f A eq_refl R) as [N M]. destruct (g && _); [injection H as <-; split; [exact D|apply kept_refl]|].
      destruct (assoc f fs) as [[| | | |l]|] eqn:E; try discriminate. injection H as <-. apply set_fine; auto.
      apply dist_snoc; [exact (dist_field _ _ _ _ D E)|exact V].
  - destruct (String.eqb m "append"); [|discriminate]. injection H as <-. split; [now apply dist_snoc|exact I].
Qed.

Lemma coll_children : forall o v, In v (coll o) -> In v (children o).
Proof.
  intros [| | |c fs|] v I; cbn [collection] in I; try destruct I. unfold children. apply in_flat_map in I. destruct I as (p & J & I).
  apply in_flat_map. exists p. split; [exact J|]. destruct (enrols_in rows c (fst p)); [exact I|destruct I].
Qed.
Lemma name_taken : forall o n, In n (names o) -> existsb (name_is n) (children o) = true.
Proof.
  intros o n I. unfold names in I. apply in_flat_map in I. destruct I as (v & J & I). apply existsb_exists. exists v. split; [now apply coll_children|].
  unfold vname in I. unfold name_is. destruct (field v "short_name") as [[|s| | |]|]; try destruct I as [I|I]; try destruct I.
  apply String.eqb_refl.
Qed.
Lemma nodup_insert : forall (l r : list string) e, NoDup (l ++ r) -> NoDup e -> length e <= 1 -> (forall n, In n e -> ~ In n (l ++ r)) -> NoDup (l ++ e ++ r).
Proof.
  intros l r e D E L N. destruct e as [|n [|m e]]; [exact D| |cbn [length] in L; lia].
  cbn [app]. apply (NoDup_Add (Add_app n l r)). split; [exact D|]. apply N. now left.
Qed.
(** what an entered attribute gains *)
Lemma names_grow : forall c fs f w w' x, assoc f fs = Some w -> items_of w' = items_of w ++ [x] ->
  exists l r, names (VObj c fs) = l ++ r /\
    (names (VObj c (set_assoc fs f w')) = l ++ vname x ++ r \/ names (VObj c (set_assoc fs f w')) = l ++ r).
Proof.
  intros c fs f w w' x A I. destruct (set_assoc_split fs f w') as [(l & u & r & E & E' & B)|[B _]]; [|congruence].
  rewrite A in B. injection B as <-. unfold names, collection. rewrite E', E, !flat_map_app. cbn [flat_map fst snd]. destruct (enrols_in rows c f).
  - rewrite I, !flat_map_app. cbn [flat_map]. rewrite app_nil_r.
    match goal with |- context [flat_map vname (flat_map ?g l) ++ (flat_map vname (items_of w) ++ vname x) ++ flat_map vname (flat_map ?g r)] =>
      exists (flat_map vname (flat_map g l) ++ flat_map vname (items_of w)), (flat_map vname (flat_map g r)) end.
    rewrite <- !app_assoc. split; [reflexivity|now left].
  - cbn [app]. match goal with |- context [flat_map vname (flat_map ?g l)] => exists (flat_map vname (flat_map g l)), (flat_map vname (flat_map g r)) end.
    split; [reflexivity|now right].
Qed.
Lemma vname_one : forall x, NoDup (vname x) /\ length (vname x) <= 1.
Proof.
  intros x. unfold vname. destruct (field x "short_name") as [[|s| | |]|]; split; try (cbn [length]; lia); try constructor; auto; constructor.
Qed.
Lemma store_names : forall c fs f w w' x, NoDup (names (VObj c fs)) -> assoc f fs = Some w -> items_of w' = items_of w ++ [x] ->
  (forall n, In n (vname x) -> ~ In n (names (VObj c fs))) -> NoDup (names (VObj c (set_assoc fs f w'))).
Proof.
  intros c fs f w w' x D A I N. destruct (names_grow c fs f w w' x A I) as (l & r & E & [K|K]); rewrite K; rewrite E in *; [|exact D].
  destruct (vname_one x). now apply nodup_insert.
Qed.
Lemma store_fine : forall c fs p d gs o', dist (VObj c fs) -> dist (VObj d gs) -> place_field p <> "short_name" ->
  store (VObj c fs) p (VObj d gs) = Done o' -> fine (VObj c fs) o'.
Proof.
  intros c fs p d gs o' D X N H. unfold store in H.
  assert (K : forall n, In n (vname (VObj d gs)) -> ~ In n (names (VObj c fs))).
  { intros n I J. apply name_taken in J. unfold vname in I. destruct (field (VObj d gs) "short_name") as [[|s| | |]|]; try destruct I as [I|I]; try destruct I.
    rewrite J in H. discriminate. }
  assert (H' : match p with
           | PList f => match assoc f fs with Some (VList l) => Done (set_field (VObj c fs) f (VList (l ++ [VObj d gs]))) | _ => Stuck end
           | PSlot f => match assoc f fs with Some VNone => Done (set_field (VObj c fs) f (VObj d gs)) | Some _ => Exc NameInUse | None => Stuck end
           end = Done o').
  { destruct (match field (VObj d gs) "short_name" with Some (VStr n) => existsb (name_is n) (children (VObj c fs)) | _ => false end); [discriminate|exact H]. }
  clear H. inversion D as [| | | |c' fs' DN DF]; subst. destruct p as [f|f]; cbn [place_field] in N.
  - destruct (assoc f fs) as [[| | | |l]|] eqn:A; try discriminate. injection H' as <-. split; [|now apply kept_set]. cbn [set_field]. constructor.
    + apply (store_names c fs f (VList l) (VList (l ++ [VObj d gs])) (VObj d gs)); auto.
    + apply fields_set; [exact DF|]. apply dist_snoc; [exact (dist_field _ _ _ _ D A)|exact X].
  - destruct (assoc f fs) as [[| | | |]|] eqn:A; try discriminate. injection H' as <-. split; [|now apply kept_set]. cbn [set_field]. constructor.
    + apply (store_names c fs f VNone (VObj d gs) (VObj d gs)); auto.
    + now apply fields_set.
Qed.
Lemma attrs_fine : forall o x o', dist o -> read_attrs o x = Done o' -> fine o o'.
Proof.
  intros o x o' D H. destruct o as [| | |c fs|]; try discriminate. unfold read_attrs in H. injection H as <-.
  assert (T : forall a, a = "timestamp" \/ a = "uuid" -> enrols_in rows c a = false /\ a <> "short_name").
  { intros a [Q|Q]; subst a; apply quiet_ok; vm_compute; reflexivity. }
  destruct (T "timestamp" (or_introl eq_refl)) as [T1 T2]. destruct (T "uuid" (or_intror eq_refl)) as [U1 U2].
  assert (DS : forall s, dist (of_opt_str s)) by (intros [s|]; [apply dist_str|constructor]).
  destruct (set_fine c fs "timestamp" (of_opt_str (xattr "T" x)) D (DS _) T1 T2) as [A1 A2].
  cbn [set_field] in *. destruct (set_fine c _ "uuid" (of_opt_str (xattr "UUID" x)) A1 (DS _) U1 U2) as [B1 B2]. cbn [set_field] in *.
  split; [exact B1|]. exact (kept_trans _ _ _ A2 B2).
Qed.

(** *** runs *)
Section Runs.
Context (warn : bool).
Definition RD (n : nat) : Prop := forall m code key x it o o', okc m code = true -> dist it -> dist o ->
  rrun warn n code key x it o = Done o' -> fine o o'.
Definition VD (n : nat) : Prop := forall m v key x it o w, okv m v = true -> dist it -> dist o ->
  vrun warn n v key x it o = Done w -> dist w.

Lemma fine_refl : forall o, dist o -> fine o o.
Proof. intros o D. split; [exact D|apply kept_refl]. Qed.
Lemma fine_trans : forall a b c, fine a b -> fine b c -> fine a c.
Proof. intros a b c [A1 A2] [B1 B2]. split; [exact B1|exact (kept_trans _ _ _ A2 B2)]. Qed.

Ltac split_ok H := match type of H with (_ && _) = true => let H' := fresh H in apply andb_true_iff in H; destruct H as [H H'] end.

Lemma VD_step : forall n, RD n -> VD n -> VD (S n).
Proof.
  intros n HR HV m v key x it o w OK DI DO H. destruct m as [|m]; [discriminate|]. cbn [okv] in OK.
  destruct v; cbn [vrun] in H; try discriminate.
  - injection H as <-. constructor.
  - step H l E. injection H as <-. destruct l; constructor.
  - destruct k; try discriminate; step H l E; injection H as <-; destruct l; constructor.
  - step H l E. injection H as <-. constructor. apply Forall_forall. intros y I. apply in_map_iff in I. destruct I as (z & <- & _). constructor.
  - injection H as <-. apply opt_dist.
  - injection H as <-. constructor.
  - injection H as <-. apply opt_dist.
  - destruct (xattr a x); [|discriminate]. injection H as <-. apply opt_dist.
  - step H s E. injection H as <-. apply opt_dist.
  - injection H as <-. constructor.
  - step H w0 E. exact (wrap_dist _ _ _ _ H).
  - step H w0 E. exact (get_dist _ _ _ (HV _ _ _ _ _ _ _ OK DI DO E) H).
  - step H nm E.
    assert (DN : dist nm). { destruct named; [|injection E as <-; constructor]. step E s E1. injection E as <-. apply opt_dist. }
    exact (proj1 (HR _ _ _ _ _ _ _ OK DI (new_dist named c nm DN) H)).
  - refine (proj1 (HR _ _ _ _ _ _ _ OK DI _ H)). constructor. constructor.
  - destruct (assoc f rfuns) as [[b r]|] eqn:E; [|discriminate]. step H o1 E1. destruct (fun_ok _ _ _ E) as [OB OR].
    assert (D0 : dist (VObj "" [])) by (constructor; constructor).
    pose proof (proj1 (HR _ _ _ _ _ _ _ OB dist_none D0 E1)) as D1.
    destruct r as [r|]; [|injection H as <-; constructor]. exact (HV _ _ _ _ _ _ _ (OR r eq_refl) dist_none D1 H).
  - split_ok OK. destruct (find (rkey key p) x) as [y|]; [exact (HV _ _ _ _ _ _ _ OK DI DO H)|exact (HV _ _ _ _ _ _ _ OK0 DI DO H)].
  - refine (fold_out_inv _ _ dist _ _ _ _ dist_none _ H). intros y s s' _ S1 E. step E w0 E1. injection E as <-.
    pose proof (HV _ _ _ _ _ _ _ OK DI DO E1) as D1. destruct w0; assumption.
  - split_ok OK. step H t E. destruct t; [exact (HV _ _ _ _ _ _ _ OK DI DO H)|exact (HV _ _ _ _ _ _ _ OK0 DI DO H)].
  - split_ok OK. step H w0 E. pose proof (HV _ _ _ _ _ _ _ OK DI DO E) as D1. destruct w0 as [| |l|c fs|]; try discriminate.
    + exact (HV _ _ _ _ _ _ _ OK0 DI DO H).
    + destruct l; try discriminate. injection H as <-. exact D1.
    + injection H as <-. exact D1.
  - injection H as <-. exact DI.
Qed.

Lemma RD_step : forall n, RD n -> VD n -> RD (S n).
Proof.
  intros n HR HV m code key x it o o' OK DI DO H. destruct m as [|m]; [discriminate|]. cbn [rrun] in H.
  destruct code as [|i rest]; [injection H as <-; now apply fine_refl|].
  step H o1 E.
  assert (OKI : okc (S m) [i] = true /\ okc (S m) rest = true).
  { cbn [okc forallb] in OK |- *. apply andb_true_iff in OK. destruct OK as [A B]. rewrite A. split; [reflexivity|exact B]. }
  destruct OKI as [OKI OKR].
  assert (F : fine o o1).
  { clear H OKR OK. cbn [okc forallb] in OKI. rewrite andb_true_r in OKI.
    destruct i; try discriminate.
    - exact (attrs_fine _ _ _ DO E).
    - split_ok OKI. step E w E1. exact (put_fine o m0 w _ DO (HV _ _ _ _ _ _ _ OKI0 DI DO E1) (proj1 (negb_true_iff _) OKI) E).
    - split_ok OKI. step E w E1. step E b E2. destruct b; [|injection E as <-; now apply fine_refl].
      exact (put_fine o m0 w _ DO (HV _ _ _ _ _ _ _ OKI0 DI DO E1) (proj1 (negb_true_iff _) OKI) E).
    - split_ok OKI. step E w E1. destruct o as [| | |c fs|]; try discriminate. injection E as <-. destruct (quiet_ok _ c OKI) as [Q1 Q2].
      apply set_fine; [exact DO| |exact Q1|exact Q2]. exact (HV _ _ _ _ _ _ _ OKI0 DI DO E1).
    - destruct (assoc f rfuns) as [[b r]|] eqn:A; [|discriminate]. step E o2 E1. destruct (fun_ok _ _ _ A) as [OB _].
      pose proof (HR _ _ _ _ _ _ _ OB dist_none DO E1) as K. destruct r as [r|]; [step E w E2|]; injection E as <-; exact K.
    - destruct o as [| | |c fs|]; try discriminate. destruct (access_of c m0) as [[| | | |d nm' p]|] eqn:A; try discriminate.
      destruct (negb _); [discriminate|]. step E nm E1. step E w E2.
      assert (DN : dist nm). { destruct named; [|injection E1 as <-; constructor]. step E1 s E3. injection E1 as <-. apply opt_dist. }
      destruct (HR _ _ _ _ _ _ _ OKI DI (new_dist named d nm DN) E2) as [D1 K1].
      destruct (new_obj named d nm) as (gs & Q). rewrite Q in K1. cbn [kept] in K1. destruct K1 as [[gs' ->] _].
      exact (store_fine _ _ _ _ _ _ DO D1 (place_harmless _ _ _ _ _ A) E).
    - split_ok OKI. destruct (find (rkey key p) x); [exact (HR _ _ _ _ _ _ _ OKI DI DO E)|exact (HR _ _ _ _ _ _ _ OKI0 DI DO E)].
    - refine (fold_out_inv _ _ (fine o) _ _ _ _ (fine_refl _ DO) _ E). intros y s s' _ S1 E1.
      exact (fine_trans _ _ _ S1 (HR _ _ _ _ _ _ _ OKI DI (proj1 S1) E1)).
    - split_ok OKI. step E w E1. pose proof (HV _ _ _ _ _ _ _ OKI DI DO E1) as D1. destruct w as [| | | |l]; try discriminate.
      refine (fold_out_inv _ _ (fine o) _ _ _ _ (fine_refl _ DO) _ E). intros y s s' I S1 E2.
      exact (fine_trans _ _ _ S1 (HR _ _ _ _ _ _ _ OKI0 (dist_items _ _ D1 I) (proj1 S1) E2)).
    - split_ok OKI. step E t E1. destruct t; [exact (HR _ _ _ _ _ _ _ OKI DI DO E)|exact (HR _ _ _ _ _ _ _ OKI0 DI DO E)].
    - destruct o as [| | |c fs|]; try discriminate. destruct g as [m0|f].
      + split_ok OKI. destruct (access_of c m0) as [[f| | | |]|] eqn:A; try discriminate. destruct (assoc f fs) as [w|] eqn:B; [|discriminate].
        step E w' E1. injection E as <-. destruct (quiet_ok _ c (getter_quiet_ok _ _ _ OKI A)) as [Q1 Q2].
        apply set_fine; [exact DO| |exact Q1|exact Q2]. exact (proj1 (HR _ _ _ _ _ _ _ OKI0 DI (dist_field _ _ _ _ DO B) E1)).
      + split_ok OKI. destruct (assoc f fs) as [w|] eqn:B; [|discriminate].
        step E w' E1. injection E as <-. destruct (quiet_ok _ c OKI) as [Q1 Q2].
        apply set_fine; [exact DO| |exact Q1|exact Q2]. exact (proj1 (HR _ _ _ _ _ _ _ OKI0 DI (dist_field _ _ _ _ DO B) E1)).
    - destruct (soft && warn); [|discriminate]. injection E as <-. now apply fine_refl. }
  exact (fine_trans _ _ _ F (HR _ _ _ _ _ _ _ OKR DI (proj1 F) H)).
Qed.
Lemma runs_fine : forall n, RD n /\ VD n.
Proof.
  induction n as [|n [HR HV]].
  - split; intros m c key x it o o' _ _ _ H; discriminate.
  - split; [now apply RD_step|now apply VD_step].
Qed.
Lemma load_ok : okc depth load_code = true.
Proof. vm_compute. reflexivity. Qed.
Lemma loaded_dist : forall x u, loaded warn x u -> dist u.
Proof.
  intros x u (n & H). refine (proj1 (proj1 (runs_fine n) _ _ _ _ _ _ _ load_ok dist_none _ H)). exact (new_dist false "AUTOSAR" VNone dist_none).
Qed.
End Runs.

(** *** the table and the specification agree *)
Lemma enrols_entered : forall c f, enrols_in enrol_rows c f = true <-> entered c f.
Proof.
  intros c f. unfold enrols_in. rewrite existsb_exists. split.
  - intros (r & I & H). destruct (String.eqb_spec (snd r) f) as [Q|_]; [|discriminate]. subst f.
    unfold enrol_rows in I. destruct I as [I|[I|I]].
    + subst r. apply entered_package; [reflexivity|now left].
    + subst r. apply entered_package; [reflexivity|now right].
    + apply in_flat_map in I. destruct I as ([[k m] cr] & I & J). destruct (k_add cr) eqn:A; [|destruct J].
      destruct (access_of k m) as [[| | | |d nm p]|] eqn:B; try destruct J as [J|J]; try destruct J. cbn [fst snd] in *.
      apply (entered_created c _ k m cr d nm p); auto. destruct p; [now left|now right].
  - intros [Q [H|H]|k m cr d nm p I A H B Q].
    + subst f. exists ("AbstractAUTOSAR", "arPackages"). split; [now left|]. exact H.
    + subst f. exists ("ARPackage", "arPackages"). split; [right; now left|]. exact H.
    + exists (k, f). split; [|cbn [fst snd]; rewrite String.eqb_refl; exact H].
      right. right. apply in_flat_map. exists (k, m, cr). split; [exact I|]. rewrite A, B. left. destruct Q as [Q|Q]; subst p; reflexivity.
Qed.
Lemma member_coll : forall o w, member o w -> exists c fs f, o = VObj c fs /\ enrols_in rows c f = true /\ In w (coll o).
Proof.
  intros o w [c fs f l w' I E J|c fs f d gs I E]; exists c, fs, f; split; try reflexivity; apply enrols_entered in E; rewrite rows_eq in E; (split; [exact E|]);
    unfold collection; apply in_flat_map.
  - exists (f, VList l). split; [exact I|]. cbn [fst snd items_of]. now rewrite E.
  - exists (f, VObj d gs). split; [exact I|]. cbn [fst snd items_of]. rewrite E. now left.
Qed.
Lemma coll_member : forall o w, In w (coll o) -> member o w.
Proof.
  intros [| | |c fs|] w I; cbn [collection] in I; try destruct I. apply in_flat_map in I. destruct I as ([f x] & I & J). cbn [fst snd] in J.
  destruct (enrols_in rows c f) eqn:E; [|destruct J]. rewrite <- rows_eq in E. apply enrols_entered in E.
  destruct x as [| | |d gs|l]; cbn [items_of] in J; try (exfalso; exact J).
  - destruct J as [J|J]; [subst w; exact (member_one c fs f d gs I E)|destruct J].
  - exact (member_list c fs f l w I E J).
Qed.
Lemma member_dist : forall o w, dist o -> member o w -> dist w.
Proof.
  intros o w D M. revert D. destruct M as [c fs f l w' I _ J|c fs f d gs I _]; intros D; inversion D as [| | | |c' fs' _ F]; subst; rewrite Forall_forall in F; specialize (F _ I); cbn [snd] in F.
  - exact (dist_items _ _ F J).
  - exact F.
Qed.

(** *** find *)
Lemma named_is : forall w n, name_is n w = true <-> named w n.
Proof.
  intros w n. unfold name_is, named. split.
  - intros H. destruct (field w "short_name") as [[|s| | |]|]; try discriminate. apply String.eqb_eq in H. now subst.
  - intros ->. apply String.eqb_refl.
Qed.
Lemma named_vname : forall w n, named w n -> vname w = [n].
Proof. intros w n H. unfold vname. now rewrite H. Qed.
Lemma nodup_tail : forall (l r : list string), NoDup (l ++ r) -> NoDup r.
Proof. induction l as [|a l IH]; intros r D; [exact D|]. inversion D; subst. now apply IH. Qed.
Lemma find_one : forall l w n, NoDup (flat_map vname l) -> In w l -> named w n -> List.find (name_is n) l = Some w.
Proof.
  induction l as [|v l IH]; intros w n D I N; [destruct I|]. cbn [List.find]. destruct (name_is n v) eqn:E.
  - destruct I as [I|I]; [now subst|]. apply named_is in E. cbn [flat_map] in D. rewrite (named_vname _ _ E) in D. cbn [app] in D.
    inversion D as [|a b K _]; subst. exfalso. apply K. apply in_flat_map. exists w. split; [exact I|]. rewrite (named_vname _ _ N). now left.
  - destruct I as [I|I]; [subst v; apply named_is in N; congruence|]. apply IH; auto. cbn [flat_map] in D. exact (nodup_tail _ _ D).
Qed.
Lemma element_found : forall o w n, dist o -> member o w -> named w n -> value_element rows o n = Done (Some w).
Proof.
  intros o w n D M N. destruct (member_coll _ _ M) as (c & fs & f & -> & E & I). unfold value_element.
  destruct (enrols_collection _ _ E) as [-> ->]. f_equal. apply find_one; auto. inversion D; subst. assumption.
Qed.
Lemma element_in : forall rs o n w, value_element rs o n = Done (Some w) -> In w (collection rs o) /\ named w n.
Proof.
  intros rs o n w E. destruct o as [| | |c fs|]; try discriminate. unfold value_element in E. destruct (isinst c _); [discriminate|]. destruct (has_collection c); [|discriminate].
  injection E as E. apply find_some in E. destruct E as [I N]. split; [exact I|now apply named_is].
Qed.
Lemma walk_found : forall ns o v, dist o -> lives o (nonempty_names ns) v -> value_find_from rows o ns = Done (Some v).
Proof.
  induction ns as [|n ns IH]; intros o v D L; cbn [nonempty_names filter] in L; cbn [value_find_from].
  - inversion L; subst. reflexivity.
  - destruct n as [|a n]; [exact (IH _ _ D L)|]. cbn [is_empty negb] in L. replace (String.eqb (String a n) "") with false by reflexivity.
    inversion L as [|u n' w ns' v' M N K]; subst. rewrite (element_found _ _ _ D M N). apply IH; [exact (member_dist _ _ D M)|exact K].
Qed.
Lemma walk_sound : forall ns o v, value_find_from rows o ns = Done (Some v) -> lives o (nonempty_names ns) v.
Proof.
  induction ns as [|n ns IH]; intros o v H; cbn [value_find_from] in H; cbn [nonempty_names filter].
  - injection H as <-. constructor.
  - destruct n as [|a n]; [exact (IH _ _ H)|]. cbn [is_empty negb]. replace (String.eqb (String a n) "") with false in H by reflexivity.
    destruct (value_element rows o (String a n)) as [[w|]| | |] eqn:E; try discriminate. destruct (element_in rows _ _ _ E) as [I N].
    exact (lives_below o _ w _ v (coll_member o w I) N (IH _ _ H)).
Qed.

Lemma c58_find : forall warn x u path ws v, loaded warn x u -> components path ws ->
  (doc_find_path u path = Done (Some v) <-> lives u (nonempty_names ws) v).
Proof.
  intros warn x u path ws v L C. unfold doc_find_path. rewrite (components_split _ _ C), rows_eq. split; [apply walk_sound|].
  apply walk_found. exact (loaded_dist warn x u L).
Qed.
Lemma nonempty_all : forall ns, Forall (fun n => n <> "" /\ slash_free n) ns -> nonempty_names ns = ns.
Proof.
  induction ns as [|n ns IH]; intros F; [reflexivity|]. inversion F as [|a b [A _] B]; subst. cbn [nonempty_names filter].
  destruct n as [|c n]; [congruence|]. cbn [is_empty negb]. f_equal. exact (IH B).
Qed.
Lemma c58_path : forall warn x u ns v, loaded warn x u -> lives u ns v -> Forall (fun n => n <> "" /\ slash_free n) ns ->
  doc_find_path u (slash_path ns) = Done (Some v).
Proof.
  intros warn x u ns v L V F. unfold doc_find_path. rewrite split_slash_path, rows_eq; [|eapply Forall_impl; [|exact F]; now intros a [_ ?]].
  cbn [value_find_from]. replace (String.eqb "" "") with true by reflexivity. apply walk_found; [exact (loaded_dist warn x u L)|]. now rewrite nonempty_all.
Qed.
Lemma lives_dist : forall u ns v, lives u ns v -> dist u -> dist v.
Proof. induction 1 as [|u n w ns v M _ _ IH]; intros D; [exact D|]. apply IH. exact (member_dist _ _ D M). Qed.
Lemma c58_one : forall warn x u ns o w w' n, loaded warn x u -> lives u ns o -> member o w -> member o w' -> named w n -> named w' n -> w = w'.
Proof.
  intros warn x u ns o w w' n L V M M' N N'. pose proof (lives_dist _ _ _ V (loaded_dist warn x u L)) as D.
  pose proof (element_found _ _ _ D M N) as E. pose proof (element_found _ _ _ D M' N') as E'. congruence.
Qed.
Lemma c58_ref_plain : forall u b d path, d = None \/ d = Some "" -> doc_find_ref u (mkRef b d (Some path)) = doc_find_path u path.
Proof.
  intros u b d path [-> | ->]; unfold doc_find_ref, value_find_ref, doc_find_path; cbn [r_value r_dest];
    destruct (value_find_from enrol_rows u (split_char "/" path)) as [[w|]| | |]; reflexivity.
Qed.
Lemma c58_ref : forall u b d path v, d <> "" -> doc_find_path u path = Done (Some v) ->
  (doc_find_ref u (mkRef b (Some d) (Some path)) = Done (Some v) <->
   exists k, In k dest_kinds /\ xml_name k = d /\ isinst (class_name v) k = true).
Proof.
  intros u b d path v N H. unfold doc_find_ref, value_find_ref. unfold doc_find_path in H. cbn [r_value r_dest]. rewrite H.
  destruct (String.eqb_spec d ""); [contradiction|]. split.
  - destruct (dest_type_in _ _) as [d'|e] eqn:E; [|discriminate]. destruct (String.eqb_spec d' d); [|discriminate]. subst. intros _.
    apply dest_in in E. destruct E as (k & A & B). apply dest_spelled in A. exists k. tauto.
  - intros (k & A & B & C). assert (A' : In (k, d) dest_table) by (apply dest_spelled; auto).
    destruct (dest_type_in _ _) as [d'|e] eqn:E.
    + apply dest_in in E. destruct E as (k' & I' & B'). pose proof (one_kind _ _ _ _ _ A' I' C B') as Q. inversion Q; subst. now rewrite String.eqb_refl.
    + destruct (dest_raise _ _ _ E) as [_ X]. rewrite (X _ _ A') in C. discriminate.
Qed.
