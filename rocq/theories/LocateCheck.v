(** Computed facts about the tables and the reader code used for C58.  Nothing here models code. *)
From Coq Require Import String Ascii List Bool.
From Verif Require Import PyBase ClassTable Ir Access ReaderCode IrSem Creators Locate.
Import ListNotations.
Open Scope string_scope.
Open Scope list_scope.

Definition inb (s : string) (l : list string) : bool := existsb (String.eqb s) l.
Lemma inb_in : forall s l, inb s l = true <-> In s l.
Proof.
  intros s l. unfold inb. rewrite existsb_exists. split; [intros (x & I & E); apply String.eqb_eq in E; now subst|].
  intros I. exists s. split; [exact I|apply String.eqb_refl].
Qed.

(** *** the table of entered attributes as a literal *)
Definition rows : list (string * string) := Eval vm_compute in enrol_rows.
Lemma rows_eq : enrol_rows = rows.
Proof. vm_compute. reflexivity. Qed.
Definition owners : list string := Eval vm_compute in nodup string_dec (map fst rows).
Lemma owners_ok : forallb (fun r => inb (fst r) owners) rows = true.
Proof. vm_compute. reflexivity. Qed.
Definition entered_fields : list string := Eval vm_compute in nodup string_dec (map snd rows).
Lemma fields_ok : forallb (fun r => inb (snd r) entered_fields) rows = true.
Proof. vm_compute. reflexivity. Qed.
Lemma short_name_not_entered : inb "short_name" entered_fields = false.
Proof. vm_compute. reflexivity. Qed.

Lemma enrols_field : forall c f, enrols_in rows c f = true -> inb f entered_fields = true.
Proof.
  intros c f H. unfold enrols_in in H. apply existsb_exists in H. destruct H as (r & I & H).
  destruct (String.eqb_spec (snd r) f) as [Q|_]; [|discriminate]. subst f. pose proof fields_ok as K. rewrite forallb_forall in K. apply K. exact I.
Qed.
Lemma enrols_owner : forall c f, enrols_in rows c f = true -> exists k, In k owners /\ In k (ancestors 20 c).
Proof.
  intros c f H. unfold enrols_in in H. apply existsb_exists in H. destruct H as (r & I & H). destruct (String.eqb (snd r) f); [|discriminate].
  exists (fst r). split; [|apply inb_in; exact H]. pose proof owners_ok as K. rewrite forallb_forall in K. apply inb_in, K, I.
Qed.

(** classes of the class table; anything else has only itself as ancestor *)
Definition classes : list string := Eval vm_compute in map fst class_bases.
Lemma classes_ok : classes = map fst class_bases.
Proof. vm_compute. reflexivity. Qed.
Lemma owners_known : forallb (fun k => inb k classes) owners = true.
Proof. vm_compute. reflexivity. Qed.
Lemma bases_in : forall c b, In b (bases c) -> In c classes.
Proof.
  intros c b I. rewrite classes_ok. unfold bases in I. destruct (List.find _ class_bases) as [p|] eqn:E; [|destruct I].
  apply find_some in E. destruct E as [J E]. apply String.eqb_eq in E. subst c. now apply in_map.
Qed.
Lemma enrols_class : forall c f, enrols_in rows c f = true -> In c classes.
Proof.
  intros c f H. destruct (enrols_owner _ _ H) as (k & I & J). change 20 with (S 19) in J. cbn [ancestors] in J. destruct J as [J|J].
  - subst k. pose proof owners_known as K. rewrite forallb_forall in K. apply inb_in, K, I.
  - apply in_flat_map in J. destruct J as (b & J & _). exact (bases_in _ _ J).
Qed.

(** owners of entered objects have a collection; [t]: the classes with their ancestors *)
Definition anc_list : list (string * list string) := map (fun c => (c, ancestors 20 c)) classes.
Definition owner_ok (p : string * list string) : bool :=
  let a := snd p in
  if existsb (fun k => inb k a) owners
  then (inb "CollectableElement" a || inb "Identifiable" a) && negb (inb "SignalServiceTranslationElementProps" a) else true.
Definition owner_check (t : list (string * list string)) : bool :=
  forallb owner_ok t.
Lemma owner_all : forall t, owner_check t = true -> forall p, In p t -> owner_ok p = true.
Proof. intros t H. apply forallb_forall. exact H. Qed.

(** *** methods that put objects into entered attributes or change short names *)
Definition puts_into (a : access) : option string :=
  match a with ASet f _ | AAdd f _ => Some f | _ => None end.
(** no class is both a [k] and an owner of entered objects in [f] *)
Definition apart (t : list (string * list string)) (k f : string) : bool :=
  forallb (fun r => if String.eqb (snd r) f then forallb (fun p => if inb k (snd p) then negb (inb (fst r) (snd p)) else true) t else true) rows.
Definition harmless (t : list (string * list string)) (k f : string) : bool :=
  negb (String.eqb f "short_name") && (if inb f entered_fields then apart t k f else true).
Definition risky : list string := Eval vm_compute in nodup string_dec
  ((fun t => flat_map (fun e => flat_map (fun p => match puts_into (snd p) with
      | Some f => if harmless t (fst e) f then [] else [fst p] | None => [] end) (snd e)) access_table) anc_list).
Definition risky_check (t : list (string * list string)) : bool :=
  forallb (fun e => forallb (fun p => match puts_into (snd p) with
      | Some f => if inb (fst p) risky then true else harmless t (fst e) f | None => true end) (snd e)) access_table.
Lemma risky_all : forall t, risky_check t = true -> forall k l m a f, In (k, l) access_table -> In (m, a) l -> puts_into a = Some f ->
  inb m risky = false -> harmless t k f = true.
Proof.
  intros t H k l m a f I J P R. unfold risky_check in H. rewrite forallb_forall in H. specialize (H _ I). rewrite forallb_forall in H. specialize (H _ J).
  cbn [fst snd] in H. rewrite P, R in H. exact H.
Qed.
Definition both_check (t : list (string * list string)) : bool := owner_check t && risky_check t.
Lemma classes_check : both_check anc_list = true.
Proof. vm_compute. reflexivity. Qed.
Lemma both_parts : forall t, both_check t = true -> owner_check t = true /\ risky_check t = true.
Proof. intros t H. unfold both_check in H. now apply andb_true_iff in H. Qed.
Lemma owner_part : owner_check anc_list = true.
Proof. exact (proj1 (both_parts anc_list classes_check)). Qed.
Lemma risky_part : risky_check anc_list = true.
Proof. exact (proj2 (both_parts anc_list classes_check)). Qed.

Lemma anc_list_in : forall c, In c classes -> In (c, ancestors 20 c) anc_list.
Proof. intros c I. exact (in_map (fun c => (c, ancestors 20 c)) classes c I). Qed.
Lemma enrols_collection : forall c f, enrols_in rows c f = true ->
  has_collection c = true /\ isinst c "SignalServiceTranslationElementProps" = false.
Proof.
  intros c f H. pose proof (enrols_class _ _ H) as I. destruct (enrols_owner _ _ H) as (k & J & J').
  pose proof (owner_all _ owner_part _ (anc_list_in c I)) as K. unfold owner_ok in K. cbv zeta in K. cbn [snd] in K.
  assert (E : existsb (fun k => inb k (ancestors 20 c)) owners = true). { apply existsb_exists. exists k. split; [exact J|now apply inb_in]. }
  rewrite E in K. apply andb_true_iff in K. destruct K as [K1 K2]. split; [exact K1|].
  apply negb_true_iff in K2. exact K2.
Qed.
Lemma apart_ok : forall c k f, apart anc_list k f = true -> In k (ancestors 20 c) -> enrols_in rows c f = false.
Proof.
  intros c k f A I. destruct (enrols_in rows c f) eqn:F; [|reflexivity]. pose proof (enrols_class _ _ F) as C.
  unfold enrols_in in F. apply existsb_exists in F. destruct F as (r & J & F2). destruct (String.eqb (snd r) f) eqn:F1; [|discriminate].
  unfold apart in A. rewrite forallb_forall in A. specialize (A _ J). rewrite F1 in A. rewrite forallb_forall in A.
  specialize (A _ (anc_list_in c C)). cbn [snd] in A. replace (inb k (ancestors 20 c)) with true in A by (symmetry; now apply inb_in).
  unfold inb in A. rewrite F2 in A. discriminate.
Qed.

Lemma assoc_in : forall A (l : list (string * A)) k a, assoc k l = Some a -> In (k, a) l.
Proof.
  intros A. induction l as [|[k' b] l IH]; intros k a H; cbn [assoc] in H; [discriminate|].
  destruct (String.eqb_spec k k') as [Q|N]; [injection H as <-; subst; now left|right; auto].
Qed.
Lemma first_access_in : forall cs m a, first_access cs m = Some a -> exists k t, In k cs /\ In (k, t) access_table /\ In (m, a) t.
Proof.
  induction cs as [|c cs IH]; intros m a H; cbn [first_access] in H; [discriminate|].
  destruct (assoc c access_table) as [t|] eqn:E.
  - destruct (assoc m t) as [b|] eqn:F.
    + injection H as ->. exists c, t. split; [now left|]. split; [exact (assoc_in _ _ _ _ E)|exact (assoc_in _ _ _ _ F)].
    + destruct (IH _ _ H) as (k & t' & I & J). exists k, t'. split; [now right|exact J].
  - destruct (IH _ _ H) as (k & t' & I & J). exists k, t'. split; [now right|exact J].
Qed.
Lemma access_in : forall c m a, access_of c m = Some a -> exists k t, In k (ancestors 20 c) /\ In (k, t) access_table /\ In (m, a) t.
Proof. intros c m a. apply first_access_in. Qed.
Lemma put_harmless : forall c m a f, access_of c m = Some a -> puts_into a = Some f -> inb m risky = false ->
  enrols_in rows c f = false /\ f <> "short_name".
Proof.
  intros c m a f H P R. destruct (access_in _ _ _ H) as (k & t & I & J & L).
  pose proof (risky_all _ risky_part _ _ _ _ _ J L P R) as K. unfold harmless in K.
  apply andb_true_iff in K. destruct K as [E1 E2]. split.
  - destruct (inb f entered_fields) eqn:F; [exact (apart_ok _ _ _ E2 I)|].
    destruct (enrols_in rows c f) eqn:G; [|reflexivity]. rewrite (enrols_field _ _ G) in F. discriminate.
  - intros Q. subst f. rewrite String.eqb_refl in E1. discriminate.
Qed.

Lemma places_ok : forallb (fun t => forallb (fun p => match snd p with
  | ANew _ _ pl => negb (String.eqb (place_field pl) "short_name") | _ => true end) (snd t)) access_table = true.
Proof. vm_compute. reflexivity. Qed.
Lemma place_harmless : forall c m d nm p, access_of c m = Some (ANew d nm p) -> place_field p <> "short_name".
Proof.
  intros c m d nm p H. destruct (access_in _ _ _ H) as (k & t & I & J & L).
  pose proof places_ok as K. rewrite forallb_forall in K. specialize (K _ J). rewrite forallb_forall in K. specialize (K _ L).
  cbn [snd] in K. intros Q. rewrite Q, String.eqb_refl in K. discriminate.
Qed.

(** *** the reader code uses no such method *)
Definition quiet (f : string) : bool := negb (inb f entered_fields) && negb (String.eqb f "short_name").
Lemma quiet_ok : forall f c, quiet f = true -> enrols_in rows c f = false /\ f <> "short_name".
Proof.
  intros f c H. unfold quiet in H. apply andb_true_iff in H. destruct H as [A B]. split.
  - destruct (enrols_in rows c f) eqn:F; [|reflexivity]. rewrite (enrols_field _ _ F) in A. discriminate.
  - intros Q. subst f. rewrite String.eqb_refl in B. discriminate.
Qed.
Definition getter_quiet (m : string) : bool :=
  forallb (fun t => forallb (fun p => if String.eqb (fst p) m then match snd p with AGet f => quiet f | _ => true end else true) (snd t)) access_table.
Lemma getter_quiet_ok : forall c m f, getter_quiet m = true -> access_of c m = Some (AGet f) -> quiet f = true.
Proof.
  intros c m f G H. destruct (access_in _ _ _ H) as (k & t & I & J & L). unfold getter_quiet in G.
  rewrite forallb_forall in G. specialize (G _ J). rewrite forallb_forall in G. specialize (G _ L). cbn [fst snd] in G.
  rewrite String.eqb_refl in G. exact G.
Qed.

Fixpoint okc (n : nat) (code : list ri) {struct n} : bool :=
  match n with
  | O => false
  | S n' =>
    forallb (fun i => match i with
      | RAttrs | RCall _ _ | RFail _ _ | RUnknown => true
      | RPut m v | RPutAny m _ v => negb (inb m risky) && okv n' v
      | RSet a v => quiet a && okv n' v
      | RCreate _ _ b | RFor _ b => okc n' b
      | RFind _ a b | RIf _ a b => okc n' a && okc n' b
      | RForVal v b => okv n' v && okc n' b
      | RSub (GA f) b => quiet f && okc n' b
      | RSub (GM m) b => getter_quiet m && okc n' b
      end) code
  end
with okv (n : nat) (v : vx) {struct n} : bool :=
  match n with
  | O => false
  | S n' =>
    match v with
    | VNewX _ _ b | VListX b => okc n' b
    | VWrapX _ _ a | VValueX a | VLastX _ a => okv n' a
    | VFindX _ a b | VOrX a b | VIfX _ a b => okv n' a && okv n' b
    | _ => true
    end
  end.
Definition depth : nat := 300.
Lemma code_ok : forallb (fun p => okc depth (fst (snd p)) && match snd (snd p) with Some r => okv depth r | None => true end) rfuns = true.
Proof. vm_compute. reflexivity. Qed.
Lemma fun_ok : forall f b r, assoc f rfuns = Some (b, r) -> okc depth b = true /\ (forall v, r = Some v -> okv depth v = true).
Proof.
  intros f b r H. apply assoc_in in H. pose proof code_ok as K. rewrite forallb_forall in K. specialize (K _ H). cbn [fst snd] in K.
  apply andb_true_iff in K. destruct K as [A B]. split; [exact A|]. intros v ->. exact B.
Qed.

(** *** constructed objects have no short name *)
Lemma attrs_ok : forallb (fun t => forallb (fun p => if String.eqb (fst p) "short_name" then match snd p with DEmpty => false | _ => true end else true) (snd t)) attr_table = true.
Proof. vm_compute. reflexivity. Qed.
