(** From documents to the text of files and back. *)
From Coq Require Import String Ascii List Bool Arith Lia Floats.SpecFloat.
From Verif Require Import PyBase PyBaseFacts Primitives Xml Leaf ClassTable Ir Access WriterCode ReaderCode IrSem IrFacts IrGo SpecDomain SpecRoundTrip RoundTripProps Serial SpecSerial SerialFacts SerialPatch SpecFile.
Import ListNotations.
Open Scope string_scope.
Open Scope list_scope.

(** ** Elements filled by the writer *)
Definition good_attrs (a : list (string * string)) : Prop := Forall (fun p => good_name (fst p) /\ good_value (snd p)) a /\ NoDup (map fst a).
Definition good_elem (e : elem) : Prop :=
  good_attrs (e_attrs e) /\ (forall v, e_text e = Some v -> good_text v) /\ Forall writable (e_kids e).
Lemma good_elem0 : good_elem elem0.
Proof. split; [split; constructor|]. split; [discriminate|constructor]. Qed.
Lemma dset_keys : forall (d : list (string * string)) k v, map fst (dset d k v) = if existsb (String.eqb k) (map fst d) then map fst d else map fst d ++ [k].
Proof.
  induction d as [|[k' v'] d IH]; intros k v; [reflexivity|]. cbn [dset map fst existsb]. destruct (String.eqb_spec k k') as [->|N]; cbn [map fst orb]; [reflexivity|].
  rewrite IH. destruct (existsb _ _); reflexivity.
Qed.
Lemma dset_all : forall (P : string * string -> Prop) d k v, Forall P d -> P (k, v) -> Forall P (dset d k v).
Proof.
  induction d as [|[k' v'] d IH]; intros k v F H; cbn [dset]; [constructor; auto|]. inversion F; subst. destruct (String.eqb_spec k k') as [->|N]; constructor; auto.
Qed.
Lemma good_add_attr : forall e k v, good_elem e -> good_name k -> good_value v -> good_elem (add_attr e k v).
Proof.
  intros e k v ((A & N) & T & K) HK HV. split; [|split; [exact T|exact K]]. split.
  - apply dset_all; [exact A|]. now split.
  - cbn [add_attr e_attrs]. rewrite dset_keys. destruct (existsb _ _) eqn:E; [exact N|].
    apply NoDup_app_single; [exact N|]. intros I. assert (Q : existsb (String.eqb k) (map fst (e_attrs e)) = true) by (apply existsb_exists; exists k; split; [exact I|apply String.eqb_refl]). congruence.
Qed.
Lemma good_add_kid : forall e x, good_elem e -> writable x -> good_elem (add_kid e x).
Proof. intros e x (A & T & K) W. split; [exact A|]. split; [exact T|]. apply Forall_app. auto. Qed.
Lemma good_add_kids : forall xs e, good_elem e -> Forall writable xs -> good_elem (fold_left add_kid xs e).
Proof. induction xs as [|x xs IH]; intros e G F; [exact G|]. inversion F; subst. apply IH; [now apply good_add_kid|assumption]. Qed.
Lemma good_xml : forall t e, good_name t -> good_elem e -> writable (to_xml t e).
Proof. intros t e T ((A & N) & X & K). constructor; auto. Qed.

(** ** Printable values *)
Lemma line_true : forall s, line true s = true <-> good_value s.
Proof. intros. reflexivity. Qed.
Lemma line_false : forall s, line false s = true <-> good_text s.
Proof. intros. reflexivity. Qed.
Lemma line_weaken : forall b s, line true s = true -> line b s = true.
Proof.
  intros [|] s H; [exact H|]. unfold line in *. induction s as [|c s IH]; [reflexivity|]. cbn [all_chars] in *. apply andb_true_iff in H. destruct H as [H1 H2].
  rewrite H1. cbn [orb]. now apply IH.
Qed.
Lemma opt_weaken : forall b s, opt_line true s = true -> opt_line b s = true.
Proof. intros b [s|] H; [now apply line_weaken|reflexivity]. Qed.
Lemma val_ind' : forall P : val -> Prop, P VNone -> (forall s, P (VStr s)) -> (forall l, P (VLeaf l)) ->
  (forall c fs, Forall (fun p => P (snd p)) fs -> P (VObj c fs)) -> (forall l, Forall P l -> P (VList l)) -> forall v, P v.
Proof.
  intros P H1 H2 H3 H4 H5. fix IH 1. intros [|s|l|c fs|l]; [exact H1|exact (H2 s)|exact (H3 l)| |].
  - apply H4. induction fs as [|[f w] fs IHf]; constructor; [apply IH|exact IHf].
  - apply H5. induction l as [|w l IHl]; constructor; [apply IH|exact IHl].
Qed.
Lemma leaf_weaken : forall b l, leaf_tidy true l = true -> leaf_tidy b l = true.
Proof.
  intros b l H. destruct l; cbn [leaf_tidy] in *; repeat (apply andb_true_iff in H; destruct H as [H ?]); repeat (apply andb_true_iff; split); auto; try now apply opt_weaken.
  destruct (n_text n); [now apply line_weaken|discriminate].
Qed.
Lemma tidy_weaken : forall v b, tidy true v = true -> tidy b v = true.
Proof.
  induction v as [|s|l|c fs F|l F] using val_ind'; intros b H; cbn [tidy] in *; auto; [now apply line_weaken|now apply leaf_weaken| |].
  - rewrite forallb_forall in *. intros [f w] I. specialize (H _ I). rewrite Forall_forall in F. specialize (F _ I). cbn [snd] in F. cbn beta iota in *.
    destruct (String.eqb f "xmlSpace"); [exact H|]. cbn [orb] in H. destruct w; auto; now apply F.
  - rewrite forallb_forall in *. intros w I. rewrite Forall_forall in F. apply F; auto.
Qed.
Definition listed (f : string) : bool := existsb (String.eqb f) attribute_fields.
Lemma tidy_field : forall b c fs f w, tidy b (VObj c fs) = true -> assoc f fs = Some w ->
  (f = "xmlSpace" /\ w = VNone) \/ (f <> "xmlSpace" /\ ((exists l, w = VList l) /\ tidy b w = true \/ tidy (b || listed f) w = true)).
Proof.
  intros b c fs f w H A. cbn [tidy] in H. rewrite forallb_forall in H.
  assert (I : In (f, w) fs). { clear H. induction fs as [|[k v] fs IH]; [discriminate|]. cbn [assoc] in A. destruct (String.eqb_spec f k) as [->|N]; [injection A as ->; now left|right; auto]. }
  specialize (H _ I). cbn beta iota in H. destruct (String.eqb_spec f "xmlSpace") as [->|N].
  - left. split; [reflexivity|]. destruct w; congruence.
  - right. split; [exact N|]. destruct w; [now right|now right|now right|now right|left; split; [now eexists|exact H]].
Qed.
Lemma field_tidy : forall b c fs f w, tidy b (VObj c fs) = true -> assoc f fs = Some w -> tidy b w = true.
Proof.
  intros b c fs f w H A. destruct (tidy_field _ _ _ _ _ H A) as [[_ ->] | [_ [[_ T] | T]]]; [reflexivity|exact T|]. destruct b; [exact T|]. destruct (listed f); cbn [orb] in T; [now apply tidy_weaken|exact T].
Qed.
Local Opaque access_of init named_init wfuns rfuns access_table.
Lemma get1_tidy : forall b v g w, get1 v g = Done w -> tidy b v = true -> tidy b w = true.
Proof.
  intros b v g w G T. destruct v as [|s|l|c fs|l]; cbn [get1] in G; try discriminate.
  - assert (L : forall l, opt_line b (l_value l) = true -> tidy b (VStr (lit_str l)) = true).
    { intros l0 H. unfold lit_str. cbn [tidy]. destruct (l_value l0); [exact H|destruct b; reflexivity]. }
    destruct l; try discriminate; cbn [tidy leaf_tidy] in T; apply andb_true_iff in T; destruct T as [_ T]; destruct g as [m|m]; try discriminate;
      match type of G with (if ?t then _ else _) = _ => destruct t end; try discriminate; injection G as <-; try (now apply L).
    destruct (r_value _); [exact T|reflexivity].
  - destruct g as [m|a].
    + destruct (access_of c m) as [[f|f| | |]|]; try discriminate.
      * destruct (assoc f fs) eqn:A; [|discriminate]. injection G as <-. eapply field_tidy; eauto.
      * destruct (assoc f fs) as [[| | | |l]|] eqn:A; try discriminate. destruct (sortable l); [|discriminate]. injection G as <-. pose proof (field_tidy _ _ _ _ _ T A) as H. cbn [tidy] in *.
        rewrite forallb_forall in *. intros x I. apply H. now apply py_sorted_In in I.
    + destruct (assoc a fs) eqn:A; [|discriminate]. injection G as <-. eapply field_tidy; eauto.
Qed.
Lemma obind_done : forall A B (a : out A) (f : A -> out B) w, obind a f = Done w -> exists x, a = Done x /\ f x = Done w.
Proof. intros A B [a|e| |] f w H; try discriminate. now exists a. Qed.
Lemma gets_tidy : forall p b v w, gets v p = Done w -> tidy b v = true -> tidy b w = true.
Proof.
  induction p as [|g p IH]; intros b v w G T; cbn [gets] in G; [now injection G as <-|]. apply obind_done in G. destruct G as [x [G1 G2]]. eapply IH; [exact G2|]. eapply get1_tidy; eauto.
Qed.

(** ** Steps to attributes written as XML attributes *)
Definition step_listed (g : gstep) : bool :=
  match g with
  | GA f => listed f
  | GM m => if String.eqb m "getValue" then false else if String.eqb m "getText" then false else
            forallb (fun ct => match assoc m (snd ct) with Some (AGet f) => listed f | Some _ => false | None => true end) access_table
  end.
Definition step_absent (g : gstep) : bool :=
  match g with
  | GA f => String.eqb f "xmlSpace"
  | GM m => if String.eqb m "getValue" then false else if String.eqb m "getText" then false else
            forallb (fun ct => match assoc m (snd ct) with Some (AGet f) => String.eqb f "xmlSpace" | Some _ => false | None => true end) access_table
  end.
Lemma access_found : forall c m a, access_of c m = Some a -> exists ct, In ct access_table /\ assoc m (snd ct) = Some a.
Proof.
  intros c m a. Local Transparent access_of. unfold access_of. Local Opaque access_of. generalize (ancestors 20 c) as cs. induction cs as [|k cs IH]; cbn [first_access]; [discriminate|].
  destruct (assoc k access_table) as [t|] eqn:E; [|exact IH]. destruct (assoc m t) eqn:E2; [|exact IH]. intros [= <-]. exists (k, t). split; [|exact E2].
  clear -E. induction access_table as [|[k' v] l IH]; [discriminate|]. cbn [assoc] in E. destruct (String.eqb_spec k k') as [->|N]; [injection E as ->; now left|right; auto].
Qed.
(** the attribute a step selects *)
Lemma step_field : forall (ok : string -> bool) v g w, ok "value" = false ->
  match g with
  | GA f => ok f
  | GM m => if String.eqb m "getValue" then false else if String.eqb m "getText" then false else
            forallb (fun ct => match assoc m (snd ct) with Some (AGet f) => ok f | Some _ => false | None => true end) access_table
  end = true ->
  get1 v g = Done w -> exists c fs f, v = VObj c fs /\ ok f = true /\ assoc f fs = Some w.
Proof.
  intros ok v g w NV S G. destruct v as [|s|l|c fs|l]; cbn [get1] in G; try discriminate.
  - exfalso. destruct l; try discriminate; destruct g as [m|m]; try discriminate.
    + destruct (String.eqb m "getValue"); [discriminate|]. destruct (String.eqb m "getText"); discriminate.
    + destruct (String.eqb_spec m "value") as [->|N]; [congruence|discriminate].
    + destruct (String.eqb m "getValue"); discriminate.
  - destruct g as [m|a].
    + destruct (String.eqb m "getValue"); [discriminate|]. destruct (String.eqb m "getText"); [discriminate|]. rewrite forallb_forall in S.
      destruct (access_of c m) as [a|] eqn:E; [|discriminate]. destruct (access_found _ _ _ E) as (ct & I & A). specialize (S _ I). cbn beta in S. rewrite A in S.
      destruct a; try discriminate. destruct (assoc f fs) eqn:AF; [|discriminate]. injection G as <-. now exists c, fs, f.
    + destruct (assoc a fs) eqn:AF; [|discriminate]. injection G as <-. now exists c, fs, a.
Qed.
Lemma gets_listed : forall p b v s, existsb step_listed p = true -> gets v p = Done (VStr s) -> tidy b v = true -> line true s = true.
Proof.
  induction p as [|g p IH]; intros b v s S G T; [discriminate|]. cbn [existsb gets] in *. apply obind_done in G. destruct G as [x [G1 G2]].
  destruct (step_listed g) eqn:E; [|eapply IH; [exact S|exact G2|eapply get1_tidy; eauto]].
  destruct (step_field listed _ _ _ eq_refl E G1) as (c & fs & f & -> & L & A). destruct (tidy_field _ _ _ _ _ T A) as [[-> _] | [_ [[[l ->] _] | H]]].
  - discriminate L.
  - destruct p; cbn in G2; discriminate.
  - rewrite L, orb_true_r in H. exact (gets_tidy _ _ _ _ G2 H).
Qed.
Lemma gets_absent : forall g g' p b v w, step_absent g = true -> gets v (g :: g' :: p) = Done w -> tidy b v = true -> False.
Proof.
  intros g g' p b v w S G T. cbn [gets] in G. apply obind_done in G. destruct G as [x [G1 G2]].
  destruct (step_field (fun f => String.eqb f "xmlSpace") _ _ _ eq_refl S G1) as (c & fs & f & -> & L & A). apply String.eqb_eq in L. subst f.
  destruct (tidy_field _ _ _ _ _ T A) as [[_ ->] | [N _]]; [|congruence]. cbn in G2. discriminate.
Qed.

(** ** Leaf elements *)
Lemma opt_attrs_good : forall l, Forall (fun p => good_name (fst p) /\ opt_line true (snd p) = true) l -> NoDup (map fst l) ->
  good_attrs (flat_map (fun p => opt_attr (fst p) (snd p)) l).
Proof.
  assert (S : forall (l : list (string * option string)) k, In k (map fst (flat_map (fun p => opt_attr (fst p) (snd p)) l)) -> In k (map fst l)).
  { induction l as [|[k v] l IH]; intros k' I; [exact I|]. cbn [flat_map map fst snd] in *. destruct v; cbn [opt_attr app map fst] in *; [destruct I as [I|I]; [now left|right; auto]|right; auto]. }
  induction l as [|[k v] l IH]; intros F N; [split; constructor|]. inversion F as [|? ? [F1 F2] F']; subst. inversion N as [|? ? N1 N']; subst. destruct (IH F' N') as [A B]. cbn [flat_map fst snd] in *.
  destruct v; cbn [opt_attr app]; [|now split]. split; [constructor; auto|]. cbn [map fst]. constructor; [|exact B]. intros I. apply N1. now apply S.
Qed.
Ltac names := repeat constructor; cbn; intuition discriminate.
Lemma leaf_good : forall repr k t v xs, leaf_write repr k t v = Ok xs -> good_name t -> (forall l, v = Some l -> leaf_tidy false l = true) -> Forall writable xs.
Proof.
  intros repr k t v xs W T L. destruct v as [l|]; cbn [leaf_write] in W; [|injection W as <-; constructor]. specialize (L l eq_refl).
  destruct (leaf_element repr k t l) as [x|] eqn:E; [|discriminate]. injection W as <-. constructor; [|constructor].
  destruct k, l; cbn [leaf_element] in E; try discriminate; injection E as <-; cbn [leaf_tidy] in L; repeat (apply andb_true_iff in L; destruct L as [L ?]).
  - assert (A : good_attrs (flat_map (fun p => opt_attr (fst p) (snd p)) [("T", n_ts n); ("UUID", n_uuid n); ("SHORT-LABEL", n_label n)])) by (apply opt_attrs_good; [repeat constructor; assumption|names]).
    cbn [flat_map fst snd] in A. rewrite app_nil_r in A. rewrite app_assoc in A. destruct A as [A1 A2]. constructor; auto. unfold num_text. destruct (n_text n); [|discriminate]. now intros v [= <-].
  - assert (A : good_attrs (flat_map (fun p => opt_attr (fst p) (snd p)) [("T", l_ts l); ("UUID", l_uuid l)])) by (apply opt_attrs_good; [repeat constructor; assumption|names]).
    cbn [flat_map fst snd] in A. rewrite app_nil_r in A. destruct A as [A1 A2]. constructor; auto. intros v [= <-]. unfold lit_str. destruct (l_value l); [assumption|reflexivity].
  - assert (A : good_attrs (flat_map (fun p => opt_attr (fst p) (snd p)) [("T", n_ts n); ("UUID", n_uuid n)])) by (apply opt_attrs_good; [repeat constructor; assumption|names]).
    cbn [flat_map fst snd] in A. rewrite app_nil_r in A. destruct A as [A1 A2]. constructor; auto. intros v [= <-]. unfold num_str. destruct (n_text n); [assumption|discriminate].
  - assert (A : good_attrs (flat_map (fun p => opt_attr (fst p) (snd p)) [("T", b_ts b); ("UUID", b_uuid b)])) by (apply opt_attrs_good; [repeat constructor; assumption|names]).
    cbn [flat_map fst snd] in A. rewrite app_nil_r in A. destruct A as [A1 A2]. constructor; auto. intros v [= <-]. unfold bool_str. destruct (b_text b); [assumption|]. destruct (b_value b) as [[]|]; reflexivity.
  - assert (A : good_attrs (flat_map (fun p => opt_attr (fst p) (snd p)) [("BASE", r_base r); ("DEST", r_dest r)])) by (apply opt_attrs_good; [repeat constructor; assumption|names]).
    cbn [flat_map fst snd] in A. rewrite app_nil_r in A. destruct A as [A1 A2]. constructor; auto. intros v Q. rewrite Q in *. assumption.
  - assert (A : good_attrs (flat_map (fun p => opt_attr (fst p) (snd p)) [("T", li_ts l); ("UUID", li_uuid l); ("INTERVAL-TYPE", option_map lit_str (li_interval l))])).
    { apply opt_attrs_good; [repeat constructor; try assumption|names]. cbn [snd]. destruct (li_interval l) as [i|]; [|reflexivity]. cbn [option_map opt_line]. unfold lit_str. destruct (l_value i); [assumption|reflexivity]. }
    cbn [flat_map fst snd] in A. rewrite app_nil_r in A. rewrite app_assoc in A. destruct A as [A1 A2]. constructor; auto. intros v Q. rewrite Q in *. assumption.
Qed.

(** ** Static check of the writer code: names of elements and attributes *)
Definition good_name_b (s : string) : bool := match s with "" => false | String c r => if first_char c then all_chars next_char r else false end.
Lemma good_name_ok : forall s, good_name_b s = true -> good_name s.
Proof. intros [|c r] H; cbn in *; [discriminate|]. destruct (first_char c); [now split|discriminate]. Qed.
Definition tag_good (keyed : bool) (t : tagx) : bool := match t with TLit s => good_name_b s | TKey => keyed | TOwn => false end.
Fixpoint neat (K : list string) (n : nat) (keyed : bool) (code : list wi) : bool :=
  match n with
  | 0 => false
  | S n =>
      match code with
      | [] => true
      | i :: rest =>
          if match i with
             | WAttrs _ | WShort _ | WSetText _ | WFail _ _ | WUnknown => true
             | WLeaf _ t _ => tag_good keyed t
             | WCall f t _ => if existsb (String.eqb f) K then match t with Some t => tag_good keyed t | None => false end else true
             | WSub t b => if tag_good keyed t then neat K n keyed b else false
             | WIf _ a b => if neat K n keyed a then neat K n keyed b else false
             | WFor _ b => neat K n keyed b
             | WXAttr a p => if good_name_b a then existsb step_listed p else match p with g :: _ :: _ => step_absent g | _ => false end
             | WXConst a s => if good_name_b a then line true s else false
             | WXMap a m _ => if good_name_b a then forallb (fun q => line true (snd q)) m else false
             end then neat K n keyed rest else false
      end
  end.
Lemma tag_good_ok : forall keyed t key, tag_good keyed t = true -> (keyed = true -> good_name key) -> good_name (wtag key t).
Proof. intros keyed [s| |] key H G; cbn in *; [now apply good_name_ok|auto|discriminate]. Qed.
Lemma good_write_attrs : forall e v e', write_attrs e v = Done e' -> good_elem e -> tidy false v = true -> good_elem e'.
Proof.
  intros e v e' W G T. destruct v as [| | |c fs|]; cbn [write_attrs] in W; try discriminate. injection W as <-. cbn zeta. change (assoc "uuid" fs) with (field (VObj c fs) "uuid"). change (assoc "timestamp" fs) with (field (VObj c fs) "timestamp").
  assert (A : forall f s, listed f = true -> opt_str (field (VObj c fs) f) = Some s -> good_value s).
  { intros f s L Q. unfold field, opt_str in Q. destruct (assoc f fs) as [[|s'| | |]|] eqn:E; try discriminate. injection Q as ->.
    destruct (tidy_field _ _ _ _ _ T E) as [[_ D] | [_ [[[l D] _] | H]]]; try discriminate. rewrite L in H. exact H. }
  assert (B : good_elem match opt_str (field (VObj c fs) "timestamp") with Some t => add_attr e "T" t | None => e end).
  { destruct (opt_str _) eqn:Q; [|exact G]. apply good_add_attr; [exact G|now apply good_name_ok|]. eapply A; [|exact Q]. reflexivity. }
  destruct (opt_str (field (VObj c fs) "uuid")) eqn:Q; [|exact B]. apply good_add_attr; [exact B|now apply good_name_ok|]. eapply A; [|exact Q]. reflexivity.
Qed.
Section Runs.
Context (repr : spec_float -> string) (warn : bool) (K : list string).
Context (ALL : forallb (fun p => neat K 400 (existsb (String.eqb (fst p)) K) (snd p)) wfuns = true).
Lemma writer_good : forall n k keyed code key v e e', neat K k keyed code = true -> (keyed = true -> good_name key) -> tidy false v = true -> good_elem e ->
  wrun repr warn n code key v e = Done e' -> good_elem e'.
Proof.
  induction n as [|n IH]; intros k keyed code key v e e' H KEY T G W; [discriminate|]. destruct k as [|k]; [discriminate|]. cbn [neat] in H.
  destruct code as [|i rest]; [cbn [wrun] in W; injection W as <-; exact G|].
  match type of H with (if ?b then _ else false) = true => destruct b eqn:HI; [|discriminate H] end.
  cbn [wrun] in W. fold (wrun repr warn) in W. apply obind_done in W. destruct W as [e1 [W1 W2]]. eapply IH; [exact H|exact KEY|exact T| |exact W2]. clear W2 H rest e'.
  destruct i; try (apply obind_done in W1; destruct W1 as [x [X W1]]).
  - eapply good_write_attrs; [exact W1|exact G|]. eapply gets_tidy; eauto.
  - pose proof (gets_tidy _ _ _ _ X T) as TX. destruct x; try discriminate; injection W1 as <-; apply good_add_kid; auto; repeat constructor; try discriminate. intros w [= <-]. exact TX.
  - pose proof (gets_tidy _ _ _ _ X T) as TX. apply obind_done in W1. destruct W1 as [l [L W1]]. apply obind_done in W1. destruct W1 as [xs [XS W1]]. injection W1 as <-.
    apply good_add_kids; [exact G|]. destruct (leaf_write repr k0 (wtag key t) l) as [xs'|] eqn:LW; [|discriminate]. injection XS as ->.
    eapply leaf_good; [exact LW|eapply tag_good_ok; eauto|]. intros l' ->. destruct x; try discriminate. injection L as ->. exact TX.
  - destruct (assoc f wfuns) as [body|] eqn:A; [|discriminate]. pose proof (gets_tidy _ _ _ _ X T) as TX.
    pose proof ALL as HA. rewrite forallb_forall in HA.
    assert (I : In (f, body) wfuns). { clear -A. induction wfuns as [|[k' b'] l IHl]; [discriminate|]. cbn [assoc] in A. destruct (String.eqb_spec f k') as [->|N]; [injection A as ->; now left|right; auto]. }
    specialize (HA _ I). cbn [fst snd] in HA. eapply (IH 400); [exact HA| |exact TX|exact G|exact W1].
    intros Q. rewrite Q in HI. destruct t as [t|]; [|discriminate]. eapply tag_good_ok; eauto.
  - destruct (tag_good keyed t) eqn:TG; [|discriminate]. injection W1 as <-. apply good_add_kid; [exact G|]. apply good_xml; [eapply tag_good_ok; eauto|]. eapply IH; [exact HI|exact KEY|exact T|exact good_elem0|exact X].
  - destruct (neat K k keyed a) eqn:NA; [|discriminate]. destruct x; [eapply IH; [exact NA|..]; eauto|eapply IH; [exact HI|..]; eauto].
  - pose proof (gets_tidy _ _ _ _ X T) as TX. destruct x as [| | | |l]; try discriminate. cbn [tidy] in TX. rewrite forallb_forall in TX. clear X.
    revert e G W1. induction l as [|y l IHl]; intros e G W1; cbn [fold_out] in W1; [injection W1 as <-; exact G|]. apply obind_done in W1. destruct W1 as [e2 [W1 W2]].
    eapply IHl; [intros z Z; apply TX; now right| |exact W2]. eapply IH; [exact HI|exact KEY|apply TX; now left|exact G|exact W1].
  - destruct x; try discriminate. injection W1 as <-. destruct (good_name_b n0) eqn:GN.
    + apply good_add_attr; [exact G|now apply good_name_ok|]. eapply gets_listed; eauto.
    + exfalso. destruct p as [|g [|g' p]]; try discriminate. eapply gets_absent; eauto.
  - injection W1 as <-. destruct (good_name_b n0) eqn:GN; [|discriminate]. apply good_add_attr; [exact G|now apply good_name_ok|exact HI].
  - destruct x; try discriminate. destruct (good_name_b n0) eqn:GN; [|discriminate]. destruct (assoc s m) as [t|] eqn:A.
    + injection W1 as <-. apply good_add_attr; [exact G|now apply good_name_ok|]. rewrite forallb_forall in HI.
      assert (I : In (s, t) m). { clear -A. induction m as [|[k' b'] l IHl]; [discriminate|]. cbn [assoc] in A. destruct (String.eqb_spec s k') as [->|N]; [injection A as ->; now left|right; auto]. }
      exact (HI _ I).
    + destruct warn; [injection W1 as <-; exact G|discriminate].
  - pose proof (gets_tidy _ _ _ _ X T) as TX. destruct G as (GA & GT & GK). destruct x; try discriminate; injection W1 as <-; (split; [exact GA|split; [|exact GK]]); [discriminate|]. intros w [= <-]. exact TX.
  - destruct (soft && warn)%bool; [injection W1 as <-; exact G|discriminate].
  - discriminate.
Qed.
End Runs.

(** functions that use the tag they are given *)
Fixpoint uses_key (n : nat) (code : list wi) : bool :=
  match n with
  | 0 => true
  | S n =>
      match code with
      | [] => false
      | i :: rest =>
          if match i with
             | WLeaf _ TKey _ | WSub TKey _ | WCall _ (Some TKey) _ => true
             | WSub _ b | WFor _ b => uses_key n b
             | WIf _ a b => if uses_key n a then true else uses_key n b
             | _ => false
             end then true else uses_key n rest
      end
  end.
Definition keyed_funs : list string := Eval vm_compute in flat_map (fun p => if uses_key 400 (snd p) then [fst p] else []) wfuns.
Lemma funs_neat : forallb (fun p => neat keyed_funs 400 (existsb (String.eqb (fst p)) keyed_funs) (snd p)) wfuns = true.
Proof. vm_compute. reflexivity. Qed.
Lemma save_neat : neat keyed_funs 100 false save_code = true.
Proof. vm_compute. reflexivity. Qed.

(** ** Documents *)
Lemma saved_good : forall repr warn u x, tidy false u = true -> saved repr warn u x -> writable x.
Proof.
  intros repr warn u x T (e & [n W] & ->). apply good_xml; [now apply good_name_ok|].
  eapply (writer_good repr warn keyed_funs funs_neat n 100 false save_code "" u elem0); [exact save_neat|discriminate|exact T|exact good_elem0|exact W].
Qed.
Lemma root_attrs_good : forall location, opt_line true location = true -> good_attrs (root_attrs location).
Proof.
  intros location L. split.
  - repeat constructor; try (now apply good_name_ok). cbn [snd]. destruct location; [exact L|reflexivity].
  - repeat constructor; cbn; intuition discriminate.
Qed.
Lemma with_attrs_good : forall a x, good_attrs a -> writable x -> writable (with_attrs a x).
Proof. intros a x [A N] W. destruct W as [t a' s kids H1 H2 H3 H4 H5]. now constructor. Qed.
Lemma reload_with : forall d a x, reload d (with_attrs a x) = with_attrs a (reload d x).
Proof. intros d a [t a' s [|k kids]]; reflexivity. Qed.

(** load does not look at the attributes of the root element *)
Lemma admin_code : assoc "getAdminData" rfuns = Some r_getAdminData.
Proof. vm_compute. reflexivity. Qed.
Lemma packages_code : assoc "readARPackages" rfuns = Some r_readARPackages.
Proof. vm_compute. reflexivity. Qed.
Lemma find_with : forall a x key s r, split_char "/" key = s :: r -> s <> "." -> find key (with_attrs a x) = find key x /\ findall key (with_attrs a x) = findall key x.
Proof.
  intros a x key s r E N. assert (F : findall key (with_attrs a x) = findall key x).
  { unfold findall. rewrite E. cbn [steps]. unfold step. destruct (String.eqb s "*"); [destruct x; reflexivity|]. destruct (String.eqb_spec s "."); [contradiction|]. destruct x; reflexivity. }
  split; [|exact F]. unfold find. now rewrite F.
Qed.
Lemma obind_ext : forall A B (a a' : out A) (f f' : A -> out B), a = a' -> (forall v, f v = f' v) -> obind a f = obind a' f'.
Proof. intros A B a a' f f' -> H. destruct a'; cbn; auto. Qed.
Lemma root_run : forall warn n a x o, rrun warn n load_code "" (with_attrs a x) VNone o = rrun warn n load_code "" x VNone o.
Proof.
  intros warn n a x o. unfold load_code.
  assert (P : forall n o, rrun warn n [RCall "readARPackages" None] "" (with_attrs a x) VNone o = rrun warn n [RCall "readARPackages" None] "" x VNone o).
  { clear n o. intros n o. destruct n as [|n]; [reflexivity|]. cbn [rrun]. fold (rrun warn) (vrun warn) (crun warn). rewrite packages_code. unfold r_readARPackages. cbn [rtag].
    apply obind_ext.
    - apply obind_ext; [|reflexivity]. destruct n as [|n]; [reflexivity|]. cbn [rrun]. fold (rrun warn) (vrun warn) (crun warn). cbn [rkey].
      rewrite (proj2 (find_with a x "AR-PACKAGES/*" "AR-PACKAGES" ["*"] eq_refl ltac:(discriminate))). apply obind_ext; [reflexivity|]. intros v. destruct n; reflexivity.
    - intros v. destruct n; reflexivity. }
  destruct n as [|n]; [reflexivity|]. cbn [rrun]. fold (rrun warn) (vrun warn) (crun warn). apply obind_ext; [|intros; apply P].
  apply obind_ext; [|reflexivity]. destruct n as [|n]; [reflexivity|]. cbn [vrun]. fold (rrun warn) (vrun warn) (crun warn). rewrite admin_code. unfold r_getAdminData. cbn [rtag].
  apply obind_ext; [destruct n; reflexivity|]. intros v. destruct n as [|n]; [reflexivity|]. cbn [vrun]. fold (rrun warn) (vrun warn) (crun warn). cbn [rkey].
  rewrite (proj1 (find_with a x "ADMIN-DATA" "ADMIN-DATA" [] eq_refl ltac:(discriminate))). destruct (find "ADMIN-DATA" x); [reflexivity|]. destruct n; reflexivity.
Qed.
Lemma root_loaded : forall warn a x u, loaded warn (with_attrs a x) u <-> loaded warn x u.
Proof. intros warn a x u. unfold loaded, read. split; intros [n H]; exists n; [now rewrite <- (root_run warn n a x)|now rewrite (root_run warn n a x)]. Qed.

Lemma file_round_trip : forall repr warn decl location u, ok u -> class_of u = Some "AUTOSAR" -> tidy false u = true -> opt_line true location = true ->
  exists s, saved_text repr warn decl location u s /\ loaded_text warn s (Some (location_or_default location)) u.
Proof.
  intros repr warn decl location u O C T L. destruct (document_round_trip repr warn u O C) as (x & S & R).
  pose proof (saved_good _ _ _ _ T S) as W. pose proof (with_attrs_good _ _ (root_attrs_good _ L) W) as W'.
  destruct (save_load decl _ W') as (s & S1 & S2). exists s. split; [exists x; now split|].
  exists (reload 0 (with_attrs (root_attrs location) x)). split; [exact S2|]. rewrite reload_with.
  assert (TX : xtag (with_attrs (root_attrs location) (reload 0 x)) = "AUTOSAR").
  { destruct S as (e & _ & ->). destruct e as [a s0 [|k kids]]; reflexivity. }
  split; [now right|]. split; [reflexivity|]. apply root_loaded. apply R.
Qed.
(** it is the only document the text loads to, and its text does not change when it is saved again *)
Lemma written_once : forall repr warn u x y, saved repr warn u x -> saved repr warn u y -> x = y.
Proof.
  intros repr warn u x y (e & [n W] & ->) (e' & [n' W'] & ->). f_equal. pose proof (wup repr warn n (max n n') _ _ _ _ _ W (Nat.le_max_l n n')) as M.
  pose proof (wup repr warn n' (max n n') _ _ _ _ _ W' (Nat.le_max_r n n')) as M'. congruence.
Qed.
Lemma file_unique : forall repr warn decl location u s, ok u -> class_of u = Some "AUTOSAR" -> tidy false u = true -> opt_line true location = true ->
  saved_text repr warn decl location u s -> forall location' u', loaded_text warn s location' u' -> location' = Some (location_or_default location) /\ u' = u.
Proof.
  intros repr warn decl location u s O C T L (x & S & E) location' u' (y & Y & _ & LOC & LD).
  pose proof (saved_good _ _ _ _ T S) as W. pose proof (with_attrs_good _ _ (root_attrs_good _ L) W) as W'.
  destruct (save_load decl _ W') as (s' & S1 & S2). rewrite E in S1. injection S1 as <-. rewrite Y in S2. assert (Q : y = reload 0 (with_attrs (root_attrs location) x)) by congruence. rewrite reload_with in Q. subst y.
  split; [exact LOC|]. apply (document_unique repr warn u O C x S 0). exact (proj1 (root_loaded warn (root_attrs location) (reload 0 x) u') LD).
Qed.
Lemma file_stable : forall repr warn decl location u s, ok u -> class_of u = Some "AUTOSAR" -> tidy false u = true -> opt_line true location = true ->
  saved_text repr warn decl location u s -> forall location' u' s', loaded_text warn s location' u' -> saved_text repr warn decl location' u' s' -> s' = s.
Proof.
  intros repr warn decl location u s O C T L S location' u' s' LD S'. destruct (file_unique _ _ _ _ _ _ O C T L S _ _ LD) as [-> ->].
  destruct S as (x & S & E). destruct S' as (x' & S' & E'). rewrite (written_once _ _ _ _ _ S' S) in E'. assert (R : root_attrs (Some (location_or_default location)) = root_attrs location) by (destruct location; reflexivity).
  rewrite R, E in E'. now injection E' as ->.
Qed.
