(** Lemmas for C57: removing administrative data keeps documents in the domain of C36. *)
From Coq Require Import String Ascii List Bool Arith Lia Floats.SpecFloat.
From Verif Require Import PyBase PyBaseFacts Primitives Xml Leaf ClassTable Ir Access IrSem Domain SpecDomain SpecRoundTrip SpecTolerant IrWrite IrItems IrMix RoundTripParts File Serial SpecSerial SpecFile SpecRun TypeProps TolerantCases SerialPatch SerialCases Order ArxmlFormat SpecPipeline.
Import ListNotations.
Open Scope string_scope.
Open Scope list_scope.
Local Opaque access_of attrs_of init named_init domain ancestors isinst access_table attr_table.

(** ** Attributes of a class are listed once *)
Lemma merge_keys : forall l acc, NoDup (map fst acc) -> NoDup (map fst (merge_attrs acc l)).
Proof.
  induction l as [|[a d] l IH]; intros acc N; [exact N|]. cbn [merge_attrs]. apply IH. destruct (assoc a acc) eqn:A; [exact N|].
  rewrite map_app. cbn [map fst]. apply NoDup_app_single; [exact N|]. intros I. apply in_map_iff in I. destruct I as ([k w] & E & I). cbn [fst] in E. subst k.
  clear -A I. induction acc as [|[k x] acc IH]; [contradiction|]. cbn [assoc] in A. destruct (String.eqb_spec a k) as [Q|Q]; [discriminate|]. destruct I as [I|I]; [injection I as ? ?; congruence|auto].
Qed.
Transparent attrs_of.
Lemma keys_once : forall c, NoDup (map fst (attrs_of c)).
Proof.
  intros c. unfold attrs_of. generalize (ancestors 20 c). intros l. assert (G : forall l acc, NoDup (map fst acc) ->
    NoDup (map fst (fold_left (fun acc c' => match assoc c' attr_table with Some l => merge_attrs acc l | None => acc end) l acc))).
  { clear l. induction l as [|k l IH]; intros acc N; [exact N|]. cbn [fold_left]. apply IH. destruct (assoc k attr_table); [now apply merge_keys|exact N]. }
  apply G. constructor.
Qed.
Local Opaque attrs_of.

(** ** Changing attributes one by one *)
Definition remap (g : string -> val -> val) (fs : list (string * val)) : list (string * val) := map (fun p => (fst p, g (fst p) (snd p))) fs.
Lemma remap_keys : forall g fs, map fst (remap g fs) = map fst fs.
Proof. intros. unfold remap. rewrite map_map. now apply map_ext. Qed.
Lemma remap_assoc : forall g fs f, assoc f (remap g fs) = option_map (g f) (assoc f fs).
Proof.
  intros g fs f. induction fs as [|[k w] fs IH]; [reflexivity|]. cbn. destruct (String.eqb_spec f k) as [Q|Q]; [now subst|exact IH].
Qed.
Lemma remap_ok : forall c fs g, ok (VObj c fs) ->
  (forall ft f w t, assoc c domain = Some ft -> assoc f fs = Some w -> assoc f ft = Some t -> fok t w -> fok t (g f w)) ->
  (forall ft f w, assoc c domain = Some ft -> assoc f fs = Some w -> assoc f ft = None -> default c f = Some w -> g f w = w) ->
  (forall f w, assoc f fs = Some w -> names (g f w) = names w) ->
  ok (VObj c (remap g fs)).
Proof.
  intros c fs g O H1 H2 H3. inversion O as [c' fs' ft D E F1 F2 ND]; subst. apply (ok_obj _ _ _ D).
  - now rewrite remap_keys.
  - intros f v t F T. rewrite remap_assoc in F. destruct (assoc f fs) as [w|] eqn:A; [|discriminate]. injection F as <-. eapply H1; eauto.
  - intros f v F T. rewrite remap_assoc in F. destruct (assoc f fs) as [w|] eqn:A; [|discriminate]. injection F as <-. rewrite (H2 _ _ _ D A T (F2 _ _ A T)). now apply F2.
  - rewrite names_below_eq in *. assert (Q : forall l, (forall f w, In (f, w) l -> names (g f w) = names w) -> flat_map (fun p => names (snd p)) (remap g l) = flat_map (fun p => names (snd p)) l).
    { induction l as [|[f w] l IH]; intros X; [reflexivity|]. cbn [remap map flat_map fst snd]. fold (remap g l). rewrite IH; [|intros; apply X; now right]. rewrite (X f w); [reflexivity|now left]. }
    rewrite Q; [exact ND|]. intros f w I. apply H3. apply in_assoc; [|exact I]. rewrite E. apply keys_once.
Qed.
Lemma remap_set : forall fs f v, NoDup (map fst fs) -> In f (map fst fs) -> set_assoc fs f v = remap (fun k w => if String.eqb k f then v else w) fs.
Proof.
  induction fs as [|[k w] fs IH]; intros f v N I; [contradiction|]. inversion N; subst. cbn [set_assoc remap map fst snd]. rewrite (String.eqb_sym k f).
  destruct (String.eqb_spec f k) as [Q|Q].
  - subst k. f_equal. clear -H1. induction fs as [|[k w'] fs IH]; [reflexivity|]. cbn [map fst snd]. destruct (String.eqb_spec k f) as [Q|Q].
    + subst k. elim H1. now left.
    + f_equal. apply IH. intros J. apply H1. now right.
  - f_equal. apply IH; [assumption|]. destruct I as [I|I]; [cbn [fst] in I; congruence|exact I].
Qed.

(** ** Sorting *)
Lemma sort_map : forall (F : val -> val) l, (forall a, In a l -> sort_key (F a) = sort_key a) -> py_sorted sort_key (map F l) = map F (py_sorted sort_key l).
Proof.
  intros F. assert (I : forall a l, sort_key (F a) = sort_key a -> (forall b, In b l -> sort_key (F b) = sort_key b) -> sort_insert sort_key (F a) (map F l) = map F (sort_insert sort_key a l)).
  { intros a. induction l as [|b l IH]; intros K L; [reflexivity|]. cbn [map sort_insert]. rewrite K, (L b) by now left. destruct (str_leb _ _); cbn [map]; [reflexivity|]. rewrite IH; auto. intros; apply L; now right. }
  induction l as [|a l IH]; intros K; [reflexivity|]. unfold py_sorted in *. cbn [map fold_right]. rewrite IH by (intros; apply K; now right). apply I; [apply K; now left|].
  intros b J. apply K. right. assert (P := py_sorted_perm sort_key l). unfold py_sorted in P. eapply Permutation.Permutation_in; [|exact J]. first [exact P | apply Permutation.Permutation_sym; exact P].
Qed.
Lemma sortable_map : forall (F : val -> val) l, (forall a, In a l -> has_name (F a) = has_name a) -> sortable (map F l) = sortable l.
Proof.
  intros F l H. assert (E : forallb has_name (map F l) = forallb has_name l).
  { induction l as [|a l IH]; [reflexivity|]. cbn [map forallb]. rewrite H by now left. rewrite IH; [reflexivity|]. intros; apply H; now right. }
  unfold sortable. destruct l as [|a [|b l]]; [reflexivity|reflexivity|]. exact E.
Qed.
Lemma names_map : forall (F : val -> val) l, (forall a, In a l -> field (F a) "short_name" = field a "short_name") -> names (VList (map F l)) = names (VList l).
Proof.
  intros F l H. unfold names. cbn [items_of]. induction l as [|a l IH]; [reflexivity|]. cbn [map flat_map]. rewrite IH by (intros; apply H; now right). f_equal. unfold name_of. rewrite H by now left. reflexivity.
Qed.

(** ** What the tables say *)
Definition admin_type (o : option ftype) : bool :=
  match o with Some (FObj false [c]) => String.eqb c "AdminData" | _ => false end.
Definition has_key (c f : string) : bool := existsb (String.eqb f) (map fst (attrs_of c)).
(** administrative data is optional, or is never read, or there is no such attribute *)
Definition clearable (c : string) : bool :=
  if isinst c "Describable" || isinst c "Identifiable" then
    has_key c "adminData" &&
    match assoc c domain with
    | Some ft => admin_type (assoc "adminData" ft) ||
                 match assoc "adminData" ft with None => match default c "adminData" with Some VNone => true | _ => false end | Some _ => false end
    | None => false
    end
  else negb (has_key c "adminData").
Definition package_types : list (string * ftype) := match assoc "ARPackage" domain with Some l => l | None => [] end.
Definition element_types : list string := match assoc "elements" package_types with Some (FObjs false l) => l | _ => [] end.
Lemma elements_clearable : forallb clearable element_types = true.
Proof. vm_compute. reflexivity. Qed.
Definition document_types : list (string * ftype) := match assoc "AUTOSAR" domain with Some l => l | None => [] end.
Lemma package_table : assoc "ARPackage" domain = Some package_types /\ assoc "arPackages" package_types = Some (FObjs true ["ARPackage"]) /\
  assoc "elements" package_types = Some (FObjs false element_types) /\ assoc "adminData" package_types = Some (FObj false ["AdminData"]) /\
  has_key "ARPackage" "arPackages" = true /\ has_key "ARPackage" "elements" = true /\ has_key "ARPackage" "adminData" = true.
Proof. vm_compute. repeat split. Qed.
Lemma document_table : assoc "AUTOSAR" domain = Some document_types /\ assoc "arPackages" document_types = Some (FObjs true ["ARPackage"]) /\
  assoc "adminData" document_types = Some (FObj false ["AdminData"]) /\ has_key "AUTOSAR" "arPackages" = true /\ has_key "AUTOSAR" "adminData" = true.
Proof. vm_compute. repeat split. Qed.
Lemma key_in : forall c f, has_key c f = true -> In f (map fst (attrs_of c)).
Proof. intros c f H. apply existsb_exists in H. destruct H as (g & I & E). apply String.eqb_eq in E. now subst. Qed.
Lemma ok_field : forall c fs ft f t, ok (VObj c fs) -> assoc c domain = Some ft -> assoc f ft = Some t -> has_key c f = true -> exists w, assoc f fs = Some w /\ fok t w.
Proof.
  intros c fs ft f t O D T K. inversion O as [c' fs' ft' D' E F1 F2 ND]; subst. rewrite D in D'. injection D' as <-. apply key_in in K. rewrite <- E in K.
  destruct (assoc f fs) as [w|] eqn:A; [exists w; split; [reflexivity|eauto]|]. exfalso. clear -K A. induction fs as [|[k w] fs IH]; [contradiction|]. cbn [assoc] in A.
  destruct (String.eqb_spec f k) as [Q|Q]; [discriminate|]. destruct K as [K|K]; [cbn [fst] in K; congruence|auto].
Qed.
Lemma admin_names : forall w, fok (FObj false ["AdminData"]) w -> names w = [].
Proof.
  intros w F. inversion F as [| | | | |cs|m cs v C O| | | | | | | | | | | |]; subst; [reflexivity|]. destruct C as (c & C & [I|[]]). subst c.
  unfold names. pose proof (admin_name _ O C) as N. destruct w; try discriminate C. cbn [items_of flat_map]. now rewrite N.
Qed.
Lemma objs_list : forall s cs w, fok (FObjs s cs) w -> exists l, w = VList l /\ Forall (in_class cs) l /\ Forall ok l /\ (s = true -> sortable l = true /\ py_sorted sort_key l = l).
Proof. intros s cs w F. inversion F; subst. eauto. Qed.

(** ** Elements *)
Definition drop_admin (k : string) (w : val) : val := if String.eqb k "adminData" then VNone else w.
Lemma clearable_facts : forall c, clearable c = true ->
  (isinst c "Describable" || isinst c "Identifiable") = false /\ has_key c "adminData" = false \/
  (isinst c "Describable" || isinst c "Identifiable") = true /\ has_key c "adminData" = true /\
  exists ft, assoc c domain = Some ft /\ (assoc "adminData" ft = Some (FObj false ["AdminData"]) \/ assoc "adminData" ft = None /\ default c "adminData" = Some VNone).
Proof.
  intros c H. unfold clearable in H. destruct (isinst c "Describable" || isinst c "Identifiable").
  - right. apply andb_true_iff in H. destruct H as [H2 H3]. split; [reflexivity|]. split; [exact H2|].
    destruct (assoc c domain) as [ft|]; [|discriminate]. exists ft. split; [reflexivity|]. destruct (assoc "adminData" ft) as [t|].
    + left. rewrite orb_false_r in H3. unfold admin_type in H3. destruct t; try discriminate.
      destruct must; [discriminate|]. destruct cs as [|d [|]]; try discriminate. apply String.eqb_eq in H3. now subst.
    + right. split; [reflexivity|]. cbn [admin_type orb] in H3. destruct (default c "adminData") as [[]|]; try discriminate. reflexivity.
  - left. split; [reflexivity|]. now destruct (has_key c "adminData").
Qed.
Lemma no_key : forall fs, ~ In "adminData" (map fst fs) -> remap drop_admin fs = fs.
Proof.
  induction fs as [|[k w] fs IH]; intros N; [reflexivity|]. unfold remap in *. cbn [map fst snd] in *. rewrite IH by (intros I; apply N; now right).
  unfold drop_admin. destruct (String.eqb_spec k "adminData") as [Q|Q]; [elim N; now left|reflexivity].
Qed.
Lemma key_out : forall c f, has_key c f = false -> ~ In f (map fst (attrs_of c)).
Proof. intros c f H I. assert (Q : has_key c f = true) by (apply existsb_exists; exists f; split; [exact I|apply String.eqb_refl]). congruence. Qed.
Lemma element_eq : forall c fs, ok (VObj c fs) -> clearable c = true -> clear_element (VObj c fs) = VObj c (remap drop_admin fs).
Proof.
  intros c fs O H. inversion O as [c' fs' ft D E _ _ _]; subst. unfold clear_element. destruct (clearable_facts _ H) as [(H1 & H2)|(H1 & H2 & _)]; rewrite H1.
  - f_equal. symmetry. apply no_key. rewrite E. now apply key_out.
  - cbn [set_field]. f_equal. unfold drop_admin. rewrite remap_set; [reflexivity| |]; rewrite E; [apply keys_once|now apply key_in].
Qed.
Lemma element_ok : forall c fs, ok (VObj c fs) -> clearable c = true -> ok (VObj c (remap drop_admin fs)).
Proof.
  intros c fs O H. destruct (clearable_facts _ H) as [(H1 & H2)|(_ & H2 & ft & D & T)].
  { rewrite no_key; [exact O|]. inversion O as [c' fs' ft D E _ _ _]; subst. rewrite E. now apply key_out. }
  apply remap_ok; [exact O| | |]; unfold drop_admin.
  - intros ft' f w t D' A TY F. rewrite D in D'. injection D' as <-. destruct (String.eqb_spec f "adminData") as [Q|Q]; [|exact F]. subst f. destruct T as [T|[T _]]; rewrite T in TY; [|discriminate]. injection TY as <-. constructor.
  - intros ft' f w D' A TY DF. destruct (String.eqb_spec f "adminData") as [Q|Q]; [|reflexivity]. subst f. rewrite D in D'. injection D' as <-. destruct T as [T|[T DV]]; congruence.
  - intros f w A. destruct (String.eqb_spec f "adminData") as [Q|Q]; [|reflexivity]. subst f. destruct T as [T|[T DV]].
    + destruct (ok_field _ _ _ _ _ O D T H2) as (w' & A' & F). rewrite A in A'. injection A' as <-. now rewrite (admin_names _ F).
    + inversion O as [c' fs' ft' D' E _ F2 _]; subst. rewrite D in D'. injection D' as <-. specialize (F2 _ _ A T). rewrite DV in F2. injection F2 as <-. reflexivity.
Qed.
Lemma remap_same : forall c g fs ns, (forall f w, ~ In f ns -> g f w = w) -> same_but ns (VObj c fs) (VObj c (remap g fs)).
Proof.
  intros c g fs ns H. exists c, fs, (remap g fs). split; [reflexivity|]. split; [reflexivity|]. split; [now rewrite remap_keys|]. intros f N. rewrite remap_assoc. destruct (assoc f fs); [|reflexivity]. cbn. now rewrite H.
Qed.
Lemma element_clear : forall v, ok v -> in_class element_types v -> ok (clear_element v) /\ in_class element_types (clear_element v) /\ field (clear_element v) "short_name" = field v "short_name" /\ element_cleared v (clear_element v).
Proof.
  intros v O (c & C & I). pose proof elements_clearable as E. rewrite forallb_forall in E. specialize (E _ I). destruct v as [| | |d fs|]; try discriminate C. injection C as ->.
  rewrite element_eq by assumption. split; [now apply element_ok|]. split; [exists c; split; [reflexivity|exact I]|]. split; [cbn [field]; rewrite remap_assoc; destruct (assoc _ fs); reflexivity|].
  split.
  - apply remap_same. intros f w N. unfold drop_admin. destruct (String.eqb_spec f "adminData") as [Q|Q]; [subst; elim N; now left|reflexivity].
  - intros w F. cbn [field] in F. rewrite remap_assoc in F. destruct (assoc "adminData" fs); [|discriminate]. injection F as <-. reflexivity.
Qed.

(** ** Packages *)
Definition on_list (F : val -> val) (w : val) : val := match w with VList l => VList (map F l) | _ => w end.
Definition clear_field (k : string) (w : val) : val :=
  if String.eqb k "arPackages" then on_list clear_package w else if String.eqb k "elements" then on_list clear_element w else if String.eqb k "adminData" then VNone else w.
Lemma package_eq : forall c fs, clear_package (VObj c fs) = VObj c (remap clear_field fs).
Proof. intros c fs. cbn [clear_package]. f_equal. unfold remap. apply map_ext. intros [f w]. reflexivity. Qed.
Definition clear_root (k : string) (w : val) : val :=
  if String.eqb k "arPackages" then on_list clear_package w else if String.eqb k "adminData" then VNone else w.
Lemma root_eq : forall c fs, clear_document (VObj c fs) = VObj c (remap clear_root fs).
Proof. intros c fs. cbn [clear_document]. f_equal. unfold remap. apply map_ext. intros [f w]. reflexivity. Qed.
Lemma package_name : forall v, field (clear_package v) "short_name" = field v "short_name".
Proof. intros [| | |c fs|]; try reflexivity. rewrite package_eq. cbn [field]. rewrite remap_assoc. destruct (assoc _ fs); reflexivity. Qed.
Lemma package_class : forall v, class_of (clear_package v) = class_of v.
Proof. intros [| | |c fs|]; reflexivity. Qed.
Lemma key_kept : forall F : val -> val, (forall v, field (F v) "short_name" = field v "short_name") -> (forall v, sort_key (F v) = sort_key v) /\ (forall v, has_name (F v) = has_name v).
Proof. intros F H. split; intros v; [unfold sort_key|unfold has_name]; now rewrite H. Qed.
Lemma packages_ok : forall l, Forall (in_class ["ARPackage"]) l -> Forall (fun p => ok (clear_package p)) l -> sortable l = true -> py_sorted sort_key l = l -> fok (FObjs true ["ARPackage"]) (VList (map clear_package l)).
Proof.
  intros l C O SB S. destruct (key_kept _ package_name) as [K1 K2]. constructor.
  - apply Forall_forall. intros p I. apply in_map_iff in I. destruct I as (q & <- & I). rewrite Forall_forall in C. destruct (C _ I) as (c & CQ & IC). exists c. split; [|exact IC]. now rewrite package_class.
  - apply Forall_forall. intros p I. apply in_map_iff in I. destruct I as (q & <- & I). rewrite Forall_forall in O. now apply O.
  - intros _. split; [now rewrite sortable_map by auto|]. rewrite sort_map by auto. now rewrite S.
Qed.
Lemma elements_kept : forall l, Forall (in_class element_types) l -> Forall ok l -> fok (FObjs false element_types) (VList (map clear_element l)) /\ names (VList (map clear_element l)) = names (VList l) /\ Forall2 element_cleared l (map clear_element l).
Proof.
  intros l C O. rewrite Forall_forall in C, O. split; [|split].
  - constructor; [| |discriminate]; apply Forall_forall; intros p I; apply in_map_iff in I; destruct I as (q & <- & I); apply (element_clear q); auto.
  - apply names_map. intros a I. apply (element_clear a); auto.
  - induction l as [|a l IH]; cbn [map]; constructor; [apply (element_clear a); [apply O|apply C]; now left|]. apply IH; intros; [apply C|apply O]; now right.
Qed.
Definition kept (v : val) : Prop := ok v -> class_of v = Some "ARPackage" -> ok (clear_package v) /\ package_cleared v (clear_package v).
Lemma package_step : forall c fs, (forall ps, assoc "arPackages" fs = Some (VList ps) -> Forall kept ps) -> kept (VObj c fs).
Proof.
  destruct package_table as (D & TP & TE & TA & KP & KE & KA). intros c fs IH O C. injection C as ->.
  destruct (ok_field _ _ _ _ _ O D TP KP) as (wp & AP & FP). destruct (ok_field _ _ _ _ _ O D TE KE) as (we & AE & FE). destruct (ok_field _ _ _ _ _ O D TA KA) as (wa & AA & FA).
  destruct (objs_list _ _ _ FP) as (ps & -> & CP & OP & SP). destruct (SP eq_refl) as [SB SS]. destruct (objs_list _ _ _ FE) as (es & -> & CE & OE & _).
  assert (IP : Forall (fun p => ok (clear_package p) /\ package_cleared p (clear_package p)) ps).
  { specialize (IH _ AP). rewrite Forall_forall in IH, OP, CP |- *. intros p I. apply (IH _ I); [now apply OP|]. destruct (CP _ I) as (c & CC & [<-|[]]). exact CC. }
  rewrite package_eq. split.
  - apply remap_ok; [exact O| | |]; unfold clear_field.
    + intros ft f w t D' A TY F. rewrite D in D'. injection D' as <-. destruct (String.eqb_spec f "arPackages") as [Q|Q].
      { subst f. rewrite TP in TY. injection TY as <-. rewrite AP in A. injection A as <-. cbn [on_list]. apply packages_ok; auto. eapply Forall_impl; [|exact IP]. now intros p [? _]. }
      destruct (String.eqb_spec f "elements") as [Q1|Q1].
      { subst f. rewrite TE in TY. injection TY as <-. rewrite AE in A. injection A as <-. cbn [on_list]. now apply elements_kept. }
      destruct (String.eqb_spec f "adminData") as [Q2|Q2]; [|exact F]. subst f. rewrite TA in TY. injection TY as <-. constructor.
    + intros ft f w D' A TY _. rewrite D in D'. injection D' as <-. destruct (String.eqb_spec f "arPackages") as [Q|Q]; [subst f; congruence|].
      destruct (String.eqb_spec f "elements") as [Q1|Q1]; [subst f; congruence|]. destruct (String.eqb_spec f "adminData") as [Q2|Q2]; [subst f; congruence|reflexivity].
    + intros f w A. destruct (String.eqb_spec f "arPackages") as [Q|Q].
      { subst f. rewrite AP in A. injection A as <-. cbn [on_list]. apply names_map. intros; apply package_name. }
      destruct (String.eqb_spec f "elements") as [Q1|Q1].
      { subst f. rewrite AE in A. injection A as <-. cbn [on_list]. now apply elements_kept. }
      destruct (String.eqb_spec f "adminData") as [Q2|Q2]; [|reflexivity]. subst f. rewrite AA in A. injection A as <-. now rewrite (admin_names _ FA).
  - apply (package_clear _ _ ps (map clear_package ps) es (map clear_element es)).
    + apply remap_same. intros f w N. unfold clear_field. cbn [In] in N. destruct (String.eqb_spec f "arPackages") as [Q|Q]; [exfalso; apply N; auto|].
      destruct (String.eqb_spec f "elements") as [Q1|Q1]; [exfalso; apply N; auto|]. destruct (String.eqb_spec f "adminData") as [Q2|Q2]; [exfalso; apply N; auto|reflexivity].
    + intros w F. cbn [field] in F. rewrite remap_assoc, AA in F. injection F as <-. reflexivity.
    + exact AP.
    + cbn [field]. rewrite remap_assoc, AP. reflexivity.
    + clear -IP. induction IP as [|p ps [_ P] _ IHp]; cbn [map]; constructor; auto.
    + exact AE.
    + cbn [field]. rewrite remap_assoc, AE. reflexivity.
    + now apply elements_kept.
Qed.
Lemma package_kept : forall v, kept v /\ forall l, v = VList l -> Forall kept l.
Proof.
  induction v as [| | |c fs IH|l IH] using val_ind'; try (split; [intros O C; discriminate C|intros l' E; discriminate E]).
  - split; [|intros l' E; discriminate E]. apply package_step. intros ps A. apply assoc_In in A. rewrite Forall_forall in IH. exact (proj2 (IH _ A) ps eq_refl).
  - split; [intros O C; discriminate C|]. intros l' E. injection E as <-. eapply Forall_impl; [|exact IH]. now intros p [? _].
Qed.
Lemma document_clear_ok : forall v, ok v -> class_of v = Some "AUTOSAR" -> ok (clear_document v) /\ class_of (clear_document v) = Some "AUTOSAR" /\ document_cleared v (clear_document v).
Proof.
  destruct document_table as (D & TP & TA & KP & KA). intros [| | |c fs|] O C; try discriminate C. injection C as ->.
  destruct (ok_field _ _ _ _ _ O D TP KP) as (wp & AP & FP). destruct (ok_field _ _ _ _ _ O D TA KA) as (wa & AA & FA).
  destruct (objs_list _ _ _ FP) as (ps & -> & CP & OP & SP). destruct (SP eq_refl) as [SB SS].
  assert (IP : Forall (fun p => ok (clear_package p) /\ package_cleared p (clear_package p)) ps).
  { rewrite Forall_forall in OP, CP |- *. intros p I. apply (proj1 (package_kept p)); [now apply OP|]. destruct (CP _ I) as (c & CC & [<-|[]]). exact CC. }
  rewrite root_eq. split; [|split; [reflexivity|split; [|split]]].
  - apply remap_ok; [exact O| | |]; unfold clear_root.
    + intros ft f w t D' A TY F. rewrite D in D'. injection D' as <-. destruct (String.eqb_spec f "arPackages") as [Q|Q].
      { subst f. rewrite TP in TY. injection TY as <-. rewrite AP in A. injection A as <-. cbn [on_list]. apply packages_ok; auto. eapply Forall_impl; [|exact IP]. now intros p [? _]. }
      destruct (String.eqb_spec f "adminData") as [Q2|Q2]; [|exact F]. subst f. rewrite TA in TY. injection TY as <-. constructor.
    + intros ft f w D' A TY _. rewrite D in D'. injection D' as <-. destruct (String.eqb_spec f "arPackages") as [Q|Q]; [subst f; congruence|].
      destruct (String.eqb_spec f "adminData") as [Q2|Q2]; [subst f; congruence|reflexivity].
    + intros f w A. destruct (String.eqb_spec f "arPackages") as [Q|Q].
      { subst f. rewrite AP in A. injection A as <-. cbn [on_list]. apply names_map. intros; apply package_name. }
      destruct (String.eqb_spec f "adminData") as [Q2|Q2]; [|reflexivity]. subst f. rewrite AA in A. injection A as <-. now rewrite (admin_names _ FA).
  - apply remap_same. intros f w N. unfold clear_root. cbn [In] in N. destruct (String.eqb_spec f "arPackages") as [Q|Q]; [exfalso; apply N; auto|].
    destruct (String.eqb_spec f "adminData") as [Q2|Q2]; [exfalso; apply N; auto|reflexivity].
  - intros w F. cbn [field] in F. rewrite remap_assoc, AA in F. injection F as <-. reflexivity.
  - exists ps, (map clear_package ps). split; [exact AP|]. split; [cbn [field]; rewrite remap_assoc, AP; reflexivity|].
    clear -IP. induction IP as [|p ps [_ P] _ IHp]; cbn [map]; constructor; auto.
Qed.
Lemma packages_named_ok : forall v, (ok v -> class_of v = Some "ARPackage" \/ class_of v = Some "AUTOSAR" -> packages_named v = true) /\ forall l, v = VList l -> Forall (fun v => ok v -> class_of v = Some "ARPackage" \/ class_of v = Some "AUTOSAR" -> packages_named v = true) l.
Proof.
  destruct package_table as (D & TP & _ & _ & KP & _). destruct document_table as (D' & TP' & _ & KP' & _).
  induction v as [| | |c fs IH|l IH] using val_ind'; try (split; [intros O C; reflexivity|intros l' E; discriminate E]).
  - split; [|intros l' E; discriminate E]. intros O C. cbn [packages_named]. apply forallb_forall. intros [f w] I. cbn beta iota. destruct (String.eqb_spec f "arPackages") as [Q|Q]; [|reflexivity]. subst f.
    assert (A : assoc "arPackages" fs = Some w) by (apply in_assoc; [inversion O; subst; match goal with E : map fst fs = _ |- _ => rewrite E end; apply keys_once|exact I]).
    assert (F : fok (FObjs true ["ARPackage"]) w).
    { destruct C as [C|C]; injection C as ->; [destruct (ok_field _ _ _ _ _ O D TP KP) as (w' & A' & F)|destruct (ok_field _ _ _ _ _ O D' TP' KP') as (w' & A' & F)]; rewrite A in A'; injection A' as <-; exact F. }
    destruct (objs_list _ _ _ F) as (ps & -> & CP & OP & SP). destruct (SP eq_refl) as [SB _]. rewrite SB. cbn [andb]. apply forallb_forall. intros p J.
    rewrite Forall_forall in IH, CP, OP. pose proof (proj2 (IH _ I) ps eq_refl) as H. rewrite Forall_forall in H. apply (H p J); [now apply OP|]. left. destruct (CP _ J) as (c' & CC & [<-|[]]). exact CC.
  - split; [reflexivity|]. intros l' E. injection E as <-. eapply Forall_impl; [|exact IH]. now intros p [? _].
Qed.

(** ** Printable documents stay printable *)
Lemma tidy_remap : forall b c fs g, (forall f w d, In (f, w) fs -> tidy d w = true -> tidy d (g f w) = true) ->
  (forall f w, g f w = w \/ g f w = VNone \/ f <> "xmlSpace" /\ exists l l', w = VList l /\ g f w = VList l') -> tidy b (VObj c fs) = true -> tidy b (VObj c (remap g fs)) = true.
Proof.
  intros b c fs g H1 H2 T. cbn [tidy] in *. rewrite forallb_forall in *. intros [f w'] I. unfold remap in I. apply in_map_iff in I. destruct I as ([k w] & E & I). cbn [fst snd] in E. injection E as <- <-.
  pose proof (T _ I) as TW. cbn beta iota in *. destruct (H2 k w) as [E|[E|(N & l & l' & E1 & E2)]].
  - now rewrite E.
  - rewrite E. destruct (String.eqb k "xmlSpace"); reflexivity.
  - destruct (String.eqb_spec k "xmlSpace") as [Q|Q]; [contradiction|]. rewrite E2. subst w. rewrite <- E2. now apply H1.
Qed.
Lemma tidy_element : forall v d, tidy d v = true -> tidy d (clear_element v) = true.
Proof.
  intros [| | |c fs|] d T; try exact T. unfold clear_element. destruct (isinst c "Describable" || isinst c "Identifiable"); [|exact T]. cbn [set_field tidy] in *.
  induction fs as [|[k w] fs IH]; [reflexivity|]. cbn [set_assoc forallb] in *. apply andb_true_iff in T. destruct T as [T1 T2]. destruct (String.eqb_spec "adminData" k) as [Q|Q].
  - subst k. cbn [forallb]. rewrite T2. reflexivity.
  - cbn [forallb]. rewrite T1. now apply IH.
Qed.
Lemma tidy_list : forall F l d, Forall (fun v => forall d, tidy d v = true -> tidy d (F v) = true) l -> tidy d (VList l) = true -> tidy d (VList (map F l)) = true.
Proof.
  intros F l d H T. cbn [tidy] in *. rewrite forallb_forall in *. intros v I. apply in_map_iff in I. destruct I as (w & <- & I). rewrite Forall_forall in H. apply H; auto.
Qed.
Lemma tidy_elements : forall w d, tidy d w = true -> tidy d (on_list clear_element w) = true.
Proof. intros [| | | |l] d T; try exact T. apply tidy_list; [|exact T]. apply Forall_forall. intros v _ d'. apply tidy_element. Qed.
Lemma shape_field : forall f w, clear_field f w = w \/ clear_field f w = VNone \/ f <> "xmlSpace" /\ exists l l', w = VList l /\ clear_field f w = VList l'.
Proof.
  intros f w. unfold clear_field. destruct (String.eqb_spec f "arPackages") as [Q|Q].
  { destruct w; auto. right. right. subst f. split; [discriminate|]. eexists _, _. split; reflexivity. }
  destruct (String.eqb_spec f "elements") as [Q1|Q1].
  { destruct w; auto. right. right. subst f. split; [discriminate|]. eexists _, _. split; reflexivity. }
  destruct (String.eqb f "adminData"); auto.
Qed.
Lemma shape_root : forall f w, clear_root f w = w \/ clear_root f w = VNone \/ f <> "xmlSpace" /\ exists l l', w = VList l /\ clear_root f w = VList l'.
Proof.
  intros f w. unfold clear_root. destruct (String.eqb_spec f "arPackages") as [Q|Q].
  { destruct w; auto. right. right. subst f. split; [discriminate|]. eexists _, _. split; reflexivity. }
  destruct (String.eqb f "adminData"); auto.
Qed.
Lemma tidy_package : forall v, (forall d, tidy d v = true -> tidy d (clear_package v) = true) /\ (forall d, tidy d v = true -> tidy d (on_list clear_package v) = true).
Proof.
  induction v as [| | |c fs IH|l IH] using val_ind'; try (split; intros d T; exact T).
  - split; [|intros d T; exact T]. intros d T. rewrite package_eq. apply tidy_remap; [|exact shape_field|exact T]. intros f w d' I TW. unfold clear_field.
    rewrite Forall_forall in IH. specialize (IH _ I). cbn [snd] in IH. destruct (String.eqb f "arPackages"); [now apply IH|]. destruct (String.eqb f "elements"); [now apply tidy_elements|].
    destruct (String.eqb f "adminData"); [reflexivity|exact TW].
  - split; [intros d T; exact T|]. intros d T. apply tidy_list; [|exact T]. eapply Forall_impl; [|exact IH]. now intros p [? _].
Qed.
Lemma tidy_document : forall v d, tidy d v = true -> tidy d (clear_document v) = true.
Proof.
  intros [| | |c fs|] d T; try exact T. rewrite root_eq. apply tidy_remap; [|exact shape_root|exact T]. intros f w d' I TW. unfold clear_root.
  destruct (String.eqb f "arPackages"); [now apply tidy_package|]. destruct (String.eqb f "adminData"); [reflexivity|exact TW].
Qed.

(** ** Removing twice *)
Lemma clear_element_twice : forall v, clear_element (clear_element v) = clear_element v.
Proof.
  intros [| | |c fs|]; try reflexivity. unfold clear_element at 2 3. destruct (isinst c "Describable" || isinst c "Identifiable") eqn:E; [|unfold clear_element; now rewrite E].
  unfold clear_element. cbn [set_field]. rewrite E. f_equal. induction fs as [|[k w] fs IH]; [reflexivity|]. cbn [set_assoc]. destruct (String.eqb "adminData" k) eqn:Q; cbn [set_assoc]; rewrite Q; [reflexivity|now rewrite IH].
Qed.
Lemma on_list_twice : forall (F : val -> val) l, Forall (fun v => F (F v) = F v) l -> map F (map F l) = map F l.
Proof. intros F l H. rewrite map_map. apply map_ext_in. intros v I. rewrite Forall_forall in H. now apply H. Qed.
Lemma remap_twice : forall g fs, Forall (fun p => g (fst p) (g (fst p) (snd p)) = g (fst p) (snd p)) fs -> remap g (remap g fs) = remap g fs.
Proof. intros g fs H. unfold remap. rewrite map_map. apply map_ext_in. intros [f w] I. rewrite Forall_forall in H. specialize (H _ I). cbn [fst snd] in *. now rewrite H. Qed.
Lemma elements_twice : forall w, on_list clear_element (on_list clear_element w) = on_list clear_element w.
Proof. intros [| | | |l]; try reflexivity. cbn [on_list]. f_equal. apply on_list_twice. apply Forall_forall. intros; apply clear_element_twice. Qed.
Lemma clear_package_twice : forall v, clear_package (clear_package v) = clear_package v /\ on_list clear_package (on_list clear_package v) = on_list clear_package v.
Proof.
  induction v as [| | |c fs IH|l IH] using val_ind'; try (split; reflexivity).
  - split; [|reflexivity]. rewrite !package_eq. f_equal. apply remap_twice. eapply Forall_impl; [|exact IH]. intros [f w] [H1 H2]. cbn [fst snd] in *. unfold clear_field.
    destruct (String.eqb f "arPackages"); [exact H2|]. destruct (String.eqb f "elements"); [apply elements_twice|]. destruct (String.eqb f "adminData"); reflexivity.
  - split; [reflexivity|]. cbn [on_list]. f_equal. apply on_list_twice. eapply Forall_impl; [|exact IH]. now intros p [? _].
Qed.
Lemma clear_document_twice : forall v, clear_document (clear_document v) = clear_document v.
Proof.
  intros [| | |c fs|]; try reflexivity. rewrite !root_eq. f_equal. apply remap_twice. apply Forall_forall. intros [f w] _. cbn [fst snd]. unfold clear_root.
  destruct (String.eqb f "arPackages"); [apply clear_package_twice|]. destruct (String.eqb f "adminData"); reflexivity.
Qed.

(** ** The command *)
Lemma saved_loads : forall repr w decl location u s, ok u -> class_of u = Some "AUTOSAR" -> tidy false u = true -> opt_line true location = true ->
  saved_text repr false decl location u s -> loaded_text w s (Some (location_or_default location)) u.
Proof.
  intros repr w decl location u s O C T L (x & S & E). destruct (file_round_trip repr w decl location u O C T L) as (s' & (x' & S' & E') & LD).
  assert (SW : saved repr w u x) by (destruct w; [now apply save_modes|exact S]). rewrite (save_once _ _ _ _ _ S' SW) in E'. rewrite E in E'. injection E' as <-. exact LD.
Qed.
(** the document that is saved *)
Definition result (o : options) (u : val) : val := if o_remove o then clear_document u else u.
Lemma result_ok : forall o u, ok u -> class_of u = Some "AUTOSAR" -> tidy false u = true ->
  (if o_remove o then remove_admin_data u else Done u) = Done (result o u) /\ ok (result o u) /\ class_of (result o u) = Some "AUTOSAR" /\ tidy false (result o u) = true /\
  (if o_remove o then document_cleared u (result o u) else result o u = u).
Proof.
  intros o u O C T. unfold result. destruct (o_remove o); [|repeat split; assumption]. destruct (document_clear_ok u O C) as (O' & C' & DC).
  unfold remove_admin_data. rewrite (proj1 (packages_named_ok u) O (or_intror C)). repeat split; try assumption; try apply DC. now apply tidy_document.
Qed.
Lemma format_exists : forall repr decl o s location u, loaded_text (o_warning o) s location u -> ok u -> class_of u = Some "AUTOSAR" -> tidy false u = true -> opt_line true location = true -> o_unescape o = false ->
  exists t, arxml_format repr decl o s t /\ saved_text repr false decl location (result o u) t.
Proof.
  intros repr decl o s location u LD O C T L U. destruct (result_ok o u O C T) as (R & O' & C' & T' & _).
  destruct (file_round_trip repr false decl location _ O' C' T' L) as (t & (x & S & E) & _). exists t. split; [|now exists x]. exists location, u, (result o u), x. rewrite U. auto.
Qed.
Lemma format_once : forall repr decl o s t t', arxml_format repr decl o s t -> arxml_format repr decl o s t' -> t = t'.
Proof.
  intros repr decl o s t t' (l & u & v & x & (y & Y & _ & Q & LD) & R & S & E) (l' & u' & v' & x' & (y' & Y' & _ & Q' & LD') & R' & S' & E').
  rewrite Y in Y'. injection Y' as <-. pose proof (load_once _ _ _ _ LD LD') as ->. rewrite R in R'. injection R' as <-. rewrite (save_once _ _ _ _ _ S S') in E. subst l l'. congruence.
Qed.
Lemma format_result : forall repr decl o s location u, loaded_text (o_warning o) s location u -> ok u -> class_of u = Some "AUTOSAR" -> tidy false u = true -> opt_line true location = true -> o_unescape o = false ->
  exists t v, arxml_format repr decl o s t /\ (if o_remove o then document_cleared u v else v = u) /\ forall w, loaded_text w t (Some (location_or_default location)) v.
Proof.
  intros repr decl o s location u LD O C T L U. destruct (format_exists repr decl o s location u LD O C T L U) as (t & F & S). destruct (result_ok o u O C T) as (_ & O' & C' & T' & H).
  exists t, (result o u). split; [exact F|]. split; [exact H|]. intros w. exact (saved_loads repr w decl location _ t O' C' T' L S).
Qed.
Lemma format_again : forall repr decl o o' s t location u, loaded_text (o_warning o) s location u -> ok u -> class_of u = Some "AUTOSAR" -> tidy false u = true -> opt_line true location = true -> o_unescape o = false ->
  arxml_format repr decl o s t -> o_unescape o' = false -> (o_remove o' = true -> o_remove o = true) -> arxml_format repr decl o' t t.
Proof.
  intros repr decl o o' s t location u LD O C T L U F U' RR. destruct (format_exists repr decl o s location u LD O C T L U) as (t' & F' & S). pose proof (format_once _ _ _ _ _ _ F F') as <-.
  destruct (result_ok o u O C T) as (_ & O1 & C1 & T1 & _). destruct (result_ok o' _ O1 C1 T1) as (R & _).
  assert (Q : result o' (result o u) = result o u). { unfold result. destruct (o_remove o'); [|reflexivity]. rewrite (RR eq_refl). apply clear_document_twice. }
  pose proof (saved_loads repr (o_warning o') decl location _ t O1 C1 T1 L S) as LD1. destruct S as (x & S & E). exists (Some (location_or_default location)), (result o u), (result o u), x.
  rewrite U'. split; [exact LD1|]. split; [now rewrite R, Q|]. split; [exact S|]. destruct location; exact E.
Qed.
Lemma same_text : forall repr decl o location u s, saved_text repr false decl location u s -> ok u -> class_of u = Some "AUTOSAR" -> tidy false u = true -> opt_line true location = true -> o_unescape o = false -> o_remove o = false ->
  arxml_format repr decl o s s.
Proof.
  intros repr decl o location u s S O C T L U R. pose proof (saved_loads repr (o_warning o) decl location _ s O C T L S) as LD. destruct S as (x & S & E).
  exists (Some (location_or_default location)), u, u, x. rewrite U, R. split; [exact LD|]. split; [reflexivity|]. split; [exact S|]. destruct location; exact E.
Qed.
(** with --unescape-entities *)
Lemma reload_unquoted : forall x d, unquoted (reload d x) -> unquoted x.
Proof.
  induction x as [t a s kids IH] using xml_ind'. intros d U. destruct kids as [|k kids]; cbn [reload] in U; inversion U as [? ? ? ? A K]; subst; constructor; try exact A; [constructor|].
  apply Forall_forall. intros y I. rewrite Forall_forall in IH, K. apply (IH y I (S d)). apply K. exact (in_map (reload (S d)) (k :: kids) y I).
Qed.
Lemma format_unescape : forall repr decl w r s t y location u,
  loaded_text w s location u -> ok u -> class_of u = Some "AUTOSAR" -> tidy false u = true -> opt_line true location = true ->
  arxml_format repr decl (mkOptions w r false) s t -> load_tree t = Some y -> unquoted y ->
  exists t', arxml_format repr decl (mkOptions w r true) s t' /\ forall w' location' v, loaded_text w' t' location' v <-> loaded_text w' t location' v.
Proof.
  intros repr decl w r s t y location u LD O C T L (l & u' & v & x & LD' & R & S & E) Y U. cbn [o_warning o_remove o_unescape] in *.
  assert (Q : l = location /\ u' = u).
  { destruct LD as (z & Z & _ & QL & LZ). destruct LD' as (z' & Z' & _ & QL' & LZ'). rewrite Z in Z'. injection Z' as <-. split; [congruence|]. exact (load_once _ _ _ _ LZ' LZ). }
  destruct Q as [-> ->]. destruct (result_ok (mkOptions w r false) u O C T) as (RR & _ & _ & T' & _). cbn [o_remove] in RR. rewrite R in RR. injection RR as ->.
  pose proof (with_attrs_good _ _ (root_attrs_good _ L) (saved_good _ _ _ _ T' S)) as W. destruct (save_load decl _ W) as (t0 & E0 & Y0). rewrite E in E0. injection E0 as <-. rewrite Y in Y0.
  assert (UX : unquoted (with_attrs (root_attrs location) x)) by (apply (reload_unquoted _ 0); congruence).
  destruct (unescape_loads decl _ W UX) as (t' & t1 & E1 & E2 & LT & _). rewrite E in E2. injection E2 as <-. exists t'. split.
  - exists location, u, (result (mkOptions w r false) u), x. cbn [o_warning o_remove o_unescape]. auto.
  - intros w' location' v'. unfold loaded_text. now rewrite LT.
Qed.
