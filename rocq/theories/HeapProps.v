From Coq Require Import String Ascii List Bool Arith Lia.
From Verif Require Import PyBase PyBaseFacts ClassTable Collection SpecCollection CollectionFacts CollProps
  ObjHeap SpecHeap HeapFacts Creators CreatorFacts SpecCreators SpecCreate CreatorProps.
Import ListNotations.
Open Scope string_scope.
Open Scope list_scope.
Local Opaque isinst ancestors anc_table.

Lemma c01_inverse : forall os ws x, lives_clear (hrun os) ws x ->
  Forall (fun w => w <> "" /\ slash_free w) ws ->
  full_name (hrun os) x = slash_path ws /\ find_path (hrun os) (full_name (hrun os) x) = Ok (Some x).
Proof. intros. apply find_full_name; auto. apply hrun_inv. Qed.

Lemma c02_sound : forall os path ws x, components path ws -> find_path (hrun os) path = Ok (Some x) ->
  lives_at (hrun os) (nonempty_names ws) x.
Proof. intros. eapply find_sound; eauto. apply hrun_inv. Qed.

(** every string has components *)
Lemma components_total : forall s, exists ws, components s ws.
Proof.
  assert (G : forall n s, String.length s <= n -> exists ws, components s ws).
  { induction n as [|n IH]; intros s Hn.
    - destruct s; [|simpl in Hn; lia]. exists [""]. constructor. intros [].
    - assert (C : slash_free s \/ exists a b, slash_free a /\ s = (a ++ String "/" b)%string).
      { clear. induction s as [|c s IH]; [left; intros []|].
        destruct (Ascii.eqb_spec c "/") as [->|Hne].
        - right. exists "", s. split; [intros []|reflexivity].
        - destruct IH as [H|[a [b [H1 H2]]]].
          + left. apply slash_free_cons. auto.
          + right. exists (String c a), b. split; [apply slash_free_cons; auto|simpl; now rewrite H2]. }
      destruct C as [C|[a [b [C1 C2]]]]; [exists [s]; now constructor|].
      destruct (IH b) as [ws Hw].
      + subst s. clear - Hn. assert (L : forall u v, String.length (u ++ String "/" v) >= S (String.length v)).
        { induction u as [|c u IHu]; simpl; intro v; [lia|]. specialize (IHu v). lia. }
        specialize (L a b). lia.
      + exists (a :: ws). subst s. now constructor. }
  intro s. eapply G. reflexivity.
Qed.

Lemma c02_nothing_there : forall os path ws, components path ws ->
  (forall x, ~ lives_at (hrun os) (nonempty_names ws) x) ->
  find_path (hrun os) path = Ok None \/ exists e, find_path (hrun os) path = Raise e.
Proof.
  intros os path ws Hc Hn. destruct (find_path (hrun os) path) as [[x|]|e] eqn:E; eauto.
  exfalso. apply (Hn x). eapply c02_sound; eauto.
Qed.

(** ** C04 *)
Lemma dest_in : forall tbl c d, dest_type_in tbl c = Ok d -> exists k, In (k, d) tbl /\ isinst c k = true.
Proof.
  induction tbl as [|[k d'] tbl IH]; simpl; intros c d H; [discriminate|].
  destruct (isinst c k) eqn:E.
  - inversion H; subst. exists k. auto.
  - destruct (IH _ _ H) as [k' [A B]]. exists k'. auto.
Qed.

Lemma dest_raise : forall tbl c e, dest_type_in tbl c = Raise e -> e = NotImplementedError /\ forall k d, In (k, d) tbl -> isinst c k = false.
Proof.
  induction tbl as [|[k d'] tbl IH]; simpl; intros c e H; [inversion H; split; auto; intros ? ? []|].
  destruct (isinst c k) eqn:E; [discriminate|]. destruct (IH _ _ H) as [A B]. split; auto.
  intros k' d [X|X]; [inversion X; subst; auto|eauto].
Qed.

(** the classes of the table have no common subclass *)
Definition kinds_disjoint (d : string) (ad : list string) : bool :=
  Nat.leb (List.length (filter (fun p => has (fst p) ad) dest_table)) 1.
Lemma kinds_disjoint_all :
  (let t := anc_table in let ns := map fst t in
   forallb (fun q => forallb (fun p => if has (fst q) (snd p) then kinds_disjoint (fst p) (snd p) else true) t && has (fst q) ns)%bool dest_table) = true.
Proof. vm_compute. reflexivity. Qed.

Lemma one_kind : forall c k d k' d', In (k, d) dest_table -> In (k', d') dest_table ->
  isinst c k = true -> isinst c k' = true -> (k, d) = (k', d').
Proof.
  intros c k d k' d' H1 H2 I1 I2. pose proof kinds_disjoint_all as T. cbv zeta in T. rewrite forallb_forall in T.
  specialize (T _ H1). cbn [fst] in T. apply andb_prop in T as [T1 T2].
  pose proof (isinst_enum kinds_disjoint k T1 T2 c I1) as G. unfold kinds_disjoint in G. apply Nat.leb_le in G.
  assert (A : In (k, d) (filter (fun p => has (fst p) (ancestors 20 c)) dest_table)) by (apply filter_In; split; auto; now rewrite <- isinst_has).
  assert (B : In (k', d') (filter (fun p => has (fst p) (ancestors 20 c)) dest_table)) by (apply filter_In; split; auto; now rewrite <- isinst_has).
  destruct (filter _ dest_table) as [|x [|y l]]; simpl in *; [contradiction| |lia].
  destruct A as [A|[]], B as [B|[]]. congruence.
Qed.

Lemma c04_exact : forall h v d x, d <> "" -> find_path h v = Ok (Some x) ->
  (find_ref h (Some v) (Some d) = Ok (Some x) <-> exists k, In (k, d) dest_table /\ isinst (cls_of h x) k = true).
Proof.
  intros h v d x Hd H. unfold find_ref. rewrite H. destruct (String.eqb_spec d ""); [contradiction|].
  unfold getDestType. split.
  - destruct (dest_type_in _ _) as [d'|e] eqn:E; [|discriminate].
    destruct (String.eqb_spec d' d); [|discriminate]. subst. intros _. now apply dest_in.
  - intros [k [A B]]. destruct (dest_type_in _ _) as [d'|e] eqn:E.
    + apply dest_in in E as [k' [A' B']]. pose proof (one_kind _ _ _ _ _ A A' B B') as Q. inversion Q; subst.
      now rewrite String.eqb_refl.
    + destruct (dest_raise _ _ _ E) as [_ X]. rewrite (X _ _ A) in B. discriminate.
Qed.

Lemma c04_mismatch : forall h v d x, d <> "" -> find_path h v = Ok (Some x) ->
  (forall k, In (k, d) dest_table -> isinst (cls_of h x) k = false) ->
  find_ref h (Some v) (Some d) = Raise ValueError \/ find_ref h (Some v) (Some d) = Raise NotImplementedError.
Proof.
  intros h v d x Hd H Hk. unfold find_ref. rewrite H. destruct (String.eqb_spec d ""); [contradiction|].
  unfold getDestType. destruct (dest_type_in _ _) as [d'|e] eqn:E.
  - destruct (String.eqb_spec d' d); auto. subst. apply dest_in in E as [k [A B]]. rewrite (Hk _ A) in B. discriminate.
  - destruct (dest_raise _ _ _ E) as [-> _]. auto.
Qed.

(** the names of the table are the XML spellings of the kinds *)
Lemma dest_table_spelling : dest_table = map (fun k => (k, xml_name k)) dest_kinds.
Proof. vm_compute. reflexivity. Qed.
Lemma dest_spelled : forall k d, In (k, d) dest_table <-> In k dest_kinds /\ xml_name k = d.
Proof.
  intros k d. rewrite dest_table_spelling, in_map_iff. split.
  - intros [k' [E I]]. injection E as -> <-. auto.
  - intros [I <-]. exists k. auto.
Qed.
Lemma c04_kind : forall h v d x, d <> "" -> find_path h v = Ok (Some x) ->
  (find_ref h (Some v) (Some d) = Ok (Some x) <->
   exists k, In k dest_kinds /\ xml_name k = d /\ isinst (cls_of h x) k = true).
Proof.
  intros h v d x Hd H. rewrite (c04_exact h v d x Hd H). split.
  - intros [k [A B]]. apply dest_spelled in A. exists k. tauto.
  - intros [k [A [B C]]]. exists k. split; auto. apply dest_spelled. auto.
Qed.
Lemma c04_other_kind : forall h v d x, d <> "" -> find_path h v = Ok (Some x) ->
  (forall k, In k dest_kinds -> xml_name k = d -> isinst (cls_of h x) k = false) ->
  find_ref h (Some v) (Some d) = Raise ValueError \/ find_ref h (Some v) (Some d) = Raise NotImplementedError.
Proof.
  intros h v d x Hd H Hk. eapply c04_mismatch; eauto. intros k A. apply dest_spelled in A. now apply Hk.
Qed.

Lemma c04_missing : forall h v d, find_path h v = Ok None -> find_ref h (Some v) d = Ok None.
Proof. intros h v d H. unfold find_ref. now rewrite H. Qed.

Lemma c04_plain : forall h v d, d = None \/ d = Some "" -> find_ref h (Some v) d = find_path h v.
Proof.
  intros h v d [-> | ->]; unfold find_ref; destruct (find_path h v) as [[x|]|]; reflexivity.
Qed.

Lemma c21_unique : forall os ws vs x y, lives_clear (hrun os) ws x -> lives_clear (hrun os) vs y ->
  Forall slash_free ws -> Forall slash_free vs -> full_name (hrun os) x = full_name (hrun os) y -> x = y.
Proof. intros. eapply full_names_distinct; eauto. apply hrun_inv. Qed.

(** singleton empty, receiver with package p *)
Lemma c03_refuted : exists s d path, doc_find s d path <> find_path d path.
Proof.
  exists fresh_doc, (hrun [HPackage root "p"]), "/p". vm_compute. discriminate.
Qed.
