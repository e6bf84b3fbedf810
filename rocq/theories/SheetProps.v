(** Proofs for C54. *)
From Coq Require Import String Ascii List Bool Arith Lia Permutation Sorted.
From Verif Require Import PyBase PyBaseFacts PrimitivesFacts ClassTable Collection Composition SpecComposition Report SpecReport ReportProps Sheet SpecSheet.
Import ListNotations.
Open Scope string_scope.
Open Scope list_scope.

(** ** names of sheets *)
Lemma prefix_app : forall p s, prefix p s = true <-> exists r, s = (p ++ r)%string.
Proof.
  induction p as [|c p IH]; intros s.
  - split; [intros _; now exists s|]. intros _. destruct s; reflexivity.
  - destruct s as [|d s]; [split; [discriminate|intros (r & E); discriminate]|]. destruct (Ascii.eqb_spec c d) as [Q|N].
    + subst d. specialize (IH s). simpl. try (destruct (ascii_dec c c); [|congruence]). try rewrite Ascii.eqb_refl. rewrite IH. split; intros (r & E); exists r; [subst; reflexivity|injection E as E; exact E].
    + simpl. try (destruct (ascii_dec c d); [congruence|]). try (destruct (Ascii.eqb_spec c d); [congruence|]). split; [discriminate|]. intros (r & E). injection E as E _. congruence.
Qed.
Lemma word_space : forall c, is_word c = true -> is_space c = true -> False.
Proof. intros [[|] [|] [|] [|] [|] [|] [|] [|]] A B; vm_compute in A, B; congruence. Qed.
Lemma head_space : forall b r, b <> "" -> all_chars is_space b = true -> head_not is_word (b ++ r).
Proof.
  intros [|c b] r N A; [congruence|]. cbn in *. destruct (is_word c) eqn:W; [|reflexivity]. apply andb_prop in A as [A _]. exfalso. exact (word_space c W A).
Qed.
Lemma not_empty : forall s, s <> "" -> is_empty s = false.
Proof. now intros [|c s] N. Qed.
Lemma sheet_name_intro : forall t n k, names t n k -> sheet_name t = Some (n, k).
Proof.
  intros t n k (K & b1 & b2 & rest & -> & (N1 & W) & (N2 & S1) & (N3 & S2)). unfold sheet_name.
  rewrite (span_app is_word n) by (trivial; now apply head_space). rewrite (span_app is_space b1) by (trivial; reflexivity). cbn [append].
  assert (H : head_not is_space (mark k ++ rest)%string) by (destruct K as [-> | ->]; reflexivity).
  rewrite (span_app is_space b2 _ S2 H). rewrite (not_empty _ N1), (not_empty _ N2), (not_empty _ N3). cbn [orb].
  replace (negb (Ascii.eqb "-" "-")) with false by reflexivity.
  destruct K as [-> | ->]; cbn [mark].
  - assert (P : prefix "AC" ("AC" ++ rest) = true) by (apply prefix_app; now exists rest). now rewrite P.
  - assert (P : prefix "DC" ("DC" ++ rest) = true) by (apply prefix_app; now exists rest). rewrite P.
    assert (Q : prefix "AC" ("DC" ++ rest) = false) by reflexivity. now rewrite Q.
Qed.
Lemma sheet_name_names : forall t n k, sheet_name t = Some (n, k) -> names t n k.
Proof.
  intros t n k. unfold sheet_name. destruct (span is_word t) as [n' r1] eqn:E1. destruct (span is_space r1) as [b1 r2] eqn:E2. destruct r2 as [|c r3]; [discriminate|].
  destruct (span is_space r3) as [b2 r4] eqn:E3. apply span_spec in E1 as (-> & W & _). apply span_spec in E2 as (-> & S1 & _). apply span_spec in E3 as (-> & S2 & _).
  destruct (is_empty n') eqn:N1; [discriminate|]. destruct (is_empty b1) eqn:N2; [discriminate|]. destruct (is_empty b2) eqn:N3; [discriminate|]. cbn [orb].
  destruct (Ascii.eqb_spec c "-") as [-> | NE]; [|discriminate]. cbn [negb].
  assert (M : forall s, is_empty s = false -> s <> "") by (now intros [|x s] E).
  destruct (prefix "AC" r4) eqn:P.
  - intros E. injection E as <- <-. split; [now left|]. apply prefix_app in P as (r & ->). exists b1, b2, r. split; [reflexivity|]. split; [split; [now apply M|assumption]|]. split; (split; [now apply M|assumption]).
  - destruct (prefix "DC" r4) eqn:Q; [|discriminate]. intros E. injection E as <- <-. split; [now right|]. apply prefix_app in Q as (r & ->). exists b1, b2, r. split; [reflexivity|]. split; [split; [now apply M|assumption]|]. split; (split; [now apply M|assumption]).
Qed.

(** ** columns *)
Lemma cell_bound : forall s c v, cell_in (hd [] s) c = Some v -> c < max_column s.
Proof.
  intros [|r s] c v E; cbn [hd] in E; unfold cell_in in E; [destruct c; discriminate|].
  assert (c < List.length r). { destruct (Nat.ltb_spec c (List.length r)) as [L|L]; [exact L|]. rewrite nth_overflow in E by exact L. discriminate. }
  cbn [max_column fold_right]. lia.
Qed.
Section Fold.
Variable s : sheet.
Let step := fun (cols : columns) c => match cell_in (hd [] s) c with Some v => if dmem cols v then dset cols v (Some c) else cols | None => cols end.
Lemma step_keys : forall cols c, dkeys (step cols c) = dkeys cols.
Proof.
  intros cols c. unfold step. destruct (cell_in _ c) as [v|]; [|reflexivity]. destruct (dmem cols v) eqn:M; [|reflexivity]. rewrite dkeys_dset. now rewrite M.
Qed.
Lemma fold_keys : forall l cols, dkeys (fold_left step l cols) = dkeys cols.
Proof. induction l as [|c l IH]; intros cols; [reflexivity|]. cbn [fold_left]. now rewrite IH, step_keys. Qed.
Lemma keys_mem : forall (cols cols' : columns) t, dkeys cols = dkeys cols' -> dmem cols t = dmem cols' t.
Proof.
  intros cols cols' t E. destruct (dmem cols t) eqn:M, (dmem cols' t) eqn:M'; try reflexivity; exfalso.
  - apply dmem_false, dget_None_keys in M'. rewrite <- E in M'. apply dget_None_keys, dmem_false in M'. congruence.
  - apply dmem_false, dget_None_keys in M. rewrite E in M. apply dget_None_keys, dmem_false in M. congruence.
Qed.
Lemma fold_found : forall t c, titled s t c -> forall l cols, dmem cols t = true -> In c l \/ dget cols t = Some (Some c) -> dget (fold_left step l cols) t = Some (Some c).
Proof.
  intros t c T. induction l as [|c' l IH]; intros cols M [I|D]; cbn [fold_left]; try exact D; [destruct I| |].
  - destruct I as [-> | I].
    + apply IH; [rewrite (keys_mem _ cols) by apply step_keys; exact M|]. right. unfold step. rewrite (proj2 (T c) eq_refl), M. apply dget_dset_same.
    + apply IH; [rewrite (keys_mem _ cols) by apply step_keys; exact M|]. now left.
  - apply IH; [rewrite (keys_mem _ cols) by apply step_keys; exact M|]. right. unfold step. destruct (cell_in (hd [] s) c') as [v|] eqn:E; [|exact D].
    destruct (dmem cols v) eqn:M'; [|exact D]. rewrite dget_dset. destruct (String.eqb_spec t v) as [Q|Q]; [|exact D]. subst v. now apply T in E as ->.
Qed.
Lemma fold_missing : forall t, (forall c, cell_in (hd [] s) c <> Some t) -> forall l cols, dget (fold_left step l cols) t = dget cols t.
Proof.
  intros t T. induction l as [|c l IH]; intros cols; [reflexivity|]. cbn [fold_left]. rewrite IH. unfold step. destruct (cell_in (hd [] s) c) as [v|] eqn:E; [|reflexivity].
  destruct (dmem cols v); [|reflexivity]. rewrite dget_dset. destruct (String.eqb_spec t v) as [Q|Q]; [|reflexivity]. subst v. now apply T in E.
Qed.
End Fold.
Lemma titles_keys : forall s cols, dkeys (get_titles s cols) = dkeys cols.
Proof. intros. apply fold_keys. Qed.
Lemma titles_found : forall s cols t c, dmem cols t = true -> titled s t c -> dget (get_titles s cols) t = Some (Some c) /\ c < max_column s.
Proof.
  intros s cols t c M T. assert (L : c < max_column s) by (eapply cell_bound, (proj2 (T c)); reflexivity). split; [|exact L].
  apply fold_found; [exact T|exact M|]. left. apply in_seq. lia.
Qed.
Lemma check_ok : forall cols : columns, (forall t, In t (dkeys cols) -> exists c, dget cols t = Some (Some c)) -> NoDup (dkeys cols) -> check_titles cols = Ok tt.
Proof.
  intros cols H ND. unfold check_titles. destruct (existsb _ cols) eqn:E; [|reflexivity]. exfalso. apply existsb_exists in E as ([t v] & I & N). cbn in N.
  destruct (H t) as (c & D). { change t with (fst (t, v)). now apply in_map. } rewrite (In_dget _ _ _ _ ND I) in D. injection D as ->. discriminate.
Qed.
Lemma check_bad : forall (cols : columns) t, dget cols t = Some None -> check_titles cols = Raise ValueError.
Proof.
  intros cols t D. unfold check_titles. destruct (existsb _ cols) eqn:E; [reflexivity|]. exfalso. apply dget_In in D.
  assert (X : existsb (fun p : string * option nat => match snd p with Some _ => false | None => true end) cols = true) by (apply existsb_exists; exists (t, None); now split). congruence.
Qed.
Lemma titles_mem : forall (cols : columns) t, In t (dkeys cols) -> dmem cols t = true.
Proof. intros cols t I. destruct (dmem cols t) eqn:E; [reflexivity|]. now apply dmem_false, dget_None_keys in E. Qed.

Lemma value_found : forall s cols r t c, In t (dkeys cols) -> titled s t c -> value_at (max_column s) (get_titles s cols) r t = Ok (cell_in r c) /\ under s r t (cell_in r c).
Proof.
  intros s cols r t c I T. destruct (titles_found s cols t c (titles_mem _ _ I) T) as (D & L). unfold value_at. rewrite D. apply Nat.ltb_lt in L. rewrite L.
  split; [reflexivity|]. now exists c.
Qed.
Lemma titled_check : forall s cols ts, dkeys cols = ts -> NoDup ts -> (forall t, In t ts -> exists c, titled s t c) -> check_titles (get_titles s cols) = Ok tt.
Proof.
  intros s cols ts K ND H. apply check_ok; [|now rewrite titles_keys, K]. intros t I. rewrite titles_keys in I. destruct (H t) as (c & T); [congruence|]. exists c.
  now apply titles_found; [apply titles_mem|].
Qed.
Ltac col H K t c := let T := fresh "T" in destruct (H t) as (c & T); [cbn; tauto|]; let V := fresh "V" in let U := fresh "U" in pose proof (fun r => value_found _ _ r t c ltac:(rewrite K; cbn; tauto) T) as V; clear T.
Lemma read_assembly_ok : forall s cols, dkeys cols = titles Assembly -> (forall t, In t (titles Assembly) -> exists c, titled s t c) ->
  forall r, exists d, read_assembly (max_column s) (get_titles s cols) r = Ok d /\ shows_data s Assembly r d.
Proof.
  intros s cols K H r. col H K "Short Name" c1. col H K "Provide SW-C" c2. col H K "PPort" c3. col H K "Request SW-C" c4. col H K "RPort" c5.
  eexists. split.
  - unfold read_assembly. rewrite (proj1 (V r)), (proj1 (V0 r)), (proj1 (V1 r)), (proj1 (V2 r)), (proj1 (V3 r)). cbn [bind]. reflexivity.
  - cbn [shows_data]. pose proof (proj2 (V r)). pose proof (proj2 (V0 r)). pose proof (proj2 (V1 r)). pose proof (proj2 (V2 r)). pose proof (proj2 (V3 r)). auto 10.
Qed.
Lemma read_delegation_ok : forall s cols, dkeys cols = titles Delegation -> (forall t, In t (titles Delegation) -> exists c, titled s t c) ->
  forall r, exists d, read_delegation (max_column s) (get_titles s cols) r = Ok d /\ shows_data s Delegation r d.
Proof.
  intros s cols K H r. col H K "Short Name" c1. col H K "Inner SW-C" c2. col H K "Inner PPort" c3. col H K "Inner RPort" c4. col H K "Outer PPort" c5. col H K "Outer RPort" c6.
  eexists. split.
  - unfold read_delegation. rewrite (proj1 (V r)), (proj1 (V0 r)), (proj1 (V1 r)), (proj1 (V2 r)), (proj1 (V3 r)), (proj1 (V4 r)). cbn [bind]. reflexivity.
  - cbn [shows_data]. pose proof (proj2 (V r)). pose proof (proj2 (V0 r)). pose proof (proj2 (V1 r)). pose proof (proj2 (V2 r)). pose proof (proj2 (V3 r)). pose proof (proj2 (V4 r)). auto 10.
Qed.
Lemma read_each_ok : forall (f : list cell -> res data) (P : list cell -> data -> Prop), (forall r, exists d, f r = Ok d /\ P r d) ->
  forall rs, exists ds, read_each f rs = Ok ds /\ Forall2 P rs ds.
Proof.
  intros f P H. induction rs as [|r rs (ds & E & F)]; [exists []; now split|]. destruct (H r) as (d & D & Q). exists (d :: ds). cbn [read_each]. rewrite D, E. cbn [bind]. split; [reflexivity|now constructor].
Qed.

(** ** workbooks *)
Definition rinv (x : xreader) : Prop := dkeys (x_del x) = titles Delegation /\ dkeys (x_asm x) = titles Assembly.
Lemma titles_nodup : forall k, NoDup (titles k).
Proof. intros [| |]; cbn; repeat constructor; cbn; intuition discriminate. Qed.
Lemma listed_dset : forall d n n' l, listed (dset d n l) n' = if String.eqb n' n then l else listed d n'.
Proof. intros d n n' l. unfold listed. rewrite dget_dset. now destruct (String.eqb n' n). Qed.
Definition other (k : kind) (x x' : xreader) : Prop := match k with Assembly => x_del x' = x_del x | _ => x_asm x' = x_asm x end.
Lemma parse_sheet_ok : forall x k s n, rinv x -> k = Assembly \/ k = Delegation -> (forall t, In t (titles k) -> exists c, titled s t c) ->
  exists x' ds, parse_sheet x k s n = Ok x' /\ rinv x' /\ other k x x' /\ Forall2 (shows_data s k) (tl s) ds /\
    forall n', listed (x_list x') n' = if String.eqb n' n then listed (x_list x) n ++ ds else listed (x_list x) n'.
Proof.
  intros x k s n (RD & RA) [-> | ->] H; cbn [parse_sheet].
  - rewrite (titled_check s (x_asm x) _ RA (titles_nodup Assembly) H). cbn [bind].
    destruct (read_each_ok _ _ (read_assembly_ok s (x_asm x) RA H) (tl s)) as (ds & E & F). rewrite E. cbn [bind].
    eexists; exists ds. split; [reflexivity|]. split; [split; [exact RD|cbn [x_asm]; now rewrite titles_keys]|]. split; [reflexivity|]. split; [exact F|]. intros n'. cbn [x_list]. apply listed_dset.
  - rewrite (titled_check s (x_del x) _ RD (titles_nodup Delegation) H). cbn [bind].
    destruct (read_each_ok _ _ (read_delegation_ok s (x_del x) RD H) (tl s)) as (ds & E & F). rewrite E. cbn [bind].
    eexists; exists ds. split; [reflexivity|]. split; [split; [cbn [x_del]; now rewrite titles_keys|exact RA]|]. split; [reflexivity|]. split; [exact F|]. intros n'. cbn [x_list]. apply listed_dset.
Qed.
Lemma read_sheets_ok : forall w x, rinv x -> well_titled w -> exists x', read_sheets x w = Ok x' /\ rinv x' /\
  (forall k, (k = Assembly \/ k = Delegation) -> (forall t s n, In (t, s) w -> ~ names t n k) -> match k with Assembly => x_asm x' = x_asm x | _ => x_del x' = x_del x end) /\
  forall n, exists rs, listed (x_list x') n = listed (x_list x) n ++ rs /\ says w n rs.
Proof.
  induction w as [|[t s] w IH]; intros x R W.
  - exists x. split; [reflexivity|]. split; [exact R|]. split; [intros [| |] _ _; reflexivity|]. intros n. exists []. rewrite app_nil_r. split; [reflexivity|constructor].
  - assert (W' : well_titled w) by (intros t' s' n k I; apply (W t' s' n k); now right). cbn [read_sheets]. destruct (sheet_name t) as [[n k]|] eqn:E.
    + apply sheet_name_names in E. assert (K : k = Assembly \/ k = Delegation) by apply E.
      destruct (parse_sheet_ok x k s n R K (W t s n k (or_introl eq_refl) E)) as (x1 & ds & P & R1 & O & F & L). rewrite P. cbn [bind].
      destruct (IH x1 R1 W') as (x2 & E2 & R2 & O2 & L2). exists x2. split; [exact E2|]. split; [exact R2|]. split.
      * intros k' K' NN. assert (N : k' <> k) by (intros ->; exact (NN t s n (or_introl eq_refl) E)).
        assert (O3 := O2 k' K' (fun t s n I => NN t s n (or_intror I))). destruct K as [-> | ->], K' as [-> | ->]; try congruence; unfold other in O; congruence.
      * intros n'. destruct (L2 n') as (rs & Q & S). rewrite L in Q. destruct (String.eqb_spec n' n) as [-> | N].
        -- exists (ds ++ rs). rewrite Q, app_assoc. split; [reflexivity|]. exact (says_sheet t s w n k ds rs E F S).
        -- exists rs. split; [exact Q|]. apply says_other; [|exact S]. intros k' N'. apply sheet_name_intro in N', E. congruence.
    + destruct (IH x R W') as (x2 & E2 & R2 & O2 & L2). exists x2. split; [exact E2|]. split; [exact R2|]. split.
      * intros k' K' NN. apply (O2 k' K'). intros t' s' n' I. apply (NN t' s' n'). now right.
      * intros n'. destruct (L2 n') as (rs & Q & S). exists rs. split; [exact Q|]. apply says_other; [|exact S]. intros k' N'. apply sheet_name_intro in N'. congruence.
Qed.
Lemma new_inv : rinv reader_new.
Proof. split; reflexivity. Qed.
Lemma workbook_read : forall w, well_titled w -> exists ds, read_workbook w = Ok ds /\ forall n, says w n (listed ds n).
Proof.
  intros w W. destruct (read_sheets_ok w reader_new new_inv W) as (x & E & _ & _ & L). exists (x_list x). unfold read_workbook. rewrite E. split; [reflexivity|].
  intros n. destruct (L n) as (rs & Q & S). replace (listed (x_list reader_new) n) with (@nil data) in Q by reflexivity. cbn [app] in Q. now rewrite Q.
Qed.

Lemma missing_title : forall w1 t s w2 n k c, well_titled w1 -> (forall t s n, In (t, s) w1 -> ~ names t n k) ->
  names t n k -> In c (titles k) -> (forall i, cell_in (hd [] s) i <> Some c) -> read_workbook (w1 ++ (t, s) :: w2) = Raise ValueError.
Proof.
  intros w1 t s w2 n k c W N E I M. assert (K : k = Assembly \/ k = Delegation) by apply E.
  destruct (read_sheets_ok w1 reader_new new_inv W) as (x & R & _ & O & _). specialize (O k K N).
  assert (A : forall w x0, read_sheets x0 (w1 ++ w) = bind (read_sheets x0 w1) (fun x => read_sheets x w)).
  { clear. induction w1 as [|[t s] w1 IH]; intros w x0; [reflexivity|]. cbn [app read_sheets]. destruct (sheet_name t) as [[n k]|]; [|apply IH]. destruct (parse_sheet x0 k s n); [cbn [bind]; apply IH|reflexivity]. }
  unfold read_workbook. rewrite A, R. cbn [bind read_sheets]. rewrite (sheet_name_intro t n k E).
  assert (C : parse_sheet x k s n = Raise ValueError); [|now rewrite C].
  assert (Q : forall cols : columns, dget cols c = Some None -> check_titles (get_titles s cols) = Raise ValueError).
  { intros cols D. apply (check_bad _ c). unfold get_titles. now rewrite (fold_missing s c M). }
  destruct K as [-> | ->]; cbn [parse_sheet]; rewrite O.
  - rewrite Q; [reflexivity|]. cbn in I. repeat (destruct I as [<- | I]; [reflexivity|]). destruct I.
  - rewrite Q; [reflexivity|]. cbn in I. repeat (destruct I as [<- | I]; [reflexivity|]). destruct I.
Qed.

Lemma titled_unique : forall s t c c', titled s t c -> titled s t c' -> c = c'.
Proof. intros s t c c' T T'. apply (proj1 (T' c)). now apply (proj2 (T c)). Qed.
Lemma under_unique : forall s r t v v', under s r t v -> under s r t v' -> v = v'.
Proof. intros s r t v v' (c & T & ->) (c' & T' & ->). now rewrite (titled_unique s t c c' T T'). Qed.
Lemma shows_unique : forall s k r d d', shows_data s k r d -> shows_data s k r d' -> d = d'.
Proof.
  intros s k r [n1 a1 b1 c1 d1|n1 a1 b1 c1 d1 e1] [n2 a2 b2 c2 d2|n2 a2 b2 c2 d2 e2] H H'; cbn [shows_data] in *; try (destruct H as (-> & _); destruct H' as (X & _); discriminate).
  - destruct H as (_ & A1 & A2 & A3 & A4 & A5), H' as (_ & B1 & B2 & B3 & B4 & B5). f_equal; eapply under_unique; eassumption.
  - destruct H as (_ & A1 & A2 & A3 & A4 & A5 & A6), H' as (_ & B1 & B2 & B3 & B4 & B5 & B6). f_equal; eapply under_unique; eassumption.
Qed.
Lemma says_unique : forall w n rs, says w n rs -> forall rs', says w n rs' -> rs = rs'.
Proof.
  intros w n rs H. induction H as [n|t s w n k ds rest N F S IH|t s w n rest N S IH]; intros rs' H'.
  - now inversion H'.
  - inversion H' as [|? ? ? ? k' ds' rest' N' F' S'|? ? ? ? ? N' S']; subst.
    + assert (k' = k) as -> by (apply sheet_name_intro in N, N'; congruence). rewrite (IH _ S'). f_equal. clear - F F'. revert ds' F'. induction F as [|r d rs ds D F IH]; intros ds' F'; inversion F'; subst; [reflexivity|].
      f_equal; [eapply shows_unique; eassumption|]. now apply IH.
    + exfalso. exact (N' k N).
  - inversion H' as [|? ? ? ? k' ds' rest' N' F' S'|? ? ? ? ? N' S']; subst; [exfalso; exact (N k' N')|]. now apply IH.
Qed.

(** ** the report *)
Lemma rows_of_all : forall f (p : row -> bool) xs rs, (forall x r, f x = Ok r -> p r = true) -> rows_of f xs = Ok rs -> Forall (fun r => p r = true) rs.
Proof.
  intros f p xs. induction xs as [|x xs IH]; intros rs H E; cbn [rows_of] in E; [injection E as <-; constructor|].
  destruct (f x) as [r|] eqn:D; [|discriminate]. destruct (rows_of f xs) as [rs'|]; [|discriminate]. injection E as <-. constructor; [now apply (H x)|]. now apply IH.
Qed.
Lemma assembly_rows : forall s a, assembly_sheet s = Ok a -> Forall (fun r => is_assembly r = true) a.
Proof. intros s a. apply rows_of_all. intros x r E. unfold assembly_row in E. destruct (stored _ x); [|discriminate]. injection E as <-. reflexivity. Qed.
Lemma delegation_rows : forall s a, delegation_sheet s = Ok a -> Forall (fun r => negb (is_assembly r) = true) a.
Proof.
  intros s a. apply rows_of_all. intros x r E. unfold delegation_row in E. destruct (stored _ x) as [p|]; [|discriminate]. destruct (p_dest p) as [d|]; [|discriminate].
  destruct (String.eqb d "P-PORT-PROTOTYPE"); [injection E as <-; reflexivity|]. destruct (String.eqb d "R-PORT-PROTOTYPE"); [injection E as <-; reflexivity|discriminate].
Qed.
Lemma report_title : forall k rows t, In t (titles k) -> exists i, titled (title_cells k :: rows) t i.
Proof.
  intros k rows t I. assert (X : forall (l : list string), NoDup l -> In t l -> exists i, forall c, nth c (map Some l) None = Some t <-> c = i).
  { clear. induction l as [|a l IH]; intros ND I; [destruct I|]. inversion ND as [|? ? NI ND']; subst. destruct (string_dec a t) as [-> | N].
    - exists 0. intros [|c]; cbn [nth map]; [now split|]. split; [|discriminate]. intros E. exfalso. apply NI.
      destruct (Nat.ltb_spec c (List.length (map Some l))) as [L|L]; [|rewrite nth_overflow in E by exact L; discriminate].
      pose proof (nth_In (map Some l) None L) as J. rewrite E in J. apply in_map_iff in J as (y & Y & J). now injection Y as ->.
    - destruct I as [I|I]; [contradiction|]. destruct (IH ND' I) as (i & H). exists (S i). intros [|c]; cbn [nth map]; [split; [congruence|discriminate]|]. rewrite H. split; [now intros -> |congruence]. }
  destruct (X (titles k) (titles_nodup k) I) as (i & H). exists i. unfold titled, cell_in. cbn [hd]. intros c. rewrite <- H. destruct k; reflexivity.
Qed.
Lemma report_row : forall rows r, shows_data (title_cells (row_kind r) :: rows) (row_kind r) (row_cells r) (data_of r).
Proof.
  intros rows [n ps pp rs rp|n sw ip ir op orr]; cbn [row_kind data_of shows_data row_cells].
  - split; [reflexivity|]. repeat split; [exists 0|exists 1|exists 2|exists 3|exists 4]; (split; [|reflexivity]); unfold titled, cell_in; cbn [hd title_cells];
      intros c; do 6 (destruct c as [|c]; [cbn; split; congruence|]); cbn [nth]; destruct c; split; discriminate.
  - split; [reflexivity|]. repeat split; [exists 0|exists 1|exists 2|exists 4|exists 3|exists 5]; (split; [|reflexivity]); unfold titled, cell_in; cbn [hd title_cells];
      intros c; do 7 (destruct c as [|c]; [cbn; split; congruence|]); cbn [nth]; destruct c; split; discriminate.
Qed.
Lemma report_rows : forall k rs, Forall (fun r => row_kind r = k) rs -> Forall2 (shows_data (title_cells k :: map row_cells rs) k) (map row_cells rs) (map data_of rs).
Proof.
  intros k rs. generalize (map row_cells rs) at 1 as rows. intros rows F. induction F as [|r rs E F IH]; [constructor|]. cbn [map]. constructor; [|exact IH]. rewrite <- E. apply report_row.
Qed.
Lemma title_names : forall n k, proper_name n -> (k = Assembly \/ k = Delegation) -> names (n ++ " - " ++ mark k)%string n k.
Proof. intros n k P K. split; [exact K|]. exists " ", " ", "". rewrite append_nil_r. repeat split; try exact (proj1 P); try exact (proj2 P); discriminate. Qed.
Definition both (s : comp) : list data := match assembly_sheet s, delegation_sheet s with Ok a, Ok d => map data_of (a ++ d) | _, _ => [] end.
Lemma report_says : forall l w, Forall proper_name (map fst l) -> sheets l = Ok w -> well_titled (report_workbook w) /\
  forall n, says (report_workbook w) n (flat_map (fun p => if String.eqb (fst p) n then both (snd p) else []) l).
Proof.
  induction l as [|[m s] l IH]; intros w P E; cbn [sheets] in E.
  - injection E as <-. split; [intros t s n k []|]. intros n. constructor.
  - cbn [map fst] in P. inversion P as [|? ? Pm Pl]; subst. destruct (assembly_sheet s) as [a|] eqn:A; [|discriminate]. destruct (delegation_sheet s) as [d|] eqn:D; [|discriminate].
    destruct (sheets l) as [w'|] eqn:S; [|discriminate]. destruct (IH w' Pl eq_refl) as (W & Y). injection E as <-. cbn [report_workbook map].
    pose proof (title_names m Assembly Pm (or_introl eq_refl)) as NA. pose proof (title_names m Delegation Pm (or_intror eq_refl)) as ND. cbn [mark] in NA, ND.
    change (m ++ " - " ++ "AC")%string with (m ++ " - AC")%string in NA. change (m ++ " - " ++ "DC")%string with (m ++ " - DC")%string in ND.
    fold (report_workbook w'). split.
    + intros t s0 n k [I|[I|I]] N; [| |exact (W t s0 n k I N)].
      * injection I as <- <-. assert (k = Assembly) as -> by (apply sheet_name_intro in N, NA; congruence). intros c. apply (report_title Assembly).
      * injection I as <- <-. assert (k = Delegation) as -> by (apply sheet_name_intro in N, ND; congruence). intros c. apply (report_title Delegation).
    + intros n. cbn [flat_map fst snd]. destruct (String.eqb_spec m n) as [<- | NE].
      * unfold both at 1. rewrite A, D, map_app, <- app_assoc. eapply says_sheet; [exact NA| |eapply says_sheet; [exact ND| |apply Y]]; cbn [tl].
        -- apply report_rows. eapply Forall_impl; [|exact (assembly_rows s a A)]. intros [] X; [reflexivity|discriminate].
        -- apply report_rows. eapply Forall_impl; [|exact (delegation_rows s d D)]. intros [] X; [discriminate|reflexivity].
      * apply says_other; [intros k N; apply sheet_name_intro in N, NA; congruence|]. apply says_other; [intros k N; apply sheet_name_intro in N, ND; congruence|]. apply Y.
Qed.
Lemma pick : forall l n (s : comp), NoDup (map fst l) -> In (n, s) l -> flat_map (fun p => if String.eqb (fst p) n then both (snd p) else []) l = both s.
Proof.
  assert (Z : forall l n, ~ In n (map fst l) -> flat_map (fun p : string * comp => if String.eqb (fst p) n then both (snd p) else []) l = []).
  { induction l as [|[m s] l IH]; intros n H; [reflexivity|]. cbn [flat_map fst snd]. destruct (String.eqb_spec m n) as [<- | N]; [exfalso; apply H; now left|]. apply IH. intros I. apply H. now right. }
  induction l as [|[m s'] l IH]; intros n s ND I; [destruct I|]. cbn [map fst] in ND. inversion ND as [|? ? NI ND']; subst. cbn [flat_map fst snd]. destruct I as [I|I].
  - injection I as -> ->. rewrite eqb_refl, Z by exact NI. apply app_nil_r.
  - destruct (String.eqb_spec m n) as [<- | N]; [exfalso; apply NI; change m with (fst (m, s)); now apply in_map|]. now apply IH.
Qed.
Lemma report_read : forall l w, NoDup (map fst l) -> Forall proper_name (map fst l) -> connector_report l = Ok w ->
  exists ds, read_workbook (report_workbook w) = Ok ds /\
    forall n s a d, In (n, s) l -> assembly_sheet s = Ok a -> delegation_sheet s = Ok d -> listed ds n = map data_of (a ++ d).
Proof.
  intros l w ND P E. unfold connector_report in E. pose proof (py_sorted_perm fst l) as PM.
  assert (ND' : NoDup (map fst (py_sorted fst l))) by (eapply Permutation_NoDup; [apply Permutation_sym, Permutation_map, PM|exact ND]).
  assert (P' : Forall proper_name (map fst (py_sorted fst l))).
  { rewrite Forall_forall in *. intros n I. apply P. eapply Permutation_in; [apply Permutation_map, PM|exact I]. }
  destruct (report_says _ w P' E) as (W & S). destruct (workbook_read _ W) as (ds & R & L). exists ds. split; [exact R|].
  intros n s a d I A D. rewrite (says_unique _ _ _ (L n) _ (S n)). rewrite (pick _ n s ND'); [unfold both; now rewrite A, D|]. now apply py_sorted_In.
Qed.

(** columns found in one sheet are used for the next sheet of the kind too *)
Definition stale_book : workbook :=
  [("A - AC", [[Some "Short Name"; Some "Provide SW-C"; Some "PPort"; Some "Request SW-C"; Some "RPort"]]);
   ("B - AC", [[Some "Short Name"; Some "PPort"; Some "RPort"]; [Some "n"; Some "/p"; Some "/r"; Some "x"; Some "y"]])].
Lemma stale_read : exists ds, read_workbook stale_book = Ok ds /\ listed ds "B" = [DAssembly (Some "n") (Some "/p") (Some "/p") (Some "x") (Some "/r")].
Proof. eexists. split; vm_compute; reflexivity. Qed.

(** a computed check of titles *)
Fixpoint count_title (t : string) (r : list cell) : nat :=
  match r with [] => 0 | Some v :: r' => (if String.eqb v t then 1 else 0) + count_title t r' | None :: r' => count_title t r' end.
Lemma count_none : forall t r c, count_title t r = 0 -> cell_in r c <> Some t.
Proof.
  unfold cell_in. induction r as [|[v|] r IH]; intros c H; [destruct c; discriminate| |].
  - cbn [count_title] in H. destruct (String.eqb_spec v t) as [Q|Q]; [discriminate|]. destruct c as [|c]; cbn [nth]; [congruence|now apply IH].
  - destruct c as [|c]; cbn [nth]; [discriminate|now apply IH].
Qed.
Lemma count_titled : forall t r, count_title t r = 1 -> exists i, forall c, cell_in r c = Some t <-> c = i.
Proof.
  unfold cell_in. induction r as [|[v|] r IH]; intros H; [discriminate| |]; cbn [count_title] in H.
  - destruct (String.eqb_spec v t) as [Q|Q].
    + subst v. injection H as H. exists 0. intros [|c]; cbn [nth]; [now split|]. split; [|discriminate]. intros E. exfalso. exact (count_none t r c H E).
    + destruct (IH H) as (i & D). exists (S i). intros [|c]; cbn [nth]; [split; congruence|]. rewrite D. split; congruence.
  - destruct (IH H) as (i & D). exists (S i). intros [|c]; cbn [nth]; [split; congruence|]. rewrite D. split; congruence.
Qed.
Definition titled_ok (w : workbook) : bool :=
  forallb (fun p => match sheet_name (fst p) with Some (_, k) => forallb (fun c => Nat.eqb (count_title c (hd [] (snd p))) 1) (titles k) | None => true end) w.
Lemma titled_ok_sound : forall w, titled_ok w = true -> well_titled w.
Proof.
  intros w H t s n k I N c J. unfold titled_ok in H. rewrite forallb_forall in H. specialize (H _ I). cbn [fst snd] in H. rewrite (sheet_name_intro _ _ _ N) in H.
  rewrite forallb_forall in H. specialize (H c J). apply Nat.eqb_eq in H. exact (count_titled c (hd [] s) H).
Qed.
