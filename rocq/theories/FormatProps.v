(** Facts about format-xml (C50). *)
From Coq Require Import String Ascii List Bool Arith NArith Lia Permutation.
From Verif Require Import PyBase PyBaseFacts Xml Leaf LeafProps Serial SpecSerial SerialFacts SerialExpand SerialPatch Format SpecFormat.
Import ListNotations.
Open Scope string_scope.
Open Scope list_scope.

(** ** Parsed documents have proper names *)
Inductive named : node -> Prop :=
| named_text : forall s, named (NText s)
| named_elem : forall t a k, good_name t -> Forall (fun p => good_name (fst p)) a -> NoDup (map fst a) -> Forall named k -> named (NElem t a k).
Definition named_attrs (a : list (string * string)) : Prop := Forall (fun p : string * string => good_name (fst p)) a /\ NoDup (map fst a).
Definition mode_ok (m : mode) : Prop :=
  match m with
  | MText _ | MLt | MClose _ | MCloseWs _ | MRefText _ _ => True
  | MOpen t => good_name t
  | MTag t a | MAfter t a | MSlash t a => good_name t /\ named_attrs a
  | MAttr t a n | MAttrWs t a n | MEq t a n | MVal _ t a n _ | MRefVal _ t a n _ _ => good_name t /\ named_attrs a /\ good_name n
  end.
Definition frame_ok (f : frame) : Prop := let '(t, a, k) := f in good_name t /\ named_attrs a /\ Forall named k.
Definition state_ok (p : pstate) : Prop := mode_ok (p_mode p) /\ Forall frame_ok (p_open p) /\ (forall n, p_root p = Some n -> named n).

Lemma start_first : forall c, name_start c = true -> first_char c = true.
Proof. intros c. by_chars (fun c => if name_start c then first_char c else true). specialize (H c). intros E. now rewrite E in H. Qed.
Lemma char_next : forall c, name_char c = true -> next_char c = true.
Proof. intros c. by_chars (fun c => if name_char c then next_char c else true). specialize (H c). intros E. now rewrite E in H. Qed.
Lemma good_start : forall c, name_start c = true -> good_name (str1 c).
Proof. intros c H. split; [now apply start_first|reflexivity]. Qed.
Lemma good_snoc : forall t c, good_name t -> name_char c = true -> good_name (snoc t c).
Proof.
  intros [|d t] c G H; [destruct G|]. destruct G as [G1 G2]. split; [exact G1|]. rewrite all_app, G2. cbn [all_chars str1]. now rewrite (char_next _ H).
Qed.
Lemma named_snoc : forall a n v, named_attrs a -> good_name n -> dmem a n = false -> named_attrs (a ++ [(n, v)]).
Proof.
  intros a n v [A N] G M. split; [apply Forall_app; split; [exact A|repeat constructor; exact G]|]. rewrite map_app. cbn [map fst].
  apply NoDup_app_single; [exact N|]. intros I. unfold dmem in M. apply in_map_iff in I. destruct I as [[k w] [E I]]. cbn in E. subst k.
  destruct (dget a n) eqn:Q; [discriminate|]. revert I Q. clear. induction a as [|[k x] a IH]; intros I Q; [destruct I|]. cbn [dget] in Q. destruct (String.eqb_spec n k) as [->|D]; [discriminate|].
  destruct I as [I|I]; [congruence|auto].
Qed.
Lemma add_ok : forall n st, named n -> Forall frame_ok st -> Forall frame_ok (add_node n st).
Proof.
  intros n [|[[t a] k] st] N F; [constructor|]. inversion F as [|? ? Q F']; subst. destruct Q as (G & A & K). constructor; [|exact F']. split; [exact G|]. split; [exact A|]. apply Forall_app. split; [exact K|repeat constructor; exact N].
Qed.
Lemma flush_ok : forall acc p m q, mode_ok m -> state_ok p -> flush acc p m = Some q -> state_ok q.
Proof.
  intros acc p m q M (_ & F & R) H. unfold flush in H. destruct (p_open p) as [|f st] eqn:E.
  - destruct (all_chars is_ws acc); [|discriminate]. injection H as <-. split; [exact M|]. split; [constructor|exact R].
  - injection H as <-. split; [exact M|]. split; [|exact R]. cbn [p_open]. destruct (is_empty acc); [exact F|]. change (Forall frame_ok (add_node (NText acc) (f :: st))). apply add_ok; [constructor|exact F].
Qed.
Lemma open_ok : forall t a p q, good_name t -> named_attrs a -> state_ok p -> open_tag t a p = Some q -> state_ok q.
Proof.
  intros t a p q G A (_ & F & R) H. unfold open_tag in H. destruct (p_open p) as [|f st]; [destruct (p_root p) eqn:E; [discriminate|]|]; injection H as <-; (split; [exact I|]); (split; [|cbn [p_root]; try exact R; discriminate]); cbn [p_open];
    (constructor; [split; [exact G|split; [exact A|constructor]]|]); assumption.
Qed.
Lemma close_ok : forall t p q, state_ok p -> close_tag t p = Some q -> state_ok q.
Proof.
  intros t p q (_ & F & R) H. unfold close_tag in H. destruct (p_open p) as [|[[t' a] k] st]; [discriminate|]. destruct (String.eqb t t'); [|discriminate].
  inversion F as [|? ? Q F']; subst. destruct Q as (G & [A1 A2] & K). assert (N : named (NElem t' a k)) by now constructor.
  destruct st as [|f st]; injection H as <-; (split; [exact I|]); cbn [p_open p_root]; (split; [|]).
  - constructor.
  - intros n E. injection E as <-. exact N.
  - change (Forall frame_ok (add_node (NElem t' a k) (f :: st))). now apply add_ok.
  - exact R.
Qed.
Lemma go_ok : forall m p q, mode_ok m -> state_ok p -> go m p = Some q -> state_ok q.
Proof. intros m p q M (_ & F & R) H. injection H as <-. now split. Qed.
Lemma end_ok : forall c t a p q, good_name t -> named_attrs a -> state_ok p -> end_open c t a p None = Some q -> state_ok q.
Proof.
  intros c t a p q G A S H. unfold end_open in H. destruct (Ascii.eqb c ">"); [now apply (open_ok t a p)|]. destruct (Ascii.eqb c "/"); [|discriminate]. destruct S as (_ & F & R). injection H as <-. now split.
Qed.
Lemma no_attrs : named_attrs [].
Proof. split; constructor. Qed.
Lemma step_ok : forall c p q, state_ok p -> pstep c p = Some q -> state_ok q.
Proof.
  intros c p q S H. pose proof S as (M & F & R). unfold pstep in H. destruct (p_mode p) as [acc| |t|t a|t a n|t a n|t a n|k t a n v|t a|t a|t|t|acc e|k t a n v e]; cbn [mode_ok] in M.
  - destruct (Ascii.eqb c "<"); [now apply (flush_ok acc p MLt)|]. destruct (Ascii.eqb c "&"); [now apply (go_ok (MRefText acc "") p)|]. destruct (xml_char c); [|discriminate]. now apply (go_ok (MText (snoc acc c)) p).
  - destruct (Ascii.eqb c "/"); [now apply (go_ok (MClose "") p)|]. destruct (name_start c) eqn:E; [|discriminate]. apply (go_ok (MOpen (str1 c)) p); auto. now apply good_start.
  - destruct (name_char c) eqn:E; [apply (go_ok (MOpen (snoc t c)) p); auto; now apply good_snoc|]. destruct (is_ws c); [apply (go_ok (MTag t []) p); auto; split; [exact M|exact no_attrs]|].
    apply (end_ok c t [] p); auto. exact no_attrs.
  - destruct M as [M1 M2]. destruct (is_ws c); [apply (go_ok (MTag t a) p); auto; now split|]. destruct (name_start c) eqn:E; [apply (go_ok (MAttr t a (str1 c)) p); auto; split; [exact M1|split; [exact M2|now apply good_start]]|]. now apply (end_ok c t a p).
  - destruct M as (M1 & M2 & M3). destruct (name_char c) eqn:E; [apply (go_ok (MAttr t a (snoc n c)) p); auto; split; [exact M1|split; [exact M2|now apply good_snoc]]|]. destruct (Ascii.eqb c "="); [now apply (go_ok (MEq t a n) p)|]. destruct (is_ws c); [|discriminate]. now apply (go_ok (MAttrWs t a n) p).
  - destruct (is_ws c); [now apply (go_ok (MAttrWs t a n) p)|]. destruct (Ascii.eqb c "="); [|discriminate]. now apply (go_ok (MEq t a n) p).
  - destruct (Ascii.eqb c quote || Ascii.eqb c (chr 39))%bool; [now apply (go_ok (MVal c t a n "") p)|]. destruct (is_ws c); [|discriminate]. now apply (go_ok (MEq t a n) p).
  - destruct (Ascii.eqb c k). { destruct (dmem a n) eqn:D; [discriminate|]. destruct M as (M1 & M2 & M3). apply (go_ok (MAfter t (a ++ [(n, v)])) p); auto. split; [exact M1|now apply named_snoc]. }
    destruct (Ascii.eqb c "<"); [discriminate|]. destruct (Ascii.eqb c "&"); [now apply (go_ok (MRefVal k t a n v "") p)|]. destruct (is_ws c); [now apply (go_ok (MVal k t a n (snoc v " ")) p)|]. destruct (xml_char c); [|discriminate]. now apply (go_ok (MVal k t a n (snoc v c)) p).
  - destruct M as [M1 M2]. destruct (is_ws c); [apply (go_ok (MTag t a) p); auto; now split|]. now apply (end_ok c t a p).
  - destruct M as [M1 M2]. destruct (Ascii.eqb c ">"); [|discriminate]. destruct (open_tag t a p) as [p1|] eqn:E; [|discriminate]. cbn [obind'] in H. apply (close_ok t p1); [|exact H]. now apply (open_ok t a p).
  - destruct (if is_empty t then name_start c else name_char c); [now apply (go_ok (MClose (snoc t c)) p)|]. destruct (Ascii.eqb c ">"); [now apply (close_ok t p)|]. destruct (is_ws c); [|discriminate]. now apply (go_ok (MCloseWs t) p).
  - destruct (is_ws c); [now apply (go_ok (MCloseWs t) p)|]. destruct (Ascii.eqb c ">"); [|discriminate]. now apply (close_ok t p).
  - destruct (Ascii.eqb c ";"); [destruct (entity e); [|discriminate]; now apply (go_ok (MText (snoc acc a)) p)|]. now apply (go_ok (MRefText acc (snoc e c)) p).
  - destruct (Ascii.eqb c ";"); [destruct (entity e); [|discriminate]; now apply (go_ok (MVal k t a n (snoc v a0)) p)|]. now apply (go_ok (MRefVal k t a n v (snoc e c)) p).
Qed.
Lemma parse_named : forall s n, parse s = Some n -> named n.
Proof.
  intros s n. unfold parse. assert (L : forall u p q, state_ok p -> prun u p = Some q -> state_ok q).
  { induction u as [|c u IH]; intros p q S H; cbn [prun] in H; [injection H as <-; exact S|]. destruct (pstep c p) as [p1|] eqn:E; [|discriminate]. cbn [obind'] in H. apply (IH p1); [|exact H]. now apply (step_ok c p). }
  destruct (prun _ _) as [q|] eqn:E; [|discriminate]. apply L in E; [|split; [exact I|split; [constructor|discriminate]]].
  destruct E as (_ & _ & R). destruct (p_mode q); try discriminate. destruct (p_open q); [|discriminate]. destruct (all_chars is_ws acc); [|discriminate]. apply R.
Qed.

(** ** Lines *)
Definition D (acc s : string) : string := cat (map keep_line (splitlines_from acc s)).
Definition blank (s : string) : bool := all_chars is_space s.
Lemma rstrip_blank : forall s, is_empty (rstrip s) = blank s.
Proof. induction s as [|c s IH]; [reflexivity|]. cbn [rstrip blank all_chars]. fold (blank s). rewrite IH. destruct (is_space c); cbn [andb]; [destruct (blank s); reflexivity|reflexivity]. Qed.
Lemma strip_blank : forall s, is_empty (strip s) = blank s.
Proof.
  intros s. unfold strip. rewrite rstrip_blank. unfold lstrip. induction s as [|c s IH]; [reflexivity|]. cbn [span blank all_chars]. fold (blank s). destruct (is_space c) eqn:E.
  - destruct (span is_space s) as [u v]. cbn [snd] in *. exact IH.
  - cbn [snd blank all_chars]. now rewrite E.
Qed.
Lemma D_end : forall acc, blank acc = true -> D acc "" = "".
Proof. intros acc B. unfold D. cbn [splitlines_from]. destruct (is_empty acc); [reflexivity|]. cbn [map cat fold_right]. unfold keep_line. now rewrite strip_blank, B. Qed.
Lemma D_lf : forall acc s, D acc (String lf s) = ((if blank acc then "" else acc ++ str1 lf) ++ D "" s)%string.
Proof. intros acc s. unfold D. change (splitlines_from acc (String lf s)) with (acc :: splitlines_from "" s). cbn [map cat fold_right]. unfold keep_line at 1. now rewrite strip_blank. Qed.
Lemma cr_end : line_end cr = true. Proof. reflexivity. Qed.
Lemma D_char : forall c acc s, line_end c = false -> D acc (String c s) = D (snoc acc c) s.
Proof.
  intros c acc s E. unfold D. cbn [splitlines_from]. destruct (Ascii.eqb_spec c cr) as [->|N]; [discriminate E|]. now rewrite E.
Qed.
Definition one_line (s : string) : bool := all_chars (fun c => negb (line_end c)) s.
Lemma D_pass : forall u acc s, one_line u = true -> D acc (u ++ s) = D (acc ++ u) s.
Proof.
  induction u as [|c u IH]; intros acc s E; [now rewrite str_app_nil|]. cbn [one_line all_chars append] in *. apply andb_prop in E as [E1 E2]. apply negb_true_iff in E1.
  rewrite D_char by exact E1. rewrite IH by exact E2. now rewrite snoc_app.
Qed.
Lemma blank_app : forall a b, blank (a ++ b) = (blank a && blank b)%bool.
Proof. intros. apply all_app. Qed.
Lemma D_line : forall u acc s, one_line u = true -> blank u = false -> D acc (u ++ str1 lf ++ s) = (acc ++ u ++ str1 lf ++ D "" s)%string.
Proof. intros u acc s E B. rewrite D_pass by exact E. change (str1 lf ++ s)%string with (String lf s). rewrite D_lf, blank_app, B, andb_false_r. now rewrite !str_app_assoc. Qed.
(** white space only: nothing is kept *)
Lemma D_white : forall u acc s, all_chars is_ws u = true -> blank acc = true -> D acc (u ++ str1 lf ++ s) = D "" s.
Proof.
  intros u. remember (String.length u) as k eqn:K. revert u K. induction k as [k IH] using lt_wf_ind. intros u K acc s W B. destruct u as [|c u].
  - change ("" ++ str1 lf ++ s)%string with (String lf s). rewrite D_lf, B. reflexivity.
  - cbn [all_chars] in W. apply andb_prop in W as [W1 W2]. cbn [String.length] in K. cbn [append].
    destruct (Ascii.eqb_spec c cr) as [->|N].
    + unfold D. cbn [splitlines_from]. change (Ascii.eqb cr cr) with true. cbn iota. destruct u as [|d u].
      * cbn [append str1]. change (Ascii.eqb lf lf) with true. cbn iota. cbn [map cat fold_right]. unfold keep_line at 1. rewrite strip_blank, B. reflexivity.
      * cbn [append]. cbn [all_chars] in W2. apply andb_prop in W2 as [W2 W3]. cbn [String.length] in K. destruct (Ascii.eqb d lf) eqn:Q.
        -- cbn [map cat fold_right]. unfold keep_line at 1. rewrite strip_blank, B. apply (IH (String.length u)); auto. lia.
        -- cbn [map cat fold_right]. unfold keep_line at 1. rewrite strip_blank, B. change (String d (u ++ str1 lf ++ s))%string with (String d u ++ str1 lf ++ s)%string. apply (IH (String.length (String d u))); [cbn [String.length]; lia|reflexivity| |reflexivity]. cbn [all_chars]. now rewrite W2, W3.
    + destruct (Ascii.eqb_spec c lf) as [->|N2].
      * rewrite D_lf, B. apply (IH (String.length u)); auto. lia.
      * assert (Q : line_end c = false /\ is_space c = true).
        { clear - W1 N N2. by_chars (fun c => if (is_ws c && negb (Ascii.eqb c cr) && negb (Ascii.eqb c lf))%bool then (negb (line_end c) && is_space c)%bool else true). specialize (H c). rewrite W1 in H. destruct (Ascii.eqb_spec c cr); [contradiction|]. destruct (Ascii.eqb_spec c lf); [contradiction|]. cbn in H. apply andb_prop in H as [H1 H2]. now apply negb_true_iff in H1. }
        destruct Q as [Q1 Q2]. rewrite D_char by exact Q1. apply (IH (String.length u)); auto; [lia|]. unfold snoc. rewrite blank_app, B. cbn. now rewrite Q2.
Qed.
(** texts without blank lines: all is kept; [b]: the line so far is not blank *)
Fixpoint solid (b : bool) (s : string) : bool :=
  match s with
  | "" => true
  | String c r => if Ascii.eqb c lf then (b && solid false r)%bool else solid (b || negb (is_space c)) r
  end.
Lemma solid_false : forall s, solid false s = false -> (exists w b, s = (w ++ nl ++ b)%string /\ blank w = true) \/ (exists a w b, s = (a ++ nl ++ w ++ nl ++ b)%string /\ blank w = true).
Proof.
  assert (L : forall s b, solid b s = false -> (b = false /\ exists w b, s = (w ++ nl ++ b)%string /\ blank w = true) \/ (exists a w b, s = (a ++ nl ++ w ++ nl ++ b)%string /\ blank w = true)).
  { induction s as [|c s IH]; intros b H; [discriminate|]. cbn [solid] in H. destruct (Ascii.eqb_spec c lf) as [->|N].
    - destruct b; [|left; split; [reflexivity|]; exists "", s; now split]. cbn [andb] in H. apply IH in H as [[_ (w & b & -> & W)]|(a & w & b & -> & W)]; right; [exists "", w, b; now split|exists (String lf a), w, b; now split].
    - apply IH in H as [[E (w & b' & -> & W)]|(a & w & b' & -> & W)]; [|right; exists (String c a), w, b'; now split].
      apply orb_false_iff in E as [-> E]. apply negb_false_iff in E. left. split; [reflexivity|]. exists (String c w), b'. split; [reflexivity|]. cbn [blank all_chars]. now rewrite E. }
  intros s H. apply L in H as [[_ H]|H]; auto.
Qed.
Lemma solid_true : forall s, (forall a w b, s = (a ++ nl ++ w ++ nl ++ b)%string -> all_chars is_space w = false) -> solid true s = true.
Proof.
  assert (L : forall s b, solid b s = false -> b = true -> (exists a w b, s = (a ++ nl ++ w ++ nl ++ b)%string /\ blank w = true)).
  { induction s as [|c s IH]; intros b H ->; [discriminate|]. cbn [solid] in H. destruct (Ascii.eqb_spec c lf) as [->|N].
    - cbn [andb] in H. apply solid_false in H as [(w & b & -> & W)|(a & w & b & -> & W)]; [exists "", w, b; now split|exists (String lf a), w, b; now split].
    - cbn [orb] in H. apply IH in H as (a & w & b' & -> & W); [|reflexivity]. exists (String c a), w, b'. now split. }
  intros s H. destruct (solid true s) eqn:E; [reflexivity|]. apply L in E as (a & w & b & -> & W); [|reflexivity]. unfold blank in W. rewrite (H a w b eq_refl) in W. discriminate.
Qed.
Definition text_char (c : ascii) : bool := (printable c && negb (char_in [133] c) || char_in [9; 10] c)%bool.
Lemma text_char_line : forall c, text_char c = true -> Ascii.eqb c lf = false -> one_line (data_char c) = true /\ blank (data_char c) = is_space c.
Proof.
  intros c T E. by_chars (fun c => if (text_char c && negb (Ascii.eqb c lf))%bool then (one_line (data_char c) && Bool.eqb (blank (data_char c)) (is_space c))%bool else true). specialize (H c). rewrite T, E in H. cbn [andb negb] in H. apply andb_prop in H as [H1 H2]. split; [exact H1|now apply eqb_prop].
Qed.
Lemma D_text : forall v acc w s, all_chars text_char v = true -> solid (negb (blank acc)) v = true -> one_line w = true -> blank w = false ->
  D acc (escape data_char v ++ w ++ str1 lf ++ s) = (acc ++ escape data_char v ++ w ++ str1 lf ++ D "" s)%string.
Proof.
  induction v as [|c v IH]; intros acc w s T S O B.
  - cbn [escape append]. now apply D_line.
  - cbn [all_chars solid escape] in *. apply andb_prop in T as [T1 T2]. destruct (Ascii.eqb c lf) eqn:E.
    + apply Ascii.eqb_eq in E. subst c. apply andb_prop in S as [S1 S2]. change (data_char lf) with (str1 lf). rewrite !str_app_assoc. change (str1 lf ++ escape data_char v ++ w ++ str1 lf ++ s)%string with (String lf (escape data_char v ++ w ++ str1 lf ++ s)%string).
      rewrite D_lf. apply negb_true_iff in S1. rewrite S1. rewrite (IH "") by auto. rewrite !str_app_assoc. reflexivity.
    + destruct (text_char_line c T1 E) as [L1 L2]. rewrite !str_app_assoc. rewrite D_pass by exact L1. rewrite IH; auto; [now rewrite !str_app_assoc|]. rewrite blank_app, L2, negb_andb. exact S.
Qed.

(** ** The text of a node *)
Fixpoint content0 (n : node) : xml :=
  match n with
  | NText s => El "" [] (Some s) []
  | NElem t a kids => El t a (match kids with [NText s] => Some s | _ => None end) (flat_map (fun k => match k with NText _ => [] | _ => [content0 k] end) kids)
  end.
Lemma name_line : forall t, good_name t -> one_line t = true.
Proof.
  intros [|c t] G; [destruct G|]. destruct G as [G1 G2]. unfold one_line. cbn [all_chars]. apply andb_true_intro. split.
  - by_chars (fun c => if first_char c then negb (line_end c) else true). specialize (H c). now rewrite G1 in H.
  - revert G2. apply all_weaken. intros d. by_chars (fun c => if next_char c then negb (line_end c) else true). specialize (H d). intros E. now rewrite E in H.
Qed.
Lemma value_line : forall s, line_value s -> one_line (escape data_char s) = true.
Proof.
  induction s as [|c s IH]; intros V; [reflexivity|]. unfold line_value in *. cbn [all_chars escape] in *. apply andb_prop in V as [V1 V2]. unfold one_line in *. rewrite all_app, IH by exact V2. rewrite andb_true_r.
  clear - V1. by_chars (fun c => if (printable c && negb (char_in [133] c))%bool then all_chars (fun c => negb (line_end c)) (data_char c) else true). specialize (H c). now rewrite V1 in H.
Qed.
Lemma value_good : forall s, line_value s -> good_value s.
Proof. intros s. apply all_weaken. intros c. by_chars (fun c => if (printable c && negb (char_in [133] c))%bool then printable c else true). specialize (H c). intros E. now rewrite E in H. Qed.
Lemma one_line_app : forall a b, one_line a = true -> one_line b = true -> one_line (a ++ b) = true.
Proof. intros a b A B. unfold one_line in *. now rewrite all_app, A, B. Qed.
Lemma blanks_line : forall d, one_line (blanks d) = true.
Proof. induction d; [reflexivity|]. exact IHd. Qed.
Lemma blanks_ws : forall d, all_chars is_ws (blanks d) = true.
Proof. intros d. apply blanks_chars. Qed.
Lemma attrs_line : forall a, Forall (fun p => good_name (fst p)) a -> Forall (fun p => line_value (snd p)) a -> one_line (cat (map (attr_text data_char) a)) = true.
Proof.
  induction a as [|[k v] a IH]; intros G V; [reflexivity|]. inversion G as [|? ? G1 G2]; subst. inversion V as [|? ? V1 V2]; subst. cbn [fst snd] in *. cbn [map cat fold_right]. apply one_line_app; [|now apply IH].
  unfold attr_text. cbn [fst snd]. repeat (apply one_line_app); try reflexivity; [now apply name_line|now apply value_line].
Qed.
Lemma white_escape : forall s, all_chars is_ws s = true -> escape data_char s = s.
Proof.
  induction s as [|c s IH]; intros W; [reflexivity|]. cbn [all_chars escape] in *. apply andb_prop in W as [W1 W2]. rewrite IH by exact W2. assert (E : data_char c = str1 c); [|now rewrite E].
  by_chars (fun c => if is_ws c then String.eqb (data_char c) (str1 c) else true). specialize (H c). rewrite W1 in H. now apply String.eqb_eq.
Qed.
Lemma white_ws : forall s, white s -> all_chars is_ws s = true.
Proof. intros s. apply all_weaken. intros c. by_chars (fun c => if char_in [9; 10; 13; 32] c then is_ws c else true). specialize (H c). intros E. now rewrite E in H. Qed.
Lemma pretty_white : forall s d b, white s -> D "" (expand (pretty d (NText s) ++ b)) = D "" (expand b).
Proof.
  intros s d b W. apply white_ws in W. assert (A : all_chars is_ws (blanks d ++ s)%string = true) by now rewrite all_app, blanks_ws, W.
  cbn [pretty]. rewrite white_escape by (rewrite <- str_app_assoc, all_app, A; reflexivity). rewrite expand_nolt.
  - rewrite <- str_app_assoc, !str_app_assoc. rewrite <- (str_app_assoc (blanks d)). now apply D_white.
  - unfold nolt. revert A. rewrite <- str_app_assoc, (all_app _ _ (str1 lf)). intros A. apply andb_true_intro. split; [|reflexivity]. revert A. apply all_weaken. intros c. by_chars (fun c => if is_ws c then negb (Ascii.eqb c "<") else true). specialize (H c). intros E. now rewrite E in H.
Qed.
Lemma elem_text : forall kids t a k, In (NElem t a k) kids -> match kids with [NText s] => Some s | _ => None end = None.
Proof. intros [|[s|t' a' k'] [|y r]] t a k I; try reflexivity. destruct I as [I|[]]. discriminate. Qed.
Lemma elem_kids : forall kids t a k, In (NElem t a k) kids -> flat_map (fun k => match k with NText _ => [] | _ => [content0 k] end) kids <> [].
Proof.
  induction kids as [|x r IH]; intros t a k I; [destruct I|]. cbn [flat_map]. destruct x as [s|t' a' k']; [|discriminate]. destruct I as [I|I]; [discriminate|]. cbn [app]. eapply IH; exact I.
Qed.
Lemma format_node : forall n, data n -> named n -> forall d b, D "" (expand (pretty d n ++ b)) = (spell true true d (content0 n) ++ D "" (expand b))%string.
Proof.
  intros n H. induction H as [t a V|t a s V L|t a kids V E W K IH]; intros N d b; inversion N as [|? ? ? G GA ND NK]; subst.
  - assert (A : Forall (fun p => good_name (fst p) /\ good_value (snd p)) a). { rewrite Forall_forall in *. intros p I. split; [now apply GA|apply value_good; now apply V]. }
    cbn [pretty content0 flat_map spell text_or_none]. rewrite !str_app_assoc. rewrite expand_nolt by apply blanks_nolt.
    cbn [andb]. destruct (is_nil a && all_chars tag_char t)%bool eqn:Q.
    + apply andb_prop in Q as [Q1 Q2]. destruct a; [|discriminate Q1]. cbn [map cat fold_right]. change ("" ++ "/>" ++ str1 lf ++ b)%string with ("/>" ++ str1 lf ++ b)%string. rewrite expand_short by assumption.
      rewrite (expand_nolt (str1 lf)) by reflexivity.
      replace (blanks d ++ "<" ++ t ++ ">" ++ "</" ++ t ++ ">" ++ str1 lf ++ expand b)%string with ((blanks d ++ "<" ++ t ++ ">" ++ "</" ++ t ++ ">") ++ str1 lf ++ expand b)%string by now rewrite !str_app_assoc.
      rewrite D_line.
      * now rewrite !str_app_assoc.
      * repeat apply one_line_app; try reflexivity; try apply blanks_line; now apply name_line.
      * rewrite blank_app. apply andb_false_iff. now right.
    + rewrite expand_start; [|exact G|exact A|reflexivity|]. 2:{ intros -> E2. rewrite E2 in Q. discriminate Q. }
      change (expand ("/>" ++ str1 lf ++ b)) with (expand (("/>" ++ str1 lf) ++ b)). rewrite (expand_nolt ("/>" ++ str1 lf)) by reflexivity.
      replace (blanks d ++ "<" ++ t ++ cat (map (attr_text data_char) a) ++ ("/>" ++ str1 lf) ++ expand b)%string with ((blanks d ++ "<" ++ t ++ cat (map (attr_text data_char) a) ++ "/>") ++ str1 lf ++ expand b)%string by now rewrite !str_app_assoc.
      rewrite D_line.
      * now rewrite !str_app_assoc.
      * repeat apply one_line_app; try reflexivity; try apply blanks_line; try now apply name_line. now apply attrs_line.
      * rewrite blank_app. apply andb_false_iff. now right.
  - assert (A : Forall (fun p => good_name (fst p) /\ good_value (snd p)) a). { rewrite Forall_forall in *. intros p I. split; [now apply GA|apply value_good; now apply V]. }
    destruct L as (L1 & L2 & L3). cbn [pretty content0 flat_map spell]. replace (text_or_none (Some s)) with (Some s) by (destruct s; [contradiction|reflexivity]). cbn [app].
    rewrite !str_app_assoc. rewrite expand_nolt by apply blanks_nolt. rewrite expand_start by (auto; reflexivity). rewrite (expand_nolt ">") by reflexivity. rewrite (expand_nolt (escape data_char s)) by apply (escape_nolt true).
    rewrite expand_close by exact G. rewrite (expand_nolt (str1 lf)) by reflexivity.
    replace (blanks d ++ "<" ++ t ++ cat (map (attr_text data_char) a) ++ ">" ++ escape data_char s ++ "</" ++ t ++ ">" ++ str1 lf ++ expand b)%string with ((blanks d ++ "<" ++ t ++ cat (map (attr_text data_char) a) ++ ">") ++ escape data_char s ++ ("</" ++ t ++ ">") ++ str1 lf ++ expand b)%string by now rewrite !str_app_assoc.
    rewrite D_pass.
    + rewrite D_text; [now rewrite !str_app_assoc|exact L2| |repeat apply one_line_app; try reflexivity; now apply name_line|reflexivity].
      replace (blank _) with false; [cbn [negb]; now apply solid_true|]. symmetry. cbn [append]. rewrite blank_app. apply andb_false_iff. now right.
    + repeat apply one_line_app; try reflexivity; try apply blanks_line; try now apply name_line. now apply attrs_line.
  - assert (A : Forall (fun p => good_name (fst p) /\ good_value (snd p)) a). { rewrite Forall_forall in *. intros p I. split; [now apply GA|apply value_good; now apply V]. }
    destruct E as (t' & a' & k' & E). assert (P : pretty d (NElem t a kids) = (blanks d ++ "<" ++ t ++ cat (map (attr_text data_char) a) ++ ">" ++ str1 lf ++ cat (map (pretty (S d)) kids) ++ blanks d ++ "</" ++ t ++ ">" ++ str1 lf)%string).
    { cbn [pretty]. destruct kids as [|[s|? ? ?] [|y r]]; try destruct E as [E|[]]; try discriminate E; try destruct E; now rewrite !str_app_assoc. }
    rewrite P. cbn [content0]. rewrite (elem_text _ _ _ _ E). pose proof (elem_kids _ _ _ _ E) as NE.
    assert (Q : forall x, spell true true d (El t a None x) = (blanks d ++ ("<" ++ t ++ cat (map (attr_text data_char) a)) ++
      match x with [] => if (is_nil a && all_chars tag_char t)%bool then ">" ++ "</" ++ t ++ ">" else "/>" | _ => ">" ++ (str1 lf ++ "") ++ cat (map (spell true true (S d)) x) ++ blanks d ++ "</" ++ t ++ ">" end ++ str1 lf)%string) by (intros [|]; reflexivity).
    rewrite Q. clear P Q. set (xs := flat_map _ kids) in *. assert (KK : forall c, D "" (expand (cat (map (pretty (S d)) kids) ++ c)) = (cat (map (spell true true (S d)) xs) ++ D "" (expand c))%string).
    { subst xs. clear - W IH NK. induction NK as [|x r Nx Nr IHr]; intros c; [reflexivity|]. cbn [map cat fold_right]. rewrite str_app_assoc. destruct x as [s|t1 a1 k1].
      - rewrite pretty_white by (apply W; now left). cbn [flat_map app]. apply IHr; intros; [apply W|apply IH]; auto; now right.
      - rewrite IH by (try exact Nx; now left). cbn [flat_map app map cat fold_right]. rewrite str_app_assoc. f_equal. apply IHr; intros; [apply W|apply IH]; auto; now right. }
    destruct xs as [|x0 xr]; [contradiction|]. rewrite !str_app_assoc. rewrite expand_nolt by apply blanks_nolt. rewrite expand_start by (auto; reflexivity). rewrite (expand_nolt ">") by reflexivity. rewrite (expand_nolt (str1 lf)) by reflexivity.
    replace (blanks d ++ "<" ++ t ++ cat (map (attr_text data_char) a) ++ ">" ++ str1 lf ++ expand (cat (map (pretty (S d)) kids) ++ blanks d ++ "</" ++ t ++ ">" ++ str1 lf ++ b))%string
      with ((blanks d ++ "<" ++ t ++ cat (map (attr_text data_char) a) ++ ">") ++ str1 lf ++ expand (cat (map (pretty (S d)) kids) ++ blanks d ++ "</" ++ t ++ ">" ++ str1 lf ++ b))%string by now rewrite !str_app_assoc.
    rewrite D_line.
    + rewrite KK. change (str1 lf ++ "")%string with (str1 lf). rewrite expand_nolt by apply blanks_nolt. rewrite expand_close by exact G. rewrite (expand_nolt (str1 lf)) by reflexivity.
      replace (blanks d ++ "</" ++ t ++ ">" ++ str1 lf ++ expand b)%string with ((blanks d ++ "</" ++ t ++ ">") ++ str1 lf ++ expand b)%string by now rewrite !str_app_assoc.
      rewrite D_line; [now rewrite !str_app_assoc| |].
      * repeat apply one_line_app; try reflexivity; try apply blanks_line; now apply name_line.
      * rewrite blank_app. apply andb_false_iff. now right.
    + repeat apply one_line_app; try reflexivity; try apply blanks_line; try now apply name_line. now apply attrs_line.
    + rewrite blank_app. apply andb_false_iff. now right.
Qed.

(** ** Namespace declarations first *)
Section NodeInd.
Context (P : node -> Prop) (HT : forall s, P (NText s)) (HE : forall t a kids, Forall P kids -> P (NElem t a kids)).
Fixpoint node_all (n : node) : P n :=
  match n with
  | NText s => HT s
  | NElem t a kids => HE t a kids ((fix go l : Forall P l := match l with [] => Forall_nil _ | k :: r => Forall_cons _ (node_all k) (go r) end) kids)
  end.
End NodeInd.
Definition sorted_attrs (a : list (string * string)) : list (string * string) := filter declares a ++ filter (fun p => negb (declares p)) a.
Lemma sorted_perm : forall a, Permutation a (sorted_attrs a).
Proof.
  induction a as [|p a IH]; [constructor|]. unfold sorted_attrs in *. cbn [filter]. destruct (declares p); cbn [negb app]; [now constructor|]. now apply Permutation_cons_app.
Qed.
Lemma sorted_idem : forall a, sorted_attrs (sorted_attrs a) = sorted_attrs a.
Proof.
  intros a. unfold sorted_attrs. rewrite !filter_app.
  assert (A : forall (f : string * string -> bool) l, filter f (filter f l) = filter f l). { intros f l. induction l as [|x l IH]; [reflexivity|]. cbn [filter]. destruct (f x) eqn:E; [cbn [filter]; now rewrite E, IH|exact IH]. }
  assert (B : forall (f : string * string -> bool) l, filter f (filter (fun p => negb (f p)) l) = []). { intros f l. induction l as [|x l IH]; [reflexivity|]. cbn [filter]. destruct (f x) eqn:E; cbn [negb]; [exact IH|cbn [filter]; now rewrite E, IH]. }
  assert (C : forall (f : string * string -> bool) l, filter (fun p => negb (f p)) (filter f l) = []). { intros f l. induction l as [|x l IH]; [reflexivity|]. cbn [filter]. destruct (f x) eqn:E; [cbn [filter]; now rewrite E|exact IH]. }
  rewrite A, B, C, (A (fun p => negb (declares p))). now rewrite app_nil_r.
Qed.
Lemma ns_first_elem : forall t a kids, ns_first (NElem t a kids) = NElem t (sorted_attrs a) (map ns_first kids).
Proof. reflexivity. Qed.
Lemma content_first : forall n, content n = content0 (ns_first n).
Proof.
  intros n. induction n as [s|t a kids IH] using node_all; [reflexivity|]. cbn [content]. rewrite ns_first_elem. cbn [content0]. fold (sorted_attrs a). f_equal.
  - destruct kids as [|[s|? ? ?] [|? ?]]; reflexivity.
  - induction IH as [|x r Hx _ IHr]; [reflexivity|]. cbn [map flat_map]. rewrite IHr. destruct x as [s|t' a' k']; [reflexivity|]. now rewrite Hx.
Qed.
Lemma perm_values : forall (Q : string * string -> Prop) a, Forall Q a -> Forall Q (sorted_attrs a).
Proof. intros Q a F. rewrite Forall_forall in *. intros p I. apply F. eapply Permutation_in; [apply Permutation_sym, sorted_perm|exact I]. Qed.
Lemma named_first : forall n, named n -> named (ns_first n).
Proof.
  intros n. induction n as [s|t a kids IH] using node_all; intros N; [constructor|]. inversion N as [|? ? ? G A ND K]; subst. rewrite ns_first_elem. constructor; [exact G|now apply perm_values| |].
  - eapply Permutation_NoDup; [|exact ND]. apply Permutation_map, sorted_perm.
  - rewrite Forall_forall in *. intros x I. apply in_map_iff in I as (y & <- & I). auto.
Qed.
Lemma data_first : forall n, data n -> data (ns_first n).
Proof.
  intros n H. induction H as [t a V|t a s V L|t a kids V E W K IH]; rewrite ns_first_elem.
  - constructor. now apply (perm_values (fun p => line_value (snd p))).
  - constructor; [now apply (perm_values (fun p => line_value (snd p)))|exact L].
  - apply data_node; [now apply (perm_values (fun p => line_value (snd p)))| | |].
    + destruct E as (t' & a' & k' & E). exists t', (sorted_attrs a'), (map ns_first k'). rewrite <- ns_first_elem. now apply in_map.
    + intros s I. apply in_map_iff in I as ([u|? ? ?] & E' & I); [|discriminate E']. cbn in E'. injection E' as <-. auto.
    + intros t' a' k' I. apply in_map_iff in I as ([u|t2 a2 k2] & E' & I); [discriminate E'|]. rewrite <- E'. now apply (IH t2 a2 k2).
Qed.

(** ** Trees of content *)
Inductive clean : xml -> Prop :=
| clean_leaf : forall t a s, Forall (fun p => line_value (snd p)) a -> (forall v, s = Some v -> lines_text v) -> clean (El t a s [])
| clean_node : forall t a kids, Forall (fun p => line_value (snd p)) a -> kids <> [] -> Forall clean kids -> clean (El t a None kids).
Lemma content_clean : forall n, data n -> named n -> clean (content0 n) /\ writable (content0 n).
Proof.
  assert (VG : forall a, Forall (fun p : string * string => good_name (fst p)) a -> Forall (fun p : string * string => line_value (snd p)) a -> Forall (fun p => good_name (fst p) /\ good_value (snd p)) a).
  { intros a GA V. rewrite Forall_forall in *. intros p I. split; [now apply GA|apply value_good; now apply V]. }
  intros n H. induction H as [t a V|t a s V L|t a kids V E W K IH]; intros N; inversion N as [|? ? ? G GA ND NK]; subst; cbn [content0].
  - split; [constructor; [exact V|discriminate]|]. constructor; auto; [discriminate|constructor].
  - split; [constructor; [exact V|intros v Q; now injection Q as <-]|]. constructor; auto; [|constructor]. intros v Q. injection Q as <-. destruct L as (_ & L & _). revert L. apply all_weaken. intros c.
    by_chars (fun c => if (printable c && negb (char_in [133] c) || char_in [9; 10] c)%bool then (printable c || char_in [9; 10] c)%bool else true). specialize (H c). intros E. now rewrite E in H.
  - destruct E as (t' & a' & k' & E). rewrite (elem_text _ _ _ _ E). assert (F : Forall (fun x => clean x /\ writable x) (flat_map (fun k => match k with NText _ => [] | _ => [content0 k] end) kids)).
    { apply Forall_forall. intros x I. apply in_flat_map in I as ([s|t1 a1 k1] & I1 & I2); [destruct I2|]. destruct I2 as [<-|[]]. rewrite Forall_forall in NK. apply IH; auto. }
    split; [apply clean_node|constructor]; auto; try discriminate; [eapply elem_kids; exact E| |]; (eapply Forall_impl; [|exact F]); now intros x [? ?].
Qed.
Fixpoint laid (d : nat) (x : xml) : node :=
  match x with
  | El t a s kids => NElem t a (match kids with
                                | [] => textnode (text_str s)
                                | _ => flat_map (fun k => [NText (nl ++ blanks (S d))%string; laid (S d) k]) kids ++ [NText (nl ++ blanks d)%string]
                                end)
  end.
Lemma laid_run : forall ex q x, clean x -> writable x -> forall d acc st r, ready (acc ++ blanks d) st r ->
  prun (spell ex q d x) (mkP (MText acc) st r) = Some (pushed nl (laid d x) (flushed (acc ++ blanks d) st) r).
Proof.
  intros ex q x. induction x as [t a s kids IH] using xml_all. intros C W d acc st r R. inversion W as [? ? ? ? G A N T K]; subst. cbn [spell].
  destruct (blanks_chars d) as (B1 & B2 & _). rewrite prun_app, (raw_run st r (blanks d) acc B1 B2). cbn [obind'].
  destruct (start_run data_char (all_chars printable) (fun st r => value_run st r) _ st r t a R G A N) as (m & E & M).
  rewrite prun_app, E. cbn [obind']. clear E. pose proof (gt_run m t a _ st r R M) as GT. pose proof (slash_run m t a _ st r R M) as SL. set (st' := flushed (acc ++ blanks d)%string st) in *.
  assert (T' : forall v, text_or_none s = Some v -> all_chars xml_char v = true). { intros v Q. apply text_chars, T. destruct s as [[|]|]; cbn in Q; congruence. }
  destruct kids as [|x kids].
  - cbn [laid]. rewrite textnode_none. destruct (text_or_none s) as [v|] eqn:Q.
    + rewrite prun_app. rewrite prun_app, GT. cbn [obind']. rewrite prun_app, text_run by now apply T'. cbn [obind']. change ("" ++ v)%string with v.
      rewrite end_run by exact G. cbn [obind' app]. rewrite nl_run. destruct v as [|c v]; [destruct s as [[|]|]; discriminate Q|]. reflexivity.
    + destruct (ex && is_nil a && all_chars tag_char t)%bool.
      * rewrite prun_app, prun_app, GT. cbn [obind']. rewrite end_run by exact G. cbn [obind' app textnode is_empty]. now rewrite nl_run.
      * rewrite prun_app, SL. cbn [obind']. now rewrite nl_run.
  - inversion C as [|? ? ? V NE CK]; subst. cbn [text_or_none].
    assert (KK : forall ks, Forall (fun x => forall d acc st r, ready (acc ++ blanks d)%string st r -> prun (spell ex q d x) (mkP (MText acc) st r) = Some (pushed nl (laid d x) (flushed (acc ++ blanks d)%string st) r)) ks ->
      forall k, prun (cat (map (spell ex q (S d)) ks) ++ blanks d ++ "</" ++ t ++ ">")%string (mkP (MText nl) ((t, a, k) :: st') r) = Some (pushed "" (NElem t a (k ++ flat_map (fun k => [NText (nl ++ blanks (S d))%string; laid (S d) k]) ks ++ [NText (nl ++ blanks d)%string])) st' r)).
    { intros ks F. induction F as [|y ks Hy F IHk]; intros k.
      - change (cat (map (spell ex q (S d)) []) ++ blanks d ++ "</" ++ t ++ ">")%string with (blanks d ++ "</" ++ t ++ ">")%string. rewrite prun_app, raw_run by assumption. cbn [obind']. rewrite end_run by exact G. reflexivity.
      - cbn [map cat fold_right]. rewrite str_app_assoc, prun_app. rewrite (Hy (S d) nl ((t, a, k) :: st') r I). rewrite flushed_cons. cbn [obind' pushed add_node]. unfold cat in IHk. rewrite IHk. do 3 f_equal. rewrite <- !app_assoc. reflexivity. }
    assert (KH : Forall (fun x => forall d acc st r, ready (acc ++ blanks d)%string st r -> prun (spell ex q d x) (mkP (MText acc) st r) = Some (pushed nl (laid d x) (flushed (acc ++ blanks d)%string st) r)) (x :: kids)).
    { rewrite Forall_forall in *. intros y I. apply IH; auto. }
    rewrite prun_app, prun_app, GT. cbn [obind']. change (str1 lf ++ "")%string with (str1 lf). rewrite prun_app. change (prun (str1 lf) (mkP (MText "") ((t, a, []) :: st') r)) with (Some (mkP (MText nl) ((t, a, []) :: st') r)). cbn [obind'].
    rewrite (KK _ KH []). cbn [obind']. rewrite nl_run. reflexivity.
Qed.
Lemma parse_spell : forall x, clean x -> writable x -> parse (declaration ++ spell true true 0 x)%string = Some (laid 0 x).
Proof.
  intros x C W. unfold parse. rewrite newlines_id by (apply no_cr_app; [reflexivity|now apply spell_no_cr]).
  replace (skip_decl (declaration ++ spell true true 0 x)) with (str1 lf ++ spell true true 0 x)%string by reflexivity. rewrite prun_app.
  change (prun (str1 lf) (mkP (MText "") [] None)) with (Some (mkP (MText (str1 lf)) [] None)). cbn [obind'].
  rewrite (laid_run true true x C W 0 (str1 lf) [] None) by now split. rewrite flushed_nil. reflexivity.
Qed.
Lemma laid_elem : forall d x, exists t a k, laid d x = NElem t a k.
Proof. intros d [t a s k]. cbn [laid]. eauto. Qed.
Lemma blanks_white : forall d, white (nl ++ blanks d).
Proof. intros d. unfold white. rewrite all_app. apply andb_true_intro. split; [reflexivity|]. induction d; [reflexivity|]. exact IHd. Qed.
Lemma laid_data : forall x, clean x -> forall d, data (laid d x).
Proof.
  intros x. induction x as [t a s kids IH] using xml_all. intros C d. inversion C as [? ? ? V T|? ? ? V NE CK]; subst; cbn [laid].
  - destruct s as [[|c v]|]; cbn [text_str textnode is_empty]; try now constructor. constructor; [exact V|now apply T].
  - destruct kids as [|x kids]; [contradiction|]. apply data_node; [exact V| | |].
    + destruct (laid_elem (S d) x) as (t' & a' & k' & E). exists t', a', k'. cbn [flat_map app]. right. left. exact E.
    + intros s I. apply in_app_or in I as [I|[I|[]]]; [|injection I as <-; apply blanks_white]. apply in_flat_map in I as (y & _ & [I|[I|[]]]); [injection I as <-; apply (blanks_white (S d))|]. destruct (laid_elem (S d) y) as (t' & a' & k' & E). rewrite E in I. discriminate I.
    + intros t' a' k' I. apply in_app_or in I as [I|[I|[]]]; [|discriminate I]. apply in_flat_map in I as (y & J & [I|[I|[]]]); [discriminate I|]. rewrite <- I. rewrite Forall_forall in *. auto.
Qed.
Inductive tidy : xml -> Prop :=
| tidy_el : forall t a s kids, sorted_attrs a = a -> Forall tidy kids -> tidy (El t a s kids).
Lemma content_tidy : forall n, (exists t a k, n = NElem t a k) -> tidy (content n).
Proof.
  intros n. induction n as [s|t a kids IH] using node_all; intros (t1 & a1 & k1 & E); [discriminate|]. clear E. cbn [content]. constructor; [apply sorted_idem|].
  apply Forall_forall. intros x I. apply in_flat_map in I as ([s|t' a' k'] & I1 & I2); [destruct I2|]. destruct I2 as [<-|[]]. rewrite Forall_forall in IH. apply IH; [exact I1|eauto].
Qed.
Lemma laid_content : forall x, clean x -> tidy x -> forall d, content (laid d x) = x.
Proof.
  intros x. induction x as [t a s kids IH] using xml_all. intros C Y d. inversion Y as [? ? ? ? SA YK]; subst. inversion C as [? ? ? V T|? ? ? V NE CK]; subst; cbn [laid content]; fold (sorted_attrs a); rewrite SA.
  - destruct s as [v|]; [|reflexivity]. destruct (T v eq_refl) as [NV _]. destruct v as [|c v]; [contradiction|]. reflexivity.
  - destruct kids as [|x kids]; [contradiction|]. set (ks := x :: kids) in *. assert (E : match flat_map (fun k => [NText (nl ++ blanks (S d))%string; laid (S d) k]) ks ++ [NText (nl ++ blanks d)%string] with [NText s] => Some s | _ => None end = None) by reflexivity.
    rewrite E. f_equal. rewrite flat_map_app. cbn [flat_map app]. rewrite app_nil_r. clear E NE C Y. clearbody ks. induction IH as [|y r H1 H2 IHr]; [reflexivity|]. inversion YK as [|? ? Y1 Y2]; subst. inversion CK as [|? ? C1 C2]; subst. cbn [flat_map app].
    rewrite IHr by assumption. specialize (H1 C1 Y1 (S d)). destruct (laid_elem (S d) y) as (t' & a' & k' & E). rewrite E in *. now rewrite H1.
Qed.

(** ** The tool *)
Lemma data_elem : forall n, data n -> exists t a k, n = NElem t a k.
Proof. intros n H. destruct H; eauto. Qed.
Lemma format_data : forall s n, parse s = Some n -> data n -> format_text s = Some (declaration ++ spell true true 0 (content n))%string.
Proof.
  intros s n P H. unfold format_text. rewrite P. f_equal. unfold splitlines, to_pretty. set (m := ns_first n).
  assert (E : D "" (expand (declaration ++ pretty 0 m ++ "")) = (declaration ++ spell true true 0 (content0 m) ++ D "" (expand ""))%string).
  { assert (X : forall r, D "" (expand (declaration ++ r)) = (declaration ++ D "" (expand r))%string).
    { intros r. set (h := substring 0 (String.length declaration - 1) declaration). assert (Q : declaration = (h ++ str1 lf)%string) by reflexivity. rewrite Q. rewrite !str_app_assoc.
      assert (X : expand (h ++ str1 lf ++ r) = (h ++ str1 lf ++ expand r)%string). { change (h ++ str1 lf ++ r)%string with (String "<" (substring 1 (String.length declaration - 1) declaration) ++ r)%string. reflexivity. }
      rewrite X. rewrite D_line by reflexivity. reflexivity. }
    rewrite X, format_node; [reflexivity|now apply data_first|]. apply named_first. now apply (parse_named s). }
  rewrite str_app_nil in E. change (expand "") with "" in E. change (D "" "") with "" in E. rewrite str_app_nil in E. unfold D in E. rewrite E. now rewrite content_first.
Qed.
Lemma format_result : forall s n, parse s = Some n -> data n -> exists s' n', format_text s = Some s' /\ parse s' = Some n' /\ data n' /\ content n' = content n /\ format_text s' = Some s'.
Proof.
  intros s n P H. pose proof (parse_named _ _ P) as N. destruct (content_clean (ns_first n) (data_first _ H) (named_first _ N)) as [C W]. rewrite <- content_first in C, W.
  pose proof (content_tidy n (data_elem n H)) as Y. pose proof (parse_spell _ C W) as PS. pose proof (laid_data _ C 0) as LD. pose proof (laid_content _ C Y 0) as LC.
  exists (declaration ++ spell true true 0 (content n))%string, (laid 0 (content n)). split; [now apply format_data|]. split; [exact PS|]. split; [exact LD|]. split; [exact LC|]. rewrite (format_data _ _ PS LD). now rewrite LC.
Qed.
Lemma format_normal : forall s1 s2 n1 n2, parse s1 = Some n1 -> parse s2 = Some n2 -> data n1 -> data n2 -> content n1 = content n2 -> format_text s1 = format_text s2.
Proof. intros s1 s2 n1 n2 P1 P2 D1 D2 E. rewrite (format_data _ _ P1 D1), (format_data _ _ P2 D2). now rewrite E. Qed.
Lemma format_same : forall s1 s2 n1 n2, parse s1 = Some n1 -> parse s2 = Some n2 -> data n1 -> data n2 -> format_text s1 = format_text s2 -> content n1 = content n2.
Proof.
  intros s1 s2 n1 n2 P1 P2 D1 D2 E. destruct (format_result _ _ P1 D1) as (u1 & m1 & F1 & Q1 & _ & C1 & _). destruct (format_result _ _ P2 D2) as (u2 & m2 & F2 & Q2 & _ & C2 & _). congruence.
Qed.
Lemma format_iff : forall s1 s2 n1 n2, parse s1 = Some n1 -> parse s2 = Some n2 -> data n1 -> data n2 -> (format_text s1 = format_text s2 <-> content n1 = content n2).
Proof. intros s1 s2 n1 n2 P1 P2 D1 D2. split; [now apply format_same|now apply format_normal]. Qed.
