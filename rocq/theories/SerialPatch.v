(** patch_xml on arbitrary texts. *)
From Coq Require Import String Ascii List Bool Arith NArith Lia.
From Verif Require Import PyBase Leaf LeafProps Xml Serial SpecSerial SerialFacts SerialExpand.
Import ListNotations.
Open Scope string_scope.
Open Scope list_scope.

Lemma tag_word_char : forall c, (is_word c || char_in [45] c)%bool = tag_char c.
Proof. intros c. by_chars (fun c => Bool.eqb (is_word c || char_in [45] c) (tag_char c)). now apply eqb_prop. Qed.
Lemma tag_word_all : forall w, tag_word w -> w <> "" /\ all_chars tag_char w = true.
Proof. intros w [A B]. split; [exact A|]. revert B. apply all_weaken. intros c. now rewrite tag_word_char. Qed.
Lemma all_tag_word : forall w, w <> "" -> all_chars tag_char w = true -> tag_word w.
Proof. intros w A B. split; [exact A|]. revert B. apply all_weaken. intros c. now rewrite tag_word_char. Qed.
Lemma prefix_app : forall p b, prefix p (p ++ b)%string = true.
Proof. induction p as [|c p IH]; intros b; [now destruct b|]. cbn [append prefix]. destruct (Ascii.ascii_dec c c); [apply IH|congruence]. Qed.
Lemma prefix_split : forall p s, prefix p s = true -> exists b, s = (p ++ b)%string.
Proof.
  induction p as [|c p IH]; intros s H; [now exists s|]. destruct s as [|k s]; [discriminate H|]. cbn [prefix] in H. destruct (Ascii.ascii_dec c k) as [<-|]; [|discriminate H]. destruct (IH _ H) as [b ->]. now exists b.
Qed.
Lemma span_all : forall p s, all_chars p (fst (span p s)) = true /\ match snd (span p s) with "" => True | String c _ => p c = false end.
Proof. intros p s. induction s as [|c s [A B]]; [now split|]. cbn [span]. destruct (p c) eqn:E; [|now split]. destruct (span p s) as [u v]. cbn in *. now rewrite E. Qed.
Lemma span_word : forall w c r, all_chars tag_char w = true -> tag_char c = false -> span tag_char (w ++ String c r)%string = (w, String c r).
Proof. intros. now apply span_cat. Qed.
Lemma self_short : forall w b, tag_word w -> self_closing (short_tag w ++ b)%string = Some w.
Proof.
  intros w b T. apply tag_word_all in T as [N A]. unfold short_tag. rewrite !str_app_assoc. cbn [append self_closing]. change (Ascii.eqb "<" "<") with true. cbn iota. rewrite span_word by (auto; reflexivity).
  change (prefix "/>" (String "/" (String ">" b))) with (prefix "/>" ("/>" ++ b)%string). rewrite prefix_app. destruct w; [congruence|reflexivity].
Qed.
Lemma short_self : forall s w, self_closing s = Some w -> tag_word w /\ exists b, s = (short_tag w ++ b)%string.
Proof.
  intros [|c s] w; [discriminate|]. cbn [self_closing]. destruct (Ascii.eqb_spec c "<") as [->|]; [|discriminate]. pose proof (span_len tag_char s) as L. pose proof (span_all tag_char s) as [A _]. destruct (span tag_char s) as [u v]. cbn [fst snd] in *.
  destruct (is_empty u) eqn:E; [discriminate|]. cbn [negb andb]. destruct (prefix "/>" v) eqn:P; [|discriminate]. intros Q. injection Q as <-. apply prefix_split in P as [b ->]. split; [apply all_tag_word; [now intros ->|exact A]|].
  exists b. unfold short_tag. rewrite !str_app_assoc. now rewrite L.
Qed.
Lemma not_short : forall s, (forall w b, tag_word w -> s <> (short_tag w ++ b)%string) <-> self_closing s = None.
Proof.
  intros s. split; intros H.
  - destruct (self_closing s) as [w|] eqn:E; [|reflexivity]. apply short_self in E as [T [b E]]. now elim (H w b T).
  - intros w b T ->. now rewrite self_short in H.
Qed.
Lemma len_app : forall a b, String.length (a ++ b)%string = String.length a + String.length b.
Proof. induction a; intros b; cbn; [reflexivity|now rewrite IHa]. Qed.
Lemma expand_short_tag : forall w s, tag_word w -> expand (short_tag w ++ s)%string = (long_tag w ++ expand s)%string.
Proof.
  intros w s T. unfold expand at 1. assert (E := self_short w s T). unfold short_tag in *. rewrite !str_app_assoc in *. cbn [append] in *. cbn [expand_from]. rewrite E. unfold long_tag. cbn [append]. rewrite !str_app_assoc. f_equal. f_equal. cbn [append]. do 3 f_equal. rewrite str_app_assoc. cbn [append]. do 2 f_equal.
  replace (String.length w + 2) with (String.length (w ++ "/>")%string) by apply len_app. replace (w ++ String "/" (String ">" s))%string with ((w ++ "/>") ++ s)%string by now rewrite str_app_assoc. apply expand_skip.
Qed.
Lemma expand_other : forall c s, self_closing (String c s) = None -> expand (String c s) = String c (expand s).
Proof. intros c s E. unfold expand at 1. cbn [expand_from]. now rewrite E. Qed.
Lemma expand_spec : forall s u, expand s = u <-> expanded s u.
Proof.
  split.
  - intros <-. remember (String.length s) as n eqn:L. assert (M : String.length s <= n) by lia. clear L. revert s M. induction n as [|n IH]; intros s M.
    + destruct s; [constructor|cbn in M; lia].
    + destruct s as [|c s]; [constructor|]. destruct (self_closing (String c s)) as [w|] eqn:E.
      * destruct (short_self _ _ E) as [T [b Q]]. rewrite Q in *. rewrite expand_short_tag by exact T. apply expanded_tag; [exact T|]. apply IH. unfold short_tag in M. rewrite !len_app in M. cbn in M. lia.
      * rewrite expand_other by exact E. apply expanded_char; [now apply not_short|]. apply IH. cbn in M. lia.
  - intros H. induction H as [|w s u T _ IH|c s u N _ IH]; [reflexivity| |].
    + now rewrite expand_short_tag, IH.
    + rewrite expand_other, IH; [reflexivity|]. now apply not_short.
Qed.

(** no tag is left *)
Fixpoint quiet (s : string) : Prop := match s with "" => True | String c r => self_closing s = None /\ quiet r end.
Lemma expand_quiet_id : forall s, quiet s -> expand s = s.
Proof. induction s as [|c s IH]; [reflexivity|]. intros [A B]. rewrite expand_other by exact A. now rewrite IH. Qed.
Lemma quiet_short : forall s, quiet s <-> ~ has_short s.
Proof.
  split.
  - intros Q (a & w & b & T & ->). induction a as [|c a IH].
    + cbn [append] in Q. assert (E := self_short w b T). destruct (short_tag w ++ b)%string eqn:D; [discriminate E|]. destruct Q as [Q _]. congruence.
    + destruct Q as [_ Q]. now apply IH.
  - induction s as [|c s IH]; [now split|]. intros N. split.
    + apply not_short. intros w b T E. apply N. now exists "", w, b.
    + apply IH. intros (a & w & b & T & ->). apply N. now exists (String c a), w, b.
Qed.
Definition head (s : string) : option ascii := match s with "" => None | String c _ => Some c end.
Lemma expanded_head : forall s u, expanded s u -> head u = head s.
Proof. intros s u H. destruct H; reflexivity. Qed.
Lemma expanded_word : forall w s u, all_chars tag_char w = true -> expanded (w ++ s)%string u -> exists v, u = (w ++ v)%string /\ expanded s v.
Proof.
  induction w as [|c w IH]; intros s u A H; [now exists u|]. cbn [all_chars] in A. apply andb_prop in A as [A1 A2]. apply expand_spec in H. subst u.
  assert (E : self_closing (String c (w ++ s)%string) = None). { cbn [self_closing]. now rewrite tag_next. }
  change ((String c w ++ s)%string) with (String c (w ++ s)). rewrite expand_other by exact E. destruct (IH s (expand (w ++ s)%string) A2) as (v & E1 & E2); [now apply expand_spec|]. rewrite E1. now exists v.
Qed.
Lemma self_none : forall c s u, self_closing (String c s) = None -> expanded s u -> self_closing (String c u) = None.
Proof.
  intros c s u N H. destruct (self_closing (String c u)) as [w|] eqn:E; [|reflexivity]. exfalso. apply short_self in E as [T [b E]]. destruct (tag_word_all w T) as [NE A]. unfold short_tag in E. rewrite !str_app_assoc in E. cbn [append] in E. injection E as -> ->.
  (* the words and the two characters after them are already in s *)
  assert (P : exists b', s = (w ++ String "/" (String ">" b'))%string).
  { clear N T NE. revert s H. induction w as [|k w IH]; intros s H.
    - cbn [append] in *. assert (E1 := expanded_head _ _ H). destruct s as [|x s]; [discriminate E1|]. injection E1 as <-. apply expand_spec in H. rewrite expand_other in H by reflexivity. injection H as H.
      assert (E2 := expanded_head s _ (proj1 (expand_spec _ _) H)). destruct s as [|y s]; [discriminate E2|]. injection E2 as <-. now exists s.
    - cbn [all_chars append] in *. apply andb_prop in A as [A1 A2]. assert (E1 := expanded_head _ _ H). destruct s as [|x s]; [discriminate E1|]. injection E1 as <-. apply expand_spec in H.
      rewrite expand_other in H by (cbn [self_closing]; now rewrite tag_next). injection H as H. destruct (IH A2 s) as [b' ->]; [now apply expand_spec|]. now exists b'. }
  destruct P as [b' ->]. assert (S := self_short w b' T). unfold short_tag in S. rewrite !str_app_assoc in S. cbn [append] in S. congruence.
Qed.
Lemma word_quiet : forall w r, all_chars tag_char w = true -> quiet r -> quiet (w ++ r)%string.
Proof. induction w as [|c w IH]; intros r A Q; [exact Q|]. cbn [all_chars append quiet] in *. apply andb_prop in A as [A1 A2]. split; [cbn [self_closing]; now rewrite tag_next|now apply IH]. Qed.
Lemma long_quiet : forall w r, tag_word w -> quiet r -> quiet (long_tag w ++ r)%string.
Proof.
  intros w r T Q. destruct (tag_word_all w T) as [N A]. unfold long_tag. rewrite !str_app_assoc. cbn [append quiet]. split.
  - apply not_short. intros w' b T' E. destruct (tag_word_all w' T') as [N' A']. unfold short_tag in E. rewrite !str_app_assoc in E. cbn [append] in E. injection E as E.
    assert (S1 := span_word w ">" (String "<" (String "/" (w ++ String ">" r))) A eq_refl). rewrite ?str_app_assoc in E. cbn [append] in E. rewrite ?str_app_assoc in E. cbn [append] in E. rewrite E in S1. rewrite span_word in S1 by (auto; reflexivity). discriminate S1.
  - apply word_quiet; [exact A|]. cbn [append quiet]. split; [reflexivity|]. split; [reflexivity|]. split; [reflexivity|]. apply word_quiet; [exact A|]. split; [reflexivity|exact Q].
Qed.
Lemma expanded_quiet : forall s u, expanded s u -> quiet u.
Proof.
  intros s u H. induction H as [|w s u T _ IH|c s u N H IH]; [exact I|now apply long_quiet|]. split; [|exact IH]. apply (self_none c s); [now apply not_short|exact H].
Qed.

(** ** The patched text loads to the same tree, whatever the text *)
Definition result (o : option pstate) : option node :=
  match o with
  | Some p => match p_mode p, p_open p with
              | MText acc, [] => if all_chars is_ws acc then p_root p else None
              | _, _ => None
              end
  | None => None
  end.
Lemma digits_lt : forall e n, nolt e = false -> digits_val n e = None.
Proof.
  induction e as [|c e IH]; intros n H; [discriminate H|]. unfold nolt in H. cbn [all_chars digits_val] in *. destruct (Ascii.eqb_spec c "<") as [->|]; [reflexivity|]. cbn [negb andb] in H. destruct (is_digit c); [|reflexivity]. now apply IH.
Qed.
Lemma entity_lt : forall e, nolt e = false -> entity e = None.
Proof.
  intros e H. unfold entity.
  repeat match goal with |- (if String.eqb e ?k then _ else _) = None => destruct (String.eqb_spec e k) as [->|]; [discriminate H|] end.
  destruct e as [|c [|d e]]; try reflexivity. destruct (Ascii.eqb_spec c "#") as [->|]; [|reflexivity]. rewrite digits_lt; [reflexivity|exact H].
Qed.
Lemma snoc_nolt : forall e c, nolt e = false -> nolt (snoc e c) = false.
Proof. intros e c H. unfold nolt, snoc in *. now rewrite all_app, H. Qed.
Lemma dead_text : forall s acc e st r, nolt e = false -> result (prun s (mkP (MRefText acc e) st r)) = None.
Proof.
  induction s as [|c s IH]; intros acc e st r H; [reflexivity|]. cbn [prun pstep p_mode]. destruct (Ascii.eqb c ";"); [rewrite entity_lt by exact H; reflexivity|]. unfold go. cbn [obind' p_open p_root]. now apply IH, snoc_nolt.
Qed.
Lemma dead_val : forall s q t a n v e st r, nolt e = false -> result (prun s (mkP (MRefVal q t a n v e) st r)) = None.
Proof.
  induction s as [|c s IH]; intros q t a n v e st r H; [reflexivity|]. cbn [prun pstep p_mode]. destruct (Ascii.eqb c ";"); [rewrite entity_lt by exact H; reflexivity|]. unfold go. cbn [obind' p_open p_root]. now apply IH, snoc_nolt.
Qed.
Lemma ref_text_run : forall s acc e st r, prun (String "<" s) (mkP (MRefText acc e) st r) = prun s (mkP (MRefText acc (snoc e "<")) st r).
Proof. reflexivity. Qed.
Lemma lt_snoc : forall e, nolt (snoc e "<") = false.
Proof. intros e. unfold nolt, snoc. rewrite all_app. cbn. apply andb_false_r. Qed.

Definition calm (c : ascii) : bool := (negb (is_ws c) && negb (Ascii.eqb c "/") && negb (Ascii.eqb c ">"))%bool.
Lemma tag_calm : forall c, tag_char c = true -> is_ws c = false /\ Ascii.eqb c "/" = false /\ Ascii.eqb c ">" = false.
Proof.
  intros c. by_chars (fun c => if tag_char c then calm c else true). specialize (H c). intros E. rewrite E in H. unfold calm in H. apply andb_prop in H as [H H3]. apply andb_prop in H as [H1 H2]. now rewrite <- !negb_true_iff.
Qed.
Lemma open_word : forall w t st r, all_chars tag_char w = true -> prun w (mkP (MOpen t) st r) = if all_chars name_char w then Some (mkP (MOpen (t ++ w)%string) st r) else None.
Proof.
  induction w as [|c w IH]; intros t st r A; [cbn; now rewrite str_app_nil|]. cbn [all_chars] in A. apply andb_prop in A as [A1 A2]. destruct (tag_calm c A1) as (W & S & G). cbn [prun pstep p_mode all_chars]. destruct (name_char c); cbn [andb].
  - unfold go. cbn [obind' p_open p_root]. rewrite IH by exact A2. now rewrite snoc_app.
  - rewrite W. unfold end_open. now rewrite S, G.
Qed.
Lemma close_word : forall w t st r, t <> "" -> all_chars tag_char w = true -> prun w (mkP (MClose t) st r) = if all_chars name_char w then Some (mkP (MClose (t ++ w)%string) st r) else None.
Proof.
  induction w as [|c w IH]; intros t st r N A; [cbn; now rewrite str_app_nil|]. cbn [all_chars] in A. apply andb_prop in A as [A1 A2]. destruct (tag_calm c A1) as (W & S & G). cbn [prun pstep p_mode all_chars].
  assert (E : is_empty t = false) by (destruct t; [congruence|reflexivity]). rewrite E. destruct (name_char c); cbn [andb].
  - unfold go. cbn [obind' p_open p_root]. rewrite IH; [now rewrite snoc_app|destruct t; discriminate|exact A2].
  - now rewrite G, W.
Qed.
Lemma tag_run : forall w acc st r, tag_word w -> prun (short_tag w) (mkP (MText acc) st r) = prun (long_tag w) (mkP (MText acc) st r).
Proof.
  intros w acc st r T. apply tag_word_all in T as [N A]. unfold short_tag, long_tag. cbn [append prun pstep p_mode]. change (Ascii.eqb "<" "<") with true. cbn iota.
  assert (F : flush acc (mkP (MText acc) st r) MLt = None \/ exists st', flush acc (mkP (MText acc) st r) MLt = Some (mkP MLt st' r)).
  { unfold flush. cbn [p_open p_root]. destruct st; [destruct (all_chars is_ws acc)|]; eauto. }
  destruct F as [-> | [st' ->]]; [reflexivity|]. cbn [obind']. destruct w as [|c w]; [congruence|]. cbn [all_chars] in A. apply andb_prop in A as [A1 A2]. destruct (tag_calm c A1) as (W & S & G).
  change (String c w ++ "/>")%string with (String c (w ++ "/>")). change (String c w ++ String ">" (String "<" (String "/" (String c w ++ ">"))))%string with (String c (w ++ String ">" (String "<" (String "/" (String c w ++ ">"))))).
  cbn [prun pstep p_mode]. rewrite S. destruct (name_start c) eqn:NS; [|reflexivity]. unfold go. cbn [obind' p_open p_root]. rewrite !prun_app, !open_word by exact A2. destruct (all_chars name_char w) eqn:NW; [|reflexivity]. cbn [obind'].
  change (str1 c ++ w)%string with (String c w). set (t := String c w).
  replace (prun "/>" (mkP (MOpen t) st' r)) with (obind' (open_tag t [] (mkP (MOpen t) st' r)) (close_tag t)).
  2:{ change (prun "/>" (mkP (MOpen t) st' r)) with (obind' (obind' (open_tag t [] (mkP (MOpen t) st' r)) (close_tag t)) (fun p => Some p)). destruct (obind' _ _); reflexivity. }
  cbn [prun pstep p_mode]. change (name_char ">") with false. change (is_ws ">") with false. cbn iota. unfold end_open. change (Ascii.eqb ">" ">") with true. cbn iota. destruct (open_tag t [] (mkP (MOpen t) st' r)) as [p'|] eqn:O; [|reflexivity]. cbn [obind'].
  assert (O' : exists st2 r2, p' = mkP (MText "") ((t, [], []) :: st2) r2). { unfold open_tag in O. cbn [p_open p_root] in O. destruct st'; [destruct r; [discriminate O|]|]; injection O as <-; eauto. }
  destruct O' as (st2 & r2 & ->). cbn [prun pstep p_mode]. change (Ascii.eqb "<" "<") with true. cbn iota. unfold flush. cbn [p_open p_root is_empty obind' pstep p_mode]. change (Ascii.eqb "/" "/") with true. cbn iota. unfold go. cbn [obind' p_open p_root].
  assert (CW : forall st r, prun (t ++ ">")%string (mkP (MClose "") st r) = obind' (close_tag t (mkP (MClose t) st r)) (fun p => Some p)).
  { intros st3 r3. unfold t at 1. change (String c w ++ ">")%string with (String c (w ++ ">")). cbn [prun pstep p_mode is_empty]. rewrite NS. unfold go. cbn [obind' p_open p_root]. rewrite prun_app, close_word; [|discriminate|exact A2]. rewrite NW. cbn [obind']. change (snoc "" c ++ w)%string with t. reflexivity. }
  rewrite CW. unfold close_tag. cbn [p_open p_root]. rewrite String.eqb_refl. destruct st2; reflexivity.
Qed.
(** attribute values are delimited by quotes *)
Definition fine (p : pstate) : Prop := match p_mode p with MVal q _ _ _ _ | MRefVal q _ _ _ _ _ => Ascii.eqb "<" q = false | _ => True end.
Lemma flush_mode : forall acc p m p', flush acc p m = Some p' -> p_mode p' = m.
Proof. intros acc p m p'. unfold flush. destruct (p_open p); [destruct (all_chars is_ws acc)|]; intros E; now inversion E. Qed.
Lemma open_mode : forall t a p p', open_tag t a p = Some p' -> p_mode p' = MText "".
Proof. intros t a p p'. unfold open_tag. destruct (p_open p); [destruct (p_root p)|]; intros E; now inversion E. Qed.
Lemma close_mode : forall t p p', close_tag t p = Some p' -> p_mode p' = MText "".
Proof. intros t p p'. unfold close_tag. destruct (p_open p) as [|[[t' a] k] st]; [discriminate|]. destruct (String.eqb t t'); [|discriminate]. destruct st; intros E; now inversion E. Qed.
Lemma fine_step : forall c p p', fine p -> pstep c p = Some p' -> fine p'.
Proof.
  intros c p p' F. unfold pstep, go, end_open. unfold fine at 1 in F.
  destruct (p_mode p) eqn:M; repeat match goal with
    | |- (if ?b then _ else _) = Some _ -> _ => let E := fresh "E" in destruct b eqn:E
    | |- match ?b with Some _ => _ | None => _ end = Some _ -> _ => destruct b
    end; intros H; try discriminate H; try (injection H as <-; exact I); try (injection H as <-; exact F);
    try (apply flush_mode in H; unfold fine; now rewrite H); try (apply open_mode in H; unfold fine; now rewrite H); try (apply close_mode in H; unfold fine; now rewrite H).
  - injection H as <-. unfold fine. cbn. apply orb_prop in E as [E|E]; apply Ascii.eqb_eq in E; now subst c.
  - destruct (open_tag _ _ p); [|discriminate H]. cbn [obind'] in H. apply close_mode in H. unfold fine. now rewrite H.
Qed.
Lemma expanded_run : forall s u, expanded s u -> forall p, fine p -> result (prun s p) = result (prun u p).
Proof.
  intros s u H. induction H as [|w s u T _ IH|c s u N H IH]; intros p F; [reflexivity| |].
  - destruct p as [m st r]. assert (M : (exists acc, m = MText acc) \/ (exists acc e, m = MRefText acc e) \/ (exists q t a n v e, m = MRefVal q t a n v e) \/ pstep "<" (mkP m st r) = None).
    { destruct m; unfold fine in F; cbn [p_mode] in F.
      all: try (right; right; right; reflexivity).
      - left. eexists. reflexivity.
      - right. right. right. unfold pstep. cbn [p_mode]. now rewrite F.
      - right. right. right. destruct tag; reflexivity.
      - right. left. do 2 eexists. reflexivity.
      - right. right. left. repeat eexists. }
    destruct M as [[acc ->] | [(acc & e & ->) | [(q & t & a & n & v & e & ->) | M]]].
    + rewrite !prun_app, <- tag_run by exact T. destruct (prun (short_tag w) _) as [p'|] eqn:E; [|reflexivity]. cbn [obind']. apply IH. clear - E. 
      assert (G : forall s p p', fine p -> prun s p = Some p' -> fine p'). { clear. induction s as [|c s IH]; intros p p' F H; cbn in H; [now injection H as <-|]. destruct (pstep c p) as [p1|] eqn:E; [|discriminate H]. apply (IH p1); [|exact H]. now apply (fine_step c p). }
      revert E. apply G. exact I.
    + unfold short_tag, long_tag. rewrite !str_app_assoc. cbn [append]. change (prun (String "<" ?x) (mkP (MRefText acc e) st r)) with (prun x (mkP (MRefText acc (snoc e "<")) st r)). cbn [prun pstep p_mode]. change (Ascii.eqb "<" ";") with false. cbn iota. unfold go. cbn [obind' p_open p_root]. now rewrite !dead_text by apply lt_snoc.
    + unfold short_tag, long_tag. rewrite !str_app_assoc. cbn [append prun pstep p_mode]. change (Ascii.eqb "<" ";") with false. cbn iota. unfold go. cbn [obind' p_open p_root]. now rewrite !dead_val by apply lt_snoc.
    + unfold short_tag, long_tag. rewrite !str_app_assoc. cbn [append prun]. now rewrite M.
  - cbn [prun]. destruct (pstep c p) as [p'|] eqn:E; [|reflexivity]. cbn [obind']. apply IH. now apply (fine_step c p).
Qed.

Lemma newlines_app : forall a b, no_cr a = true -> newlines (a ++ b)%string = (a ++ newlines b)%string.
Proof.
  induction a as [|c a IH]; intros b H; [reflexivity|]. cbn [no_cr all_chars] in H. apply andb_prop in H as [H1 H2]. apply negb_true_iff in H1. cbn [append newlines]. rewrite H1. now rewrite IH.
Qed.
Lemma word_no_cr : forall w, all_chars tag_char w = true -> no_cr w = true.
Proof. intros w. apply all_weaken. intros c. by_chars (fun c => if tag_char c then negb (Ascii.eqb c cr) else true). specialize (H c). intros E. now rewrite E in H. Qed.
Definition flat (c : ascii) : bool := (negb (Ascii.eqb c cr) && negb (Ascii.eqb c lf))%bool.
Lemma newlines_back : forall a s b, all_chars flat a = true -> newlines s = (a ++ b)%string -> exists b', s = (a ++ b')%string.
Proof.
  induction a as [|c a IH]; intros s b A E; [now exists s|]. cbn [all_chars] in A. apply andb_prop in A as [A1 A2]. unfold flat in A1. apply andb_prop in A1 as [A1 A3]. apply negb_true_iff in A1, A3.
  destruct s as [|x s]; [discriminate E|]. cbn [newlines append] in E. destruct (Ascii.eqb x cr) eqn:X.
  - exfalso. destruct s as [|y s].
    + injection E as E _. subst c. discriminate A3.
    + destruct (Ascii.eqb y lf) eqn:Y.
      * apply Ascii.eqb_eq in Y. subst y. cbn [newlines] in E. change (Ascii.eqb lf cr) with false in E. injection E as E _. subst c. discriminate A3.
      * injection E as E _. subst c. discriminate A3.
  - injection E as -> E. destruct (IH s b A2 E) as [b' ->]. now exists b'.
Qed.
Lemma word_flat : forall w, all_chars tag_char w = true -> all_chars flat w = true.
Proof. intros w. apply all_weaken. intros c. by_chars (fun c => if tag_char c then flat c else true). specialize (H c). intros E. now rewrite E in H. Qed.
Lemma short_flat : forall w, tag_word w -> all_chars flat (short_tag w) = true.
Proof. intros w T. apply tag_word_all in T as [_ A]. unfold short_tag. rewrite !all_app, (word_flat w A). reflexivity. Qed.
Lemma flat_no_cr : forall a, all_chars flat a = true -> no_cr a = true.
Proof. intros a. apply all_weaken. intros c. unfold flat. now destruct (Ascii.eqb c cr). Qed.
Lemma long_flat : forall w, tag_word w -> all_chars flat (long_tag w) = true.
Proof. intros w T. apply tag_word_all in T as [_ A]. unfold long_tag. rewrite !all_app, (word_flat w A). reflexivity. Qed.
Lemma newlines_expanded : forall s u, expanded s u -> expanded (newlines s) (newlines u).
Proof.
  intros s u H. induction H as [|w s u T _ IH|c s u N H IH]; [constructor| |].
  - rewrite !newlines_app by (apply flat_no_cr; auto using short_flat, long_flat). now constructor.
  - cbn [newlines]. destruct (Ascii.eqb c cr) eqn:C.
    + assert (E := expanded_head _ _ H). destruct s as [|x s], u as [|y u]; try discriminate E.
      * apply expanded_char; [|constructor]. apply not_short. reflexivity.
      * injection E as <-. destruct (Ascii.eqb y lf); [exact IH|]. apply expanded_char; [|exact IH]. now apply not_short.
    + apply expanded_char; [|exact IH]. intros w b T E. assert (E2 : newlines (String c s) = (short_tag w ++ b)%string) by (cbn [newlines]; now rewrite C). destruct (newlines_back _ _ _ (short_flat w T) E2) as [b' B]. now apply (N w b').
Qed.

Lemma expanded_keep : forall c s v, Ascii.eqb c "<" = false -> expanded s (String c v) -> exists s', s = String c s' /\ expanded s' v.
Proof.
  intros c s v C H. assert (E := expanded_head _ _ H). destruct s as [|x s]; [discriminate E|]. injection E as <-. exists s. split; [reflexivity|]. apply expand_spec in H. rewrite expand_other in H by (cbn [self_closing]; now rewrite C). injection H as H. now apply expand_spec.
Qed.
Lemma expanded_step : forall c s u, Ascii.eqb c "<" = false -> expanded (String c s) u -> exists v, u = String c v /\ expanded s v.
Proof.
  intros c s u C H. apply expand_spec in H. rewrite expand_other in H by (cbn [self_closing]; now rewrite C). subst u. exists (expand s). split; [reflexivity|now apply expand_spec].
Qed.
Lemma expanded_plain : forall a s u, nolt a = true -> expanded s u -> prefix a u = prefix a s.
Proof.
  induction a as [|c a IH]; intros s u A H; [now destruct s, u|]. unfold nolt in A. cbn [all_chars] in A. apply andb_prop in A as [A1 A2]. apply negb_true_iff in A1. assert (E := expanded_head _ _ H).
  destruct s as [|x s], u as [|y u]; try discriminate E; [reflexivity|]. injection E as <-. cbn [prefix]. destruct (Ascii.ascii_dec c y) as [<-|]; [|reflexivity]. destruct (expanded_step _ _ _ A1 H) as (v & E & K). injection E as <-. now apply IH.
Qed.
Lemma decl_prefix : forall s u, expanded s u -> prefix "<?xml " u = prefix "<?xml " s.
Proof.
  intros s u H. destruct H as [|w s u T H|c s u N H]; [reflexivity| |].
  - destruct (tag_word_all w T) as [NE A]. destruct w as [|k w]; [congruence|]. cbn [all_chars] in A. apply andb_prop in A as [A _]. unfold short_tag, long_tag. cbn [append].
    change (prefix "<?xml " (String "<" ?x)) with (prefix "?xml " x). cbn [prefix]. destruct (Ascii.ascii_dec "<" "<"); [|congruence]. destruct (Ascii.ascii_dec "?" k) as [<-|]; [discriminate A|reflexivity].
  - cbn [prefix]. destruct (Ascii.ascii_dec "<" c); [|reflexivity]. change (prefix "?xml " u = prefix "?xml " s). now apply expanded_plain.
Qed.
Lemma after_skip : forall a b, all_chars (fun c => negb (Ascii.eqb c "?")) a = true -> after_decl (a ++ b)%string = after_decl b.
Proof.
  induction a as [|c a IH]; intros b H; [reflexivity|]. cbn [all_chars] in H. apply andb_prop in H as [H1 H2]. cbn [append after_decl]. rewrite IH by exact H2.
  destruct (prefix "?>" (String c (a ++ b))) eqn:P; [|reflexivity]. exfalso. cbn [prefix] in P. destruct (Ascii.ascii_dec "?" c) as [<-|]; [discriminate H1|discriminate P].
Qed.
Lemma word_plain : forall w, all_chars tag_char w = true -> all_chars (fun c => negb (Ascii.eqb c "?")) w = true.
Proof. intros w. apply all_weaken. intros c. by_chars (fun c => if tag_char c then negb (Ascii.eqb c "?") else true). specialize (H c). intros E. now rewrite E in H. Qed.
Lemma after_expanded : forall s u, expanded s u -> expanded (after_decl s) (after_decl u).
Proof.
  intros s u H. induction H as [|w s u T _ IH|c s u N H IH]; [constructor| |].
  - destruct (tag_word_all w T) as [_ A]. rewrite !after_skip; [exact IH| |]; unfold short_tag, long_tag; rewrite !all_app, (word_plain w A); reflexivity.
  - cbn [after_decl]. assert (P : prefix "?>" (String c u) = prefix "?>" (String c s)).
    { cbn [prefix]. destruct (Ascii.ascii_dec "?" c); [|reflexivity]. now apply (expanded_plain ">"). }
    rewrite P. destruct (prefix "?>" (String c s)) eqn:E; [|exact IH]. destruct s as [|x s]; [cbn [prefix] in E; destruct (Ascii.ascii_dec "?" c); discriminate E|].
    assert (X : x = ">"%char). { cbn [prefix] in E. destruct (Ascii.ascii_dec "?" c); [|discriminate E]. destruct (Ascii.ascii_dec ">" x) as [<-|]; [reflexivity|discriminate E]. }
    subst x. destruct (expanded_step ">" _ _ eq_refl H) as (v & -> & K). exact K.
Qed.
Lemma parse_expanded : forall s u, expanded s u -> parse u = parse s.
Proof.
  intros s u H. apply newlines_expanded in H. unfold parse, skip_decl. rewrite (decl_prefix _ _ H). fold (result (prun (if prefix "<?xml " (newlines s) then after_decl (newlines u) else newlines u) (mkP (MText "") [] None))). fold (result (prun (if prefix "<?xml " (newlines s) then after_decl (newlines s) else newlines s) (mkP (MText "") [] None))).
  symmetry. apply expanded_run; [|exact I]. destruct (prefix "<?xml " (newlines s)); [now apply after_expanded|exact H].
Qed.

(** ** reload keeps the tree *)
Lemma lstrip_pad : forall a s, all_chars is_space a = true -> lstrip (a ++ s)%string = lstrip s.
Proof.
  induction a as [|c a IH]; intros s H; [reflexivity|]. cbn [all_chars] in H. apply andb_prop in H as [H1 H2]. specialize (IH s H2). unfold lstrip in *. cbn [append span]. rewrite H1. destruct (span is_space (a ++ s)%string). exact IH.
Qed.
Lemma rstrip_spaces : forall b, all_chars is_space b = true -> rstrip b = "".
Proof. induction b as [|c b IH]; [reflexivity|]. cbn [all_chars rstrip]. intros H. apply andb_prop in H as [H1 H2]. rewrite IH by exact H2. cbn. now rewrite H1. Qed.
Lemma rstrip_pad : forall s b, all_chars is_space b = true -> rstrip (s ++ b)%string = rstrip s.
Proof. induction s as [|c s IH]; intros b H; [now apply rstrip_spaces|]. cbn [append rstrip]. now rewrite IH. Qed.
Lemma lstrip_app : forall s b, all_chars is_space b = true -> lstrip (s ++ b)%string = (lstrip s ++ b)%string \/ lstrip (s ++ b)%string = "" /\ lstrip s = "".
Proof.
  intros s b B. unfold lstrip. induction s as [|c s IH].
  - right. split; [|reflexivity]. cbn [append]. clear - B. induction b as [|c b IH]; [reflexivity|]. cbn [all_chars span] in *. apply andb_prop in B as [B1 B2]. rewrite B1. specialize (IH B2). destruct (span is_space b). exact IH.
  - cbn [append span]. destruct (is_space c); [|now left]. destruct (span is_space (s ++ b)%string), (span is_space s). exact IH.
Qed.
Lemma strip_pad : forall a s b, all_chars is_space a = true -> all_chars is_space b = true -> strip (a ++ s ++ b)%string = strip s.
Proof.
  intros a s b A B. unfold strip. rewrite lstrip_pad by exact A. destruct (lstrip_app s b B) as [-> | [-> ->]]; [now apply rstrip_pad|reflexivity].
Qed.
Lemma blanks_space : forall d, all_chars is_space (blanks d) = true.
Proof. induction d; [reflexivity|]. exact IHd. Qed.
Lemma reload_same : forall x d, same_tree x (reload d x).
Proof.
  intros x. induction x as [t a s kids IH] using xml_all. intros d. cbn [reload]. destruct kids as [|x kids].
  - cbn [map]. apply same_leaf. destruct s as [[|c v]|]; cbn; auto.
  - apply same_node; [discriminate| |].
    + assert (PA : all_chars is_space (nl ++ blanks (S d))%string = true) by (rewrite all_app, blanks_space; reflexivity).
      assert (E : words s = match text_or_none s with Some v => strip v | None => "" end) by (destruct s as [[|c v]|]; reflexivity). rewrite E. cbn zeta. destruct (text_or_none s) as [v|].
      * unfold words. rewrite strip_pad by exact PA. reflexivity.
      * unfold words. symmetry. rewrite <- (str_app_nil (nl ++ blanks (S d))%string). apply (strip_pad _ "" "" PA eq_refl).
    + clear - IH. induction IH; constructor; auto.
Qed.

(** ** The statements *)
Lemma save_spell : forall decl x, writable x -> save_text decl false x = Some (declaration ++ spell true true 0 x)%string.
Proof.
  intros decl x W. unfold save_text, patch_xml, to_pretty. rewrite parse_et by exact W. cbn [option_map]. rewrite pretty_spell. f_equal.
  rewrite <- (str_app_nil (spell false true 0 x)).
  assert (D : forall s, expand (declaration ++ s)%string = (declaration ++ expand s)%string) by reflexivity. rewrite D, expand_spell by exact W. change (expand "") with "". now rewrite str_app_nil.
Qed.
Lemma save_spell_unescaped : forall decl x, writable x -> unquoted x -> save_text decl true x = Some (declaration ++ spell true false 0 x)%string.
Proof.
  intros decl x W U. assert (S := save_spell decl x W). unfold save_text, patch_xml in *. destruct (parse (et_document decl x)) as [n|]; [|discriminate S]. cbn [option_map] in *. apply (f_equal (fun o => match o with Some t => t | None => EmptyString end)) in S. cbn beta iota in S. rewrite S. f_equal. now apply spell_unescape.
Qed.
Lemma save_load : forall decl x, writable x -> exists s, save_text decl false x = Some s /\ load_tree s = Some (reload 0 x).
Proof. intros decl x W. eexists. split; [now apply save_spell|now apply load_spell]. Qed.
Lemma save_load_unescaped : forall decl x, writable x -> unquoted x -> exists s, save_text decl true x = Some s /\ load_tree s = Some (reload 0 x).
Proof. intros decl x W U. eexists. split; [now apply save_spell_unescaped|now apply load_spell]. Qed.
Lemma patch_load : forall s, load_tree (patch_xml false s) = load_tree s.
Proof. intros s. unfold load_tree, patch_xml. rewrite (parse_expanded s (expand s)); [reflexivity|now apply expand_spec]. Qed.
