(** Parsing what the writer prints (C39-C41). *)
From Coq Require Import String Ascii List Bool NArith Lia.
From Verif Require Import PyBase PyBaseFacts Xml Serial SpecSerial.
Import ListNotations.
Open Scope char_scope.
Open Scope string_scope.
Open Scope list_scope.

(** ** Characters: checked for all 256 *)
Fixpoint below (n : nat) : list ascii := match n with O => [] | S k => ascii_of_nat k :: below k end.
Lemma below_all : forall n m, m < n -> In (ascii_of_nat m) (below n).
Proof. induction n as [|n IH]; intros m L; [lia|]. cbn [below]. destruct (PeanoNat.Nat.eq_dec m n) as [->|]; [now left|right; apply IH; lia]. Qed.
Lemma all_ascii : forall (P : ascii -> bool), forallb P (below 256) = true -> forall c, P c = true.
Proof.
  intros P H c. rewrite forallb_forall in H. apply H. rewrite <- (ascii_nat_embedding c). apply below_all. apply nat_ascii_bounded.
Qed.
Ltac by_chars P := let H := fresh "H" in pose proof (all_ascii P eq_refl) as H; cbv beta in H.

Lemma str_app_assoc : forall a b c : string, ((a ++ b) ++ c)%string = (a ++ (b ++ c))%string.
Proof. exact append_assoc. Qed.
Lemma str_app_nil : forall a : string, (a ++ "")%string = a.
Proof. exact append_nil_r. Qed.
Lemma snoc_app : forall acc c r, (snoc acc c ++ r)%string = (acc ++ String c r)%string.
Proof. intros. unfold snoc. rewrite str_app_assoc. reflexivity. Qed.

Lemma prun_app : forall a b p, prun (a ++ b)%string p = obind' (prun a p) (prun b).
Proof. induction a as [|c a IH]; intros b p; [reflexivity|]. cbn [append prun]. destruct (pstep c p) as [q|]; [apply IH|reflexivity]. Qed.
Lemma all_app : forall p a b, all_chars p (a ++ b)%string = (all_chars p a && all_chars p b)%bool.
Proof. induction a as [|c a IH]; intros b; [reflexivity|]. cbn [append all_chars]. rewrite IH. now rewrite andb_assoc. Qed.
Lemma all_weaken : forall (p q : ascii -> bool) s, (forall c, p c = true -> q c = true) -> all_chars p s = true -> all_chars q s = true.
Proof. induction s as [|c s IH]; intros H A; [reflexivity|]. cbn [all_chars] in *. apply andb_true_iff in A. destruct A as [A B]. rewrite (H _ A). now apply IH. Qed.

(** ** Pieces of text *)
Definition quiet_char (q : bool) (c : ascii) : string := if q then data_char c else cdata_char c.

Section Runs.
Context (st : list frame) (r : option node).
Notation P m := (mkP m st r).

(** three ways to write one character; [plain]: a character that stands for itself *)
Lemma text_char_run : forall q c acc, xml_char c = true -> prun (quiet_char q c) (P (MText acc)) = Some (P (MText (snoc acc c))).
Proof.
  intros q c acc X. unfold quiet_char, data_char, cdata_char.
  destruct (Ascii.eqb_spec c quote) as [->|N1]; [destruct q; reflexivity|].
  destruct (Ascii.eqb_spec c "&") as [->|N2]; [destruct q; reflexivity|].
  destruct (Ascii.eqb_spec c "<") as [->|N3]; [destruct q; reflexivity|].
  destruct (Ascii.eqb_spec c ">") as [->|N4]; [destruct q; reflexivity|].
  apply Ascii.eqb_neq in N2, N3. destruct q; unfold str1; cbn [prun pstep p_mode]; rewrite N2, N3, X; reflexivity.
Qed.
Lemma text_run : forall q s acc, all_chars xml_char s = true -> prun (escape (quiet_char q) s) (P (MText acc)) = Some (P (MText (acc ++ s)%string)).
Proof.
  intros q. induction s as [|c s IH]; intros acc X; [cbn; now rewrite str_app_nil|]. cbn [all_chars] in X. apply andb_true_iff in X. destruct X as [X1 X2].
  cbn [escape]. rewrite prun_app, text_char_run by exact X1. cbn [obind']. rewrite IH by exact X2. now rewrite snoc_app.
Qed.
Lemma raw_run : forall s acc, all_chars xml_char s = true -> all_chars (fun c => negb (Ascii.eqb c "<" || Ascii.eqb c "&")) s = true ->
  prun s (P (MText acc)) = Some (P (MText (acc ++ s)%string)).
Proof.
  induction s as [|c s IH]; intros acc X Y; [cbn; now rewrite str_app_nil|]. cbn [all_chars] in X, Y. apply andb_true_iff in X, Y. destruct X as [X1 X2], Y as [Y1 Y2].
  apply negb_true_iff, orb_false_iff in Y1. destruct Y1 as [Y1 Y3]. cbn [prun]. unfold pstep. cbn [p_mode]. rewrite Y1, Y3, X1. cbn [obind' go p_open p_root]. rewrite IH by assumption. now rewrite snoc_app.
Qed.
Lemma value_char_run : forall c t a n v, xml_char c = true -> is_ws c = false \/ c = " "%char -> prun (data_char c) (P (MVal quote t a n v)) = Some (P (MVal quote t a n (snoc v c))).
Proof.
  intros c t a n v X W. unfold data_char, cdata_char.
  destruct (Ascii.eqb_spec c quote) as [->|N1]; [reflexivity|].
  destruct (Ascii.eqb_spec c "&") as [->|N2]; [reflexivity|].
  destruct (Ascii.eqb_spec c "<") as [->|N3]; [reflexivity|].
  destruct (Ascii.eqb_spec c ">") as [->|N4]; [reflexivity|].
  apply Ascii.eqb_neq in N1, N2, N3. unfold str1. cbn [prun pstep p_mode]. rewrite N1, N2, N3, X. destruct W as [-> | ->]; reflexivity.
Qed.
Lemma value_run : forall s t a n v, all_chars printable s = true -> prun (escape data_char s) (P (MVal quote t a n v)) = Some (P (MVal quote t a n (v ++ s)%string)).
Proof.
  assert (H : forall c, printable c = true -> xml_char c = true /\ (is_ws c = false \/ c = " "%char)).
  { intros c. by_chars (fun c => if printable c then (xml_char c && (negb (is_ws c) || Ascii.eqb c " "))%bool else true). specialize (H c). intros E. rewrite E in H. apply andb_true_iff in H. destruct H as [H1 H2].
    split; [exact H1|]. apply orb_true_iff in H2. destruct H2 as [H2|H2]; [left; now apply negb_true_iff|right; now apply Ascii.eqb_eq]. }
  induction s as [|c s IH]; intros t a n v X; [cbn; now rewrite str_app_nil|]. cbn [all_chars] in X. apply andb_true_iff in X. destruct X as [X1 X2]. destruct (H c X1) as [X3 X4].
  cbn [escape]. rewrite prun_app, value_char_run by assumption. cbn [obind']. rewrite IH by exact X2. now rewrite snoc_app.
Qed.
(** ElementTree writes line ends and tabs in attributes as references *)
Lemma attrib_char_run : forall c t a n v, xml_char c = true -> prun (attrib_char c) (P (MVal quote t a n v)) = Some (P (MVal quote t a n (snoc v c))).
Proof.
  intros c t a n v X. unfold attrib_char, cdata_char.
  destruct (Ascii.eqb_spec c quote) as [->|N1]; [reflexivity|].
  destruct (Ascii.eqb_spec c cr) as [->|N5]; [reflexivity|].
  destruct (Ascii.eqb_spec c lf) as [->|N6]; [reflexivity|].
  destruct (Ascii.eqb_spec c tab) as [->|N7]; [reflexivity|].
  destruct (Ascii.eqb_spec c "&") as [->|N2]; [reflexivity|].
  destruct (Ascii.eqb_spec c "<") as [->|N3]; [reflexivity|].
  destruct (Ascii.eqb_spec c ">") as [->|N4]; [reflexivity|].
  apply Ascii.eqb_neq in N1, N2, N3, N5, N6, N7. unfold str1. cbn [prun pstep p_mode]. rewrite N1, N2, N3, X. destruct (is_ws c) eqn:W; [|reflexivity].
  unfold is_ws in W. rewrite N5, N6, N7 in W. rewrite !orb_false_r in W. apply Ascii.eqb_eq in W. now subst c.
Qed.
Lemma attrib_run : forall s t a n v, all_chars xml_char s = true -> prun (escape attrib_char s) (P (MVal quote t a n v)) = Some (P (MVal quote t a n (v ++ s)%string)).
Proof.
  induction s as [|c s IH]; intros t a n v X; [cbn; now rewrite str_app_nil|]. cbn [all_chars] in X. apply andb_true_iff in X. destruct X as [X1 X2].
  cbn [escape]. rewrite prun_app, attrib_char_run by exact X1. cbn [obind']. rewrite IH by exact X2. now rewrite snoc_app.
Qed.

(** ** Names *)
Lemma first_ok : forall c, first_char c = true -> name_start c = true.
Proof. intros c. by_chars (fun c => if first_char c then name_start c else true). specialize (H c). intros E. now rewrite E in H. Qed.
Lemma next_ok : forall c, next_char c = true -> name_char c = true.
Proof. intros c. by_chars (fun c => if next_char c then name_char c else true). specialize (H c). intros E. now rewrite E in H. Qed.
Lemma open_rest : forall s t, all_chars next_char s = true -> prun s (P (MOpen t)) = Some (P (MOpen (t ++ s)%string)).
Proof.
  induction s as [|c s IH]; intros t X; [cbn; now rewrite str_app_nil|]. cbn [all_chars] in X. apply andb_true_iff in X. destruct X as [X1 X2].
  cbn [prun]. unfold pstep. cbn [p_mode]. rewrite (next_ok _ X1). cbn [obind' go p_open p_root]. rewrite IH by exact X2. now rewrite snoc_app.
Qed.
Lemma not_slash : forall c, first_char c = true -> Ascii.eqb c "/" = false.
Proof. intros c. by_chars (fun c => if first_char c then negb (Ascii.eqb c "/") else true). specialize (H c). intros E. rewrite E in H. now apply negb_true_iff. Qed.
Lemma open_run : forall t, good_name t -> prun t (P MLt) = Some (P (MOpen t)).
Proof.
  intros [|c t] G; [destruct G|]. destruct G as [G1 G2]. cbn [prun]. unfold pstep. cbn [p_mode]. rewrite (not_slash _ G1), (first_ok _ G1). cbn [obind' go p_open p_root]. rewrite open_rest by exact G2. reflexivity.
Qed.
Lemma close_rest : forall s t, all_chars next_char s = true -> t <> "" -> prun s (P (MClose t)) = Some (P (MClose (t ++ s)%string)).
Proof.
  induction s as [|c s IH]; intros t X N; [cbn; now rewrite str_app_nil|]. cbn [all_chars] in X. apply andb_true_iff in X. destruct X as [X1 X2].
  cbn [prun]. unfold pstep. cbn [p_mode]. destruct t as [|d t]; [now destruct N|]. cbn [is_empty]. rewrite (next_ok _ X1). cbn [obind' go p_open p_root]. rewrite IH by (auto; discriminate). now rewrite snoc_app.
Qed.
Lemma close_name_run : forall t, good_name t -> prun t (P (MClose "")) = Some (P (MClose t)).
Proof.
  intros [|c t] G; [destruct G|]. destruct G as [G1 G2]. cbn [prun]. unfold pstep. cbn [p_mode is_empty]. rewrite (first_ok _ G1). cbn [obind' go p_open p_root]. rewrite close_rest by (auto; discriminate). reflexivity.
Qed.
Lemma attr_rest : forall s t a n, all_chars next_char s = true -> prun s (P (MAttr t a n)) = Some (P (MAttr t a (n ++ s)%string)).
Proof.
  induction s as [|c s IH]; intros t a n X; [cbn; now rewrite str_app_nil|]. cbn [all_chars] in X. apply andb_true_iff in X. destruct X as [X1 X2].
  cbn [prun]. unfold pstep. cbn [p_mode]. rewrite (next_ok _ X1). cbn [obind' go p_open p_root]. rewrite IH by exact X2. now rewrite snoc_app.
Qed.
Lemma first_not_ws : forall c, first_char c = true -> is_ws c = false.
Proof. intros c. by_chars (fun c => if first_char c then negb (is_ws c) else true). specialize (H c). intros E. rewrite E in H. now apply negb_true_iff. Qed.
Lemma attr_name_run : forall n t a, good_name n -> prun n (P (MTag t a)) = Some (P (MAttr t a n)).
Proof.
  intros [|c n] t a G; [destruct G|]. destruct G as [G1 G2]. cbn [prun]. unfold pstep. cbn [p_mode]. rewrite (first_not_ws _ G1), (first_ok _ G1). cbn [obind' go p_open p_root]. rewrite attr_rest by exact G2. reflexivity.
Qed.

(** ** Attributes *)
Definition at_tag (t : string) (a : list (string * string)) (m : mode) : Prop := m = MAfter t a \/ (m = MOpen t /\ a = []).
Lemma attr_run : forall f ok, (forall s t a n v, ok s = true -> prun (escape f s) (P (MVal quote t a n v)) = Some (P (MVal quote t a n (v ++ s)%string))) ->
  forall t a m n v, at_tag t a m -> good_name n -> ok v = true -> ~ In n (map fst a) -> prun (attr_text f (n, v)) (P m) = Some (P (MAfter t (a ++ [(n, v)]))).
Proof.
  intros f ok F t a m n v T G V N. unfold attr_text. cbn [fst snd]. rewrite prun_app. replace (prun " " (P m)) with (Some (P (MTag t a))) by (destruct T as [-> | [-> ->]]; reflexivity).
  cbn [obind']. rewrite prun_app, attr_name_run by exact G. cbn [obind']. rewrite prun_app. change (prun "=" (P (MAttr t a n))) with (Some (P (MEq t a n))). cbn [obind']. rewrite prun_app.
  change (prun (str1 quote) (P (MEq t a n))) with (Some (P (MVal quote t a n ""))). cbn [obind']. rewrite prun_app, F by exact V. cbn [obind' append].
  unfold str1. cbn [prun pstep p_mode]. rewrite Ascii.eqb_refl. assert (D : dmem a n = false). { apply dmem_false, dget_None_keys. exact N. }
  rewrite D. reflexivity.
Qed.
Lemma attrs_run : forall f ok, (forall s t a n v, ok s = true -> prun (escape f s) (P (MVal quote t a n v)) = Some (P (MVal quote t a n (v ++ s)%string))) ->
  forall b t a m, at_tag t a m -> Forall (fun p => good_name (fst p) /\ ok (snd p) = true) b -> NoDup (map fst (a ++ b)) ->
  exists m', prun (cat (map (attr_text f) b)) (P m) = Some (P m') /\ at_tag t (a ++ b) m'.
Proof.
  intros f ok F. induction b as [|[n v] b IH]; intros t a m T G N.
  - exists m. rewrite app_nil_r. split; [reflexivity|exact T].
  - inversion G as [|? ? [G1 G2] G3]; subst. cbn [fst snd] in *. destruct (IH t (a ++ [(n, v)]) (MAfter t (a ++ [(n, v)]))) as (m' & R & T').
    + now left.
    + exact G3.
    + now rewrite <- app_assoc.
    + exists m'. rewrite <- app_assoc in T'. split; [|exact T']. cbn [map cat fold_right]. rewrite prun_app, (attr_run f ok F t a m n v T G1 G2); [exact R|].
      rewrite map_app in N. cbn [map fst] in N. apply NoDup_remove_2 in N. intros I. apply N. apply in_or_app. now left.
Qed.
End Runs.

(** ** Elements *)
Definition textnode (s : string) : list node := if is_empty s then [] else [NText s].
Definition flushed (acc : string) (st : list frame) : list frame := if is_empty acc then st else add_node (NText acc) st.
Definition ready (acc : string) (st : list frame) (r : option node) : Prop := match st with [] => all_chars is_ws acc = true /\ r = None | _ => True end.
(** the state after a whole element *)
Definition pushed (acc : string) (n : node) (st : list frame) (r : option node) : pstate :=
  match st with [] => mkP (MText acc) [] (Some n) | _ => mkP (MText acc) (add_node n st) r end.
Lemma flushed_nil : forall acc, flushed acc [] = [].
Proof. intros acc. unfold flushed. destruct (is_empty acc); reflexivity. Qed.
Lemma flushed_cons : forall acc t a k st, flushed acc ((t, a, k) :: st) = (t, a, k ++ textnode acc) :: st.
Proof. intros. unfold flushed, textnode. destruct (is_empty acc); [now rewrite app_nil_r|reflexivity]. Qed.
Lemma lt_run : forall acc st r, ready acc st r -> prun "<" (mkP (MText acc) st r) = Some (mkP MLt (flushed acc st) r).
Proof.
  intros acc st r R. cbn [prun]. unfold pstep. cbn [p_mode]. change (Ascii.eqb "<" "<") with true. cbn iota. unfold flush. cbn [p_open p_root]. destruct st as [|f st].
  - destruct R as [R _]. rewrite R. cbn [obind']. now rewrite flushed_nil.
  - cbn [obind']. reflexivity.
Qed.
Lemma start_run : forall f ok, (forall st r s t a n v, ok s = true -> prun (escape f s) (mkP (MVal quote t a n v) st r) = Some (mkP (MVal quote t a n (v ++ s)%string) st r)) ->
  forall acc st r t a, ready acc st r -> good_name t -> Forall (fun p => good_name (fst p) /\ ok (snd p) = true) a -> NoDup (map fst a) ->
  exists m, prun ("<" ++ t ++ cat (map (attr_text f) a))%string (mkP (MText acc) st r) = Some (mkP m (flushed acc st) r) /\ at_tag t a m.
Proof.
  intros f ok F acc st r t a R G A N. rewrite prun_app, lt_run by exact R. cbn [obind']. rewrite prun_app, open_run by exact G. cbn [obind'].
  destruct (attrs_run (flushed acc st) r f ok (F _ _) a t [] (MOpen t)) as (m & E & T); [now right|exact A|exact N|]. exists m. now split.
Qed.
Lemma ready_open : forall acc st r, ready acc st r -> flushed acc st = [] -> r = None.
Proof. intros acc [|f st] r R E; [apply R|]. destruct f as [[t a] k]. rewrite flushed_cons in E. discriminate. Qed.
Lemma gt_run : forall m t a acc st r, ready acc st r -> at_tag t a m -> prun ">" (mkP m (flushed acc st) r) = Some (mkP (MText "") ((t, a, []) :: flushed acc st) r).
Proof.
  intros m t a acc st r R T. assert (E : pstep ">" (mkP m (flushed acc st) r) = open_tag t a (mkP m (flushed acc st) r)) by (destruct T as [-> | [-> ->]]; reflexivity).
  cbn [prun]. rewrite E. unfold open_tag. cbn [p_open p_root]. destruct (flushed acc st) eqn:Q; [|reflexivity]. rewrite (ready_open _ _ _ R Q). reflexivity.
Qed.
Lemma pushed_flush : forall acc acc' n st r, pushed acc n (flushed acc' st) r = match st with [] => mkP (MText acc) [] (Some n) | _ => mkP (MText acc) (add_node n (flushed acc' st)) r end.
Proof. intros acc acc' n [|[[t a] k] st] r; [now rewrite flushed_nil|]. rewrite flushed_cons. reflexivity. Qed.
Lemma slash_run : forall m t a acc st r, ready acc st r -> at_tag t a m -> prun "/>" (mkP m (flushed acc st) r) = Some (pushed "" (NElem t a []) (flushed acc st) r).
Proof.
  intros m t a acc st r R T. assert (E : pstep "/" (mkP m (flushed acc st) r) = Some (mkP (MSlash t a) (flushed acc st) r)) by (destruct T as [-> | [-> ->]]; reflexivity).
  cbn [prun]. rewrite E. cbn [obind']. unfold pstep. cbn [p_mode]. change (Ascii.eqb ">" ">") with true. cbn iota. unfold open_tag. cbn [p_open p_root].
  destruct (flushed acc st) eqn:Q.
  - rewrite (ready_open _ _ _ R Q). unfold close_tag. cbn [obind' p_open]. rewrite String.eqb_refl. reflexivity.
  - unfold close_tag. cbn [obind' p_open p_root]. rewrite String.eqb_refl. reflexivity.
Qed.
Lemma end_run : forall acc t a k st r, good_name t -> prun ("</" ++ t ++ ">")%string (mkP (MText acc) ((t, a, k) :: st) r) = Some (pushed "" (NElem t a (k ++ textnode acc)) st r).
Proof.
  intros acc t a k st r G. change ("</" ++ t ++ ">")%string with ("<" ++ ("/" ++ t ++ ">"))%string. rewrite prun_app, lt_run by exact I. cbn [obind']. rewrite flushed_cons, prun_app.
  change (prun "/" (mkP MLt ((t, a, k ++ textnode acc) :: st) r)) with (Some (mkP (MClose "") ((t, a, k ++ textnode acc) :: st) r)). cbn [obind']. rewrite prun_app, close_name_run by exact G.
  cbn [obind' prun]. unfold pstep. cbn [p_mode]. destruct t as [|c t]; [destruct G|]. cbn [is_empty].
  change (name_char ">") with false. change (Ascii.eqb ">" ">") with true. cbn iota. unfold close_tag. cbn [p_open]. rewrite String.eqb_refl. destruct st; reflexivity.
Qed.

(** ** First pass: the ElementTree text *)
Section XmlInd.
Context (P : xml -> Prop) (H : forall t a s kids, Forall P kids -> P (El t a s kids)).
Fixpoint xml_all (x : xml) : P x :=
  match x with
  | El t a s kids => H t a s kids ((fix go l : Forall P l := match l with [] => Forall_nil _ | k :: r => Forall_cons _ (xml_all k) (go r) end) kids)
  end.
End XmlInd.
Definition text_str (s : option string) : string := match s with Some v => v | None => "" end.
Fixpoint dom (x : xml) : node := match x with El t a s kids => NElem t a (textnode (text_str s) ++ map dom kids) end.

Lemma text_chars : forall s, good_text s -> all_chars xml_char s = true.
Proof.
  intros s. apply all_weaken. intros c. by_chars (fun c => if (printable c || char_in [9; 10] c)%bool then xml_char c else true). specialize (H c). intros E. now rewrite E in H.
Qed.
Lemma value_chars : forall s, good_value s -> all_chars xml_char s = true.
Proof. intros s. apply all_weaken. intros c. by_chars (fun c => if printable c then xml_char c else true). specialize (H c). intros E. now rewrite E in H. Qed.

Lemma et_run : forall x, writable x -> forall acc st r, ready acc st r -> prun (et_text x) (mkP (MText acc) st r) = Some (pushed "" (dom x) (flushed acc st) r).
Proof.
  intros x. induction x as [t a s kids IH] using xml_all. intros W acc st r R. inversion W as [? ? ? ? G A N T K]; subst. cbn [et_text dom].
  assert (A' : Forall (fun p => good_name (fst p) /\ all_chars xml_char (snd p) = true) a). { eapply Forall_impl; [|exact A]. intros p [A1 A2]. split; [exact A1|now apply value_chars]. }
  destruct (start_run attrib_char (all_chars xml_char) (fun st r => attrib_run st r) acc st r t a R G A' N) as (m & E & M).
  replace ("<" ++ t ++ cat (map (attr_text attrib_char) a) ++ ">" ++ match s with Some s => escape cdata_char s | None => "" end ++ cat (map et_text kids) ++ "</" ++ t ++ ">")%string
    with (("<" ++ t ++ cat (map (attr_text attrib_char) a)) ++ ">" ++ match s with Some s => escape cdata_char s | None => "" end ++ cat (map et_text kids) ++ "</" ++ t ++ ">")%string by now rewrite !str_app_assoc.
  rewrite prun_app, E. cbn [obind']. rewrite prun_app, (gt_run m t a acc st r R M). cbn [obind']. rewrite prun_app.
  replace (prun match s with Some s0 => escape cdata_char s0 | None => "" end (mkP (MText "") ((t, a, []) :: flushed acc st) r)) with (Some (mkP (MText (text_str s)) ((t, a, []) :: flushed acc st) r)).
  2:{ destruct s as [v|]; [|reflexivity]. symmetry. apply (text_run _ r false v ""). apply text_chars. now apply T. }
  cbn [obind']. change (textnode (text_str s) ++ map dom kids) with ([] ++ (textnode (text_str s) ++ map dom kids)).
  generalize (text_str s). generalize (@nil node). clear E M A A' N T W. induction IH as [|x kids Hx IH IHk]; intros k tx.
  - cbn [map cat fold_right append]. rewrite app_nil_r. apply (end_run tx t a k (flushed acc st) r G).
  - inversion K; subst. cbn [map cat fold_right]. rewrite str_app_assoc, prun_app, Hx by (auto; exact I). rewrite flushed_cons. cbn [obind' pushed add_node].
    rewrite IHk by assumption. rewrite <- !app_assoc. reflexivity.
Qed.

(** ** Second pass: the text of minidom *)
Definition is_nil {A} (l : list A) : bool := match l with [] => true | _ => false end.
(** [ex]: empty elements without attributes expanded; [q]: double quotes escaped in text *)
Fixpoint spell (ex q : bool) (d : nat) (x : xml) : string :=
  match x with
  | El t a s kids =>
      (blanks d ++ ("<" ++ t ++ cat (map (attr_text data_char) a)) ++
       match kids with
       | [] => match text_or_none s with
               | None => if (ex && is_nil a && all_chars tag_char t)%bool then ">" ++ "</" ++ t ++ ">" else "/>"
               | Some v => ">" ++ escape (quiet_char q) v ++ "</" ++ t ++ ">"
               end
       | _ => ">" ++ (str1 lf ++ match text_or_none s with Some v => escape (quiet_char q) (blanks (S d) ++ v ++ str1 lf) | None => "" end) ++
              cat (map (spell ex q (S d)) kids) ++ blanks d ++ "</" ++ t ++ ">"
       end ++ str1 lf)%string
  end.
Lemma textnode_none : forall s, textnode (text_str s) = match text_or_none s with Some v => [NText v] | None => [] end.
Proof. intros [[|c v]|]; reflexivity. Qed.
Lemma pretty_spell : forall x d, pretty d (dom x) = spell false true d x.
Proof.
  intros x. induction x as [t a s kids IH] using xml_all. intros d. cbn [dom pretty spell andb]. rewrite textnode_none.
  assert (K : cat (map (pretty (S d)) (map dom kids)) = cat (map (spell false true (S d)) kids)).
  { induction IH as [|x kids Hx _ IHk]; [reflexivity|]. cbn [map]. unfold cat in *. cbn [fold_right]. now rewrite Hx, IHk. }
  rewrite !str_app_assoc. do 4 f_equal. destruct kids as [|x kids].
  - destruct (text_or_none s); cbn [app map]; rewrite ?str_app_assoc; reflexivity.
  - destruct x as [t' a' s' kids']. destruct (text_or_none s) as [v|]; cbn [app map] in K |- *.
    + cbn [dom] in *. cbn [map pretty cat fold_right] in K |- *. rewrite K. cbn [append]. rewrite !str_app_assoc. reflexivity.
    + cbn [dom] in *. rewrite K. cbn [append]. rewrite !str_app_assoc. reflexivity.
Qed.

Lemma blanks_chars : forall d, all_chars xml_char (blanks d) = true /\ all_chars (fun c => negb (Ascii.eqb c "<" || Ascii.eqb c "&")) (blanks d) = true /\ all_chars is_ws (blanks d) = true.
Proof. induction d as [|d (A & B & C)]; [now repeat split|]. cbn [blanks append all_chars]. rewrite A, B, C. now repeat split. Qed.
Lemma nl_run : forall n st r, prun (str1 lf) (pushed "" n st r) = Some (pushed nl n st r).
Proof. intros n [|f st] r; reflexivity. Qed.
Lemma escape_blanks : forall q d s, escape (quiet_char q) (blanks d ++ s)%string = (blanks d ++ escape (quiet_char q) s)%string.
Proof. intros q. induction d as [|d IH]; intros s; [reflexivity|]. cbn [blanks append escape]. rewrite IH. destruct q; reflexivity. Qed.

Definition et_nodes (ns : list node) : list xml := flat_map (fun k => match et_of k with Some x => [x] | None => [] end) ns.
Lemma et_textnode : forall s, et_nodes (textnode s) = [].
Proof. intros [|c s]; reflexivity. Qed.
Lemma et_nodes_app : forall a b, et_nodes (a ++ b) = et_nodes a ++ et_nodes b.
Proof. intros. apply flat_map_app. Qed.
Lemma spell_run : forall ex q x, writable x -> forall d acc st r, ready (acc ++ blanks d) st r ->
  exists n, prun (spell ex q d x) (mkP (MText acc) st r) = Some (pushed nl n (flushed (acc ++ blanks d) st) r) /\ et_of n = Some (reload d x).
Proof.
  intros ex q x. induction x as [t a s kids IH] using xml_all. intros W d acc st r R. inversion W as [? ? ? ? G A N T K]; subst. cbn [spell].
  destruct (blanks_chars d) as (B1 & B2 & _). rewrite prun_app, (raw_run st r (blanks d) acc B1 B2). cbn [obind'].
  destruct (start_run data_char (all_chars printable) (fun st r => value_run st r) _ st r t a R G A N) as (m & E & M).
  rewrite prun_app, E. cbn [obind']. clear E. pose proof (gt_run m t a _ st r R M) as GT. pose proof (slash_run m t a _ st r R M) as SL. set (st' := flushed (acc ++ blanks d)%string st) in *.
  assert (T' : forall v, text_or_none s = Some v -> all_chars xml_char v = true). { intros v Q. apply text_chars, T. destruct s as [[|]|]; cbn in Q; congruence. }
  destruct kids as [|x kids].
  - destruct (text_or_none s) as [v|] eqn:Q.
    + exists (NElem t a (textnode v)). rewrite prun_app. rewrite prun_app, GT. cbn [obind']. rewrite prun_app, text_run by now apply T'. cbn [obind']. change ("" ++ v)%string with v.
      rewrite end_run by exact G. cbn [obind' app]. rewrite nl_run. split; [reflexivity|]. cbn [et_of reload]. rewrite Q. destruct v as [|c v]; [destruct s as [[|]|]; discriminate Q|]. reflexivity.
    + exists (NElem t a []). split; [|cbn [et_of reload]; now rewrite Q]. destruct (ex && is_nil a && all_chars tag_char t)%bool.
      * rewrite prun_app, prun_app, GT. cbn [obind']. rewrite end_run by exact G. cbn [obind' app textnode is_empty]. now rewrite nl_run.
      * rewrite prun_app, SL. cbn [obind']. now rewrite nl_run.
  - set (lead := (str1 lf ++ match text_or_none s with Some v => blanks (S d) ++ v ++ str1 lf | None => "" end)%string).
    assert (L : prun (str1 lf ++ match text_or_none s with Some v => escape (quiet_char q) (blanks (S d) ++ v ++ str1 lf) | None => "" end)%string (mkP (MText "") ((t, a, []) :: st') r) = Some (mkP (MText lead) ((t, a, []) :: st') r)).
    { rewrite prun_app. change (prun (str1 lf) (mkP (MText "") ((t, a, []) :: st') r)) with (Some (mkP (MText (str1 lf)) ((t, a, []) :: st') r)). cbn [obind']. unfold lead.
      destruct (text_or_none s) as [v|] eqn:Q; [|reflexivity]. rewrite text_run; [reflexivity|]. rewrite !all_app, (T' v eq_refl). destruct (blanks_chars (S d)) as (C1 & _). rewrite C1. reflexivity. }
    assert (KK : forall ks, Forall (fun x => forall d acc st r, ready (acc ++ blanks d)%string st r -> exists n, prun (spell ex q d x) (mkP (MText acc) st r) = Some (pushed nl n (flushed (acc ++ blanks d)%string st) r) /\ et_of n = Some (reload d x)) ks ->
      forall tx k, exists ns, prun (cat (map (spell ex q (S d)) ks) ++ blanks d ++ "</" ++ t ++ ">")%string (mkP (MText tx) ((t, a, k) :: st') r) = Some (pushed "" (NElem t a (k ++ ns)) st' r) /\
        et_nodes ns = map (reload (S d)) ks /\ (ks <> [] -> exists tl, ns = textnode (tx ++ blanks (S d))%string ++ tl)).
    { intros ks F. induction F as [|y ks Hy F IHk]; intros tx k.
      - exists (textnode (tx ++ blanks d)%string). change (cat (map (spell ex q (S d)) []) ++ blanks d ++ "</" ++ t ++ ">")%string with (blanks d ++ "</" ++ t ++ ">")%string. rewrite prun_app, raw_run by assumption. cbn [obind']. rewrite end_run by exact G. split; [reflexivity|]. split; [apply et_textnode|]. intros C. now destruct C.
      - destruct (Hy (S d) tx ((t, a, k) :: st') r I) as (n & E1 & E2). destruct (IHk nl ((k ++ textnode (tx ++ blanks (S d))%string) ++ [n])) as (ns & E3 & E4 & _).
        exists (textnode (tx ++ blanks (S d))%string ++ n :: ns). split; [|split].
        + cbn [map cat fold_right]. rewrite str_app_assoc, prun_app. rewrite E1. rewrite flushed_cons. cbn [obind' pushed add_node]. unfold cat in E3. rewrite E3. do 3 f_equal. rewrite <- !app_assoc. reflexivity.
        + rewrite et_nodes_app, et_textnode. unfold et_nodes in *. cbn [flat_map app map]. now rewrite E2, E4.
        + intros _. now exists (n :: ns). }
    assert (KH : Forall (fun x => forall d acc st r, ready (acc ++ blanks d)%string st r -> exists n, prun (spell ex q d x) (mkP (MText acc) st r) = Some (pushed nl n (flushed (acc ++ blanks d)%string st) r) /\ et_of n = Some (reload d x)) (x :: kids)).
    { rewrite Forall_forall in *. intros y I. apply IH; auto. }
    destruct (KK _ KH lead []) as (ns & E1 & E2 & E3). destruct E3 as [tl E3]; [discriminate|]. exists (NElem t a ns). split.
    + rewrite prun_app, prun_app, GT. cbn [obind']. rewrite prun_app. rewrite L. cbn [obind']. rewrite E1. cbn [obind' app]. apply nl_run.
    + cbn [et_of]. fold (et_nodes ns). rewrite E2. cbn [reload]. f_equal. f_equal. rewrite E3. assert (NE : textnode (lead ++ blanks (S d))%string = [NText (lead ++ blanks (S d))%string]) by reflexivity. rewrite NE. cbn [app].
      f_equal. unfold lead. destruct (text_or_none s) as [v|]; cbn [append]; [|reflexivity]. change (str1 lf) with nl. rewrite !str_app_assoc. reflexivity.
Qed.
