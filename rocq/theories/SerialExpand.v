(** patch_xml on the printed text: expansion of empty tags and unescaping. *)
From Coq Require Import String Ascii List Bool Arith Lia.
From Verif Require Import PyBase Leaf LeafProps Xml Serial SpecSerial SerialFacts.
Import ListNotations.
Open Scope string_scope.
Open Scope list_scope.

Definition nolt (s : string) : bool := all_chars (fun c => negb (Ascii.eqb c "<")) s.
Lemma expand_skip : forall w s, expand_from (String.length w) (w ++ s)%string = expand s.
Proof. induction w as [|c w IH]; intros s; [reflexivity|]. exact (IH s). Qed.
Lemma expand_nolt : forall a b, nolt a = true -> expand (a ++ b)%string = (a ++ expand b)%string.
Proof.
  induction a as [|c a IH]; intros b H; [reflexivity|]. cbn [nolt all_chars] in H. apply andb_prop in H as [H1 H2]. unfold expand in *. cbn [append expand_from self_closing].
  rewrite negb_true_iff in H1. rewrite H1. f_equal. now apply IH.
Qed.
Lemma tag_next : forall c, tag_char c = true -> Ascii.eqb c "<" = false.
Proof. intros c. by_chars (fun c => if tag_char c then negb (Ascii.eqb c "<") else true). specialize (H c). intros E. rewrite E in H. now apply negb_true_iff. Qed.
Lemma name_nolt : forall t, good_name t -> nolt t = true.
Proof.
  intros [|c t]; [contradiction|]. intros [A B]. cbn [nolt all_chars]. by_chars (fun c => if next_char c then negb (Ascii.eqb c "<") else true). apply andb_true_iff. split.
  - specialize (H c). unfold next_char in H. now rewrite A in H.
  - revert B. apply all_weaken. intros x E. specialize (H x). now rewrite E in H.
Qed.
Lemma span_len : forall p s, s = (fst (span p s) ++ snd (span p s))%string.
Proof. induction s as [|c s IH]; [reflexivity|]. cbn [span]. destruct (p c); [|reflexivity]. destruct (span p s) as [u v]. cbn in *. now rewrite <- IH. Qed.
(** what follows the '<' of a start tag *)
Definition after_name (b : string) : Prop := match b with "" => False | String c _ => tag_char c = false end.
Lemma span_name : forall t b, after_name b -> if all_chars tag_char t then span tag_char (t ++ b)%string = (t, b)
  else exists w c r, span tag_char (t ++ b)%string = (w, String c r) /\ tag_char c = false /\ exists u v, t = (u ++ String c v)%string.
Proof.
  intros t b B. induction t as [|c t IH].
  - destruct b as [|c b]; [contradiction|]. cbn in B. cbn [all_chars append span]. now rewrite B.
  - cbn [all_chars append span]. destruct (tag_char c) eqn:E; cbn [andb].
    + destruct (all_chars tag_char t); [now rewrite IH|]. destruct IH as (w & k & r & -> & E2 & u & v & ->). exists (String c w), k, r. repeat split; auto. now exists (String c u), v.
    + exists "", c, (t ++ b)%string. repeat split; auto. now exists "", t.
Qed.
Lemma name_self : forall t b, good_name t -> after_name b ->
  self_closing (String "<" (t ++ b)) = if (all_chars tag_char t && prefix "/>" b)%bool then Some t else None.
Proof.
  intros t b G B. cbn [self_closing]. change (Ascii.eqb "<" "<") with true. cbn iota. pose proof (span_name t b B) as S. destruct (all_chars tag_char t).
  - rewrite S. destruct t; [contradiction|]. reflexivity.
  - destruct S as (w & c & r & -> & E & u & v & T). cbn [andb].
    assert (C : Ascii.eqb c "/" = false).
    { destruct (Ascii.eqb_spec c "/"); [|reflexivity]. subst c. exfalso. destruct u as [|x u]; cbn in T; subst t; destruct G as [G1 G2]; [discriminate G1|]. rewrite all_app in G2. apply andb_prop in G2 as [_ G2]. discriminate G2. }
    change (prefix "/>" (String c r)) with (if Ascii.ascii_dec "/" c then prefix ">" r else false). destruct (Ascii.ascii_dec "/" c) as [<-|]; [discriminate C|]. now rewrite andb_false_r.
Qed.
Lemma expand_tag : forall t b, good_name t -> after_name b -> (all_chars tag_char t = true -> prefix "/>" b = false) ->
  expand ("<" ++ t ++ b)%string = ("<" ++ t ++ expand b)%string.
Proof.
  intros t b G B N. unfold expand at 1. cbn [append]. cbn [expand_from]. rewrite (name_self t b G B). destruct (all_chars tag_char t); cbn [andb]; [rewrite N by reflexivity|].
  all: f_equal; apply (expand_nolt t b), name_nolt, G.
Qed.
Lemma expand_short : forall t b, good_name t -> all_chars tag_char t = true -> expand ("<" ++ t ++ "/>" ++ b)%string = ("<" ++ t ++ ">" ++ "</" ++ t ++ ">" ++ expand b)%string.
Proof.
  intros t b G T. unfold expand at 1. cbn [append]. cbn [expand_from]. rewrite name_self by (auto; reflexivity). rewrite T.
  change (prefix "/>" (String "/" (String ">" b))) with (prefix "" b). assert (P : prefix "" b = true) by now destruct b. rewrite P. cbn [andb append]. do 4 f_equal. do 3 f_equal. cbn [append]. f_equal.
  replace (t ++ String "/" (String ">" b))%string with ((t ++ "/>") ++ b)%string by now rewrite str_app_assoc.
  replace (String.length t + 2) with (String.length (t ++ "/>")%string). apply expand_skip. clear. induction t; cbn; congruence.
Qed.
Lemma expand_close : forall t b, good_name t -> expand ("</" ++ t ++ ">" ++ b)%string = ("</" ++ t ++ ">" ++ expand b)%string.
Proof.
  intros t b G. unfold expand at 1. cbn [append]. cbn [expand_from self_closing]. change (Ascii.eqb "<" "<") with true. cbn iota. cbn [span]. change (tag_char "/") with false. cbn [is_empty negb andb]. f_equal.
  change (Ascii.eqb "/" "<") with false. cbn iota. f_equal. change (expand (t ++ String ">" b)%string = (t ++ String ">" (expand b))%string).
  rewrite expand_nolt by now apply name_nolt. f_equal. 
Qed.

Lemma escape_nolt : forall q s, nolt (escape (quiet_char q) s) = true.
Proof.
  intros q. induction s as [|c s IH]; [reflexivity|]. cbn [escape]. unfold nolt in *. rewrite all_app, IH, andb_true_r. clear. revert c. destruct q.
  - intros c. by_chars (fun c => all_chars (fun c => negb (Ascii.eqb c "<")) (data_char c)). apply H.
  - intros c. by_chars (fun c => all_chars (fun c => negb (Ascii.eqb c "<")) (cdata_char c)). apply H.
Qed.
Lemma attrs_nolt : forall a, Forall (fun p => good_name (fst p) /\ good_value (snd p)) a -> nolt (cat (map (attr_text data_char) a)) = true.
Proof.
  intros a H. induction H as [|[n v] a [G _] _ IH]; [reflexivity|]. unfold cat, nolt in *. cbn [map fold_right]. rewrite all_app, IH, andb_true_r. unfold attr_text. cbn [fst snd] in *. rewrite !all_app. change (all_chars (fun c => negb (c =? "<")%char) n) with (nolt n). rewrite (name_nolt n G).
  change (all_chars (fun c => negb (c =? "<")%char) (escape data_char v)) with (nolt (escape (quiet_char true) v)). rewrite (escape_nolt true v). reflexivity.
Qed.
Lemma blanks_nolt : forall d, nolt (blanks d) = true.
Proof. induction d; [reflexivity|]. exact IHd. Qed.

(** a start tag up to but without its end *)
Lemma expand_start : forall t a b, good_name t -> Forall (fun p => good_name (fst p) /\ good_value (snd p)) a -> after_name b -> (a = [] -> all_chars tag_char t = true -> prefix "/>" b = false) ->
  expand ("<" ++ t ++ cat (map (attr_text data_char) a) ++ b)%string = ("<" ++ t ++ cat (map (attr_text data_char) a) ++ expand b)%string.
Proof.
  intros t a b G A B N. destruct a as [|p a].
  - change (cat (map (attr_text data_char) [])) with "". change ("" ++ b)%string with b. change ("" ++ expand b)%string with (expand b). apply expand_tag; auto.
  - rewrite expand_tag; [|exact G|destruct p; exact eq_refl|destruct p; reflexivity]. rewrite (expand_nolt _ b (attrs_nolt _ A)). reflexivity.
Qed.
Lemma expand_spell : forall q x, writable x -> forall d b, expand (spell false q d x ++ b)%string = (spell true q d x ++ expand b)%string.
Proof.
  intros q x. induction x as [t a s kids IH] using xml_all. intros W d b. inversion W as [? ? ? ? G A N T K]; subst. cbn [spell].
  rewrite !str_app_assoc. rewrite expand_nolt by apply blanks_nolt. f_equal.
  destruct kids as [|x kids].
  - destruct (text_or_none s) as [v|] eqn:Q.
    + rewrite !str_app_assoc. rewrite expand_start by (auto; reflexivity). do 3 f_equal. rewrite (expand_nolt ">") by reflexivity. f_equal.
      rewrite expand_nolt by apply escape_nolt. f_equal. rewrite expand_close by exact G. now rewrite (expand_nolt (str1 lf)).
    + cbn [andb]. destruct (is_nil a && all_chars tag_char t)%bool eqn:E.
      * apply andb_prop in E as [E1 E2]. destruct a; [|discriminate E1]. cbn [map cat fold_right]. rewrite !str_app_assoc. change ("" ++ "/>" ++ str1 lf ++ b)%string with ("/>" ++ str1 lf ++ b)%string. rewrite expand_short by assumption.
        rewrite (expand_nolt (str1 lf)) by reflexivity. reflexivity.
      * rewrite ?str_app_assoc. rewrite expand_start; [|exact G|exact A|reflexivity|]. 2:{ intros -> E2. rewrite E2 in E. discriminate E. }
        do 3 f_equal.
  - rewrite ?str_app_assoc. rewrite expand_start by (auto; reflexivity). do 3 f_equal. rewrite (expand_nolt ">") by reflexivity. f_equal. rewrite (expand_nolt (str1 lf)) by reflexivity. f_equal.
    rewrite expand_nolt by (destruct (text_or_none s); [apply escape_nolt|reflexivity]). f_equal.
    assert (KK : forall c, expand (cat (map (spell false q (S d)) (x :: kids)) ++ c)%string = (cat (map (spell true q (S d)) (x :: kids)) ++ expand c)%string).
    { revert IH K. generalize (x :: kids). clear. intros ks F. induction F as [|y ks Hy F IHk]; intros K c; [reflexivity|]. inversion K; subst. unfold cat in *. cbn [map fold_right]. rewrite !str_app_assoc, Hy, IHk by assumption. reflexivity. }
    rewrite KK. f_equal. rewrite expand_nolt by apply blanks_nolt. f_equal. rewrite expand_close by exact G. now rewrite (expand_nolt (str1 lf)).
Qed.

(** ** str.replace of an entity *)
Definition noamp (s : string) : bool := all_chars (fun c => negb (Ascii.eqb c "&")) s.
Definition becomes (pat rep s u : string) : Prop := forall b, replace pat rep (s ++ b)%string = (u ++ replace pat rep b)%string.
Lemma becomes_app : forall pat rep a b u v, becomes pat rep a u -> becomes pat rep b v -> becomes pat rep (a ++ b)%string (u ++ v)%string.
Proof. intros pat rep a b u v A B c. now rewrite !str_app_assoc, A, B. Qed.
Lemma becomes_cat : forall pat rep l l', Forall2 (becomes pat rep) l l' -> becomes pat rep (cat l) (cat l').
Proof. intros pat rep l l' H. induction H; [intros c; reflexivity|]. unfold cat in *. cbn [fold_right]. now apply becomes_app. Qed.
Lemma becomes_noamp : forall p rep a, noamp a = true -> becomes (String "&" p) rep a a.
Proof.
  intros p rep a. induction a as [|c a IH]; intros H b; [reflexivity|]. cbn [noamp all_chars] in H. apply andb_prop in H as [H1 H2]. specialize (IH H2 b). unfold replace in *. cbn [append replace_from].
  destruct (prefix (String "&" p) (String c (a ++ b))) eqn:E; [|now rewrite IH]. exfalso. cbn [prefix] in E. destruct (Ascii.ascii_dec "&" c) as [<-|]; [discriminate H1|discriminate E].
Qed.
Definition unquote : string -> string -> Prop := becomes "&quot;" (str1 quote).
Definition unapos : string -> string -> Prop := becomes "&apos;" (str1 (chr 39)).
Lemma cdata_special : forall c, cdata_char c = str1 c /\ Ascii.eqb c "&" = false \/ In (cdata_char c) ["&amp;"; "&lt;"; "&gt;"].
Proof.
  intros c. unfold cdata_char. destruct (Ascii.eqb c "&") eqn:E; [right; cbn; auto|]. destruct (Ascii.eqb c "<"); [right; cbn; auto|]. destruct (Ascii.eqb c ">"); [right; cbn; auto|]. now left.
Qed.
Lemma cdata_unquote : forall c, unquote (cdata_char c) (cdata_char c).
Proof. intros c. destruct (cdata_special c) as [[-> E]|I]; [apply becomes_noamp; cbn; now rewrite E|]. destruct I as [<-|[<-|[<-|[]]]]; intros b; reflexivity. Qed.
Lemma cdata_unapos : forall c, unapos (cdata_char c) (cdata_char c).
Proof. intros c. destruct (cdata_special c) as [[-> E]|I]; [apply becomes_noamp; cbn; now rewrite E|]. destruct I as [<-|[<-|[<-|[]]]]; intros b; reflexivity. Qed.
Lemma text_unquote : forall s, unquote (escape (quiet_char true) s) (escape (quiet_char false) s).
Proof.
  induction s as [|c s IH]; [intros b; reflexivity|]. cbn [escape]. apply becomes_app; [|exact IH]. cbn [quiet_char]. unfold data_char. destruct (Ascii.eqb_spec c quote) as [->|]; [|apply cdata_unquote]. intros [|k b]; reflexivity.
Qed.
Lemma text_unapos : forall s, unapos (escape (quiet_char false) s) (escape (quiet_char false) s).
Proof. induction s as [|c s IH]; [intros b; reflexivity|]. cbn [escape]. apply becomes_app; [|exact IH]. apply cdata_unapos. Qed.
Definition no_quote (s : string) : Prop := all_chars (fun c => negb (char_in [34] c)) s = true.
Lemma plain_value : forall s, no_quote s -> escape data_char s = escape (quiet_char false) s.
Proof.
  induction s as [|c s IH]; [reflexivity|]. unfold no_quote. cbn [all_chars escape]. intros H. apply andb_prop in H as [H1 H2]. rewrite IH by exact H2. f_equal. cbn [quiet_char]. unfold data_char.
  destruct (Ascii.eqb_spec c quote) as [->|]; [discriminate H1|reflexivity].
Qed.
Lemma name_noamp : forall t, good_name t -> noamp t = true.
Proof.
  intros [|c t]; [contradiction|]. intros [A B]. cbn [noamp all_chars]. by_chars (fun c => if next_char c then negb (Ascii.eqb c "&") else true). apply andb_true_iff. split.
  - specialize (H c). unfold next_char in H. now rewrite A in H.
  - revert B. apply all_weaken. intros x E. specialize (H x). now rewrite E in H.
Qed.
Lemma blanks_noamp : forall d, noamp (blanks d) = true.
Proof. induction d; [reflexivity|]. exact IHd. Qed.

Lemma attr_becomes : forall p rep, (forall s, becomes (String "&" p) rep (escape (quiet_char false) s) (escape (quiet_char false) s)) ->
  forall a, Forall (fun q => good_name (fst q) /\ good_value (snd q)) a -> Forall (fun q => no_quote (snd q)) a -> becomes (String "&" p) rep (cat (map (attr_text data_char) a)) (cat (map (attr_text data_char) a)).
Proof.
  intros p rep T a G N. apply becomes_cat. induction G as [|[n v] a [G _] _ IH]; inversion N; subst; constructor; [|now apply IH]. unfold attr_text. cbn [fst snd] in *. rewrite plain_value by assumption.
  repeat apply becomes_app; try (apply becomes_noamp; reflexivity); [now apply becomes_noamp, name_noamp|apply T].
Qed.
Lemma spell_becomes : forall p rep q q' ex, (forall s, becomes (String "&" p) rep (escape (quiet_char false) s) (escape (quiet_char false) s)) -> (forall s, becomes (String "&" p) rep (escape (quiet_char q) s) (escape (quiet_char q') s)) ->
  forall x, writable x -> unquoted x -> forall d, becomes (String "&" p) rep (spell ex q d x) (spell ex q' d x).
Proof.
  intros p rep q q' ex T0 T1 x. induction x as [t a s kids IH] using xml_all. intros W U d. inversion W as [? ? ? ? G A N T K]; subst. inversion U as [? ? ? ? UA UK]; subst. cbn [spell].
  assert (GN : becomes (String "&" p) rep t t) by now apply becomes_noamp, name_noamp. assert (GA : becomes (String "&" p) rep (cat (map (attr_text data_char) a)) (cat (map (attr_text data_char) a))) by now apply attr_becomes.
  assert (GB : forall d, becomes (String "&" p) rep (blanks d) (blanks d)) by (intros; apply becomes_noamp, blanks_noamp).
  assert (GK : becomes (String "&" p) rep (cat (map (spell ex q (S d)) kids)) (cat (map (spell ex q' (S d)) kids))).
  { apply becomes_cat. clear - IH K UK. induction IH; inversion K; inversion UK; subst; constructor; auto. }
  destruct kids as [|x kids]; [destruct (text_or_none s) as [v|]; [|destruct (ex && is_nil a && all_chars tag_char t)%bool]|destruct (text_or_none s) as [v|]].
  all: repeat first [assumption | apply T1 | apply GB | apply becomes_app]; apply becomes_noamp; reflexivity.
Qed.
Lemma quiet_unquote : forall s, unquote (escape (quiet_char false) s) (escape (quiet_char false) s).
Proof. induction s as [|c s IH]; [intros b; reflexivity|]. cbn [escape]. apply becomes_app; [|exact IH]. apply cdata_unquote. Qed.
Lemma becomes_all : forall pat rep s u, becomes pat rep s u -> replace pat rep s = u.
Proof. intros pat rep s u H. specialize (H ""). rewrite !str_app_nil in H. exact H. Qed.
Lemma spell_unescape : forall x, writable x -> unquoted x ->
  replace "&apos;" (str1 (chr 39)) (replace "&quot;" (str1 quote) (declaration ++ spell true true 0 x)%string) = (declaration ++ spell true false 0 x)%string.
Proof.
  intros x W U. rewrite (becomes_all "&quot;" _ _ (declaration ++ spell true false 0 x)%string).
  - apply becomes_all. apply becomes_app; [now apply becomes_noamp|]. apply spell_becomes; [exact text_unapos|exact text_unapos|exact W|exact U].
  - apply becomes_app; [now apply becomes_noamp|]. apply spell_becomes; [exact quiet_unquote|exact text_unquote|exact W|exact U].
Qed.

(** ** saving and loading *)
Definition no_cr (s : string) : bool := all_chars (fun c => negb (Ascii.eqb c cr)) s.
Lemma newlines_id : forall s, no_cr s = true -> newlines s = s.
Proof.
  induction s as [|c s IH]; [reflexivity|]. cbn [no_cr all_chars newlines]. intros H. apply andb_prop in H as [H1 H2]. apply negb_true_iff in H1. rewrite H1. now rewrite (IH H2).
Qed.
Lemma name_no_cr : forall t, good_name t -> no_cr t = true.
Proof.
  intros [|c t]; [contradiction|]. intros [A B]. cbn [no_cr all_chars]. by_chars (fun c => if next_char c then negb (Ascii.eqb c cr) else true). apply andb_true_iff. split.
  - specialize (H c). unfold next_char in H. now rewrite A in H.
  - revert B. apply all_weaken. intros x E. specialize (H x). now rewrite E in H.
Qed.
Lemma no_cr_app : forall a b, no_cr a = true -> no_cr b = true -> no_cr (a ++ b)%string = true.
Proof. intros a b A B. unfold no_cr in *. now rewrite all_app, A, B. Qed.
Lemma no_cr_cat : forall l, Forall (fun s => no_cr s = true) l -> no_cr (cat l) = true.
Proof. intros l H. induction H; [reflexivity|]. unfold cat in *. cbn [fold_right]. now apply no_cr_app. Qed.
Lemma escape_no_cr : forall f s, (forall c, c <> cr -> no_cr (f c) = true) -> no_cr s = true -> no_cr (escape f s) = true.
Proof.
  intros f s F. induction s as [|c s IH]; [reflexivity|]. cbn [no_cr all_chars escape]. intros H. apply andb_prop in H as [H1 H2]. apply no_cr_app; [|now apply IH]. apply F. intros ->. discriminate H1.
Qed.
Lemma cdata_no_cr : forall c, c <> cr -> no_cr (cdata_char c) = true.
Proof. intros c N. by_chars (fun c => (Ascii.eqb c cr || no_cr (cdata_char c))%bool). specialize (H c). destruct (Ascii.eqb_spec c cr); [contradiction|exact H]. Qed.
Lemma data_no_cr : forall c, c <> cr -> no_cr (data_char c) = true.
Proof. intros c N. by_chars (fun c => (Ascii.eqb c cr || no_cr (data_char c))%bool). specialize (H c). destruct (Ascii.eqb_spec c cr); [contradiction|exact H]. Qed.
Lemma attrib_no_cr : forall c, c <> cr -> no_cr (attrib_char c) = true.
Proof. intros c N. by_chars (fun c => (Ascii.eqb c cr || no_cr (attrib_char c))%bool). specialize (H c). destruct (Ascii.eqb_spec c cr); [contradiction|exact H]. Qed.
Lemma text_no_cr : forall s, good_text s -> no_cr s = true.
Proof. intros s. apply all_weaken. intros c. by_chars (fun c => if (printable c || char_in [9; 10] c)%bool then negb (Ascii.eqb c cr) else true). specialize (H c). intros E. now rewrite E in H. Qed.
Lemma value_no_cr : forall s, good_value s -> no_cr s = true.
Proof. intros s. apply all_weaken. intros c. by_chars (fun c => if printable c then negb (Ascii.eqb c cr) else true). specialize (H c). intros E. now rewrite E in H. Qed.
Lemma attrs_no_cr : forall f a, (forall c, c <> cr -> no_cr (f c) = true) -> Forall (fun p => good_name (fst p) /\ good_value (snd p)) a -> no_cr (cat (map (attr_text f) a)) = true.
Proof.
  intros f a F H. apply no_cr_cat. induction H as [|[n v] a [G V] _ IH]; constructor; [|exact IH]. unfold attr_text. cbn [fst snd] in *.
  repeat apply no_cr_app; try reflexivity; [now apply name_no_cr|apply escape_no_cr; [exact F|now apply value_no_cr]].
Qed.
Lemma blanks_no_cr : forall d, no_cr (blanks d) = true.
Proof. induction d; [reflexivity|]. exact IHd. Qed.
Lemma et_no_cr : forall x, writable x -> no_cr (et_text x) = true.
Proof.
  intros x. induction x as [t a s kids IH] using xml_all. intros W. inversion W as [? ? ? ? G A N T K]; subst. cbn [et_text].
  repeat apply no_cr_app; try reflexivity; try (now apply name_no_cr).
  - apply attrs_no_cr; [exact attrib_no_cr|exact A].
  - destruct s as [v|]; [|reflexivity]. apply escape_no_cr; [exact cdata_no_cr|]. now apply text_no_cr, T.
  - apply no_cr_cat. clear - IH K. induction IH; inversion K; subst; constructor; auto.
Qed.
Lemma quiet_no_cr : forall q c, c <> cr -> no_cr (quiet_char q c) = true.
Proof. intros []; [exact data_no_cr|exact cdata_no_cr]. Qed.
Lemma spell_no_cr : forall ex q x, writable x -> forall d, no_cr (spell ex q d x) = true.
Proof.
  intros ex q x. induction x as [t a s kids IH] using xml_all. intros W d. inversion W as [? ? ? ? G A N T K]; subst. cbn [spell].
  assert (GN : no_cr t = true) by now apply name_no_cr. assert (GA := attrs_no_cr data_char a data_no_cr A). assert (GB := blanks_no_cr).
  assert (GT : forall v, text_or_none s = Some v -> no_cr v = true). { intros v Q. apply text_no_cr, T. destruct s as [[|]|]; cbn in Q; congruence. }
  assert (GE : forall v, no_cr v = true -> no_cr (escape (quiet_char q) v) = true) by (intros; apply escape_no_cr; [apply quiet_no_cr|assumption]).
  assert (GK : no_cr (cat (map (spell ex q (S d)) kids)) = true). { apply no_cr_cat. clear - IH K. induction IH; inversion K; subst; constructor; auto. }
  destruct kids as [|x kids]; [destruct (text_or_none s) as [v|]; [|destruct (ex && is_nil a && all_chars tag_char t)%bool]|destruct (text_or_none s) as [v|]].
  all: repeat first [assumption | reflexivity | apply GB | now apply GT | apply GE | apply no_cr_app].
Qed.

Lemma load_spell : forall ex q x, writable x -> load_tree (declaration ++ spell ex q 0 x)%string = Some (reload 0 x).
Proof.
  intros ex q x W. unfold load_tree, parse. rewrite newlines_id by (apply no_cr_app; [reflexivity|now apply spell_no_cr]).
  replace (skip_decl (declaration ++ spell ex q 0 x)) with (str1 lf ++ spell ex q 0 x)%string by reflexivity. rewrite prun_app.
  change (prun (str1 lf) (mkP (MText "") [] None)) with (Some (mkP (MText (str1 lf)) [] None)). cbn [obind'].
  destruct (spell_run ex q x W 0 (str1 lf) [] None) as (n & E1 & E2); [now split|]. rewrite E1, flushed_nil. cbn [pushed p_mode p_open p_root]. exact E2.
Qed.
Lemma parse_et : forall decl x, writable x -> parse (et_document decl x) = Some (dom x).
Proof.
  intros decl x W. unfold parse, et_document. rewrite newlines_id by (apply no_cr_app; [destruct decl; reflexivity|now apply et_no_cr]).
  assert (E : exists w, all_chars is_ws w = true /\ prun (skip_decl ((if decl then "<?xml version='1.0' encoding='UTF-8'?>" ++ str1 lf else "") ++ et_text x)) (mkP (MText "") [] None) = prun (et_text x) (mkP (MText w) [] None)).
  { destruct decl; [exists (str1 lf); split; reflexivity|]. exists "". split; [reflexivity|]. cbn [append]. destruct x as [t a s kids]. inversion W as [? ? ? ? G A N T K]; subst. destruct t as [|c t]; [contradiction|]. destruct G as [G _].
    cbn [et_text append]. unfold skip_decl. set (rest := String.append t _). assert (E : prefix "<?xml " (String "<" (String c rest)) = false); [|now rewrite E].
    change (prefix "<?xml " (String "<" (String c rest))) with (if Ascii.ascii_dec "?" c then prefix "xml " rest else false). destruct (Ascii.ascii_dec "?" c) as [<-|]; [discriminate G|reflexivity]. }
  destruct E as (w & E1 & ->). rewrite et_run by (auto; now split). rewrite flushed_nil. reflexivity.
Qed.
