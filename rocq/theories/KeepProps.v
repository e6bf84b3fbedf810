(** Soundness of the analysis of Keep.v. *)
From Coq Require Import String Ascii List Bool Arith Lia.
From Verif Require Import PyBase Primitives Xml Leaf ClassTable Ir Access ReaderCode IrSem SpecKeep Keep.
Import ListNotations.
Open Scope string_scope.
Open Scope list_scope.

Lemma done_bind : forall A B (a : out A) (f : A -> out B) b, obind a f = Done b -> exists x, a = Done x /\ f x = Done b.
Proof. intros A B [x| | |] f b H; try discriminate. now exists x. Qed.
Ltac step H x E := apply done_bind in H; destruct H as (x & E & H).

Lemma assoc_set : forall fs f v g, assoc g (set_assoc fs f v) = if String.eqb g f then Some v else assoc g fs.
Proof.
  induction fs as [|[k w] fs IH]; intros f v g; cbn [set_assoc assoc].
  - reflexivity.
  - destruct (String.eqb_spec f k) as [Q|N]; cbn [assoc].
    + subst. destruct (String.eqb g k); reflexivity.
    + rewrite IH. destruct (String.eqb_spec g k) as [Q|M]; [|reflexivity]. subst.
      destruct (String.eqb_spec k f); [congruence|reflexivity].
Qed.
Lemma init_obj : forall c, exists fs, init c = VObj c fs.
Proof. intros c. unfold init. cbn [init_val]. eexists. reflexivity. Qed.
Lemma new_obj : forall (b : bool) c n, exists fs, (if b then named_init c n else init c) = VObj c fs.
Proof. intros [|] c n; [|apply init_obj]. unfold named_init. destruct (init_obj c) as (fs & ->). eexists. reflexivity. Qed.

(** *** the class of the object stays *)
Definition same_class (o o' : val) : Prop := match o with VObj c _ => exists fs, o' = VObj c fs | _ => True end.
Lemma same_refl : forall o, same_class o o.
Proof. intros [| | |c fs|]; cbn; trivial. now exists fs. Qed.
Lemma same_trans : forall a b c, same_class a b -> same_class b c -> same_class a c.
Proof. intros [| | |c fs|] b d; cbn; trivial. intros (gs & ->). cbn. trivial. Qed.
Lemma same_set : forall o f v, same_class o (set_field o f v).
Proof. intros [| | |c fs|] f v; cbn; trivial. eexists. reflexivity. Qed.
Lemma put_same : forall o m v o', put1 o m v = Done o' -> same_class o o'.
Proof.
  intros [| | |c fs|] m v o' H; cbn [same_class]; trivial. cbn [put1] in H. destruct (access_of c m) as [[f|f|f g|f g|d nm p]|]; try discriminate H.
  - injection H as <-. destruct (g && _); [now exists fs|]. cbn [set_field]. eexists; reflexivity.
  - destruct (g && _); [injection H as <-; now exists fs|]. destruct (assoc f fs) as [[]|]; try discriminate H. injection H as <-. cbn [set_field]. eexists; reflexivity.
Qed.
Lemma store_same : forall o p w o', store o p w = Done o' -> same_class o o'.
Proof.
  intros [| | |c fs|] p w o' H; cbn [same_class]; trivial. cbn [store] in H.
  destruct (match field w "short_name" with Some (VStr n) => existsb (name_is n) (children (VObj c fs)) | _ => false end); [discriminate H|].
  destruct p as [f|f]; destruct (assoc f fs) as [[]|]; try discriminate H; injection H as <-; cbn [set_field]; eexists; reflexivity.
Qed.
Lemma attrs_same : forall o x o', read_attrs o x = Done o' -> same_class o o'.
Proof.
  intros [| | |c fs|] x o' H; cbn [same_class]; trivial. cbn [read_attrs] in H. injection H as <-.
  cbn [set_field]. eexists. reflexivity.
Qed.

Section Run.
Context (warn : bool).

Lemma fold_same : forall A (g : A -> val -> out val) l o o', (forall a s s', g a s = Done s' -> same_class s s') ->
  fold_out g l o = Done o' -> same_class o o'.
Proof.
  intros A g l. induction l as [|a l IH]; intros o o' K H; cbn [fold_out] in H; [injection H as <-; apply same_refl|].
  step H s E. eapply same_trans; [exact (K _ _ _ E)|]. exact (IH _ _ K H).
Qed.
Lemma run_same : forall n code key x it o o', rrun warn n code key x it o = Done o' -> same_class o o'.
Proof.
  induction n as [|n IH]; intros code key x it o o' H; [discriminate H|]. destruct code as [|i rest]; cbn [rrun] in H.
  { injection H as <-. apply same_refl. }
  step H o1 E. apply same_trans with o1; [|exact (IH _ _ _ _ _ _ H)]. clear H rest.
  destruct i as [|m v|m gs v|a v|f t|m nm b|p a b|p b|v b|c a b|g b|e soft|].
  - exact (attrs_same _ _ _ E).
  - step E w Ev. exact (put_same _ _ _ _ E).
  - step E w Ev. step E t Et. destruct t; [exact (put_same _ _ _ _ E)|injection E as <-; apply same_refl].
  - step E w Ev. destruct o as [| | |c fs|]; try discriminate E. injection E as <-. exact (same_set (VObj c fs) a w).
  - destruct (assoc f rfuns) as [[b r]|]; [|discriminate E]. step E o2 E2. apply IH in E2. destruct r as [r|]; [step E w Ew|]; injection E as <-; exact E2.
  - destruct o as [| | |c fs|]; try discriminate E. destruct (access_of c m) as [[f|f|f g|f g|c' named' p]|]; try discriminate E.
    destruct (negb (Bool.eqb nm named')); [discriminate E|]. step E nv En. step E w Ew. exact (store_same _ _ _ _ E).
  - destruct (find (rkey key p) x); exact (IH _ _ _ _ _ _ E).
  - apply fold_same in E; [exact E|]. intros a s s'. apply IH.
  - step E w Ew. destruct w; try discriminate E. apply fold_same in E; [exact E|]. intros a s s'. apply IH.
  - step E t Et. exact (IH _ _ _ _ _ _ E).
  - destruct o as [| | |c fs|]; try discriminate E; try (destruct g; discriminate E). destruct g as [m|f].
    + destruct (access_of c m) as [[f|f|f g|f g|c' named' p]|]; try discriminate E. destruct (assoc f fs); [|discriminate E]. step E w Ew. injection E as <-. exact (same_set (VObj c fs) f w).
    + destruct (assoc f fs); [|discriminate E]. step E w Ew. injection E as <-. exact (same_set (VObj c fs) f w).
  - destruct (soft && warn); [injection E as <-; apply same_refl|discriminate E].
  - discriminate E.
Qed.

(** *** what is made of an element *)
Definition made (n : nat) (d : disp) (y : xml) (w : val) : Prop :=
  exists cl nm b k ky it m s, pick d (xtag y) = Some (cl, nm, b, k) /\ fits k ky /\ m < n /\ (nm = true -> short_name y = Ok s) /\
    rrun warn m b ky y it (if nm then named_init cl (of_opt_str s) else init cl) = Done w.
Lemma made_more : forall n m d y w, n <= m -> made n d y w -> made m d y w.
Proof. intros n m d y w L (cl & nm & b & k & ky & it & j & s & A & B & C & D & E). exists cl, nm, b, k, ky, it, j, s. repeat split; auto. lia. Qed.
Lemma all_more : forall n m d ys ws, n <= m -> Forall2 (made n d) ys ws -> Forall2 (made m d) ys ws.
Proof. intros n m d ys ws L F. induction F; constructor; eauto using made_more. Qed.
Lemma made_obj : forall n d y w, made n d y w -> exists c fs, w = VObj c fs.
Proof.
  intros n d y w (cl & nm & b & k & ky & it & j & s & A & B & C & D & E). apply run_same in E.
  destruct (new_obj nm cl (of_opt_str s)) as (fs & Q). rewrite Q in E. destruct E as (gs & ->). eauto.
Qed.

Definition gained (n : nat) (f : string) (g : gain) (x : xml) (fs fs' : list (string * val)) : Prop :=
  forall w0, assoc f fs = Some w0 -> (g_once g = true -> w0 = VNone) -> exists w1 ws,
    assoc f fs' = Some w1 /\ items_of w1 = items_of w0 ++ ws /\ Forall2 (made n (g_disp g)) (picked (g_steps g) (g_disp g) x) ws.
Definition sound (n : nat) (e : option (option gain)) (f : string) (x : xml) (fs fs' : list (string * val)) : Prop :=
  match e with None => True | Some None => assoc f fs' = assoc f fs | Some (Some g) => gained n f g x fs fs' end.
Lemma gained_more : forall n m f g x fs fs', n <= m -> gained n f g x fs fs' -> gained m f g x fs fs'.
Proof. intros n m f g x fs fs' L G w0 A O. destruct (G w0 A O) as (w1 & ws & B & C & D). exists w1, ws. eauto using all_more. Qed.
Lemma sound_more : forall n m e f x fs fs', n <= m -> sound n e f x fs fs' -> sound m e f x fs fs'.
Proof. intros n m [[g|]|] f x fs fs' L; cbn; trivial. apply gained_more, L. Qed.
Lemma sound_seq : forall n e1 e2 f x fs fs1 fs2, sound n e1 f x fs fs1 -> sound n e2 f x fs1 fs2 -> sound n (seq e1 e2) f x fs fs2.
Proof.
  intros n [[g|]|] [[h|]|] f x fs fs1 fs2; cbn; trivial; intros A B.
  - intros w0 Q O. destruct (A w0 Q O) as (w1 & ws & C & D & E). exists w1, ws. rewrite B. auto.
  - intros w0 Q O. apply B; [|exact O]. now rewrite A.
  - now rewrite B.
Qed.

Lemma filter_flat : forall A B (p : B -> bool) (h : A -> list B) l, filter p (flat_map h l) = flat_map (fun a => filter p (h a)) l.
Proof. intros A B p h. induction l as [|a l IH]; [reflexivity|]. cbn [flat_map]. now rewrite filter_app, IH. Qed.
Lemma picked_all : forall A q st (d : list (string * A)) x, picked (All q :: st) d x = flat_map (picked st d) (findall q x).
Proof. intros. unfold picked. cbn [select]. apply filter_flat. Qed.
Lemma picked_first : forall A q st (d : list (string * A)) x, picked (First q :: st) d x = match find q x with Some y => picked st d y | None => [] end.
Proof. intros. unfold picked. cbn [select]. destruct (find q x); reflexivity. Qed.
Lemma picked_self : forall A (d : list (string * A)) x, picked [] d x = match pick d (xtag x) with Some _ => [x] | None => [] end.
Proof. intros. unfold picked. cbn [select filter]. destruct (pick d (xtag x)); reflexivity. Qed.

Lemma rtag_fits : forall key ky x t, fits key ky -> fits (akey key t) (rtag ky x t).
Proof. intros key ky x [[s| |]|] F; cbn; trivial. Qed.
Lemma path_fits : forall key ky p q, fits key ky -> apath key p = Some q -> rkey ky p = q.
Proof. intros [k|] ky [s| |s] q F; cbn in *; intros H; try discriminate H; injection H as <-; now try rewrite F. Qed.

Definition look (g : string) : option (list ri * option vx) := assoc g rfuns.

Lemma gif_spec : forall t a b st d, gif t a b = Some (st, d) -> exists da db e, a = Some ([], da) /\ b = Some ([], db) /\ pick da t = Some e /\ st = [] /\ d = (t, e) :: db /\ t <> "*".
Proof.
  intros t [[[|s sa] da]|] [[[|s' sb] db]|] st d H; cbn in H; try discriminate H.
  destruct (String.eqb_spec t "*") as [Q|N]; [discriminate H|]. destruct (pick da t) as [e|] eqn:E; [|discriminate H].
  injection H as <- <-. exists da, db, e. auto 10.
Qed.
(** running the branch chosen by the tag *)
Lemma made_then : forall n t da db e x ws, xtag x = t -> pick da t = Some e -> Forall2 (made n da) (picked [] da x) ws ->
  Forall2 (made n ((t, e) :: db)) (picked [] ((t, e) :: db) x) ws.
Proof.
  intros n t da db e x ws T P F. rewrite picked_self in *. cbn [pick]. rewrite T, String.eqb_refl in *. cbn [orb]. rewrite P in F.
  inversion F as [|? w ? r M R]; subst. inversion R; subst. constructor; [|constructor].
  destruct M as (cl & nm & b & k & ky & it & m & s & A & B). exists cl, nm, b, k, ky, it, m, s. split; [|exact B].
  cbn [pick]. rewrite String.eqb_refl. cbn [orb]. rewrite <- A. now rewrite P.
Qed.
Lemma made_else : forall n t db e x ws, xtag x <> t -> t <> "*" -> Forall2 (made n db) (picked [] db x) ws ->
  Forall2 (made n ((t, e) :: db)) (picked [] ((t, e) :: db) x) ws.
Proof.
  intros n t db e x ws T S F. rewrite picked_self in *. cbn [pick] in *.
  destruct (String.eqb_spec t (xtag x)) as [Q|_]; [congruence|]. destruct (String.eqb_spec t "*") as [Q|_]; [congruence|]. cbn [orb].
  destruct (pick db (xtag x)) eqn:P; [|inversion F; constructor].
  inversion F as [|? w ? r M R]; subst. inversion R; subst. constructor; [|constructor].
  destruct M as (cl & nm & b & k & ky & it & m & s & A & B). exists cl, nm, b, k, ky, it, m, s. split; [|exact B].
  cbn [pick]. destruct (String.eqb_spec t (xtag x)) as [Q|_]; [congruence|]. destruct (String.eqb_spec t "*") as [Q|_]; [congruence|]. exact A.
Qed.

(** *** values *)
Definition VS (n : nat) : Prop := forall k key v ky x it o w st d, fits key ky -> vrun warn n v ky x it o = Done w ->
  vgain look k key v = Some (st, d) -> (w = VNone \/ exists c fs, w = VObj c fs) /\ Forall2 (made n d) (picked st d x) (items_of w).
Lemma vs_more : forall n m d ys w, n <= m -> (w = VNone \/ exists c fs, w = VObj c fs) /\ Forall2 (made n d) ys (items_of w) ->
  (w = VNone \/ exists c fs, w = VObj c fs) /\ Forall2 (made m d) ys (items_of w).
Proof. intros n m d ys w L [A B]. split; [exact A|exact (all_more _ _ _ _ _ L B)]. Qed.

Lemma VS_all : forall n, VS n.
Proof.
  induction n as [|n IH]; intros k key v ky x it o w st d F H G; [discriminate H|]. destruct k as [|k]; [discriminate G|].
  destruct v; cbn [vgain] in G; try discriminate G; cbn [vrun] in H.
  - injection G as <- <-. injection H as <-. split; [now left|]. rewrite picked_self. constructor.
  - injection G as <- <-. step H nv E.
    assert (NV : exists s, (named = true -> short_name x = Ok s) /\ (named = true -> nv = of_opt_str s)).
    { destruct named; [|exists None; split; discriminate]. step E s Es. injection E as <-. exists s. split; [|reflexivity].
      intros _. destruct (short_name x); cbn in Es; [injection Es as <-; reflexivity|discriminate Es]. }
    destruct NV as (s & N1 & N2).
    assert (M : made (S n) [("*", (c, named, b, key))] x w).
    { exists c, named, b, key, ky, it, n, s. split; [cbn [pick]; now rewrite orb_true_r|]. split; [exact F|]. split; [lia|]. split; [exact N1|].
      destruct named; [rewrite <- N2 by reflexivity|]; exact H. }
    destruct (made_obj _ _ _ _ M) as (c' & fs & ->). split; [right; eauto|]. rewrite picked_self. cbn [pick]. rewrite orb_true_r. constructor; [exact M|constructor].
  - unfold look in G. destruct (assoc f rfuns) as [[b [r|]]|]; try discriminate G. step H o1 E.
    exact (vs_more n (S n) _ _ _ (Nat.le_succ_diag_r n) (IH _ _ _ _ _ _ _ _ _ _ (rtag_fits key ky x t F) H G)).
  - destruct v2; try discriminate G. destruct (apath key p) as [q|] eqn:P; [|discriminate G]. destruct (vgain look k key v1) as [[st' d']|] eqn:V; [|discriminate G].
    injection G as <- <-. rewrite picked_first. rewrite (path_fits _ _ _ _ F P) in H. destruct (find q x) as [y|].
    + exact (vs_more n (S n) _ _ _ (Nat.le_succ_diag_r n) (IH _ _ _ _ _ _ _ _ _ _ F H V)).
    + destruct n as [|n']; [discriminate H|]. injection H as <-. split; [now left|constructor].
  - destruct c; try discriminate G. destruct (gif_spec _ _ _ _ _ G) as (da & db & e & VA & VB & P & -> & -> & ST).
    step H t E. destruct n as [|n']; [discriminate E|]. injection E as <-.
    apply (vs_more (S n') (S (S n'))); [lia|]. destruct (String.eqb_spec (xtag x) s) as [Q|N].
    + destruct (IH _ _ _ _ _ _ _ _ _ _ F H VA) as [A B]. split; [exact A|]. exact (made_then _ _ _ _ _ _ _ Q P B).
    + destruct (IH _ _ _ _ _ _ _ _ _ _ F H VB) as [A B]. split; [exact A|]. exact (made_else _ _ _ _ _ _ N ST B).
Qed.

(** *** statements *)
Definition RS (n : nat) : Prop := forall k c f key code ky x it fs o', fits key ky -> rrun warn n code ky x it (VObj c fs) = Done o' ->
  exists fs', o' = VObj c fs' /\ sound n (eff look (access_of c) f k key code) f x fs fs'.

Lemma other_set : forall n g f x fs v, sound n (other f g) f x fs (set_assoc fs g v).
Proof.
  intros n g f x fs v. unfold other. destruct (String.eqb_spec g f) as [Q|N]; [exact I|]. cbn [sound]. rewrite assoc_set.
  destruct (String.eqb_spec f g); [congruence|reflexivity].
Qed.
Lemma other_same : forall n g f x fs, sound n (other f g) f x fs fs.
Proof. intros n g f x fs. unfold other. destruct (String.eqb g f); [exact I|reflexivity]. Qed.
Lemma none_set : forall n g f x fs v, String.eqb g f = false -> sound n (Some None) f x fs (set_assoc fs g v).
Proof.
  intros n g f x fs v E. cbn [sound]. rewrite assoc_set. destruct (String.eqb_spec f g) as [Q|_]; [|reflexivity]. subst. rewrite String.eqb_refl in E. discriminate E.
Qed.
Lemma set_gain : forall n f x fs v st d, (v = VNone \/ exists c gs, v = VObj c gs) /\ Forall2 (made n d) (picked st d x) (items_of v) ->
  gained n f (mkGain true st d) x fs (set_assoc fs f v).
Proof.
  intros n f x fs v st d [A B] w0 Q O. cbn [g_once g_steps g_disp] in *. exists v, (items_of v). rewrite assoc_set, String.eqb_refl.
  rewrite (O eq_refl). auto.
Qed.
Lemma put_gain : forall n c f m v fs st d w ky it x key k, VS n -> fits key ky -> vrun warn n v ky x it (VObj c fs) = Done w ->
  forall gd, access_of c m = Some (ASet f gd) -> vgain look k key v = Some (st, d) ->
  forall o', put1 (VObj c fs) m w = Done o' -> exists fs', o' = VObj c fs' /\ gained n f (mkGain true st d) x fs fs'.
Proof.
  intros n c f m v fs st d w ky it x key k HV F H gd A G o' E. pose proof (HV _ _ _ _ _ _ _ _ _ _ F H G) as S1. cbn [put1] in E. rewrite A in E. injection E as <-.
  destruct (gd && match w with VNone => true | _ => false end) eqn:B.
  - exists fs. split; [reflexivity|]. intros w0 Q O. cbn [g_once g_steps g_disp] in *. exists w0, []. rewrite app_nil_r. split; [exact Q|]. split; [reflexivity|].
    apply andb_true_iff in B. destruct B as [_ B]. destruct w; try discriminate B. exact (proj2 S1).
  - cbn [set_field]. eexists. split; [reflexivity|]. exact (set_gain _ _ _ _ _ _ _ S1).
Qed.
Lemma total_self : forall st d x, total st d = true -> picked st d x = [x].
Proof.
  intros [|s st] [|[t e] [|p d]] x H; cbn in H; try discriminate H. apply String.eqb_eq in H. subst. rewrite picked_self. cbn [pick]. now rewrite orb_true_r.
Qed.
Lemma add_gain : forall n c f m v fs st d w ky it x key k, VS n -> fits key ky -> vrun warn n v ky x it (VObj c fs) = Done w ->
  forall gd, access_of c m = Some (AAdd f gd) -> vgain look k key v = Some (st, d) -> gd || total st d = true ->
  forall o', put1 (VObj c fs) m w = Done o' -> exists fs', o' = VObj c fs' /\ gained n f (mkGain false st d) x fs fs'.
Proof.
  intros n c f m v fs st d w ky it x key k HV F H gd A G T o' E. destruct (HV _ _ _ _ _ _ _ _ _ _ F H G) as [S1 S2]. cbn [put1] in E. rewrite A in E.
  destruct (gd && match w with VNone => true | _ => false end) eqn:B.
  - injection E as <-. exists fs. split; [reflexivity|]. intros w0 Q O. cbn [g_once g_steps g_disp] in *. exists w0, []. rewrite app_nil_r. split; [exact Q|]. split; [reflexivity|].
    apply andb_true_iff in B. destruct B as [_ B]. destruct w; try discriminate B. exact S2.
  - destruct (assoc f fs) as [[| | | |l]|] eqn:Q; try discriminate E. injection E as <-. cbn [set_field]. eexists. split; [reflexivity|].
    intros w0 Q' O. cbn [g_once g_steps g_disp] in *. rewrite Q in Q'. injection Q' as <-. exists (VList (l ++ [w])), [w]. rewrite assoc_set, String.eqb_refl.
    split; [reflexivity|]. split; [reflexivity|]. destruct S1 as [->|(c' & gs & ->)]; [|exact S2].
    exfalso. destruct gd; [discriminate B|]. cbn [orb] in T. rewrite (total_self _ _ _ T) in S2. inversion S2.
Qed.

Lemma loop_none : forall n c f b key k ky it, RS n -> fits key ky -> eff look (access_of c) f k key b = Some None ->
  forall l fs o', fold_out (fun y s => rrun warn n b ky y it s) l (VObj c fs) = Done o' -> exists fs', o' = VObj c fs' /\ assoc f fs' = assoc f fs.
Proof.
  intros n c f b key k ky it HR F G l. induction l as [|y l IH]; intros fs o' E; cbn [fold_out] in E; [injection E as <-; eauto|].
  step E s E1. destruct (HR k c f key b ky y it fs s F E1) as (fs1 & -> & S1). rewrite G in S1. cbn [sound] in S1.
  destruct (IH fs1 o' E) as (fs2 & -> & S2). exists fs2. split; [reflexivity|]. now rewrite S2.
Qed.
Lemma loop_vals : forall n c f b key k ky x, RS n -> fits key ky -> eff look (access_of c) f k key b = Some None ->
  forall l fs o', fold_out (fun y s => rrun warn n b ky x y s) l (VObj c fs) = Done o' -> exists fs', o' = VObj c fs' /\ assoc f fs' = assoc f fs.
Proof.
  intros n c f b key k ky x HR F G l. induction l as [|y l IH]; intros fs o' E; cbn [fold_out] in E; [injection E as <-; eauto|].
  step E s E1. destruct (HR k c f key b ky x y fs s F E1) as (fs1 & -> & S1). rewrite G in S1. cbn [sound] in S1.
  destruct (IH fs1 o' E) as (fs2 & -> & S2). exists fs2. split; [reflexivity|]. now rewrite S2.
Qed.
Lemma loop_gain : forall n c f b key k ky it g, RS n -> fits key ky -> eff look (access_of c) f k key b = Some (Some g) -> g_once g = false ->
  forall l fs o', fold_out (fun y s => rrun warn n b ky y it s) l (VObj c fs) = Done o' -> exists fs', o' = VObj c fs' /\
  forall w0, assoc f fs = Some w0 -> exists w1 ws, assoc f fs' = Some w1 /\ items_of w1 = items_of w0 ++ ws /\
    Forall2 (made n (g_disp g)) (flat_map (picked (g_steps g) (g_disp g)) l) ws.
Proof.
  intros n c f b key k ky it g HR F G O l. induction l as [|y l IH]; intros fs o' E; cbn [fold_out] in E.
  - injection E as <-. exists fs. split; [reflexivity|]. intros w0 Q. exists w0, []. rewrite app_nil_r. repeat split; auto. constructor.
  - step E s E1. destruct (HR k c f key b ky y it fs s F E1) as (fs1 & -> & S1). rewrite G in S1. cbn [sound] in S1.
    destruct (IH fs1 o' E) as (fs2 & -> & S2). exists fs2. split; [reflexivity|]. intros w0 Q.
    assert (NO : g_once g = true -> w0 = VNone) by (rewrite O; discriminate).
    destruct (S1 w0 Q NO) as (w1 & ws1 & Q1 & I1 & M1). destruct (S2 w1 Q1) as (w2 & ws2 & Q2 & I2 & M2).
    exists w2, (ws1 ++ ws2). split; [exact Q2|]. split; [rewrite I2, I1; now rewrite app_assoc|]. cbn [flat_map]. now apply Forall2_app.
Qed.

Lemma store_other : forall c fs p w o' f, store (VObj c fs) p w = Done o' -> (match p with PList g => g | PSlot g => g end) <> f ->
  exists fs', o' = VObj c fs' /\ assoc f fs' = assoc f fs.
Proof.
  intros c fs p w o' f H N. cbn [store] in H. destruct (match field w "short_name" with Some (VStr n) => existsb (name_is n) (children (VObj c fs)) | _ => false end); [discriminate H|].
  destruct p as [g|g]; destruct (assoc g fs) as [[]|]; try discriminate H; injection H as <-; cbn [set_field]; (eexists; split; [reflexivity|]); rewrite assoc_set;
    (destruct (String.eqb_spec f g); [congruence|reflexivity]).
Qed.
Lemma store_gain : forall c fs p w o' f, store (VObj c fs) p w = Done o' -> (match p with PList g => g | PSlot g => g end) = f -> (exists d gs, w = VObj d gs) ->
  exists fs', o' = VObj c fs' /\ forall w0, assoc f fs = Some w0 -> exists w1, assoc f fs' = Some w1 /\ items_of w1 = items_of w0 ++ [w].
Proof.
  intros c fs p w o' f H N (d & gs & W). cbn [store] in H. destruct (match field w "short_name" with Some (VStr n) => existsb (name_is n) (children (VObj c fs)) | _ => false end); [discriminate H|].
  destruct p as [g|g]; subst g; destruct (assoc f fs) as [[]|] eqn:Q; try discriminate H; injection H as <-; cbn [set_field];
    (eexists; split; [reflexivity|]); intros w0 Q'; injection Q' as <-; rewrite assoc_set, String.eqb_refl; (eexists; split; [reflexivity|]); subst w; reflexivity.
Qed.

Lemma branch_none : forall n c f key ky a b k x it fs o' (t : bool), RS n -> fits key ky ->
  eff look (access_of c) f k key a = Some None -> eff look (access_of c) f k key b = Some None ->
  rrun warn n (if t then a else b) ky x it (VObj c fs) = Done o' -> exists fs', o' = VObj c fs' /\ assoc f fs' = assoc f fs.
Proof.
  intros n c f key ky a b k x it fs o' t HR F A B E. destruct (HR k c f key _ ky x it fs o' F E) as (fs' & -> & S1). exists fs'. split; [reflexivity|].
  destruct t; [rewrite A in S1|rewrite B in S1]; exact S1.
Qed.
Lemma same_fields : forall n code ky x it c fs o', rrun warn n code ky x it (VObj c fs) = Done o' -> exists fs', o' = VObj c fs'.
Proof. intros n code ky x it c fs o' H. exact (run_same _ _ _ _ _ _ _ H). Qed.

Lemma attrs_sound : forall n c f x fs o', read_attrs (VObj c fs) x = Done o' ->
  exists fs', o' = VObj c fs' /\ sound (S n) (seq (other f "timestamp") (other f "uuid")) f x fs fs'.
Proof.
  intros n c f x fs o' E. cbn [read_attrs] in E. injection E as <-. cbn [set_field]. eexists. split; [reflexivity|].
  exact (sound_seq _ _ _ _ _ _ _ _ (other_set _ _ _ _ _ _) (other_set _ _ _ _ _ _)).
Qed.
Lemma RS_step : forall n, RS n -> RS (S n).
Proof.
  intros n HR k c f key code ky x it fs o' F H.
  destruct k as [|k]; [destruct (same_fields _ _ _ _ _ _ _ _ H) as (fs' & ->); exists fs'; split; [reflexivity|exact I]|].
  destruct code as [|i rest]; cbn [rrun] in H; [injection H as <-; exists fs; split; [reflexivity|cbn; reflexivity]|].
  cbn [eff]. step H o1 E.
  match goal with |- exists fs', _ /\ sound _ (seq ?e _) _ _ _ _ => set (e1 := e) end.
  assert (K : exists fs1, o1 = VObj c fs1 /\ sound (S n) e1 f x fs fs1).
  2:{ destruct K as (fs1 & -> & S1). destruct (HR k c f key rest ky x it fs1 o' F H) as (fs2 & -> & S2). exists fs2. split; [reflexivity|].
      exact (sound_seq _ _ _ _ _ _ _ _ S1 (sound_more n (S n) _ _ _ _ _ (Nat.le_succ_diag_r n) S2)). }
  clear H rest o'. pose proof (Nat.le_succ_diag_r n) as LE.
  destruct i as [|m v|m gs v|a v|g t|m nm b|p a b|p b|v b|cc a b|g b|e soft|]; subst e1.
  - exact (attrs_sound _ _ _ _ _ _ E).
  - step E w Ev. destruct (access_of c m) as [[g|g|g gd|g gd|c' nm' p]|] eqn:A; try (exfalso; cbn [put1] in E; rewrite A in E; discriminate E).
    + destruct (String.eqb_spec g f) as [Q|N].
      * subst g. destruct (vgain look k key v) as [[st d]|] eqn:G; [|destruct (put_same _ _ _ _ E) as (fs' & ->); exists fs'; split; [reflexivity|exact I]].
        destruct (put_gain n c f m v fs st d w ky it x key k (VS_all n) F Ev gd A G o1 E) as (fs' & -> & S1). exists fs'. split; [reflexivity|]. exact (gained_more _ _ _ _ _ _ _ LE S1).
      * cbn [put1] in E. rewrite A in E. injection E as <-. destruct (gd && _); [exists fs; split; [reflexivity|cbn; reflexivity]|]. cbn [set_field]. eexists. split; [reflexivity|].
        apply none_set. now apply String.eqb_neq.
    + destruct (String.eqb_spec g f) as [Q|N].
      * subst g. destruct (vgain look k key v) as [[st d]|] eqn:G; [|destruct (put_same _ _ _ _ E) as (fs' & ->); exists fs'; split; [reflexivity|exact I]].
        destruct (gd || total st d) eqn:T; [|destruct (put_same _ _ _ _ E) as (fs' & ->); exists fs'; split; [reflexivity|exact I]].
        destruct (add_gain n c f m v fs st d w ky it x key k (VS_all n) F Ev gd A G T o1 E) as (fs' & -> & S1). exists fs'. split; [reflexivity|]. exact (gained_more _ _ _ _ _ _ _ LE S1).
      * cbn [put1] in E. rewrite A in E. destruct (gd && _); [injection E as <-; exists fs; split; [reflexivity|cbn; reflexivity]|].
        destruct (assoc g fs) as [[]|]; try discriminate E. injection E as <-. cbn [set_field]. eexists. split; [reflexivity|]. apply none_set. now apply String.eqb_neq.
  - step E w Ev. step E t Et. destruct t.
    + destruct (access_of c m) as [[g|g|g gd|g gd|c' nm' p]|] eqn:A; try (exfalso; cbn [put1] in E; rewrite A in E; discriminate E).
      * cbn [put1] in E. rewrite A in E. injection E as <-. destruct (gd && _); [exists fs; split; [reflexivity|apply other_same]|]. cbn [set_field]. eexists. split; [reflexivity|apply other_set].
      * cbn [put1] in E. rewrite A in E. destruct (gd && _); [injection E as <-; exists fs; split; [reflexivity|apply other_same]|].
        destruct (assoc g fs) as [[]|]; try discriminate E. injection E as <-. cbn [set_field]. eexists. split; [reflexivity|apply other_set].
    + injection E as <-. exists fs. split; [reflexivity|]. destruct (access_of c m) as [[g|g|g gd|g gd|c' nm' p]|]; try (cbn; reflexivity); apply other_same.
  - step E w Ev. injection E as <-. cbn [set_field]. eexists. split; [reflexivity|]. destruct (String.eqb a f) eqn:Q.
    + apply String.eqb_eq in Q. subst a. destruct (vgain look k key v) as [[st d]|] eqn:G; [|exact I]. cbn [sound].
      apply set_gain. exact (vs_more n (S n) _ _ _ LE (VS_all n _ _ _ _ _ _ _ _ _ _ F Ev G)).
    + now apply none_set.
  - unfold look. destruct (assoc g rfuns) as [[b r]|]; [|discriminate E]. step E o2 E2.
    destruct (HR k c f (akey key t) b (rtag ky x t) x VNone fs o2 (rtag_fits key ky x t F) E2) as (fs' & -> & S1).
    exists fs'. split; [destruct r as [r|]; [step E w Ew|]; now injection E as <-|]. exact (sound_more n (S n) _ _ _ _ _ LE S1).
  - destruct (access_of c m) as [[g|g|g gd|g gd|c' named' p]|]; try discriminate E.
    destruct (Bool.eqb nm named') eqn:NM; [|discriminate E]. cbn [negb] in E. apply eqb_prop in NM. subst named'. step E nv En. step E w Ew.
    assert (NV : exists s, (nm = true -> short_name x = Ok s) /\ (nm = true -> nv = of_opt_str s)).
    { destruct nm; [|exists None; split; discriminate]. step En s Es. injection En as <-. exists s. split; [|reflexivity].
      intros _. destruct (short_name x); cbn in Es; [injection Es as <-; reflexivity|discriminate Es]. }
    destruct NV as (s & N1 & N2).
    assert (M : made (S n) [("*", (c', nm, b, key))] x w).
    { exists c', nm, b, key, ky, it, n, s. split; [cbn [pick]; now rewrite orb_true_r|]. split; [exact F|]. split; [lia|]. split; [exact N1|].
      destruct nm; [rewrite <- N2 by reflexivity|]; exact Ew. }
    assert (KK : exists fs1, o1 = VObj c fs1 /\ sound (S n) (if String.eqb (match p with PList g => g | PSlot g => g end) f
                   then Some (Some (mkGain false [] [("*", (c', nm, b, key))])) else Some None) f x fs fs1).
    { destruct (String.eqb_spec (match p with PList g => g | PSlot g => g end) f) as [Q|N].
      - destruct (store_gain _ _ _ _ _ _ E Q (made_obj _ _ _ _ M)) as (fs' & -> & S1). exists fs'. split; [reflexivity|]. intros w0 Q0 _. cbn [g_steps g_disp].
        destruct (S1 w0 Q0) as (w1 & Q1 & I1). exists w1, [w]. split; [exact Q1|]. split; [exact I1|]. rewrite picked_self. cbn [pick]. rewrite orb_true_r. constructor; [exact M|constructor].
      - destruct (store_other _ _ _ _ _ _ E N) as (fs' & -> & S1). exists fs'. split; [reflexivity|exact S1]. }
    destruct p as [g|g]; exact KK.
  - destruct (eff look (access_of c) f k key a) as [[ga|]|] eqn:GA; destruct (eff look (access_of c) f k key b) as [[gb|]|] eqn:GB;
      try (assert (K0 : exists fs', o1 = VObj c fs') by (destruct (find (rkey ky p) x); exact (same_fields _ _ _ _ _ _ _ _ E)); destruct K0 as (fs' & ->); exists fs'; split; [reflexivity|exact I]).
    + destruct (apath key p) as [q|] eqn:P; [|assert (K0 : exists fs', o1 = VObj c fs') by (destruct (find (rkey ky p) x); exact (same_fields _ _ _ _ _ _ _ _ E)); destruct K0 as (fs' & ->); exists fs'; split; [reflexivity|exact I]].
      rewrite (path_fits _ _ _ _ F P) in E. destruct (find q x) as [y|] eqn:Y.
      * destruct (HR k c f key a ky y it fs o1 F E) as (fs' & -> & S1). rewrite GA in S1. exists fs'. split; [reflexivity|]. intros w0 Q O. cbn [g_once g_steps g_disp] in *.
        destruct (S1 w0 Q O) as (w1 & ws & Q1 & I1 & M1). exists w1, ws. split; [exact Q1|]. split; [exact I1|]. rewrite picked_first, Y. exact (all_more _ _ _ _ _ LE M1).
      * destruct (HR k c f key b ky x it fs o1 F E) as (fs' & -> & S1). rewrite GB in S1. cbn [sound] in S1. exists fs'. split; [reflexivity|]. intros w0 Q O. cbn [g_once g_steps g_disp] in *.
        exists w0, []. rewrite S1, app_nil_r. split; [exact Q|]. split; [reflexivity|]. rewrite picked_first, Y. constructor.
    + destruct (find (rkey ky p) x) as [y|].
      * destruct (HR k c f key a ky y it fs o1 F E) as (fs' & -> & S1). rewrite GA in S1. exists fs'. split; [reflexivity|exact S1].
      * destruct (HR k c f key b ky x it fs o1 F E) as (fs' & -> & S1). rewrite GB in S1. exists fs'. split; [reflexivity|exact S1].
  - assert (K0 : exists fs', o1 = VObj c fs').
    { refine (fold_same _ (fun y s => rrun warn n b ky y it s) _ (VObj c fs) o1 _ E). intros y s s' R. exact (run_same _ _ _ _ _ _ _ R). }
    destruct (eff look (access_of c) f k key b) as [[g|]|] eqn:G; [|exact (loop_none n c f b key k ky it HR F G _ fs o1 E)|destruct K0 as (fs' & ->); exists fs'; split; [reflexivity|exact I]].
    destruct (g_once g) eqn:O; [destruct K0 as (fs' & ->); exists fs'; split; [reflexivity|exact I]|].
    destruct (apath key p) as [q|] eqn:P; [|destruct K0 as (fs' & ->); exists fs'; split; [reflexivity|exact I]].
    rewrite (path_fits _ _ _ _ F P) in E. destruct (loop_gain n c f b key k ky it g HR F G O _ fs o1 E) as (fs' & -> & S1). exists fs'. split; [reflexivity|].
    intros w0 Q _. cbn [g_once g_steps g_disp]. destruct (S1 w0 Q) as (w1 & ws & Q1 & I1 & M1). exists w1, ws. split; [exact Q1|]. split; [exact I1|].
    rewrite picked_all. exact (all_more _ _ _ _ _ LE M1).
  - step E w Ew. destruct w as [| | | |l]; try discriminate E.
    assert (K0 : exists fs', o1 = VObj c fs').
    { refine (fold_same _ (fun y s => rrun warn n b ky x y s) _ (VObj c fs) o1 _ E). intros y s s' R. exact (run_same _ _ _ _ _ _ _ R). }
    destruct (eff look (access_of c) f k key b) as [[g|]|] eqn:G; [destruct K0 as (fs' & ->); exists fs'; split; [reflexivity|exact I]| |destruct K0 as (fs' & ->); exists fs'; split; [reflexivity|exact I]].
    exact (loop_vals n c f b key k ky x HR F G _ fs o1 E).
  - step E t Et.
    assert (K0 : exists fs', o1 = VObj c fs') by exact (same_fields _ _ _ _ _ _ _ _ E).
    assert (PLAIN : exists fs1, o1 = VObj c fs1 /\ sound (S n) (match eff look (access_of c) f k key a, eff look (access_of c) f k key b with Some None, Some None => Some None | _, _ => None end) f x fs fs1).
    { destruct (eff look (access_of c) f k key a) as [[ga|]|] eqn:GA; destruct (eff look (access_of c) f k key b) as [[gb|]|] eqn:GB;
        try (destruct K0 as (fs' & ->); exists fs'; split; [reflexivity|exact I]). exact (branch_none n c f key ky a b k x it fs o1 t HR F GA GB E). }
    destruct cc; try (destruct key; exact PLAIN); clear PLAIN.
    + destruct n as [|n']; [discriminate Et|]. injection Et as <-.
      destruct (eff look (access_of c) f k key a) as [[ga|]|] eqn:GA; destruct (eff look (access_of c) f k key b) as [[gb|]|] eqn:GB;
        try (destruct K0 as (fs' & ->); exists fs'; split; [reflexivity|exact I]).
      * destruct (gif s (Some (g_steps ga, g_disp ga)) (Some (g_steps gb, g_disp gb))) as [[st d]|] eqn:GG; [|destruct K0 as (fs' & ->); exists fs'; split; [reflexivity|exact I]].
        destruct (gif_spec _ _ _ _ _ GG) as (da & db & e & VA & VB & P & -> & -> & ST). injection VA as SA DA. injection VB as SB DB.
        destruct (String.eqb_spec (xtag x) s) as [Q|N].
        -- destruct (HR k c f key a ky x it fs o1 F E) as (fs' & -> & S1). rewrite GA in S1. exists fs'. split; [reflexivity|]. intros w0 Q0 O. cbn [g_once g_steps g_disp] in *.
           destruct (S1 w0 Q0) as (w1 & ws & Q1 & I1 & M1); [intros O1; apply O; now rewrite O1|]. rewrite SA, DA in M1. exists w1, ws. split; [exact Q1|]. split; [exact I1|].
           exact (all_more _ _ _ _ _ LE (made_then _ _ _ _ _ _ _ Q P M1)).
        -- destruct (HR k c f key b ky x it fs o1 F E) as (fs' & -> & S1). rewrite GB in S1. exists fs'. split; [reflexivity|]. intros w0 Q0 O. cbn [g_once g_steps g_disp] in *.
           destruct (S1 w0 Q0) as (w1 & ws & Q1 & I1 & M1); [intros O1; apply O; rewrite O1; apply orb_true_r|]. rewrite SB, DB in M1. exists w1, ws. split; [exact Q1|]. split; [exact I1|].
           exact (all_more _ _ _ _ _ LE (made_else _ _ _ _ _ _ N ST M1)).
      * destruct (gif s (Some (g_steps ga, g_disp ga)) (Some ([], []))) as [[st d]|] eqn:GG; [|destruct K0 as (fs' & ->); exists fs'; split; [reflexivity|exact I]].
        destruct (gif_spec _ _ _ _ _ GG) as (da & db & e & VA & VB & P & -> & -> & ST). injection VA as SA DA. injection VB as DB. subst db.
        destruct (String.eqb_spec (xtag x) s) as [Q|N].
        -- destruct (HR k c f key a ky x it fs o1 F E) as (fs' & -> & S1). rewrite GA in S1. exists fs'. split; [reflexivity|]. intros w0 Q0 O. cbn [g_once g_steps g_disp] in *.
           destruct (S1 w0 Q0 O) as (w1 & ws & Q1 & I1 & M1). rewrite SA, DA in M1. exists w1, ws. split; [exact Q1|]. split; [exact I1|].
           exact (all_more _ _ _ _ _ LE (made_then _ _ _ _ _ _ _ Q P M1)).
        -- destruct (HR k c f key b ky x it fs o1 F E) as (fs' & -> & S1). rewrite GB in S1. cbn [sound] in S1. exists fs'. split; [reflexivity|]. intros w0 Q0 O. cbn [g_once g_steps g_disp] in *.
           exists w0, []. rewrite S1, app_nil_r. split; [exact Q0|]. split; [reflexivity|]. apply (made_else _ _ _ _ _ _ N ST). rewrite picked_self. constructor.
      * exact (branch_none (S n') c f key ky a b k x it fs o1 _ HR F GA GB E).
    + destruct key as [ks|]; [|].
      * cbn [fits] in F. destruct n as [|n']; [discriminate Et|]. injection Et as <-. subst ky. destruct (String.eqb ks s).
        -- destruct (HR k c f (Some ks) a ks x it fs o1 eq_refl E) as (fs' & -> & S1). exists fs'. split; [reflexivity|]. exact (sound_more _ _ _ _ _ _ _ LE S1).
        -- destruct (HR k c f (Some ks) b ks x it fs o1 eq_refl E) as (fs' & -> & S1). exists fs'. split; [reflexivity|]. exact (sound_more _ _ _ _ _ _ _ LE S1).
      * destruct (eff look (access_of c) f k None a) as [[ga|]|] eqn:GA; destruct (eff look (access_of c) f k None b) as [[gb|]|] eqn:GB;
        try (destruct K0 as (fs' & ->); exists fs'; split; [reflexivity|exact I]). exact (branch_none n c f None ky a b k x it fs o1 t HR F GA GB E).
  - destruct g as [m|g].
    + destruct (access_of c m) as [[g|g|g gd|g gd|c' named' p]|]; try discriminate E. destruct (assoc g fs); [|discriminate E]. step E w Ew. injection E as <-. cbn [set_field].
      eexists. split; [reflexivity|apply other_set].
    + destruct (assoc g fs); [|discriminate E]. step E w Ew. injection E as <-. cbn [set_field]. eexists. split; [reflexivity|apply other_set].
  - destruct (soft && warn); [|discriminate E]. injection E as <-. exists fs. split; [reflexivity|cbn; reflexivity].
  - discriminate E.
Qed.
Lemma RS_all : forall n, RS n.
Proof. induction n as [|n IH]; [|exact (RS_step n IH)]. intros k c f key code ky x it fs o' F H. discriminate H. Qed.
End Run.
