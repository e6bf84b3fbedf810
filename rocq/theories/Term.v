(** Reading always comes to an end: with enough fuel the interpreter of IrSem.v is not cut short,
    whatever the document.  Nothing here models code. *)
From Coq Require Import String Ascii List Bool Arith Lia.
From Verif Require Import PyBase Primitives Xml Leaf ClassTable Ir Access ReaderCode WriterCode IrSem SpecRoundTrip Trie.
Import ListNotations.
Open Scope string_scope.
Open Scope list_scope.
Local Opaque rfuns access_of init named_init.

(** ** The check: a function reaches itself only below the element it is called on *)
Definition deep (s : string) : bool := existsb (fun t => negb (String.eqb t ".")) (split_char "/"%char s).
(** [kd]: the key is a path that leads below the element *)
Definition descending (kd : bool) (p : rpth) : bool := match p with PLit s => deep s | PKey => kd | PKeyThen _ => false end.
Definition deep_key (kd : bool) (t : option tagx) : bool := match t with Some (TLit s) => deep s | Some TKey => kd | _ => false end.
Local Open Scope lazy_bool_scope.
Lemma if_true : forall a b : bool, (if a then b else false) = true <-> a = true /\ b = true.
Proof. intros [] []; cbn; intuition congruence. Qed.
Section Check.
Context (look : string -> option (list ri * option vx)).
(** [d]: below the element the function was called on; calls there are not followed *)
Fixpoint okR (k : nat) (d kd : bool) (code : list ri) {struct k} : bool :=
  match k with
  | O => false
  | S k' =>
    match code with
    | [] => true
    | i :: rest =>
      okR k' d kd rest &&&
      match i with
      | RPut _ v | RPutAny _ _ v | RSet _ v => okV k' d kd v
      | RCall f t =>
          if d then true else
          match look f with
          | Some (b, r) => okR k' false (deep_key kd t) b &&& match r with Some r => okV k' false (deep_key kd t) r | None => true end
          | None => true end
      | RCreate _ _ b | RSub _ b => okR k' d kd b
      | RFind p a b => okR k' (d || descending kd p) kd a &&& okR k' d kd b
      | RFor p b => okR k' (d || descending kd p) kd b
      | RForVal v b => okV k' d kd v &&& okR k' d kd b
      | RIf c a b => okC k' d kd c &&& (okR k' d kd a &&& okR k' d kd b)
      | _ => true
      end
    end
  end
with okV (k : nat) (d kd : bool) (v : vx) {struct k} : bool :=
  match k with
  | O => false
  | S k' =>
    match v with
    | VWrapX _ _ a | VValueX a => okV k' d kd a
    | VNewX _ _ b | VListX b => okR k' d kd b
    | VGetX f t =>
        if d then true else
        match look f with
        | Some (b, r) => okR k' false (deep_key kd t) b &&& match r with Some r => okV k' false (deep_key kd t) r | None => true end
        | None => true end
    | VFindX p a b => okV k' (d || descending kd p) kd a &&& okV k' d kd b
    | VLastX p a => okV k' (d || descending kd p) kd a
    | VIfX c a b => okC k' d kd c &&& (okV k' d kd a &&& okV k' d kd b)
    | VOrX a b => okV k' d kd a &&& okV k' d kd b
    | _ => true
    end
  end
with okC (k : nat) (d kd : bool) (c : rcond) {struct k} : bool :=
  match k with
  | O => false
  | S k' =>
    match c with
    | CAt p a => okC k' (d || descending kd p) kd a
    | CGot v | CEmpty v => okV k' d kd v
    | CNeg a => okC k' d kd a
    | CBoth a b | CEither a b => okC k' d kd a &&& okC k' d kd b
    | _ => true
    end
  end.
Definition okF (kd : bool) (f : string) : bool :=
  match look f with
  | Some (b, r) => okR 200 false kd b &&& match r with Some r => okV 200 false kd r | None => true end
  | None => true end.
End Check.

(** ** Eventually *)
Definition ev (P : nat -> Prop) : Prop := exists m, forall n, m <= n -> P n.
Lemma ev_all : forall P : nat -> Prop, (forall n, P n) -> ev P.
Proof. intros P H. exists 0. auto. Qed.
Lemma ev_1 : forall P Q : nat -> Prop, ev P -> (forall n, P n -> Q n) -> ev Q.
Proof. intros P Q [m H] I. exists m. auto. Qed.
Lemma ev_and : forall P Q : nat -> Prop, ev P -> ev Q -> ev (fun n => P n /\ Q n).
Proof. intros P Q [m H] [k I]. exists (m + k). intros n L. split; [apply H|apply I]; lia. Qed.
Lemma ev_succ : forall P : nat -> Prop, ev (fun n => P (S n)) -> ev P.
Proof. intros P [m H]. exists (S m). intros [|n] L; [lia|]. apply H. lia. Qed.
Lemma ev_list : forall A (P : A -> nat -> Prop) l, (forall a, In a l -> ev (P a)) -> ev (fun n => forall a, In a l -> P a n).
Proof.
  intros A P. induction l as [|a l IH]; intros H; [apply ev_all; intros n a []|].
  eapply ev_1; [exact (ev_and _ _ (H a (or_introl eq_refl)) (IH (fun b I => H b (or_intror I))))|].
  intros n [Ha Hl] b [Q|I]; [now subst|now apply Hl].
Qed.

(** ** Elements below an element *)
Fixpoint subs (x : xml) : list xml := match x with El _ _ _ ks => flat_map (fun k => k :: subs k) ks end.
Fixpoint xsize (x : xml) : nat := match x with El _ _ _ ks => S (fold_right (fun k s => xsize k + s) 0 ks) end.
Lemma kid_sub : forall x y, In y (xkids x) -> In y (subs x).
Proof. intros [t a s ks] y I. cbn [subs xkids] in *. apply in_flat_map. exists y. split; [exact I|now left]. Qed.
Lemma subs_trans : forall x y z, In y (subs x) -> In z (subs y) -> In z (subs x).
Proof.
  fix IH 1. intros [t a s ks] y z Iy Iz. cbn [subs] in *. induction ks as [|k ks IHk]; [destruct Iy|]. cbn [flat_map] in *.
  destruct Iy as [Q|Iy]; [subst; right; apply in_or_app; now left|]. apply in_app_or in Iy. right. apply in_or_app.
  destruct Iy as [Iy|Iy]; [left; exact (IH _ _ _ Iy Iz)|right; now apply IHk].
Qed.
Lemma subs_size : forall x y, In y (subs x) -> xsize y < xsize x.
Proof.
  fix IH 1. intros [t a s ks] y I. cbn [subs xsize] in *. induction ks as [|k ks IHk]; [destruct I|]. cbn [flat_map fold_right] in *.
  destruct I as [Q|I]; [subst; lia|]. apply in_app_or in I. destruct I as [I|I]; [apply IH in I; lia|apply IHk in I; lia].
Qed.
Lemma step_in : forall s x y, In y (step s x) -> y = x /\ s = "." \/ In y (subs x).
Proof.
  intros s x y I. unfold step in I. destruct (String.eqb s "*"); [right; now apply kid_sub|].
  destruct (String.eqb_spec s ".") as [Q|N]; [left; destruct I as [I|[]]; auto|]. right. apply filter_In in I. now apply kid_sub.
Qed.
Lemma steps_in : forall ss x y, In y (steps ss x) -> y = x /\ (forall t, In t ss -> t = ".") \/ In y (subs x).
Proof.
  induction ss as [|s ss IH]; intros x y I; cbn [steps] in I; [left; destruct I as [I|[]]; split; [auto|intros t []]|].
  apply in_flat_map in I. destruct I as (z & Iz & Iy). apply step_in in Iz. apply IH in Iy. destruct Iz as [[Q D]|Iz].
  - subst. destruct Iy as [[Q D]|Iy]; [left; split; [exact Q|]; intros t [E|I]; [now subst|auto]|now right].
  - right. destruct Iy as [[Q _]|Iy]; [now subst|exact (subs_trans _ _ _ Iz Iy)].
Qed.
Lemma findall_in : forall kd key p x y, (kd = true -> deep key = true) -> In y (findall (rkey key p) x) -> y = x /\ descending kd p = false \/ In y (subs x).
Proof.
  intros kd key p x y K I. apply steps_in in I. destruct I as [[Q D]|I]; [|now right]. left. split; [exact Q|].
  assert (X : deep (rkey key p) = false).
  { unfold deep. destruct (existsb _ _) eqn:E; [|reflexivity]. apply existsb_exists in E. destruct E as (t & I & N). rewrite (D t I) in N. discriminate. }
  destruct p; [exact X| |reflexivity]. cbn [descending rkey] in *. destruct kd; [|reflexivity]. rewrite (K eq_refl) in X. discriminate.
Qed.
Lemma find_in : forall key x y, find key x = Some y -> In y (findall key x).
Proof. intros key x y H. unfold find in H. destruct (findall key x); [discriminate|]. injection H as <-. now left. Qed.

(** ** Runs that are not cut short *)
Definition live {A} (r : out A) : Prop := r <> NoFuel.
Lemma live_bind : forall A B (r : out A) (k : A -> out B), live r -> (forall a, live (k a)) -> live (obind r k).
Proof. intros A B [a|e| |] k H K; cbn; [apply K|discriminate|discriminate|elim H; reflexivity]. Qed.
Lemma live_fold : forall A S (f : A -> S -> out S) l s, (forall a s, In a l -> live (f a s)) -> live (fold_out f l s).
Proof.
  intros A S f. induction l as [|a l IH]; intros s H; cbn [fold_out]; [discriminate|]. apply live_bind; [apply H; now left|].
  intros s'. apply IH. intros b t I. apply H. now right.
Qed.
Lemma live_get1 : forall v g, live (get1 v g).
Proof.
  intros [| |l|c fs|] g; try discriminate; cbn [get1].
  - destruct l; destruct g; try discriminate; match goal with |- live (if ?b then _ else _) => destruct b; discriminate end.
  - destruct g as [m|a]; [|destruct (assoc a fs); discriminate].
    destruct (access_of c m) as [[f|f|f g|f|d nm p]|]; try discriminate; destruct (assoc f fs) as [[| | | |l]|]; try discriminate. destruct (sortable l); discriminate.
Qed.
Lemma live_gets : forall p v, live (gets v p).
Proof. induction p as [|g p IH]; intros v; cbn [gets]; [discriminate|]. apply live_bind; [apply live_get1|auto]. Qed.
Lemma live_res : forall A (r : res A), live (of_res r).
Proof. intros A [a|e]; discriminate. Qed.
Lemma live_put1 : forall o m v, live (put1 o m v).
Proof.
  intros [| | |c fs|l] m v; try discriminate; cbn [put1]; [|destruct (String.eqb m "append"); discriminate].
  destruct (access_of c m) as [[f|f|f g|f g|d nm p]|]; try discriminate. destruct (_ && _); [discriminate|]. destruct (assoc f fs) as [[]|]; discriminate.
Qed.
Lemma live_store : forall o p x, live (store o p x).
Proof.
  intros [| | |c fs|l] p x; try discriminate. unfold store. match goal with |- live (if ?b then _ else _) => destruct b end; [discriminate|].
  destruct p as [f|f]; destruct (assoc f fs) as [[]|]; discriminate.
Qed.
Lemma live_wrap : forall c m v, live (wrap c m v).
Proof.
  intros c m v. unfold wrap. destruct (_ && _); [destruct v as [| |[]| |]; discriminate|]. destruct (_ && _).
  - destruct v; try discriminate. destruct (num_set num_new (PStr s)) as [n [e|]]; discriminate.
  - destruct (_ && _); [destruct v; discriminate|discriminate].
Qed.
Lemma live_attrs : forall o x, live (read_attrs o x).
Proof. intros [| | |c fs|l] x; discriminate. Qed.
Lemma live_name : forall (named : bool) x, live (if named then do s <- of_res (short_name x); Done (of_opt_str s) else Done VNone).
Proof. intros [] x; [apply live_bind; [apply live_res|discriminate]|discriminate]. Qed.

Section Ends.
Context (warn : bool) (look : string -> option (list ri * option vx)) (look_ok : forall f, look f = assoc f rfuns).
Definition fits (kd : bool) (key : string) : Prop := kd = true -> deep key = true.
Lemma fits_key : forall kd key x t, fits kd key -> fits (deep_key kd t) (rtag key x t).
Proof. intros kd key x [[s| |]|] K; cbn [deep_key rtag]; try exact K; intros H; exact H || discriminate H. Qed.
Definition LR (kd : bool) (code : list ri) (x : xml) (n : nat) : Prop := forall key it o, fits kd key -> live (rrun warn n code key x it o).
Definition LV (kd : bool) (v : vx) (x : xml) (n : nat) : Prop := forall key it o, fits kd key -> live (vrun warn n v key x it o).
Definition LC (kd : bool) (c : rcond) (x : xml) (n : nat) : Prop := forall key it o, fits kd key -> live (crun warn n c key x it o).
Definition Q (d : bool) (x : xml) : Prop := forall k kd,
  (forall code, okR look k d kd code = true -> ev (LR kd code x)) /\
  (forall v, okV look k d kd v = true -> ev (LV kd v x)) /\
  (forall c, okC look k d kd c = true -> ev (LC kd c x)).

Section Here.
Context (x : xml) (below : forall y d, In y (subs x) -> Q d y).
(** a piece of code that ends here ends at every element found *)
Lemma reach : forall A (P : A -> xml -> nat -> Prop) (okA : bool -> A -> bool) d kd p (a : A),
  (forall y d, In y (subs x) -> okA d a = true -> ev (P a y)) -> (okA d a = true -> ev (P a x)) -> okA (d || descending kd p) a = true ->
  ev (fun n => forall key y, fits kd key -> In y (findall (rkey key p) x) -> P a y n).
Proof.
  intros A P okA d kd p a B H O. destruct (descending kd p) eqn:D.
  - rewrite orb_true_r in O. eapply ev_1; [apply (ev_list _ (P a) (subs x)); intros y I; exact (B y _ I O)|].
    intros n F key y K I. apply (findall_in kd _ _ _ _ K) in I. destruct I as [[_ E]|I]; [congruence|now apply F].
  - rewrite orb_false_r in O. eapply ev_1; [apply ev_and; [exact (H O)|apply (ev_list _ (P a) (subs x)); intros y I; exact (B y _ I O)]|].
    intros n [F G] key y K I. apply (findall_in kd _ _ _ _ K) in I. destruct I as [[E _]|I]; [now subst|now apply G].
Qed.
Context (d : bool).
Context (calls : d = true -> forall kd f b r, look f = Some (b, r) -> ev (LR kd b x) /\ forall r', r = Some r' -> ev (LV kd r' x)).
Lemma call_ends : forall k kd f b r,
  (forall code, okR look k d kd code = true -> ev (LR kd code x)) -> (forall v, okV look k d kd v = true -> ev (LV kd v x)) ->
  (if d then true else match look f with Some (b, r) => okR look k false kd b &&& match r with Some r => okV look k false kd r | None => true end | None => true end) = true ->
  look f = Some (b, r) -> ev (LR kd b x) /\ forall r', r = Some r' -> ev (LV kd r' x).
Proof.
  intros k kd f b r IR IV O E. destruct d; [now apply (calls eq_refl kd f)|]. rewrite E in O. apply if_true in O. destruct O as [O1 O2].
  split; [now apply IR|]. intros r' ->. now apply IV.
Qed.
Lemma here : Q d x.
Proof.
  intros k. induction k as [|k IH]; intros kd; [split; [|split]; intros ? H; discriminate H|].
  destruct (IH kd) as (IR & IV & IC).
  assert (FR : forall p a, okR look k (d || descending kd p) kd a = true -> ev (fun n => forall key y, fits kd key -> In y (findall (rkey key p) x) -> LR kd a y n)).
  { intros p a. apply (reach _ (LR kd) (fun d => okR look k d kd)); [|apply IR]. intros y d' I. apply (below y d' I k kd). }
  assert (FV : forall p a, okV look k (d || descending kd p) kd a = true -> ev (fun n => forall key y, fits kd key -> In y (findall (rkey key p) x) -> LV kd a y n)).
  { intros p a. apply (reach _ (LV kd) (fun d => okV look k d kd)); [|apply IV]. intros y d' I. apply (below y d' I k kd). }
  assert (FC : forall p a, okC look k (d || descending kd p) kd a = true -> ev (fun n => forall key y, fits kd key -> In y (findall (rkey key p) x) -> LC kd a y n)).
  { intros p a. apply (reach _ (LC kd) (fun d => okC look k d kd)); [|apply IC]. intros y d' I. apply (below y d' I k kd). }
  split; [|split].
  - intros code O. destruct code as [|i rest]; [apply ev_succ, ev_all; intros n key it o K; discriminate|].
    cbn [okR] in O. apply if_true in O. destruct O as [O1 O2].
    assert (X : ev (fun n => forall key it o, fits kd key -> live (rrun warn n rest key x it o))) by exact (IR rest O1).
    apply ev_succ.
    assert (Y : forall P : nat -> Prop, ev P -> (forall n, P n -> forall key it o, fits kd key -> (forall o', live (rrun warn n rest key x it o')) -> live (rrun warn (S n) (i :: rest) key x it o)) ->
                ev (fun n => LR kd (i :: rest) x (S n))).
    { intros P HP HI. eapply ev_1; [exact (ev_and _ _ HP X)|]. intros n [H1 H2] key it o K. apply HI; [exact H1|exact K|]. intros o'. now (apply H2; trivial). }
    destruct i as [|m v|m gs v|a v|f t|m named b|p a b|p b|v b|c a b|g b|e soft|].
    + apply (Y (fun _ => True)); [apply ev_all; auto|]. intros n _ key it o K R. cbn [rrun]. apply live_bind; [apply live_attrs|exact R].
    + apply (Y _ (IV v O2)). intros n H key it o K R. cbn [rrun]. apply live_bind; [|exact R]. apply live_bind; [(apply H; trivial)|intros; apply live_put1].
    + apply (Y _ (IV v O2)). intros n H key it o K R. cbn [rrun]. apply live_bind; [|exact R]. apply live_bind; [(apply H; trivial)|]. intros w. apply live_bind.
      * apply live_fold. intros g s _. apply live_bind; [apply live_get1|]. intros [| | | |[|]]; discriminate.
      * intros [|]; [apply live_put1|discriminate].
    + apply (Y _ (IV v O2)). intros n H key it o K R. cbn [rrun]. apply live_bind; [|exact R]. apply live_bind; [(apply H; trivial)|]. intros w. destruct o; discriminate.
    + destruct (look f) as [[b r]|] eqn:E.
      * destruct (call_ends k (deep_key kd t) f b r (proj1 (IH _)) (proj1 (proj2 (IH _)))) as [H1 H2]; [|exact E|]; [destruct d; [reflexivity|now rewrite E]|].
        assert (Z : ev (fun n => LR (deep_key kd t) b x n /\ match r with Some r' => LV (deep_key kd t) r' x n | None => True end)).
        { destruct r as [r'|]; [exact (ev_and _ _ H1 (H2 r' eq_refl))|]. eapply ev_1; [exact H1|auto]. }
        apply (Y _ Z). intros n [L1 L2] key it o K R. rewrite look_ok in E. cbn [rrun]. rewrite E. apply live_bind; [|exact R]. apply live_bind; [apply L1, fits_key, K|]. intros o1.
        destruct r as [r'|]; [|discriminate]. apply live_bind; [apply L2, fits_key, K|discriminate].
      * apply (Y (fun _ => True)); [apply ev_all; auto|]. intros n _ key it o K R. rewrite look_ok in E. cbn [rrun]. rewrite E. discriminate.
    + apply (Y _ (IR b O2)). intros n H key it o K R. cbn [rrun]. apply live_bind; [|exact R]. destruct o as [| | |c fs|]; try discriminate.
      destruct (access_of c m) as [[f|f|f g|f g|c' nm' p]|]; try discriminate. destruct (negb _); [discriminate|]. apply live_bind; [apply live_name|]. intros nm.
      apply live_bind; [(apply H; trivial)|]. intros w. apply live_store.
    + apply if_true in O2. destruct O2 as [O2 O3]. apply (Y _ (ev_and _ _ (FR p a O2) (IR b O3))). intros n [H1 H2] key it o K R. cbn [rrun]. apply live_bind; [|exact R].
      destruct (find (rkey key p) x) as [y|] eqn:E; [(apply (H1 key y K (find_in _ _ _ E)); exact K)|(apply H2; trivial)].
    + apply (Y _ (FR p b O2)). intros n H key it o K R. cbn [rrun]. apply live_bind; [|exact R]. apply live_fold. intros y s I. now apply (H key y K I).
    + apply if_true in O2. destruct O2 as [O2 O3]. apply (Y _ (ev_and _ _ (IV v O2) (IR b O3))). intros n [H1 H2] key it o K R. cbn [rrun]. apply live_bind; [|exact R].
      apply live_bind; [(apply H1; trivial)|]. intros [| | | |l]; try discriminate. apply live_fold. intros y s _. (apply H2; trivial).
    + apply if_true in O2. destruct O2 as [O2 O3]. apply if_true in O3. destruct O3 as [O3 O4].
      apply (Y _ (ev_and _ _ (IC c O2) (ev_and _ _ (IR a O3) (IR b O4)))). intros n (H1 & H2 & H3) key it o K R. cbn [rrun]. apply live_bind; [|exact R].
      apply live_bind; [(apply H1; trivial)|]. intros [|]; [(apply H2; trivial)|(apply H3; trivial)].
    + apply (Y _ (IR b O2)). intros n H key it o K R. cbn [rrun]. apply live_bind; [|exact R]. destruct o as [| | |c fs|]; try discriminate.
      destruct g as [m|f]; [destruct (access_of c m) as [[f|f|f g|f g|c' nm' p]|]; try discriminate|]; (destruct (assoc f fs); [|discriminate]); (apply live_bind; [(apply H; trivial)|discriminate]).
    + apply (Y (fun _ => True)); [apply ev_all; auto|]. intros n _ key it o K R. cbn [rrun]. apply live_bind; [|exact R]. destruct (soft && warn); discriminate.
    + apply (Y (fun _ => True)); [apply ev_all; auto|]. intros n _ key it o K R. discriminate.
  - intros v O. apply ev_succ. assert (N : (forall n key it o, fits kd key -> live (vrun warn (S n) v key x it o)) -> ev (fun n => LV kd v x (S n))).
    { intros H. apply ev_all. intros n key it o K. now (apply H; trivial). }
    destruct v as [|k0 p|k0 p|k0 p| | |a|a m| | |c m a|a|c named b|b|f t|p a b|p a|c a b|a b| |e|]; cbn [okV] in O.
    + apply N. discriminate.
    + apply N. intros n key it o K. cbn [vrun]. apply live_bind; [apply live_res|discriminate].
    + apply N. intros n key it o K. cbn [vrun]. destruct k0; try discriminate; (apply live_bind; [apply live_res|discriminate]).
    + apply N. intros n key it o K. cbn [vrun]. apply live_bind; [apply live_res|discriminate].
    + apply N. discriminate.
    + apply N. discriminate.
    + apply N. discriminate.
    + apply N. intros n key it o K. cbn [vrun]. destruct (xattr a x); discriminate.
    + apply N. intros n key it o K. cbn [vrun]. apply live_bind; [apply live_res|discriminate].
    + apply N. discriminate.
    + eapply ev_1; [exact (IV a O)|]. intros n H key it o K. cbn [vrun]. apply live_bind; [(apply H; trivial)|intros; apply live_wrap].
    + eapply ev_1; [exact (IV a O)|]. intros n H key it o K. cbn [vrun]. apply live_bind; [(apply H; trivial)|intros; apply live_get1].
    + eapply ev_1; [exact (IR b O)|]. intros n H key it o K. cbn [vrun]. apply live_bind; [apply live_name|intros; (apply H; trivial)].
    + eapply ev_1; [exact (IR b O)|]. intros n H key it o K. cbn [vrun]. (apply H; trivial).
    + destruct (look f) as [[b r]|] eqn:E.
      * destruct (call_ends k (deep_key kd t) f b r (proj1 (IH _)) (proj1 (proj2 (IH _)))) as [H1 H2]; [|exact E|]; [destruct d; [reflexivity|now rewrite E]|].
        assert (Z : ev (fun n => LR (deep_key kd t) b x n /\ match r with Some r' => LV (deep_key kd t) r' x n | None => True end)).
        { destruct r as [r'|]; [exact (ev_and _ _ H1 (H2 r' eq_refl))|]. eapply ev_1; [exact H1|auto]. }
        eapply ev_1; [exact Z|]. intros n [L1 L2] key it o K. rewrite look_ok in E. cbn [vrun]. rewrite E. apply live_bind; [apply L1, fits_key, K|]. intros o1.
        destruct r as [r'|]; [apply L2, fits_key, K|discriminate].
      * apply N. intros n key it o K. rewrite look_ok in E. cbn [vrun]. rewrite E. discriminate.
    + apply if_true in O. destruct O as [O2 O3]. eapply ev_1; [exact (ev_and _ _ (FV p a O2) (IV b O3))|]. intros n [H1 H2] key it o K. cbn [vrun].
      destruct (find (rkey key p) x) as [y|] eqn:E; [(apply (H1 key y K (find_in _ _ _ E)); exact K)|(apply H2; trivial)].
    + eapply ev_1; [exact (FV p a O)|]. intros n H key it o K. cbn [vrun]. apply live_fold. intros y s I. apply live_bind; [(apply (H key y K I); exact K)|discriminate].
    + apply if_true in O. destruct O as [O2 O3]. apply if_true in O3. destruct O3 as [O3 O4].
      eapply ev_1; [exact (ev_and _ _ (IC c O2) (ev_and _ _ (IV a O3) (IV b O4)))|]. intros n (H1 & H2 & H3) key it o K. cbn [vrun].
      apply live_bind; [(apply H1; trivial)|]. intros [|]; [(apply H2; trivial)|(apply H3; trivial)].
    + apply if_true in O. destruct O as [O2 O3]. eapply ev_1; [exact (ev_and _ _ (IV a O2) (IV b O3))|]. intros n [H1 H2] key it o K. cbn [vrun].
      apply live_bind; [(apply H1; trivial)|]. intros [| |[]| |]; try discriminate. (apply H2; trivial).
    + apply N. discriminate.
    + apply N. discriminate.
    + apply N. discriminate.
  - intros c O. apply ev_succ. assert (N : (forall n key it o, fits kd key -> live (crun warn (S n) c key x it o)) -> ev (fun n => LC kd c x (S n))).
    { intros H. apply ev_all. intros n key it o K. now (apply H; trivial). }
    destruct c as [|s|s|a| | |p a|v|v|c|p|a|a b|a b]; cbn [okC] in O; try (apply N; discriminate).
    + apply N. intros n key it o K. cbn [crun]. destruct (xtext x); discriminate.
    + eapply ev_1; [exact (FC p a O)|]. intros n H key it o K. cbn [crun]. destruct (find (rkey key p) x) as [y|] eqn:E; [(apply (H key y K (find_in _ _ _ E)); exact K)|discriminate].
    + eapply ev_1; [exact (IV v O)|]. intros n H key it o K. cbn [crun]. apply live_bind; [(apply H; trivial)|discriminate].
    + eapply ev_1; [exact (IV v O)|]. intros n H key it o K. cbn [crun]. apply live_bind; [(apply H; trivial)|]. intros [| | | |l]; discriminate.
    + apply N. intros n key it o K. cbn [crun]. destruct o; discriminate.
    + apply N. intros n key it o K. cbn [crun]. apply live_bind; [apply live_gets|discriminate].
    + eapply ev_1; [exact (IC a O)|]. intros n H key it o K. cbn [crun]. apply live_bind; [(apply H; trivial)|discriminate].
    + apply if_true in O. destruct O as [O2 O3]. eapply ev_1; [exact (ev_and _ _ (IC a O2) (IC b O3))|]. intros n [H1 H2] key it o K. cbn [crun].
      apply live_bind; [(apply H1; trivial)|]. intros [|]; [(apply H2; trivial)|discriminate].
    + apply if_true in O. destruct O as [O2 O3]. eapply ev_1; [exact (ev_and _ _ (IC a O2) (IC b O3))|]. intros n [H1 H2] key it o K. cbn [crun].
      apply live_bind; [(apply H1; trivial)|]. intros [|]; [discriminate|(apply H2; trivial)].
Qed.
End Here.

Hypothesis funs : forall kd f, okF look kd f = true.
Lemma ends : forall x d, Q d x.
Proof.
  assert (X : forall n x, xsize x < n -> forall d, Q d x).
  { induction n as [|n IH]; intros x L; [lia|]. assert (B : forall y d, In y (subs x) -> Q d y) by (intros y d I; apply IH; apply subs_size in I; lia).
    assert (F : Q false x) by (apply (here x B false); discriminate). intros [|]; [|exact F]. apply (here x B true). intros _ kd f b r E.
    pose proof (funs kd f) as O. unfold okF in O. rewrite E in O. apply if_true in O. destruct O as [O1 O2]. destruct (F 200 kd) as (FR & FV & _).
    split; [now apply FR|]. intros r' ->. now apply FV. }
  intros x d. exact (X (S (xsize x)) x (Nat.lt_succ_diag_r _) d).
Qed.
End Ends.

Definition rfun_trie : trie (list ri * option vx) := build rfuns.
Lemma rfun_look : forall f, tfind f rfun_trie = assoc f rfuns.
Proof. intros f. apply tfind_build. Qed.
Definition all_okF (t : trie (list ri * option vx)) (l : list (string * (list ri * option vx))) : bool :=
  forallb (fun p => okF (fun f => tfind f t) true (fst p) &&& okF (fun f => tfind f t) false (fst p)) l.
Lemma all_okF_true : all_okF rfun_trie rfuns = true.
Proof. vm_compute. reflexivity. Qed.
Lemma assoc_in : forall A k (l : list (string * A)) a, assoc k l = Some a -> In (k, a) l.
Proof.
  intros A k. induction l as [|[k' a'] l IH]; intros a H; [discriminate|]. cbn [assoc] in H.
  destruct (String.eqb_spec k k') as [E|N]; [left; congruence|right; auto].
Qed.
Lemma okF_true : forall kd f, okF (fun f => tfind f rfun_trie) kd f = true.
Proof.
  intros kd f. pose proof all_okF_true as A. unfold all_okF in A. rewrite forallb_forall in A.
  destruct (tfind f rfun_trie) as [q|] eqn:E; [|unfold okF; rewrite E; reflexivity].
  pose proof E as E'. rewrite rfun_look in E'. specialize (A _ (assoc_in _ _ _ _ E')). apply if_true in A. cbn [fst] in A. destruct A as [A B]. destruct kd; assumption.
Qed.
Lemma load_code_ok : okR (fun f => tfind f rfun_trie) 200 false false load_code = true.
Proof. vm_compute. reflexivity. Qed.
(** reading any document ends *)
Lemma load_ends : forall warn x, exists n, rrun warn n load_code "" x VNone (init "AUTOSAR") <> NoFuel.
Proof.
  intros warn x. destruct (ends warn _ rfun_look okF_true x false 200 false) as (R & _ & _). destruct (R _ load_code_ok) as [n H].
  exists n. apply (H n (le_n n)). intros E. discriminate E.
Qed.
