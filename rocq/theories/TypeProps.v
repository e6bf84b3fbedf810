(** How loading and saving end: the checks of TypeRun.v are computed and put into the words of
    SpecRun.v.  Nothing here models code. *)
From Coq Require Import String Ascii List Bool Arith Lia Floats.SpecFloat.
From Verif Require Import PyBase Primitives Xml Leaf ClassTable Ir Access IrSem IrFacts SpecRoundTrip SpecTolerant SpecRun Trie TypeCheck TypeFacts TypeReader TypeTable TypeRun Term TermWriter.
Import ListNotations.
Open Scope string_scope.
Open Scope list_scope.

(** ** The checks *)
Definition load_w (e : exn) : bool := match e with ValueError | NameInUse | AttributeError | TypeError | UnboundLocalError => true | _ => false end.
Definition load_s (e : exn) : bool := match e with ValueError | NameInUse | AttributeError | TypeError | NotImplementedError => true | _ => false end.
Lemma load_check : read_check field_types result_types calls false [] load_w load_s = true.
Proof. vm_compute. reflexivity. Qed.

Definition outside (l : list string) (s : string) : bool := negb (existsb (String.eqb s) l).
Definition faulty_classes : list string :=
  ["ModeSwitchPoint"; "SwRecordLayout"; "SwRecordLayoutGroup"; "SwRecordLayoutGroupContent"; "SwRecordLayoutV"; "EcucInstanceReferenceValue"; "HwAttributeLiteralDef"].
Definition faulty_functions : list string := ["getSwRecordLayoutGroup"; "getSwRecordLayoutV"; "getEcucInstanceReferenceValue"].
Definition sound_bases (l : list base) : list base := filter (fun b => match b with BObj c => outside faulty_classes c | _ => true end) l.
Definition sound_ty (t : ty) : ty := mkTy (sound_bases (ts t)) (option_map sound_bases (tl t)).
Definition sound_fields : list (string * list (string * ty)) :=
  map (fun p => (fst p, map (fun q => (fst q, if String.eqb (fst q) "short_name" then tbase [BStr] else sound_ty (snd q))) (snd p)))
      (filter (fun p => outside faulty_classes (fst p)) field_types).
Definition sound_results : list (string * ty) := map (fun p => (fst p, sound_ty (snd p))) (filter (fun p => outside faulty_functions (fst p)) result_types).
Definition sound_calls : list (string * list string) :=
  map (fun p => (fst p, filter (outside faulty_functions) (snd p))) (filter (fun p => outside faulty_classes (fst p)) calls).
Definition clean_w (e : exn) : bool := match e with ValueError | NameInUse | AttributeError | UnboundLocalError => true | _ => false end.
Definition clean_s (e : exn) : bool := match e with ValueError | NameInUse | AttributeError | NotImplementedError => true | _ => false end.
Lemma clean_check : (fun a b c => read_check a b c true faulty_tags clean_w clean_s) sound_fields sound_results sound_calls = true.
Proof. vm_compute. reflexivity. Qed.
Definition save_w (e : exn) : bool := false.
Definition save_s (e : exn) : bool := match e with NotImplementedError => true | _ => false end.
Lemma save_check : (fun a => write_check a writer_types save_w save_s) sound_fields = true.
Proof. vm_compute. reflexivity. Qed.
Definition readable_calls : list (string * list string) := filter (fun p => outside ["HwAttributeLiteralDef"; "SenderReceiverToSignalMapping"] (fst p)) calls.
Definition readable_w (e : exn) : bool := match e with ValueError | NameInUse | TypeError | UnboundLocalError => true | _ => false end.
Definition readable_s (e : exn) : bool := match e with ValueError | NameInUse | TypeError | NotImplementedError => true | _ => false end.
Lemma readable_check : (fun c => read_check field_types result_types c false unreadable_tags readable_w readable_s) readable_calls = true.
Proof. vm_compute. reflexivity. Qed.

(** ** Documents *)
Local Opaque read_check write_check rrun wrun.
Lemma clean_of : forall (names : bool) absent x, ~ has_any absent x -> (names = true -> ~ nameless x) -> TypeReader.clean names absent x.
Proof.
  intros names absent. fix IH 1. intros [t a s ks] H N. constructor.
  - intros I. apply H. now constructor 1.
  - intros E T S. apply (N E). constructor 1. split; assumption.
  - assert (H' : forall y, In y ks -> ~ has_any absent y) by (intros y I O; apply H; econstructor 2; [exact I|exact O]).
    assert (N' : forall y, In y ks -> names = true -> ~ nameless y) by (intros y I E O; apply (N E); econstructor 2; [exact I|exact O]).
    clear H N. induction ks as [|k ks IHk]; constructor.
    + apply IH; [apply H'; now left|apply N'; now left].
    + apply IHk; intros y I; [apply H'; now right|apply N'; now right].
Qed.

Lemma outcome : forall A (run : nat -> out A) allowed (P : A -> Prop),
  (exists n, run n <> NoFuel) -> (forall n, okres allowed (run n) P) -> (exists n a, run n = Done a /\ P a) \/ (exists n e, run n = Exc e /\ allowed e).
Proof.
  intros A run allowed P [n L] H. specialize (H n). destruct (run n) as [a|e| |] eqn:E; cbn in H; [left; exists n, a; auto|right; exists n, e; auto|destruct H|elim L; reflexivity].
Qed.
Definition typed (tb : list (string * list (string * ty))) (u : val) : Prop := hasb (types_of tb) u (BObj "AUTOSAR").
Lemma no_step : forall absent : list string, forallb (fun t => negb (String.eqb t "*") && negb (String.eqb t ".")) absent = true -> forall t, In t absent -> t <> "*" /\ t <> ".".
Proof.
  intros absent F t I. rewrite forallb_forall in F. specialize (F t I). apply andb_true_iff in F. destruct F as [F1 F2]. split; intros ->; discriminate.
Qed.
Lemma load_runs : forall warn n x, okres (may load_w load_s warn) (rrun warn n load_code "" x VNone (init "AUTOSAR")) (typed field_types).
Proof.
  intros warn n x. apply (read_ok _ _ _ _ _ _ _ load_check); [intros t []|reflexivity|reflexivity|]. apply clean_of; [|discriminate].
  intros H. induction H as [y []|]; auto.
Qed.
Lemma clean_runs : forall warn n x, ~ has_any faulty_tags x -> ~ nameless x ->
  okres (may clean_w clean_s warn) (rrun warn n load_code "" x VNone (init "AUTOSAR")) (typed sound_fields).
Proof.
  intros warn n x H N. apply (read_ok _ _ _ _ _ _ _ clean_check); [apply no_step; reflexivity|reflexivity|reflexivity|]. apply clean_of; auto.
Qed.
Lemma readable_runs : forall warn n x, ~ has_any unreadable_tags x ->
  okres (may readable_w readable_s warn) (rrun warn n load_code "" x VNone (init "AUTOSAR")) (typed field_types).
Proof.
  intros warn n x H. apply (read_ok _ _ _ _ _ _ _ readable_check); [apply no_step; reflexivity|reflexivity|reflexivity|]. apply clean_of; [exact H|discriminate].
Qed.
Lemma save_runs : forall repr warn n u, typed sound_fields u -> okres (may save_w save_s warn) (wrun repr warn n save_code "" u elem0) (fun _ => True).
Proof. intros repr warn n u. apply (write_ok _ _ _ _ save_check). Qed.

Lemma may_load : forall warn e, may load_w load_s warn e -> load_error warn e.
Proof. intros [] e H; unfold may, load_error in *; destruct e; try discriminate H; auto. Qed.
Lemma may_clean : forall warn e, may clean_w clean_s warn e -> e <> TypeError.
Proof. intros [] e H; unfold may in *; destruct e; try discriminate H; discriminate. Qed.
Lemma may_readable : forall warn e, may readable_w readable_s warn e -> load_error warn e /\ e <> AttributeError.
Proof. intros [] e H; unfold may, load_error in *; destruct e; try discriminate H; (split; [auto|discriminate]). Qed.
Lemma may_save : forall warn e, may save_w save_s warn e -> warn = false /\ e = NotImplementedError.
Proof. intros [] e H; [discriminate H|]. unfold may in H. destruct e; try discriminate H. auto. Qed.

Lemma load_outcome : forall warn x, (exists u, loaded warn x u) \/ (exists e, load_raises warn x e /\ load_error warn e).
Proof.
  intros warn x. destruct (outcome _ _ _ _ (load_ends warn x) (fun n => load_runs warn n x)) as [(n & u & R & _)|(n & e & R & M)].
  - left. exists u, n. exact R.
  - right. exists e. split; [exists n; exact R|now apply may_load].
Qed.
(** two runs that are not cut short end the same way *)
Lemma same_load : forall warn n m x, rrun warn n load_code "" x VNone (init "AUTOSAR") <> NoFuel -> rrun warn m load_code "" x VNone (init "AUTOSAR") <> NoFuel ->
  rrun warn n load_code "" x VNone (init "AUTOSAR") = rrun warn m load_code "" x VNone (init "AUTOSAR").
Proof.
  intros warn n m x Hn Hm. pose proof (rrun_le warn (n + m) n load_code "" x VNone (init "AUTOSAR") (Nat.le_add_r _ _)) as A.
  pose proof (rrun_le warn (n + m) m load_code "" x VNone (init "AUTOSAR") (Nat.le_add_l _ _)) as B.
  destruct A as [A|A]; [contradiction|]. destruct B as [B|B]; [contradiction|]. congruence.
Qed.
Lemma load_once : forall warn x u v, loaded warn x u -> loaded warn x v -> u = v.
Proof.
  intros warn x u v [n A] [m B]. assert (H := same_load warn n m x). rewrite A, B in H. specialize (H ltac:(discriminate) ltac:(discriminate)). congruence.
Qed.
Lemma load_either : forall warn x u e, loaded warn x u -> ~ load_raises warn x e.
Proof.
  intros warn x u e [n A] [m B]. assert (H := same_load warn n m x). rewrite A, B in H. specialize (H ltac:(discriminate) ltac:(discriminate)). congruence.
Qed.
Lemma load_raises_error : forall warn x e, load_raises warn x e -> load_error warn e.
Proof. intros warn x e [n R]. pose proof (load_runs warn n x) as H. rewrite R in H. now apply may_load. Qed.

Lemma has_any_dec : forall tags x, has_any tags x \/ ~ has_any tags x.
Proof.
  intros tags. fix IH 1. intros [t a s ks]. destruct (in_dec string_dec t tags) as [I|N]; [left; now constructor 1|].
  assert (K : (exists y, In y ks /\ has_any tags y) \/ (forall y, In y ks -> ~ has_any tags y)).
  { induction ks as [|k ks IHk]; [right; intros y []|]. destruct (IH k) as [H|H]; [left; exists k; split; [now left|exact H]|].
    destruct IHk as [(y & I & Y)|Y]; [left; exists y; split; [now right|exact Y]|]. right. intros y [Q|I]; [now subst|now apply Y]. }
  destruct K as [(y & I & Y)|K]; [left; econstructor 2; [exact I|exact Y]|]. right. intros H. inversion H as [x I|x y I Y]; subst; [now apply N|now apply (K y)].
Qed.
Lemma attribute_error : forall warn x, load_raises warn x AttributeError -> has_any unreadable_tags x.
Proof.
  intros warn x [n R]. destruct (has_any_dec unreadable_tags x) as [Y|N]; [exact Y|]. pose proof (readable_runs warn n x N) as H. rewrite R in H.
  apply may_readable in H. now destruct H.
Qed.
Lemma nameless_dec : forall x, nameless x \/ ~ nameless x.
Proof.
  fix IH 1. intros [t a s ks]. destruct (string_dec t "SHORT-NAME") as [E|E]; [destruct s as [s|]; [|left; now constructor 1]|].
  all: assert (K : (exists y, In y ks /\ nameless y) \/ (forall y, In y ks -> ~ nameless y));
    [induction ks as [|k ks IHk]; [right; intros y []|]; destruct (IH k) as [H|H]; [left; exists k; split; [now left|exact H]|];
     destruct IHk as [(y & I & Y)|Y]; [left; exists y; split; [now right|exact Y]|]; right; intros y [Q|I]; [now subst|now apply Y]|].
  all: destruct K as [(y & I & Y)|K]; [left; econstructor 2; [exact I|exact Y]|]; right; intros H; inversion H as [x [I J]|x y I Y]; subst; [cbn in *; congruence|now apply (K y)].
Qed.
Lemma type_error : forall warn x, load_raises warn x TypeError -> nameless x \/ has_any faulty_tags x.
Proof.
  intros warn x [n R]. destruct (nameless_dec x) as [Y|N]; [now left|]. destruct (has_any_dec faulty_tags x) as [Y|M]; [now right|]. pose proof (clean_runs warn n x M N) as H. rewrite R in H.
  now apply may_clean in H.
Qed.

(** ** Loaded documents *)
Lemma typed_part : forall fty u v, part u v -> (exists b, hasb fty u b) ->
  (exists b, hasb fty v b) \/ exists l, v = VList l /\ Forall (fun w => exists b, hasb fty w b) l.
Proof.
  intros fty u v P B. induction P as [|c fs f v P IH I|l v P IH I]; [now left| |].
  - destruct IH as [[b H]|(l & E & _)]; [|discriminate E]. inversion H as [| | | | | | |? ? _ F]; subst. rewrite Forall_forall in F. specialize (F _ I). cbn [fst snd] in F.
    inversion F as [? b' ? _ H'|vs bs ? _ F']; subst; [left; exists b'; exact H'|right]. eexists. split; [reflexivity|].
    eapply Forall_impl; [|exact F']. intros w (b' & _ & H'). exists b'. exact H'.
  - destruct IH as [[b H]|(l' & E & F)]; [inversion H|]. injection E as <-. rewrite Forall_forall in F. left. exact (F v I).
Qed.
Lemma assoc_some : forall A f (l : list (string * A)), In f (map fst l) -> assoc f l <> None.
Proof.
  intros A f. induction l as [|[k a] l IH]; cbn [map fst assoc In]; [intros []|]. intros [E|I]; [subst; rewrite String.eqb_refl; discriminate|].
  destruct (String.eqb f k); [discriminate|auto].
Qed.
Lemma loaded_complete : forall warn x u, loaded warn x u -> complete u.
Proof.
  intros warn x u [n R] c fs f P I. pose proof (load_runs warn n x) as H. rewrite R in H. cbn [okres] in H.
  destruct (typed_part (types_of field_types) _ _ P (ex_intro (hasb (types_of field_types) u) _ H)) as [[b T]|(l & E & _)]; [|discriminate E]. inversion T as [| | | | | | |? ? A _]; subst.
  specialize (A f (assoc_some _ _ _ I)). destruct (assoc f fs) as [v|] eqn:E; [|now elim A]. exists v. now apply assoc_in.
Qed.

(** ** Saving *)
Lemma same_save : forall repr warn n m u, wrun repr warn n save_code "" u elem0 <> NoFuel -> wrun repr warn m save_code "" u elem0 <> NoFuel ->
  wrun repr warn n save_code "" u elem0 = wrun repr warn m save_code "" u elem0.
Proof.
  intros repr warn n m u Hn Hm. pose proof (wrun_le repr warn (n + m) n save_code "" u elem0 (Nat.le_add_r _ _)) as A.
  pose proof (wrun_le repr warn (n + m) m save_code "" u elem0 (Nat.le_add_l _ _)) as B.
  destruct A as [A|A]; [contradiction|]. destruct B as [B|B]; [contradiction|]. congruence.
Qed.
Lemma clean_typed : forall warn x u, loaded warn x u -> ~ has_any faulty_tags x -> ~ nameless x -> typed sound_fields u.
Proof. intros warn x u [n R] H N. pose proof (clean_runs warn n x H N) as T. rewrite R in T. exact T. Qed.
Lemma save_outcome : forall repr w warn x u, loaded w x u -> ~ has_any faulty_tags x -> ~ nameless x ->
  (exists y, saved repr warn u y) \/ warn = false /\ saving_raises repr warn u NotImplementedError.
Proof.
  intros repr w warn x u L H N. pose proof (clean_typed w x u L H N) as T.
  destruct (outcome _ _ _ _ (save_ends repr warn u) (fun n => save_runs repr warn n u T)) as [(n & e & R & _)|(n & e & R & M)].
  - left. exists (to_xml "AUTOSAR" e), e. split; [exists n; exact R|reflexivity].
  - right. apply may_save in M. destruct M as [-> ->]. split; [reflexivity|exists n; exact R].
Qed.
Lemma save_warning : forall repr w x u, loaded w x u -> ~ has_any faulty_tags x -> ~ nameless x -> exists y, saved repr true u y.
Proof. intros repr w x u L H N. destruct (save_outcome repr w true x u L H N) as [Y|[E _]]; [exact Y|discriminate E]. Qed.
Lemma save_errors : forall repr w warn x u e, loaded w x u -> ~ has_any faulty_tags x -> ~ nameless x -> saving_raises repr warn u e -> warn = false /\ e = NotImplementedError.
Proof.
  intros repr w warn x u e L Hx N [n R]. pose proof (save_runs repr warn n u (clean_typed w x u L Hx N)) as M. rewrite R in M. now apply may_save.
Qed.
Lemma save_once : forall repr warn u x y, saved repr warn u x -> saved repr warn u y -> x = y.
Proof.
  intros repr warn u x y (e & [n A] & ->) (f & [m B] & ->). assert (H := same_save repr warn n m u). rewrite A, B in H.
  specialize (H ltac:(discriminate) ltac:(discriminate)). congruence.
Qed.
Lemma save_either : forall repr warn u x e, saved repr warn u x -> ~ saving_raises repr warn u e.
Proof.
  intros repr warn u x e (f & [n A] & _) [m B]. assert (H := same_save repr warn n m u). rewrite A, B in H.
  specialize (H ltac:(discriminate) ltac:(discriminate)). congruence.
Qed.
