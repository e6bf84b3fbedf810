(** Warning mode and strict mode of the reader and of the writer. *)
From Coq Require Import String Ascii List Bool Arith Lia Floats.SpecFloat.
From Verif Require Import PyBase Primitives Xml Leaf ClassTable Ir Access WriterCode ReaderCode IrSem IrFacts.
Import ListNotations.
Open Scope string_scope.
Open Scope list_scope.
Local Opaque access_of init named_init wfuns rfuns.

(** ** What succeeds in strict mode succeeds in warning mode, with the same result *)
Definition imp {A} (a b : out A) : Prop := forall v, a = Done v -> b = Done v.
Lemma imp_refl : forall A (a : out A), imp a a.
Proof. intros A a v H. exact H. Qed.
Lemma imp_bind : forall A B (a a' : out A) (f f' : A -> out B), imp a a' -> (forall v, imp (f v) (f' v)) -> imp (obind a f) (obind a' f').
Proof. intros A B a a' f f' H F v E. destruct a as [u| | |]; try discriminate E. rewrite (H u eq_refl). exact (F u v E). Qed.
Lemma imp_fold : forall A S (f g : A -> S -> out S) l s, (forall a s, imp (f a s) (g a s)) -> imp (fold_out f l s) (fold_out g l s).
Proof. induction l as [|a l IH]; intros s H; [apply imp_refl|]. cbn [fold_out]. apply imp_bind; auto. Qed.
Lemma imp_exc : forall A (e : exn) (b : out A), imp (Exc e) b.
Proof. intros A e b v E. discriminate E. Qed.
Lemma imp_nofuel : forall A (b : out A), imp NoFuel b.
Proof. intros A b v E. discriminate E. Qed.
Ltac imp_step :=
  match goal with
  | |- imp ?a ?a => apply imp_refl
  | |- imp (Exc _) _ => apply imp_exc
  | |- imp NoFuel _ => apply imp_nofuel
  | |- imp (obind ?a _) (obind ?a _) => apply imp_bind; [apply imp_refl | intro]
  | |- imp (obind _ _) (obind _ _) => apply imp_bind; [|intro]
  | |- imp (fold_out _ _ _) (fold_out _ _ _) => apply imp_fold; intros
  | |- imp (match ?x with _ => _ end) (match ?x with _ => _ end) => destruct x
  | H : forall _, _ |- _ => apply H
  end.
Lemma literal_modes : forall key x, imp (of_res (literal_required false key x)) (of_res (literal_required true key x)).
Proof. intros. unfold literal_required. destruct (find key x); [apply imp_refl|apply imp_exc]. Qed.
Lemma ref_modes : forall key x, imp (of_res (ref_required false key x)) (of_res (ref_required true key x)).
Proof. intros. unfold ref_required. destruct (find key x); [apply imp_refl|apply imp_exc]. Qed.
Lemma reader_modes : forall n,
  (forall code key x it o, imp (rrun false n code key x it o) (rrun true n code key x it o)) /\
  (forall v key x it o, imp (vrun false n v key x it o) (vrun true n v key x it o)) /\
  (forall c key x it o, imp (crun false n c key x it o) (crun true n c key x it o)).
Proof.
  induction n as [|n [IH1 [IH2 IH3]]]; [repeat split; intros; apply imp_nofuel|].
  repeat split; intros.
  - destruct code as [|i rest]; [apply imp_refl|]. cbn [rrun]. fold (rrun false) (vrun false) (crun false) (rrun true) (vrun true) (crun true).
    apply imp_bind; [|intro; apply IH1]. destruct i; try solve [repeat imp_step].
    destruct soft; [apply imp_exc|apply imp_refl].
  - destruct v; cbn [vrun]; fold (rrun false) (vrun false) (crun false) (rrun true) (vrun true) (crun true); try solve [repeat imp_step].
    destruct k; try apply imp_refl; (apply imp_bind; [|intro; apply imp_refl]); [apply literal_modes|apply ref_modes].
  - destruct c; cbn [crun]; fold (rrun false) (vrun false) (crun false) (rrun true) (vrun true) (crun true); repeat imp_step.
Qed.
Lemma writer_modes : forall repr n code key v e, imp (wrun repr false n code key v e) (wrun repr true n code key v e).
Proof.
  intros repr. induction n as [|n IH]; intros; [apply imp_nofuel|]. destruct code as [|i rest]; [apply imp_refl|].
  cbn [wrun]. fold (wrun repr false) (wrun repr true). apply imp_bind; [|intro; apply IH]. destruct i; try solve [repeat imp_step].
  destruct soft; [apply imp_exc|apply imp_refl].
Qed.

(** ** NotImplementedError is never raised in warning mode *)
Definition quiet {A} (a : out A) : Prop := a <> Exc NotImplementedError.
Lemma quiet_bind : forall A B (a : out A) (f : A -> out B), quiet a -> (forall v, quiet (f v)) -> quiet (obind a f).
Proof. intros A B [u|e| |] f H F; [exact (F u)|intros E; apply H; injection E as ->; reflexivity|discriminate|discriminate]. Qed.
Lemma quiet_fold : forall A S (f : A -> S -> out S) l s, (forall a s, quiet (f a s)) -> quiet (fold_out f l s).
Proof. induction l as [|a l IH]; intros s H; [discriminate|]. cbn [fold_out]. apply quiet_bind; auto. Qed.
Lemma quiet_done : forall A (a : A), quiet (Done a). Proof. discriminate. Qed.
Lemma quiet_stuck : forall A, @quiet A Stuck. Proof. discriminate. Qed.
Lemma quiet_nofuel : forall A, @quiet A NoFuel. Proof. discriminate. Qed.
Lemma get1_quiet : forall v g, quiet (get1 v g).
Proof.
  intros [| |l|c fs|] g; try discriminate; cbn [get1].
  - destruct l; destruct g as [m|m]; try discriminate;
      repeat match goal with |- quiet (if ?b then _ else _) => destruct b end; discriminate.
  - destruct g as [m|a].
    + destruct (access_of c m) as [[f|f| | |]|]; try discriminate; destruct (assoc f fs) as [[| | | |l]|]; try discriminate; destruct (sortable l); discriminate.
    + destruct (assoc a fs); discriminate.
Qed.
Lemma gets_quiet : forall p v, quiet (gets v p).
Proof. induction p as [|g p IH]; intros v; [discriminate|]. cbn [gets]. apply quiet_bind; [apply get1_quiet|auto]. Qed.
Lemma convert_error : forall s e, convert s = Raise e -> e = ValueError.
Proof.
  intros s e H. unfold convert in H. destruct (String.eqb s "true"); [discriminate|]. destruct (String.eqb s "false"); [discriminate|]. destruct (match_hex s); [discriminate|].
  destruct (match_bin s) as [d|]; [destruct (all_chars is_bit d); [discriminate|congruence]|]. destruct (match_decimal s); [discriminate|]. destruct (py_int s); [discriminate|congruence].
Qed.
Lemma set_num_quiet : forall set cls n v, (forall n v, snd (set n v) <> Some NotImplementedError) -> set_num set cls n v <> Raise NotImplementedError.
Proof. intros set cls n v H. unfold set_num. specialize (H n v). destruct (set n v) as [n' [e|]]; [|discriminate]. cbn [snd] in H. congruence. Qed.
Lemma str_quiet : forall n s, snd (set_str n s) <> Some NotImplementedError.
Proof. intros n s. unfold set_str. destruct (convert s) eqn:C; [discriminate|]. apply convert_error in C. subst. discriminate. Qed.
Lemma num_quiet : forall n v, snd (num_set n v) <> Some NotImplementedError.
Proof. intros n []; unfold num_set; try discriminate; apply str_quiet. Qed.
Lemma float_quiet : forall n v, snd (float_set n v) <> Some NotImplementedError.
Proof. intros n []; unfold float_set; try discriminate; try apply str_quiet. destruct (py_float_of_int z); discriminate. Qed.
Lemma pos_quiet : forall n v, snd (pos_set n v) <> Some NotImplementedError.
Proof. intros n []; unfold pos_set; try discriminate; try apply str_quiet. all: repeat match goal with |- context[if ?b then _ else _] => destruct b end; try discriminate; try apply str_quiet. Qed.
Lemma bool_quiet : forall b v, snd (bool_set b v) <> Some NotImplementedError.
Proof.
  intros b []; unfold bool_set; try discriminate. unfold str_to_bool. destruct (_ || _)%bool; [discriminate|]. destruct (_ || _)%bool; [discriminate|]. destruct (py_int _); discriminate.
Qed.
Lemma leaf_of_quiet : forall k x, leaf_of k x <> Raise NotImplementedError.
Proof.
  intros k x. destruct k; cbn [leaf_of]; try discriminate; try (apply set_num_quiet; auto using num_quiet, float_quiet).
  - destruct (xtext x) as [s|]; [destruct (revision_ok s)|]; discriminate.
  - destruct (xtext x); [apply set_num_quiet; exact float_quiet|discriminate].
  - destruct (xtext x); [apply set_num_quiet; exact float_quiet|discriminate].
  - destruct (is_empty _); [discriminate|]. pose proof (bool_quiet (mkBool (xattr "T" x) None None None) (PStr (text_or_empty (xtext x)))) as B. destruct (bool_set _ _) as [b [e|]]; [|discriminate]. cbn [snd] in B. congruence.
  - destruct (xtext x) as [s|]; [|discriminate]. pose proof (set_num_quiet pos_set "PositiveInteger" (num_blank x) (PStr s) pos_quiet) as Q. destruct (set_num _ _ _ _) as [[[]|]|]; try discriminate; auto.
    destruct (n_value n) as [w|]; [destruct (numv_neg w)|]; discriminate.
Qed.
Lemma leaf_read_quiet : forall k key x, quiet (of_res (leaf_read k key x)).
Proof. intros k key x. unfold leaf_read. destruct (find key x) as [y|]; [|discriminate]. pose proof (leaf_of_quiet k y) as Q. destruct (leaf_of k y); [discriminate|]. intros E. cbn in E. congruence. Qed.
Lemma leaf_items_quiet : forall k l, leaf_items k l <> Raise NotImplementedError.
Proof.
  intros k. induction l as [|x l IH]; [discriminate|]. cbn [leaf_items]. pose proof (leaf_of_quiet k x) as Q. destruct (leaf_of k x); cbn [bind]; [|congruence]. destruct (leaf_items k l); cbn [bind]; [discriminate|congruence].
Qed.
Lemma leaf_list_quiet : forall k key x, quiet (of_res (leaf_list k key x)).
Proof. intros k key x. unfold leaf_list. pose proof (leaf_items_quiet k (findall key x)) as Q. destruct (leaf_items k (findall key x)); [discriminate|]. intros E. cbn in E. congruence. Qed.
Lemma short_quiet : forall x, quiet (of_res (short_name x)).
Proof. intros x. unfold short_name. destruct (find "SHORT-NAME" x); discriminate. Qed.
Lemma literal_quiet : forall w k x, quiet (of_res (literal_required w k x)).
Proof. intros w k x. unfold literal_required. destruct (find k x); [discriminate|]. destruct w; discriminate. Qed.
Lemma ref_quiet : forall w k x, quiet (of_res (ref_required w k x)).
Proof. intros w k x. unfold ref_required. destruct (find k x); [discriminate|]. destruct w; discriminate. Qed.
Lemma wrap_quiet : forall c m v, quiet (wrap c m v).
Proof.
  intros c m v. unfold wrap. destruct (_ && _)%bool; [destruct v as [| |[]| |]; discriminate|]. destruct (_ && _)%bool.
  - destruct v; try discriminate. pose proof (num_quiet num_new (PStr s)) as Q. destruct (num_set num_new (PStr s)) as [n [e|]]; [|discriminate]. cbn [snd] in Q. intros E. congruence.
  - destruct (_ && _)%bool; [destruct v; discriminate|discriminate].
Qed.
Lemma put1_quiet : forall o m v, quiet (put1 o m v).
Proof.
  intros o m v. destruct o as [| | |c l|l]; try discriminate; cbn [put1].
  - destruct (access_of c m) as [[| |f g|f g|]|]; try discriminate. destruct (g && _)%bool; [discriminate|]. destruct (assoc f l) as [[]|]; discriminate.
  - destruct (String.eqb m "append"); discriminate.
Qed.
Lemma store_quiet : forall o p w, quiet (store o p w).
Proof.
  intros o p w. unfold store. destruct o as [| | |c l|l]; try discriminate. destruct (match field w "short_name" with Some (VStr n) => _ | _ => _ end); [discriminate|].
  destruct p; destruct (assoc _ _) as [[]|]; discriminate.
Qed.
Lemma read_attrs_quiet : forall o x, quiet (read_attrs o x).
Proof. intros [] x; discriminate. Qed.
Lemma wcheck_quiet : forall c v, quiet (wcheck v c).
Proof.
  induction c; intros v; cbn [wcheck]; try (apply quiet_bind; [apply gets_quiet|intros []; try discriminate]).
  - destruct l; discriminate.
  - apply quiet_bind; [apply IHc|discriminate].
  - apply quiet_bind; [apply IHc1|]. intros [|]; [apply IHc2|discriminate].
Qed.
Lemma leaf_write_quiet : forall repr k t l, quiet (of_res (leaf_write repr k t l)).
Proof. intros repr k t [l|]; [|discriminate]. unfold leaf_write, leaf_element. destruct k, l; discriminate. Qed.

(** the code raises NotImplementedError only through notImplemented *)
Definition soft_e (e : exn) (soft : bool) : bool := match e with NotImplementedError => soft | _ => true end.
Fixpoint soft_r (n : nat) (code : list ri) : bool :=
  match n with
  | 0 => false
  | S n =>
      match code with
      | [] => true
      | i :: rest =>
          if match i with
             | RAttrs | RUnknown | RCall _ _ => true
             | RFail e s => soft_e e s
             | RPut _ v | RPutAny _ _ v | RSet _ v => soft_v n v
             | RCreate _ _ b | RFor _ b | RSub _ b => soft_r n b
             | RFind _ a b => if soft_r n a then soft_r n b else false
             | RForVal v b => if soft_v n v then soft_r n b else false
             | RIf c a b => if soft_c n c then if soft_r n a then soft_r n b else false else false
             end then soft_r n rest else false
      end
  end
with soft_v (n : nat) (v : vx) : bool :=
  match n with
  | 0 => false
  | S n =>
      match v with
      | VFailX e => soft_e e false
      | VLastX _ a | VWrapX _ _ a | VValueX a => soft_v n a
      | VNewX _ _ b | VListX b => soft_r n b
      | VFindX _ a b | VOrX a b => if soft_v n a then soft_v n b else false
      | VIfX c a b => if soft_c n c then if soft_v n a then soft_v n b else false else false
      | _ => true
      end
  end
with soft_c (n : nat) (c : rcond) : bool :=
  match n with
  | 0 => false
  | S n =>
      match c with
      | CAt _ a | CNeg a => soft_c n a
      | CGot v | CEmpty v => soft_v n v
      | CBoth a b | CEither a b => if soft_c n a then soft_c n b else false
      | _ => true
      end
  end.
Definition soft_fun (p : string * (list ri * option vx)) : bool :=
  if soft_r 500 (fst (snd p)) then match snd (snd p) with Some v => soft_v 500 v | None => true end else false.
Fixpoint soft_w (n : nat) (code : list wi) : bool :=
  match n with
  | 0 => false
  | S n =>
      match code with
      | [] => true
      | i :: rest =>
          if match i with
             | WFail e s => soft_e e s
             | WSub _ b | WFor _ b => soft_w n b
             | WIf _ a b => if soft_w n a then soft_w n b else false
             | _ => true
             end then soft_w n rest else false
      end
  end.
Local Transparent wfuns rfuns.
Lemma soft_readers : forallb soft_fun rfuns = true.
Proof. vm_compute. reflexivity. Qed.
Lemma soft_writers : forallb (fun p => soft_w 500 (snd p)) wfuns = true.
Proof. vm_compute. reflexivity. Qed.
Local Opaque wfuns rfuns.
Lemma assoc_in : forall A (l : list (string * A)) k a, assoc k l = Some a -> In (k, a) l.
Proof. induction l as [|[k' a'] l IH]; intros k a H; [discriminate|]. cbn [assoc] in H. destruct (String.eqb_spec k k') as [->|]; [injection H as <-; now left|right; auto]. Qed.
Lemma all_assoc : forall A (P : string * A -> bool) l, forallb P l = true -> forall k a, assoc k l = Some a -> P (k, a) = true.
Proof. intros A P l H k a K. rewrite forallb_forall in H. exact (H _ (assoc_in _ _ _ _ K)). Qed.
Lemma soft_split : forall f b r, soft_fun (f, (b, r)) = true -> soft_r 500 b = true /\ forall v, r = Some v -> soft_v 500 v = true.
Proof.
  unfold soft_fun. cbn [fst snd]. generalize 500. intros n f b r K. destruct (soft_r n b); [|discriminate]. split; [reflexivity|]. intros v ->. exact K.
Qed.
Lemma soft_reader : forall f b r, assoc f rfuns = Some (b, r) -> soft_r 500 b = true /\ forall v, r = Some v -> soft_v 500 v = true.
Proof. intros f b r H. apply (soft_split f). exact (all_assoc _ soft_fun rfuns soft_readers f (b, r) H). Qed.
Lemma soft_writer : forall f b, assoc f wfuns = Some b -> soft_w 500 b = true.
Proof. intros f b H. exact (all_assoc _ (fun p => soft_w 500 (snd p)) wfuns soft_writers f b H). Qed.
Ltac ifs H := repeat match type of H with (if ?b then _ else false) = true => let E := fresh "K" in destruct b eqn:E; [|discriminate H] end.
Lemma soft_fails : forall A (o : A) e s, soft_e e s = true -> quiet (if (s && true)%bool then Done o else Exc e).
Proof. intros A o e [|] H; [discriminate|]. destruct e; discriminate. Qed.
Lemma quiet_reader : forall n,
  (forall k code key x it o, soft_r k code = true -> quiet (rrun true n code key x it o)) /\
  (forall k v key x it o, soft_v k v = true -> quiet (vrun true n v key x it o)) /\
  (forall k c key x it o, soft_c k c = true -> quiet (crun true n c key x it o)).
Proof.
  induction n as [|n [IHr [IHv IHc]]]; [repeat split; discriminate|].
  assert (IHf : forall f b r key x it o, assoc f rfuns = Some (b, r) -> quiet (rrun true n b key x it o) /\ forall v, r = Some v -> forall o, quiet (vrun true n v key x it o)).
  { intros f b r key x it o A. destruct (soft_reader _ _ _ A) as [S1 S2]. split; [now apply (IHr 500)|]. intros v R o'. apply (IHv 500); auto. }
  repeat split.
  - intros k code key x it o H. destruct k as [|k]; [discriminate|]. cbn [soft_r] in H. destruct code as [|i rest]; [discriminate|].
    match type of H with (if ?b then _ else false) = true => destruct b eqn:HI; [|discriminate H] end.
    cbn [rrun]. fold (rrun true) (vrun true) (crun true). apply quiet_bind; [|intros; now apply (IHr k)].
    destruct i.
    + apply read_attrs_quiet.
    + apply quiet_bind; [now apply (IHv k)|intros; apply put1_quiet].
    + apply quiet_bind; [now apply (IHv k)|]. intros w. apply quiet_bind; [|intros [|]; [apply put1_quiet|discriminate]]. apply quiet_fold. intros. apply quiet_bind; [apply get1_quiet|]. intros []; try discriminate. destruct vs; discriminate.
    + apply quiet_bind; [now apply (IHv k)|]. intros w. destruct o; discriminate.
    + destruct (assoc f rfuns) as [[b r]|] eqn:A; [|discriminate]. destruct (IHf _ _ _ (rtag key x t) x VNone o A) as [F1 F2]. apply quiet_bind; [exact F1|]. intros o1. destruct r as [r|]; [|discriminate]. apply quiet_bind; [now apply F2|discriminate].
    + destruct o; try discriminate. destruct (access_of cls m) as [[]|]; try discriminate. destruct (negb _); [discriminate|].
      apply quiet_bind; [destruct named; [apply quiet_bind; [apply short_quiet|discriminate]|discriminate]|]. intros v. apply quiet_bind; [now apply (IHr k)|intros; apply store_quiet].
    + ifs HI. destruct (find _ x); now apply (IHr k).
    + apply quiet_fold. intros. now apply (IHr k).
    + ifs HI. apply quiet_bind; [now apply (IHv k)|]. intros []; try discriminate. apply quiet_fold. intros. now apply (IHr k).
    + ifs HI. apply quiet_bind; [now apply (IHc k)|]. intros [|]; now apply (IHr k).
    + destruct o; try discriminate. destruct g.
      * destruct (access_of cls m) as [[]|]; try discriminate. destruct (assoc f fields); [|discriminate]. apply quiet_bind; [now apply (IHr k)|discriminate].
      * destruct (assoc a fields); [|discriminate]. apply quiet_bind; [now apply (IHr k)|discriminate].
    + now apply soft_fails.
    + discriminate.
  - intros k v key x it o H. destruct k as [|k]; [discriminate|]. cbn [soft_v] in H. destruct v; cbn [vrun]; fold (rrun true) (vrun true) (crun true); try discriminate.
    + apply quiet_bind; [apply leaf_read_quiet|discriminate].
    + destruct k0; try discriminate; (apply quiet_bind; [|discriminate]); [apply literal_quiet|apply ref_quiet].
    + apply quiet_bind; [apply leaf_list_quiet|discriminate].
    + destruct (xattr a x); discriminate.
    + apply quiet_bind; [apply short_quiet|discriminate].
    + apply quiet_bind; [now apply (IHv k)|intros; apply wrap_quiet].
    + apply quiet_bind; [now apply (IHv k)|intros; apply get1_quiet].
    + apply quiet_bind; [destruct named; [apply quiet_bind; [apply short_quiet|discriminate]|discriminate]|]. intros v. now apply (IHr k).
    + now apply (IHr k).
    + destruct (assoc f rfuns) as [[b r]|] eqn:A; [|discriminate]. destruct (IHf _ _ _ (rtag key x t) x VNone (VObj "" []) A) as [F1 F2]. apply quiet_bind; [exact F1|]. intros o1. destruct r as [r|]; [|discriminate]. now apply F2.
    + ifs H. destruct (find _ x); now apply (IHv k).
    + apply quiet_fold. intros. apply quiet_bind; [now apply (IHv k)|discriminate].
    + ifs H. apply quiet_bind; [now apply (IHc k)|]. intros [|]; now apply (IHv k).
    + ifs H. apply quiet_bind; [now apply (IHv k)|]. intros [| |[]| |]; try discriminate. now apply (IHv k).
    + destruct e; discriminate.
  - intros k c key x it o H. destruct k as [|k]; [discriminate|]. cbn [soft_c] in H. destruct c; cbn [crun]; fold (rrun true) (vrun true) (crun true); try discriminate.
    + destruct (xtext x); discriminate.
    + destruct (find _ x); [now apply (IHc k)|discriminate].
    + apply quiet_bind; [now apply (IHv k)|discriminate].
    + apply quiet_bind; [now apply (IHv k)|]. intros []; discriminate.
    + destruct o; discriminate.
    + apply quiet_bind; [apply gets_quiet|discriminate].
    + apply quiet_bind; [now apply (IHc k)|discriminate].
    + ifs H. apply quiet_bind; [now apply (IHc k)|]. intros [|]; [now apply (IHc k)|discriminate].
    + ifs H. apply quiet_bind; [now apply (IHc k)|]. intros [|]; [discriminate|now apply (IHc k)].
Qed.
Lemma quiet_writer : forall repr n k code key v e, soft_w k code = true -> quiet (wrun repr true n code key v e).
Proof.
  intros repr. induction n as [|n IH]; intros k code key v e H; [discriminate|]. destruct k as [|k]; [discriminate|]. cbn [soft_w] in H. destruct code as [|i rest]; [discriminate|].
  match type of H with (if ?b then _ else false) = true => destruct b eqn:HI; [|discriminate H] end.
  cbn [wrun]. fold (wrun repr true). apply quiet_bind; [|intros; now apply (IH k)]. destruct i; try (apply quiet_bind; [apply gets_quiet|]).
  - intros []; discriminate.
  - intros []; discriminate.
  - intros w. apply quiet_bind; [destruct w; discriminate|]. intros l. apply quiet_bind; [apply leaf_write_quiet|discriminate].
  - intros w. destruct (assoc f wfuns) as [b|] eqn:A; [|discriminate]. apply (IH 500). exact (soft_writer _ _ A).
  - apply quiet_bind; [now apply (IH k)|discriminate].
  - ifs HI. apply quiet_bind; [apply wcheck_quiet|]. intros [|]; now apply (IH k).
  - intros []; try discriminate. apply quiet_fold. intros. now apply (IH k).
  - intros []; discriminate.
  - discriminate.
  - intros []; try discriminate. destruct (assoc s m); discriminate.
  - intros []; discriminate.
  - now apply soft_fails.
  - discriminate.
Qed.
