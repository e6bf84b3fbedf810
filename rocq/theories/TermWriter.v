(** Saving always comes to an end: with enough fuel the interpreter of IrSem.v is not cut short,
    whatever the document.  Nothing here models code. *)
From Coq Require Import String List Bool Arith Lia Permutation.
From Verif Require Import PyBase PyBaseFacts Primitives Xml Leaf Ir Access WriterCode IrSem SpecRoundTrip Trie Term.
Import ListNotations.
Open Scope string_scope.
Open Scope list_scope.
Open Scope lazy_bool_scope.
Local Opaque wfuns access_of.

(** ** The check: a function reaches itself only for values inside the one it is called for *)
Section Check.
Context (look : string -> option (list wi)).
(** [d]: for a value inside the one the function was called for; calls there are not followed *)
Fixpoint okW (k : nat) (d : bool) (code : list wi) {struct k} : bool :=
  match k with
  | O => false
  | S k' =>
    match code with
    | [] => true
    | i :: rest =>
      okW k' d rest &&&
      match i with
      | WCall f _ p =>
          if d then true else
          match p with
          | [] => match look f with Some b => okW k' false b | None => true end
          | _ => true end
      | WSub _ b => okW k' d b
      | WIf _ a b => okW k' d a &&& okW k' d b
      | WFor _ b => okW k' true b
      | _ => true
      end
    end
  end.
Definition okG (f : string) : bool := match look f with Some b => okW 200 false b | None => true end.
End Check.

(** ** Values inside a value *)
Fixpoint wsize (v : val) : nat :=
  match v with
  | VObj _ fs => S (fold_right (fun p n => wsize (snd p) + n) 0 fs)
  | VList l => S (fold_right (fun u n => wsize u + n) 0 l)
  | VLeaf _ => 1
  | _ => 0
  end.
Lemma wsize_list : forall u l, In u l -> wsize u < wsize (VList l).
Proof. intros u l I. cbn [wsize]. induction l as [|a l IH]; [destruct I|]. cbn [fold_right]. destruct I as [->|I]; [lia|]. specialize (IH I). lia. Qed.
Lemma wsize_field : forall c fs f w, assoc f fs = Some w -> wsize w < wsize (VObj c fs).
Proof.
  intros c fs f w H. apply assoc_in in H. cbn [wsize]. induction fs as [|a fs IH]; [destruct H|]. cbn [fold_right].
  destruct H as [->|H]; [cbn [snd]; lia|]. specialize (IH H). lia.
Qed.
Lemma wsize_perm : forall l l', Permutation l l' -> wsize (VList l) = wsize (VList l').
Proof. intros l l' P. cbn [wsize]. f_equal. induction P; cbn [fold_right]; lia. Qed.
Lemma get1_less : forall v g w, get1 v g = Done w -> wsize w < wsize v.
Proof.
  intros [| |l|c fs|] g w H; try discriminate H; cbn [get1] in H.
  - assert (X : wsize w = 0); [|cbn [wsize]; lia]. destruct l; destruct g; try discriminate H;
      match type of H with (if ?b then _ else _) = _ => destruct b; [|discriminate H] end; injection H as <-; try reflexivity. destruct (r_value _); reflexivity.
  - destruct g as [m|a]; [|destruct (assoc a fs) eqn:E; [injection H as <-; eapply wsize_field; exact E|discriminate H]].
    destruct (access_of c m) as [[f|f|f g|f|d nm p]|]; try discriminate H; destruct (assoc f fs) as [w'|] eqn:E; try discriminate H.
    + injection H as <-. eapply wsize_field; exact E.
    + destruct w' as [| | | |l]; try discriminate H. destruct (sortable l); [|discriminate H]. injection H as <-.
      rewrite (wsize_perm _ _ (py_sorted_perm sort_key l)). eapply wsize_field; exact E.
Qed.
Lemma gets_less : forall p v w, gets v p = Done w -> w = v /\ p = [] \/ wsize w < wsize v.
Proof.
  induction p as [|g p IH]; intros v w H; cbn [gets] in H; [left; split; [congruence|reflexivity]|right].
  destruct (get1 v g) as [u| | |] eqn:E; try discriminate H. apply get1_less in E. cbn [obind] in H. destruct (IH _ _ H) as [[-> _]|L]; lia.
Qed.
Lemma live_check : forall v c, live (wcheck v c).
Proof.
  intros v. induction c; cbn [wcheck]; (apply live_bind; [try apply live_gets; assumption|]).
  all: try (intros [| |[]| |]; discriminate); try discriminate.
  intros [|]; [assumption|discriminate].
Qed.
Lemma live_get : forall B v p (k : val -> out B), (forall w, gets v p = Done w -> live (k w)) -> live (obind (gets v p) k).
Proof. intros B v p k H. pose proof (live_gets p v) as L. destruct (gets v p) as [w|e| |]; cbn; [now apply H|discriminate|discriminate|elim L; reflexivity]. Qed.

Section Ends.
Context (repr : Floats.SpecFloat.spec_float -> string) (warn : bool) (look : string -> option (list wi)) (look_ok : forall f, look f = assoc f wfuns).
Definition LW (code : list wi) (N : nat) (n : nat) : Prop := forall key v e, wsize v < N -> live (wrun repr warn n code key v e).
(** all values smaller than [N] *)
Context (funs : forall f, okG look f = true).
Section Here.
Context (N : nat) (below : forall k d code, okW look k d code = true -> ev (LW code N)).
Context (d : bool) (calls : d = true -> forall f b, look f = Some b -> ev (LW b (S N))).
Lemma here : forall k code, okW look k d code = true -> ev (LW code (S N)).
Proof.
  induction k as [|k IH]; intros code O; [discriminate O|].
  destruct code as [|i rest]; [apply ev_succ, ev_all; intros n key v e _; discriminate|].
  cbn [okW] in O. apply if_true in O. destruct O as [O1 O2].
  pose proof (IH rest O1) as X. apply ev_succ.
  assert (Y : forall P : nat -> Prop, ev P -> (forall n, P n -> forall key v e, wsize v < S N -> (forall e', live (wrun repr warn n rest key v e')) -> live (wrun repr warn (S n) (i :: rest) key v e)) ->
              ev (fun n => LW (i :: rest) (S N) (S n))).
  { intros P HP HI. eapply ev_1; [exact (ev_and _ _ HP X)|]. intros n [H1 H2] key v e L. apply HI; [exact H1|exact L|]. intros e'. now apply H2. }
  assert (Y0 : (forall n key v e, (forall e', live (wrun repr warn n rest key v e')) -> live (wrun repr warn (S n) (i :: rest) key v e)) ->
               ev (fun n => LW (i :: rest) (S N) (S n))).
  { intros H. apply (Y (fun _ => True)); [apply ev_all; auto|]. intros n _ key v e _ R. now apply H. }
  destruct i as [p|p|kd t p|f t p|t b|c a b|p b|a p|a s|a m p|p|x soft|].
  - apply Y0. intros n key v e R. cbn [wrun]. apply live_bind; [|exact R]. apply live_get. intros [| | | |] _; discriminate.
  - apply Y0. intros n key v e R. cbn [wrun]. apply live_bind; [|exact R]. apply live_get. intros [| | | |] _; discriminate.
  - apply Y0. intros n key v e R. cbn [wrun]. apply live_bind; [|exact R]. apply live_get. intros w _.
    apply live_bind; [destruct w; discriminate|]. intros l. apply live_bind; [apply live_res|discriminate].
  - destruct (look f) as [b|] eqn:E.
    + assert (B : ev (LW b N)).
      { apply (below 200 false). pose proof (funs f) as F. unfold okG in F. rewrite E in F. exact F. }
      assert (Z : p = [] -> ev (LW b (S N))).
      { intros ->. destruct d; [now apply (calls eq_refl f)|]. now apply IH. }
      assert (Z' : ev (fun n => LW b N n /\ (p = [] -> LW b (S N) n))).
      { destruct p; [|eapply ev_1; [exact B|]; intros n H; split; [exact H|discriminate]]. eapply ev_1; [exact (ev_and _ _ B (Z eq_refl))|]. intros n [H1 H2]. split; auto. }
      apply (Y _ Z'). intros n [H1 H2] key v e L R. rewrite look_ok in E. cbn [wrun]. rewrite E. apply live_bind; [|exact R]. apply live_get. intros w G.
      apply gets_less in G. destruct G as [[-> P]|G]; [now apply H2|apply H1; lia].
    + apply Y0. intros n key v e R. rewrite look_ok in E. cbn [wrun]. rewrite E. apply live_bind; [|exact R]. apply live_get. discriminate.
  - apply (Y _ (IH b O2)). intros n H key v e L R. cbn [wrun]. apply live_bind; [|exact R]. apply live_bind; [now apply H|discriminate].
  - apply if_true in O2. destruct O2 as [O2 O3]. apply (Y _ (ev_and _ _ (IH a O2) (IH b O3))). intros n [H1 H2] key v e L R. cbn [wrun]. apply live_bind; [|exact R].
    apply live_bind; [apply live_check|]. intros [|]; [now apply H1|now apply H2].
  - apply (Y _ (below k true b O2)). intros n H key v e L R. cbn [wrun]. apply live_bind; [|exact R]. apply live_get. intros [| | | |l] G; try discriminate.
    apply live_fold. intros u s I. apply H. apply wsize_list in I. apply gets_less in G. destruct G as [[Q _]|G]; [rewrite <- Q in L|]; lia.
  - apply Y0. intros n key v e R. cbn [wrun]. apply live_bind; [|exact R]. apply live_get. intros [| | | |] _; discriminate.
  - apply Y0. intros n key v e R. cbn [wrun]. apply R.
  - apply Y0. intros n key v e R. cbn [wrun]. apply live_bind; [|exact R]. apply live_get. intros [| | | |] _; try discriminate. destruct (assoc s m); [discriminate|destruct warn; discriminate].
  - apply Y0. intros n key v e R. cbn [wrun]. apply live_bind; [|exact R]. apply live_get. intros [| | | |] _; discriminate.
  - apply Y0. intros n key v e R. cbn [wrun]. apply live_bind; [|exact R]. destruct (soft && warn); discriminate.
  - apply Y0. discriminate.
Qed.
End Here.
Lemma ends_w : forall N k d code, okW look k d code = true -> ev (LW code N).
Proof.
  induction N as [|N IH]; [intros; apply ev_all; intros n key v e L; lia|].
  assert (F : forall k code, okW look k false code = true -> ev (LW code (S N))) by (apply (here N IH false); discriminate).
  intros k [|] code O; [|exact (F k code O)]. apply (here N IH true) with (k := k); [|exact O]. intros _ f b E.
  pose proof (funs f) as G. unfold okG in G. rewrite E in G. exact (F 200 b G).
Qed.
End Ends.

Definition wfun_trie : trie (list wi) := build wfuns.
Lemma wfun_look : forall f, tfind f wfun_trie = assoc f wfuns.
Proof. intros f. apply tfind_build. Qed.
Definition all_okG (t : trie (list wi)) (l : list (string * list wi)) : bool := forallb (fun p => okG (fun f => tfind f t) (fst p)) l.
Lemma all_okG_true : all_okG wfun_trie wfuns = true.
Proof. vm_compute. reflexivity. Qed.
Lemma okG_true : forall f, okG (fun f => tfind f wfun_trie) f = true.
Proof.
  intros f. pose proof all_okG_true as A. unfold all_okG in A. rewrite forallb_forall in A.
  destruct (tfind f wfun_trie) as [q|] eqn:E; [|unfold okG; rewrite E; reflexivity].
  pose proof E as E'. rewrite wfun_look in E'. exact (A _ (assoc_in _ _ _ _ E')).
Qed.
Lemma save_code_ok : okW (fun f => tfind f wfun_trie) 200 false save_code = true.
Proof. vm_compute. reflexivity. Qed.
(** saving any value ends *)
Lemma save_ends : forall repr warn v, exists n, wrun repr warn n save_code "" v elem0 <> NoFuel.
Proof.
  intros repr warn v. destruct (ends_w repr warn _ wfun_look okG_true (S (wsize v)) 200 false _ save_code_ok) as [n H].
  exists n. apply (H n (le_n n)). lia.
Qed.
