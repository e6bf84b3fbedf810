(** All object codes reached from the document are checked (by computation), so the document round-trips. *)
From Coq Require Import String Ascii List Bool Arith Floats.SpecFloat.
From Verif Require Import PyBase Leaf Ir WriterCode ReaderCode IrSem Domain SpecDomain IrCheck IrEq IrClosure IrWrite IrItems IrEntry.
Import ListNotations.
Open Scope string_scope.
Open Scope list_scope.

(** object codes of the writer reached from the entries *)
Definition wobj : Type := string * (list wi * string).
Definition wobj_eqb (a b : wobj) : bool :=
  String.eqb (fst a) (fst b) &&& String.eqb (snd (snd a)) (snd (snd b)) &&& list_eqb (wi_eqb 1000) (fst (snd a)) (fst (snd b)).
Fixpoint wclosure (n : nat) (todo seen : list wobj) : list wobj :=
  match n with
  | O => seen
  | S n =>
    match todo with
    | [] => seen
    | p :: r =>
        if existsb (wobj_eqb p) seen then wclosure n r seen
        else match wsim fuel (cinfo_of (fst p)) (fst (snd p)) (snd (snd p)) with
             | Some its => wclosure n (flat_map wkids its ++ r) (p :: seen)
             | None => wclosure n r (p :: seen)
             end
    end
  end.
Definition entry_obj (e : entry) : wobj := (en_cls e, (en_wb e, en_wk e)).

Definition entries_from (root : entry) : list entry := fst (closure (90 * 90) [root] [] []).
Definition wobjs_from (l : list entry) : list wobj := wclosure (90 * 90) (map entry_obj l) [].

Definition all_checked (re : list entry) (we : list wobj) (root : entry) : bool :=
  if existsb (entry_eqb root) re then
    if forallb (fun e => if existsb (wobj_eqb (entry_obj e)) we then
         match check_entry e with Some l => forallb (fun e' => existsb (entry_eqb e') re) l | None => false end else false) re
    then forallb (fun p : wobj => match wsim fuel (cinfo_of (fst p)) (fst (snd p)) (snd (snd p)) with
                | Some its => forallb (fun q => existsb (wobj_eqb q) we) (flat_map wkids its) | None => false end) we
    else false
  else false.

Lemma entry_sound : sound entry_eqb.
Proof.
  intros [a1 a2 a3 a4 a5 a6 a7] [b1 b2 b3 b4 b5 b6 b7] E. unfold entry_eqb in E. cbn [en_cls en_named en_tag en_wb en_wk en_rb en_rk] in E.
  repeat match goal with H : (_ &&& _) = true |- _ => apply and_split in H; destruct H end.
  repeat match goal with
  | H : String.eqb _ _ = true |- _ => apply str_sound in H
  | H : Bool.eqb _ _ = true |- _ => apply bool_sound in H
  | H : list_eqb (wi_eqb _) _ _ = true |- _ => apply (list_sound _ _ (wi_sound _)) in H
  | H : list_eqb (ri_eqb _) _ _ = true |- _ => apply (list_sound _ _ (ri_sound _)) in H
  end. congruence.
Qed.
Lemma wobj_sound : sound wobj_eqb.
Proof.
  intros [a1 [a2 a3]] [b1 [b2 b3]] E. unfold wobj_eqb in E. cbn [fst snd] in E.
  repeat match goal with H : (_ &&& _) = true |- _ => apply and_split in H; destruct H end.
  repeat match goal with
  | H : String.eqb _ _ = true |- _ => apply str_sound in H
  | H : list_eqb (wi_eqb _) _ _ = true |- _ => apply (list_sound _ _ (wi_sound _)) in H
  end. congruence.
Qed.
Lemma in_of : forall A (eq : A -> A -> bool), sound eq -> forall a l, existsb (eq a) l = true -> In a l.
Proof. intros A eq S a l H. apply existsb_exists in H. destruct H as (b & I & E). apply S in E. subst. exact I. Qed.

Lemma checked_ok : forall re we root, all_checked re we root = true -> In root re /\ WE_ok we /\
  forall e, In e re -> In (en_cls e, (en_wb e, en_wk e)) we /\ exists l, check_entry e = Some l /\ incl l re.
Proof.
  intros re we root H. unfold all_checked in H. destruct (existsb (entry_eqb root) re) eqn:R; [|discriminate].
  match type of H with (if ?c then _ else _) = _ => destruct c eqn:C; [|discriminate] end.
  rewrite forallb_forall in C, H. split; [exact (in_of _ _ entry_sound _ _ R)|]. split.
  - intros c b k I. specialize (H _ I). cbn [fst snd] in H. destruct (wsim fuel (cinfo_of c) b k) as [its|]; [|discriminate]. exists its. split; [reflexivity|].
    intros p Ip. rewrite forallb_forall in H. exact (in_of _ _ wobj_sound _ _ (H _ Ip)).
  - intros e I. specialize (C _ I). destruct (existsb (wobj_eqb (entry_obj e)) we) eqn:W; [|discriminate]. split; [exact (in_of _ _ wobj_sound _ _ W)|].
    destruct (check_entry e) as [l|]; [|discriminate]. exists l. split; [reflexivity|]. intros e' I'. rewrite forallb_forall in C. exact (in_of _ _ entry_sound _ _ (C _ I')).
Qed.

Definition document_entries : list entry := Eval vm_compute in entries_from root_entry.
Definition document_wobjs : list wobj := Eval vm_compute in wobjs_from document_entries.

Lemma document_checked : all_checked document_entries document_wobjs root_entry = true.
Proof. vm_cast_no_check (eq_refl true). Qed.

Theorem document_entries_ok : forall repr warn u e, In e document_entries -> entry_ok repr warn e u.
Proof.
  intros repr warn u e I. destruct (checked_ok _ _ _ document_checked) as (_ & W & R). exact (entries_ok repr warn _ W _ R u e I).
Qed.
Lemma document_root : In root_entry document_entries.
Proof. exact (proj1 (checked_ok _ _ _ document_checked)). Qed.
