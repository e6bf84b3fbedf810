(** Documents for C63. *)
From Coq Require Import String Ascii List Bool ZArith Floats.SpecFloat.
From Verif Require Import PyBase Primitives Xml Leaf Ir Access IrSem SpecRoundTrip SpecTolerant SpecRun SpecOrigin RoundTripLoss RunCases.
Import ListNotations.
Open Scope string_scope.
Open Scope list_scope.

Fixpoint parts (v : val) : list val :=
  v :: match v with
       | VObj _ fs => flat_map (fun p => parts (snd p)) fs
       | VList l => flat_map parts l
       | _ => []
       end.
Lemma part_trans : forall u v w, part u v -> part v w -> part u w.
Proof. intros u v w P Q. induction Q as [|c fs f w Q IH I|l w Q IH I]; [exact P|now apply part_field with c fs f|now apply part_item with l]. Qed.
Lemma parts_part : forall v w, In w (parts v) -> part v w.
Proof.
  fix IH 1. intros [|s|l|c fs|l] w [<-|I]; try apply part_self; try destruct I.
  - assert (X : forall gs : list (string * val), In w (flat_map (fun p => parts (snd p)) gs) -> exists f v, In (f, v) gs /\ part v w).
    { clear I. induction gs as [|[f v] gs IHg]; intros I; [destruct I|]. cbn [flat_map] in I. apply in_app_or in I. destruct I as [I|I].
      - exists f, v. split; [now left|exact (IH v w I)].
      - destruct (IHg I) as (g & v' & J & P). exists g, v'. split; [now right|exact P]. }
    destruct (X fs I) as (f & v & J & P). apply (part_trans _ v); [|exact P]. apply part_field with c fs f; [apply part_self|exact J].
  - assert (X : forall gs, In w (flat_map parts gs) -> exists v, In v gs /\ part v w).
    { clear I. induction gs as [|v gs IHg]; intros I; [destruct I|]. cbn [flat_map] in I. apply in_app_or in I. destruct I as [I|I].
      - exists v. split; [now left|exact (IH v w I)].
      - destruct (IHg I) as (v' & J & P). exists v'. split; [now right|exact P]. }
    destruct (X l I) as (v & J & P). apply (part_trans _ v); [|exact P]. apply part_item with l; [apply part_self|exact J].
Qed.
Definition mixed_u : val := Eval vm_compute in value (load_run false mixed).
Lemma mixed_loaded : loaded false mixed mixed_u.
Proof. apply loaded_run. vm_compute. reflexivity. Qed.
Lemma nth_part : forall i v w, nth_error (parts v) i = Some w -> part v w.
Proof. intros i v w H. apply parts_part. exact (nth_error_In _ _ H). Qed.
Lemma mixed_parts :
  part mixed_u (VLeaf (LRef (mkRef None (Some "COMPU-METHOD") (Some "/P/c")))) /\
  part mixed_u (VLeaf (LLit "ARLiteral" (mkLit None (Some "u-2") (Some "VALUE")))) /\
  part mixed_u (VLeaf (LNum "PositiveInteger" (mkNum None None (Some (NInt 16)) None (Some "0x10")))) /\
  part mixed_u (VLeaf (LBool (mkBool None None (Some true) (Some "true")))) /\
  part mixed_u (VLeaf (LLimit (mkLimit None None (Some (mkLit None None (Some "CLOSED"))) (Some "-7")))) /\
  (exists fs, part mixed_u (VObj "ApplicationPrimitiveDataType" fs) /\ In ("short_name", VStr "speed") fs /\ In ("uuid", VStr "u-1") fs /\ In ("timestamp", VStr "2020") fs).
Proof.
  split; [apply (nth_part 43); vm_compute; reflexivity|]. split; [apply (nth_part 66); vm_compute; reflexivity|]. split; [apply (nth_part 110); vm_compute; reflexivity|].
  split; [apply (nth_part 147); vm_compute; reflexivity|]. split; [apply (nth_part 81); vm_compute; reflexivity|].
  eexists. split; [apply (nth_part 24); vm_compute; reflexivity|]. split; [|split]; repeat (first [left; reflexivity | right]).
Qed.
Fixpoint anywhere (s : string) (x : xml) : bool :=
  match x with El _ _ t ks => match t with Some u => String.eqb u s | None => false end || existsb (anywhere s) ks end.
Lemma anywhere_text : forall s x, anywhere s x = true -> has_text x s.
Proof.
  intros s. fix IH 1. intros [g a t ks] H. cbn [anywhere] in H. apply orb_prop in H. destruct H as [H|H].
  - apply inside_here. destruct t as [u|]; [|discriminate]. apply String.eqb_eq in H. now subst.
  - assert (X : exists y, In y ks /\ has_text y s).
    { induction ks as [|k ks IHk]; [discriminate|]. cbn [existsb] in H. apply orb_prop in H. destruct H as [H|H].
      - exists k. split; [now left|exact (IH k H)].
      - destruct (IHk H) as (y & I & Y). exists y. split; [now right|exact Y]. }
    destruct X as (y & I & Y). exact (inside_below _ (El g a t ks) y I Y).
Qed.
Lemma empty_case : exists u y, loaded false empty_value u /\ (forall repr, saved repr false u y) /\ has_text y "None" /\ ~ in_file empty_value "None" /\ load_raises false (reload 0 y) ValueError.
Proof.
  let u := eval vm_compute in (value (load_run false empty_value)) in
  let e := eval vm_compute in (content (save_run (fun _ => "") false u)) in
  exists u, (to_xml "AUTOSAR" e).
  split; [apply loaded_run; vm_compute; reflexivity|]. split; [intros repr; apply saved_run; vm_compute; reflexivity|].
  split; [apply anywhere_text; vm_compute; reflexivity|].
  split; [|raise].
  intros [H|[H|[[a H]|(a & t & H & _)]]]; [discriminate| | |repeat (destruct H as [H|H]; [discriminate|]); destruct H].
  - revert H. apply (nowhere_inside (fun y => match xtext y with Some s => negb (String.eqb s "None") | None => true end)); [|vm_compute; reflexivity]. intros y ->. reflexivity.
  - revert H. apply (nowhere_inside (fun y => match xattrs y with [] => true | _ => false end)); [|vm_compute; reflexivity]. intros [t [|p l] tx ks] H; [discriminate|reflexivity].
Qed.
