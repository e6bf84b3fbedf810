(** Concrete texts and trees for C39-C41. *)
From Coq Require Import String Ascii List Bool.
From Verif Require Import PyBase Xml Serial SpecSerial SerialFacts SerialExpand SerialPatch.
Import ListNotations.
Open Scope string_scope.
Open Scope list_scope.

Lemma patch_quiet : forall s, quiet (patch_xml false s).
Proof. intros s. apply (expanded_quiet s). now apply expand_spec. Qed.
Lemma patch_none_left : forall s, ~ has_short (patch_xml false s).
Proof. intros s. apply quiet_short, patch_quiet. Qed.
Lemma patch_idempotent : forall s, patch_xml false (patch_xml false s) = patch_xml false s.
Proof. intros s. apply expand_quiet_id, patch_quiet. Qed.
Lemma patch_unchanged : forall s, ~ has_short s <-> patch_xml false s = s.
Proof. intros s. split; [intros H; apply expand_quiet_id; now apply quiet_short|]. intros E. rewrite <- E. apply patch_none_left. Qed.
Lemma expand_case :
  patch_xml false "<A><B/><C-1/> <D x='1'/><e.f/></A>" = "<A><B></B><C-1></C-1> <D x='1'/><e.f/></A>" /\
  load_tree "<A><B/><C-1/> <D x='1'/><e.f/></A>" = Some (El "A" [] None [El "B" [] None []; El "C-1" [] None []; El "D" [("x", "1")] None []; El "e.f" [] None []]).
Proof. split; reflexivity. Qed.

Lemma save_load_same : forall decl x, writable x -> exists s y, save_text decl false x = Some s /\ load_tree s = Some y /\ same_tree x y.
Proof. intros decl x W. destruct (save_load decl x W) as (s & S & L). exists s, (reload 0 x). split; [exact S|]. split; [exact L|]. apply reload_same. Qed.
Lemma unescape_loads : forall decl x, writable x -> unquoted x ->
  exists s s', save_text decl true x = Some s /\ save_text decl false x = Some s' /\
               load_tree s = load_tree s' /\ exists y, load_tree s = Some y /\ same_tree x y.
Proof.
  intros decl x W U. destruct (save_load decl x W) as (s' & S' & L'). destruct (save_load_unescaped decl x W U) as (s & S & L). exists s, s'. repeat split; auto; [congruence|]. exists (reload 0 x). split; [exact L|apply reload_same].
Qed.

Ltac fits := repeat first
  [ apply writable_el | apply Forall_cons | apply Forall_nil | apply NoDup_cons | apply NoDup_nil | split | reflexivity
  | (let v := fresh in let E := fresh in intros v E; first [discriminate E | injection E as <-; reflexivity])
  | (let H := fresh in intros H; cbn in H; repeat destruct H as [H|H]; try discriminate H; destruct H) ].
Lemma sample_writable : writable sample_tree.
Proof. unfold sample_tree. fits. Qed.
Lemma sample_fits : writable sample_tree /\ unquoted sample_tree.
Proof. split; [apply sample_writable|]. unfold sample_tree. repeat first [apply unquoted_el | apply Forall_cons | apply Forall_nil | reflexivity]. Qed.
Lemma sample_saved : writable sample_tree /\ save_text true false sample_tree <> None.
Proof. split; [apply sample_writable|]. destruct (save_load true sample_tree sample_writable) as (s & -> & _). discriminate. Qed.

Definition quoted_tree : xml := El "SD" [("GID", "a""b")] (Some "t") [].
Lemma unescape_breaks : exists x, writable x /\ forall decl,
  (exists s y, save_text decl false x = Some s /\ load_tree s = Some y /\ same_tree x y) /\
  exists s, save_text decl true x = Some s /\ load_tree s = None.
Proof.
  exists quoted_tree. assert (W : writable quoted_tree) by (unfold quoted_tree; fits). split; [exact W|]. intros decl. split; [now apply save_load_same|].
  destruct decl; (eexists; split; [vm_compute; reflexivity|vm_compute; reflexivity]).
Qed.
Definition injected_tree : xml := El "SD" [("GID", "a"" UUID=""b")] (Some "t") [].
Lemma unescape_changes : exists x, writable x /\ forall decl, exists s,
  save_text decl true x = Some s /\ load_tree s = Some (El "SD" [("GID", "a"); ("UUID", "b")] (Some "t") []) /\ ~ same_tree x (El "SD" [("GID", "a"); ("UUID", "b")] (Some "t") []).
Proof.
  exists injected_tree. split; [unfold injected_tree; fits|]. intros decl. 
  destruct decl; (eexists; split; [vm_compute; reflexivity|split; [vm_compute; reflexivity|]]); intros H; inversion H.
Qed.
Lemma return_lost : exists x y decl s, save_text decl false x = Some s /\ load_tree s = Some y /\
  x = El "L-1" [] (Some (String "a" (String (Ascii.ascii_of_nat 13) "b"))) [] /\ y = El "L-1" [] (Some (String "a" (String (Ascii.ascii_of_nat 10) "b"))) [] /\ ~ same_tree x y.
Proof.
  eexists _, _, true, _. split; [|split; [|split; [reflexivity|split; [reflexivity|]]]]; [vm_compute; reflexivity|vm_compute; reflexivity|].
  intros H. inversion H as [? ? ? ? [E | [E _]]|]; [discriminate E|discriminate E|congruence].
Qed.
Lemma attribute_line_lost : exists x y decl s, save_text decl false x = Some s /\ load_tree s = Some y /\
  x = El "SD" [("GID", String "a" (String (Ascii.ascii_of_nat 10) "b"))] None [] /\ y = El "SD" [("GID", "a b")] None [] /\ ~ same_tree x y.
Proof.
  eexists _, _, true, _. split; [|split; [|split; [reflexivity|split; [reflexivity|]]]]; [vm_compute; reflexivity|vm_compute; reflexivity|]. intros H. inversion H.
Qed.
Lemma control_raises : exists x, x = El "L-1" [] (Some (String (Ascii.ascii_of_nat 1) "")) [] /\ forall decl unescape, save_text decl unescape x = None.
Proof. eexists. split; [reflexivity|]. intros [] []; vm_compute; reflexivity. Qed.
