(** Concrete files for C50. *)
From Coq Require Import String Ascii List Bool NArith.
From Verif Require Import PyBase Xml Serial SpecSerial Format SpecFormat FormatProps.
Import ListNotations.
Open Scope string_scope.
Open Scope list_scope.

Definition q : string := str1 quote.
Definition one_line_file : string :=
  ("<AUTOSAR xmlns=" ++ q ++ "u" ++ q ++ " a=" ++ q ++ "1 &amp; 2" ++ q ++ "><AR-PACKAGES/><B>x &lt;" ++ nl ++ " y </B><C k=" ++ q ++ q ++ "/></AUTOSAR>")%string.
Definition crlf : string := (str1 cr ++ nl)%string.
Definition wide_file : string :=
  ("<?xml version='1.0'?>" ++ crlf ++ crlf ++ "<AUTOSAR a='1 &#38; 2'" ++ crlf ++ "  xmlns = 'u'>" ++ crlf ++ str1 tab ++ crlf ++ "<AR-PACKAGES></AR-PACKAGES  ><B>x &lt;" ++ crlf ++ " y </B>" ++ nl ++ nl ++ "<C k=''></C>" ++ crlf ++ "</AUTOSAR>" ++ nl)%string.
Definition tidy_file : string :=
  ("<?xml version=" ++ q ++ "1.0" ++ q ++ " encoding=" ++ q ++ "UTF-8" ++ q ++ "?>" ++ nl ++
   "<AUTOSAR xmlns=" ++ q ++ "u" ++ q ++ " a=" ++ q ++ "1 &amp; 2" ++ q ++ ">" ++ nl ++
   "  <AR-PACKAGES></AR-PACKAGES>" ++ nl ++ "  <B>x &lt;" ++ nl ++ " y </B>" ++ nl ++ "  <C k=" ++ q ++ q ++ "/>" ++ nl ++ "</AUTOSAR>" ++ nl)%string.

(** a computed check of [data] *)
Definition value_b (s : string) : bool := all_chars (fun c => (printable c && negb (char_in [133] c))%bool) s.
Fixpoint data_b (n : node) : bool :=
  match n with
  | NText s => all_chars (char_in [9; 10; 13; 32]) s
  | NElem t a kids =>
      (forallb (fun p => value_b (snd p)) a &&
       match kids with
       | [] => true
       | [NText s] => negb (is_empty s) && all_chars text_char s && solid true s
       | _ => existsb (fun k => match k with NText _ => false | _ => true end) kids && forallb data_b kids
       end)%bool
  end.
Lemma solid_blank : forall w b, all_chars is_space w = true -> solid false (w ++ nl ++ b) = false.
Proof.
  induction w as [|c w IH]; intros b W; [reflexivity|]. cbn [all_chars append solid] in *. apply andb_prop in W as [W1 W2]. destruct (Ascii.eqb c lf); [reflexivity|]. rewrite W1. cbn [negb orb]. now apply IH.
Qed.
Lemma solid_lines : forall s, solid true s = true -> forall a w b, s = (a ++ nl ++ w ++ nl ++ b)%string -> all_chars is_space w = false.
Proof.
  assert (L : forall a bb w b, all_chars is_space w = true -> solid bb (a ++ nl ++ w ++ nl ++ b) = false).
  { induction a as [|c a IH]; intros bb w b W.
    - change (solid bb ("" ++ nl ++ w ++ nl ++ b)) with (bb && solid false (w ++ nl ++ b))%bool. rewrite (solid_blank w b W). now destruct bb.
    - cbn [append solid]. destruct (Ascii.eqb c lf); [|now apply IH]. rewrite IH by exact W. now destruct bb. }
  intros s S a w b ->. destruct (all_chars is_space w) eqn:W; [|reflexivity]. rewrite L in S by exact W. discriminate.
Qed.
Lemma data_b_ok : forall n, (exists t a k, n = NElem t a k) -> data_b n = true -> data n.
Proof.
  intros n. induction n as [s|t a kids IH] using node_all; intros (t1 & a1 & k1 & E) H; [discriminate|]. clear E. cbn [data_b] in H. apply andb_prop in H as [V H].
  assert (V' : Forall (fun p => line_value (snd p)) a). { apply Forall_forall. intros p I. rewrite forallb_forall in V. exact (V p I). }
  assert (N : (existsb (fun k => match k with NText _ => false | _ => true end) kids && forallb data_b kids)%bool = true -> data (NElem t a kids)).
  { intros Q. apply andb_prop in Q as [Q1 Q2]. rewrite forallb_forall in Q2. rewrite Forall_forall in IH. apply data_node; [exact V'| | |].
    - apply existsb_exists in Q1 as ([s|t' a' k'] & I & X); [discriminate|]. eauto.
    - intros s I. exact (Q2 _ I).
    - intros t' a' k' I. apply IH; eauto. }
  destruct kids as [|[s|? ? ?] [|y r]]; try now apply N.
  - now constructor.
  - apply andb_prop in H as [H S]. apply andb_prop in H as [H1 H2]. constructor; [exact V'|]. split; [intros ->; discriminate|]. split; [exact H2|now apply solid_lines].
Qed.

Lemma format_case : exists n1 n2, parse one_line_file = Some n1 /\ parse wide_file = Some n2 /\ one_line_file <> wide_file /\
  data n1 /\ data n2 /\ content n1 = content n2 /\ format_text one_line_file = Some tidy_file /\ format_text wide_file = Some tidy_file.
Proof.
  do 2 eexists. split; [vm_compute; reflexivity|]. split; [vm_compute; reflexivity|]. split; [vm_compute; discriminate|].
  split; [apply data_b_ok; [eauto|vm_compute; reflexivity]|]. split; [apply data_b_ok; [eauto|vm_compute; reflexivity]|]. split; [vm_compute; reflexivity|]. split; vm_compute; reflexivity.
Qed.
Lemma blank_line_lost : exists s s' n n', parse s = Some n /\ format_text s = Some s' /\ parse s' = Some n' /\
  content n = El "A" [] (Some ("x" ++ nl ++ nl ++ "y")%string) [] /\ content n' = El "A" [] (Some ("x" ++ nl ++ "y")%string) [].
Proof.
  exists ("<A>x" ++ nl ++ nl ++ "y</A>")%string. do 3 eexists. split; [vm_compute; reflexivity|]. split; [vm_compute; reflexivity|]. split; [vm_compute; reflexivity|]. split; vm_compute; reflexivity.
Qed.
Lemma next_line_lost : exists s s' n n', parse s = Some n /\ format_text s = Some s' /\ parse s' = Some n' /\
  content n = El "A" [] (Some ("x" ++ str1 (ascii_of_nat 133) ++ "y")%string) [] /\ content n' = El "A" [] (Some ("x" ++ nl ++ "y")%string) [].
Proof.
  exists ("<A>x" ++ str1 (ascii_of_nat 133) ++ "y</A>")%string. do 3 eexists. split; [vm_compute; reflexivity|]. split; [vm_compute; reflexivity|]. split; [vm_compute; reflexivity|]. split; vm_compute; reflexivity.
Qed.
Lemma attribute_lost : exists s s' n n', parse s = Some n /\ format_text s = Some s' /\ parse s' = Some n' /\
  content n = El "A" [("k", ("x" ++ nl ++ "y")%string)] None [] /\ content n' = El "A" [("k", "x y")] None [].
Proof.
  exists "<A k='x&#10;y'/>". do 3 eexists. split; [vm_compute; reflexivity|]. split; [vm_compute; reflexivity|]. split; [vm_compute; reflexivity|]. split; vm_compute; reflexivity.
Qed.
Lemma mixed_text : exists s s', load_tree s = Some (El "A" [] (Some "x") [El "B" [] None []]) /\ format_text s = Some s' /\ load_tree s' = Some (El "A" [] (Some (nl ++ "  x" ++ nl ++ "  ")%string) [El "B" [] None []]).
Proof. exists "<A>x<B/></A>". eexists. split; [vm_compute; reflexivity|]. split; [vm_compute; reflexivity|]. vm_compute. reflexivity. Qed.
