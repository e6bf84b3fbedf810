(** Round trips of documents, packages and their elements (C35-C38). *)
From Coq Require Import String Ascii List Bool Arith Lia Floats.SpecFloat.
From Verif Require Import PyBase PyBaseFacts Primitives Xml Leaf SpecLeaf XmlFacts ClassTable Ir Access WriterCode ReaderCode IrSem
  IrFacts IrGo Domain SpecDomain IrCheck IrEq IrClosure IrWrite IrLocate IrItems IrMix IrEntry IrEntries SpecRoundTrip.
Import ListNotations.
Open Scope string_scope.
Open Scope list_scope.

Local Opaque access_of attrs_of wfuns rfuns domain ancestors access_table attr_table fuel document_entries document_wobjs.

Lemma written_fun : forall repr warn code u e e', written repr warn code u e -> written repr warn code u e' -> e = e'.
Proof. intros repr warn code u e e' H H'. exact (wgo_det _ _ _ _ _ _ _ _ H H'). Qed.
Lemma saved_fun : forall repr warn u x x', saved repr warn u x -> saved repr warn u x' -> x = x'.
Proof. intros repr warn u x x' (e & H & ->) (e' & H' & ->). now rewrite (written_fun _ _ _ _ _ _ H H'). Qed.
Lemma read_fun : forall warn code x o u u', read warn code x o u -> read warn code x o u' -> u = u'.
Proof.
  intros warn code x o u u' [n H] [m H']. apply (rup warn _ (n + m)) in H; [|lia]. apply (rup warn _ (n + m)) in H'; [|lia]. congruence.
Qed.

(** objects with a code of the writer can be written *)
Lemma can_write : forall repr warn e u, In e document_entries -> ok u -> class_of u = Some (en_cls e) -> exists s, wgo repr warn (en_wb e) (en_wk e) u elem0 s.
Proof.
  intros repr warn e u I O C. destruct (checked_ok _ _ _ document_checked) as (_ & W & R). destruct (R _ I) as [IW _].
  destruct (write_ok repr warn _ W u _ _ _ O C IW) as (its & evs & _ & _ & G). eexists. apply G.
Qed.

Theorem document_round_trip : forall repr warn u, ok u -> class_of u = Some "AUTOSAR" ->
  exists x, saved repr warn u x /\ forall d, loaded warn (reload d x) u.
Proof.
  intros repr warn u O C. destruct (can_write repr warn root_entry u document_root O C) as [s W].
  exists (to_xml "AUTOSAR" s). split; [exists s; split; [exact W|reflexivity]|]. intros d.
  pose proof (document_entries_ok repr warn u root_entry document_root) as E. unfold entry_ok in E. specialize (E _ d s C O W eq_refl).
  cbn [en_named root_entry] in E. destruct E as [_ E]. exact (E VNone).
Qed.
Theorem document_unique : forall repr warn u, ok u -> class_of u = Some "AUTOSAR" ->
  forall x, saved repr warn u x -> forall d u', loaded warn (reload d x) u' -> u' = u.
Proof.
  intros repr warn u O C x S d u' L. destruct (document_round_trip repr warn u O C) as (x' & S' & L'). rewrite (saved_fun _ _ _ _ _ S S') in L.
  exact (read_fun _ _ _ _ _ _ L (L' d)).
Qed.

(** ** Code that adds one element *)
Definition one_group (c : string) (code : list wi) (t : string) : bool :=
  match wsim fuel (cinfo_of c) code "" with
  | Some [IGroup t' its b k] =>
      if String.eqb t t' then forallb (fun q => existsb (wobj_eqb q) document_wobjs) (flat_map wkids its) else false
  | _ => false
  end.
Definition group_code (c : string) (code : list wi) : list wi * string :=
  match wsim fuel (cinfo_of c) code "" with Some [IGroup _ _ b k] => (b, k) | _ => ([], "") end.
Lemma one_group_ok : forall repr warn c code t u, one_group c code t = true -> ok u -> class_of u = Some c ->
  exists s, wgo repr warn (fst (group_code c code)) (snd (group_code c code)) u elem0 s /\
            written repr warn code u (mkElem [] None [to_xml t s]).
Proof.
  intros repr warn c code t u H O C. unfold one_group, group_code in *. destruct (wsim fuel (cinfo_of c) code "") as [its|] eqn:W; [|discriminate].
  destruct its as [|[] [|]]; try discriminate. destruct (String.eqb_spec t t0); [subst t0|discriminate].
  destruct (checked_ok _ _ _ document_checked) as (_ & WE & _).
  destruct (wsim_sound repr warn document_wobjs fuel _ _ _ _ u W (owner_of _ _ C O)) as (evs & D & R).
  - intros u' L O' c' b' k' C' I'. destruct (write_ok repr warn _ WE u' _ _ _ O' C' I') as (i' & evs' & _ & _ & G). eexists. apply G.
  - intros p I. cbn [flat_map wkids] in I. rewrite app_nil_r in I. rewrite forallb_forall in H. exact (in_of _ _ wobj_sound _ _ (H _ I)).
  - apply dens_single in D. destruct D as (e2 & D2 & -> & G). cbn [fst snd]. exists (apply e2 elem0). split; [exact G|]. exact (R elem0).
Qed.

Local Opaque one_group group_code.

(** ** Packages *)
Definition package_entry : entry :=
  mkEnt "ARPackage" true "AR-PACKAGE"
    [WCall "writeIdentifiable" None []; WCall "writeReferenceBases" None [GM "getReferenceBases"];
     WCall "writeARPackageElements" None []; WCall "writeARPackages" None [GM "getARPackages"]] "" [RCall "readARPackage" None] "".

(** the branch of a chain of tag tests taken for a tag *)
Fixpoint dispatch (n : nat) (l : list ri) (t : string) : option (list ri) :=
  match n, l with
  | S n, [RIf (CTag s) a b] => if String.eqb t s then Some a else dispatch n b t
  | _, _ => None
  end.
Definition element_body : list ri :=
  match assoc "readARPackageElements" rfuns with Some ([RFor (PLit "ELEMENTS/*") b], None) => b | _ => [] end.
Definition handler (t : string) : option (string * list ri) :=
  match dispatch 200 element_body t with Some [RCreate m true b] => Some (m, b) | _ => None end.
Definition element_check (t c : string) : bool :=
  if one_group c write_element t then
    match handler t with
    | Some (m, rb) =>
        match access_of "ARPackage" m with
        | Some (ANew c' true (PList f)) =>
            if (if String.eqb c c' then String.eqb f "elements" else false) then
              existsb (entry_eqb (mkEnt c true t (fst (group_code c write_element)) (snd (group_code c write_element)) rb "")) document_entries
            else false
        | _ => false
        end
    | None => false
    end
  else false.

Definition package_checks : bool :=
  if existsb (entry_eqb package_entry) document_entries then
    if one_group "ARPackage" write_package "AR-PACKAGE" then
      if wobj_eqb ("ARPackage", group_code "ARPackage" write_package) (entry_obj package_entry) then
        forallb (fun p => element_check (fst p) (snd p)) package_elements
      else false
    else false
  else false.
Lemma package_checked : package_checks = true.
Proof. vm_cast_no_check (eq_refl true). Qed.
Lemma package_in : In package_entry document_entries.
Proof.
  pose proof package_checked as H. unfold package_checks in H. destruct (existsb _ _) eqn:E in H; [|discriminate]. exact (in_of _ _ entry_sound _ _ E).
Qed.
Lemma package_group : one_group "ARPackage" write_package "AR-PACKAGE" = true /\
  group_code "ARPackage" write_package = (en_wb package_entry, en_wk package_entry).
Proof.
  pose proof package_checked as H. unfold package_checks in H. destruct (existsb _ _); [|discriminate]. destruct (one_group _ _ _); [|discriminate].
  destruct (wobj_eqb _ _) eqn:E in H; [|discriminate]. apply wobj_sound in E. split; [reflexivity|]. exact (f_equal snd E).
Qed.
Lemma element_checks : forall c t, In (t, c) package_elements -> element_check t c = true.
Proof.
  pose proof package_checked as H. unfold package_checks in H. destruct (existsb _ _); [|discriminate]. destruct (one_group _ _ _); [|discriminate].
  destruct (wobj_eqb _ _); [|discriminate]. rewrite forallb_forall in H. intros c t I. exact (H _ I).
Qed.

Theorem package_round_trip : forall repr warn p, ok p -> class_of p = Some "ARPackage" -> exists x nm,
  written repr warn write_package p (mkElem [] None [x]) /\ xtag x = "AR-PACKAGE" /\
  field p "short_name" = Some (VStr nm) /\
  forall d, short_name (reload d x) = Ok (Some nm) /\ read warn read_package (reload d x) (named_init "ARPackage" (VStr nm)) p.
Proof.
  intros repr warn p O C. destruct package_group as [G E]. destruct (one_group_ok repr warn _ _ _ p G O C) as (s & W & S). rewrite E in W. cbn [fst snd] in W.
  pose proof (document_entries_ok repr warn p package_entry package_in) as EN. unfold entry_ok in EN.
  pose proof (fun d => EN _ d s C O W eq_refl) as X. cbn [en_named package_entry en_tag en_rb en_rk en_cls] in X.
  destruct (X 0) as (nm & _ & F & _). exists (to_xml "AR-PACKAGE" s), nm. split; [exact S|]. split; [reflexivity|]. split; [exact F|].
  intros d. destruct (X d) as (nm' & N & F' & R). assert (nm' = nm) by congruence. subst nm'. split; [exact N|]. exact (R VNone).
Qed.


