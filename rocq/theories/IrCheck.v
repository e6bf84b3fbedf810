(** A decision procedure for "what this writer code writes, that reader code reads back"
    (proved sound in IrWrite.v and IrRead.v; the round-trip theorems only use its result).
    The writer code of an object is summarised by a list of [item]s; the reader code is then
    followed over that summary. *)
From Coq Require Import String Ascii List Bool Arith.
From Verif Require Import PyBase Primitives Xml Leaf ClassTable Ir Access WriterCode ReaderCode IrSem Domain.
Import ListNotations.
Open Scope string_scope.
Open Scope list_scope.

Definition mem (s : string) (l : list string) : bool := existsb (String.eqb s) l.
Fixpoint nodupb (l : list string) : bool :=
  match l with [] => true | a :: r => if mem a r then false else nodupb r end.

(** ** What is known of a class, computed once *)
Record cinfo := mkCi {
  ci_cls : string; ci_anc : list string; ci_tabs : list (list (string * access));
  ci_attrs : list (string * dflt); ci_dom : list (string * ftype) }.
Definition cinfo_of (c : string) : cinfo :=
  let anc := ancestors 20 c in
  mkCi c anc (map (fun d => match assoc d access_table with Some t => t | None => [] end) anc)
    (attrs_of c) (match assoc c domain with Some t => t | None => [] end).
Fixpoint look (tabs : list (list (string * access))) (m : string) : option access :=
  match tabs with
  | [] => None
  | t :: r => match assoc m t with Some a => Some a | None => look r m end
  end.
Definition acc (ci : cinfo) (m : string) : option access := look (ci_tabs ci) m.
Definition dom (ci : cinfo) (f : string) : option ftype := assoc f (ci_dom ci).
Definition dfl (ci : cinfo) (f : string) : option dflt := assoc f (ci_attrs ci).
Definition is_dnone (d : option dflt) : bool := match d with Some DNone => true | _ => false end.
Definition is_dlist (d : option dflt) : bool := match d with Some DList => true | _ => false end.
Definition is_dempty (d : option dflt) : bool := match d with Some DEmpty => true | _ => false end.
Definition must (ci : cinfo) (f : string) : bool :=
  match dom ci f with Some (FLeaf m _) | Some (FObj m _) | Some (FAttr m) => m | Some FName => true | _ => false end.
Definition single (ci : cinfo) (f : string) : bool :=
  match dom ci f with Some (FLeaf _ _) | Some (FObj _ _) | Some (FWrap _) => is_dnone (dfl ci f) | _ => false end.
Definition many (ci : cinfo) (f : string) : bool :=
  match dom ci f with Some (FLeafs _) | Some (FObjs _ _) => is_dlist (dfl ci f) | _ => false end.

Definition fuel : nat := 600.

(** ** Writer code on the value of an attribute *)
Inductive know := KNone | KNil | KCons | KSome | KObj (ci : cinfo).

Fixpoint keval (kn : know) (c : wcond) : option bool :=
  match c with
  | CNot a => option_map negb (keval kn a)
  | CAnd a b => match keval kn a with Some true => keval kn b | Some false => Some false | None => None end
  | CSome [] => Some (match kn with KNone => false | _ => true end)
  | CNonEmpty [] => match kn with KNil => Some false | KCons => Some true | _ => None end
  | CTruthy [] => match kn with KNone | KNil => Some false | KCons | KObj _ => Some true | KSome => None end
  | CInst [] cs => match kn with KNone => Some false
                   | KObj ci => Some (existsb (fun d => mem d (ci_anc ci)) cs) | _ => None end
  | CType [] c => match kn with KNone => Some false | KObj ci => Some (String.eqb (ci_cls ci) c) | _ => None end
  | _ => None
  end.

Definition wkey (key : string) (t : option tagx) : string :=
  match t with Some t => wtag key t | None => "" end.

(** the instructions that are executed, with their key *)
Fixpoint wred (n : nat) (kn : know) (code : list wi) (key : string) : option (list (wi * string)) :=
  match n with
  | O => None
  | S n =>
    match code with
    | [] => Some []
    | i :: rest =>
      let keep := Some [(i, key)] in
      match
        match i with
        | WCall f t [] => match assoc f wfuns with Some b => wred n kn b (wkey key t) | None => None end
        | WIf c a b => match keval kn c with Some x => wred n kn (if x then a else b) key | None => keep end
        | WLeaf _ _ [] => match kn with KNone => Some [] | _ => keep end
        | WFor [] _ => match kn with KNil => Some [] | _ => keep end
        | WFail _ _ => None
        | _ => keep
        end
      with
      | Some a => match wred n kn rest key with Some b => Some (a ++ b) | None => None end
      | None => None
      end
    end
  end.
Definition nothing (kn : know) (code : list wi) (key : string) : bool :=
  match wred fuel kn code key with Some [] => true | _ => false end.

(** ** Removing the first getter of every path *)
Definition gstep_eqb (a b : gstep) : bool :=
  match a, b with GM x, GM y | GA x, GA y => String.eqb x y | _, _ => false end.
Definition sp (m : gstep) (p : list gstep) : option (list gstep) :=
  match p with g :: r => if gstep_eqb g m then Some r else None | [] => None end.
Definition omap {A B} (f : A -> B) (o : option A) : option B := match o with Some a => Some (f a) | None => None end.
Definition omap2 {A B C} (f : A -> B -> C) (a : option A) (b : option B) : option C :=
  match a, b with Some a, Some b => Some (f a b) | _, _ => None end.
Fixpoint strip_c (m : gstep) (c : wcond) : option wcond :=
  match c with
  | CNot a => omap CNot (strip_c m a)
  | CAnd a b => omap2 CAnd (strip_c m a) (strip_c m b)
  | CSome p => omap CSome (sp m p)
  | CNonEmpty p => omap CNonEmpty (sp m p)
  | CInst p cs => omap (fun p => CInst p cs) (sp m p)
  | CType p c => omap (fun p => CType p c) (sp m p)
  | CTruthy p => omap CTruthy (sp m p)
  end.
Fixpoint strip (n : nat) (m : gstep) (code : list wi) : option (list wi) :=
  match n with
  | O => None
  | S n =>
    match code with
    | [] => Some []
    | i :: rest =>
      omap2 cons
        match i with
        | WAttrs p => omap WAttrs (sp m p)
        | WShort p => omap WShort (sp m p)
        | WSetText p => omap WSetText (sp m p)
        | WLeaf k t p => omap (WLeaf k t) (sp m p)
        | WCall f t p => omap (WCall f t) (sp m p)
        | WSub t b => omap (WSub t) (strip n m b)
        | WIf c a b => match strip_c m c with Some c => omap2 (WIf c) (strip n m a) (strip n m b) | None => None end
        | WFor p b => omap (fun p => WFor p b) (sp m p)
        | WXAttr a p => omap (WXAttr a) (sp m p)
        | WXMap a mp p => omap (WXMap a mp) (sp m p)
        | WXConst _ _ | WFail _ _ => Some i
        | WUnknown => None
        end
        (strip n m rest)
    end
  end.

Fixpoint first_c (c : wcond) : option gstep :=
  match c with
  | CNot a => first_c a
  | CAnd a b => match first_c a with Some g => Some g | None => first_c b end
  | CSome p | CNonEmpty p | CInst p _ | CType p _ | CTruthy p => hd_error p
  end.
Fixpoint first (n : nat) (i : wi) : option gstep :=
  match n with
  | O => None
  | S n =>
    match i with
    | WAttrs p | WShort p | WSetText p | WFor p _ | WLeaf _ _ p | WCall _ _ p | WXMap _ _ p | WXAttr _ p => hd_error p
    | WIf c _ _ => first_c c
    | WSub _ b => fold_right (fun j r => match first n j with Some g => Some g | None => r end) None b
    | _ => None
    end
  end.

(** ** Summary of what an object's writer code writes *)
Inductive lshape := LSub (t : string) (s : lshape) | LEnd (t : string) (k : wkind).
(** primitive objects: as read by [k], or a literal of a class *)
Inductive ltype := LtKind (k : rkind) | LtWrap (c : string).
Inductive item :=
| IAttrs                                            (* T and UUID *)
| IName                                             (* SHORT-NAME *)
| ILeaf (f : string) (wr : list string) (always : bool) (lt : ltype) (s : lshape)
| IObj (f : string) (wr : list string) (always : bool)
       (alts : list (string * (string * (list wi * string))))  (* class, tag, code, key *)
| IGroup (t : string) (its : list item) (b : list wi) (k : string)
| IXAttr (n f : string)
| IText (f : string)
| IInl (f c : string) (its : list item)
| IForeign (tags : list string).

Definition rkind_eqb (a b : rkind) : bool :=
  match a, b with
  | RLiteral, RLiteral | RVerbatim, RVerbatim | RIdentifier, RIdentifier | RRevision, RRevision
  | RFloat, RFloat | RTime, RTime | RBool, RBool | RNumerical, RNumerical | RInteger, RInteger
  | RPositive, RPositive | RLimit, RLimit | RRef, RRef | RLitItem, RLitItem
  | RFloatItem, RFloatItem | RNumItem, RNumItem => true
  | _, _ => false
  end.
Definition compat (w : wkind) (r : rkind) : bool :=
  match w, r with
  | WText, (RLiteral | RVerbatim | RIdentifier | RRevision | RFloat | RTime | RBool | RLitItem | RFloatItem) => true
  | WNum, (RNumerical | RInteger | RPositive | RNumItem) => true
  | WRef, RRef => true
  | WLimit, RLimit => true
  | _, _ => false
  end.

Definition lcompat (lt : ltype) (w : wkind) : bool :=
  match lt with LtKind k => compat w k | LtWrap _ => match w with WText => true | _ => false end end.

Fixpoint lshape_of (n : nat) (lt : ltype) (code : list wi) (key : string) : option lshape :=
  match n with
  | O => None
  | S n =>
    match wred fuel KSome code key with
    | Some [(WSub t b, k)] => omap (LSub (wtag k t)) (lshape_of n lt b k)
    | Some [(WLeaf wk t [], k)] => if lcompat lt wk then Some (LEnd (wtag k t) wk) else None
    | _ => None
    end
  end.
Definition oshape_of (c : string) (code : list wi) (key : string) : option (string * (string * (list wi * string))) :=
  match wred fuel (KObj (cinfo_of c)) code key with
  | Some [(WSub t b, k)] => Some (c, (wtag k t, (b, k)))
  | _ => None
  end.
Fixpoint oshapes_ (cs : list string) (code : list wi) (key : string) : option (list (string * (string * (list wi * string)))) :=
  match cs with
  | [] => Some []
  | c :: r => omap2 cons (oshape_of c code key) (oshapes_ r code key)
  end.
Definition oshapes (cs : list string) (code : list wi) (key : string) :=
  if nodupb cs then oshapes_ cs code key else None.
(** code that loops over a list: wrapper elements, whether they are also written for an empty
    list, code and key of the loop body *)
Fixpoint lwrap (n : nat) (code : list wi) (key : string) : option (list string * bool * list wi * string) :=
  match n with
  | O => None
  | S n =>
    match wred fuel KCons code key with
    | Some [(WFor [] b, k)] => if nothing KNil code key then Some ([], false, b, k) else None
    | Some [(WSub t b, k)] =>
        let tg := wtag k t in
        match lwrap n b k with
        | Some (wr, al, b', k') =>
            match wred fuel KNil code key with
            | Some [] => if al then None else Some (tg :: wr, false, b', k')
            | Some [(WSub t' c', k2)] =>
                (* also written for the empty list *)
                if (String.eqb (wtag k2 t') tg && (al || match wr with [] => true | _ => false end))%bool then
                  if (if al then match lwrap n c' k2 with Some (wr2, true, _, _) => if list_eq_dec string_dec wr wr2 then true else false | _ => false end
                      else nothing KNil c' k2)
                  then Some (tg :: wr, true, b', k') else None
                else None
            | _ => None
            end
        | None => None
        end
    | _ => None
    end
  end.

Definition getter (ci : cinfo) (m : gstep) : option string :=
  match m with
  | GA a => match dfl ci a with Some _ => Some a | None => None end
  | GM m =>
      match acc ci m with
      | Some (AGet f) => match dfl ci f with Some _ => Some f | None => None end
      | Some (AGetSorted f) =>
          match dom ci f with
          | Some (FObjs true _) => match dfl ci f with Some _ => Some f | None => None end
          | None => if is_dlist (dfl ci f) then Some f else None
          | _ => None
          end
      | _ => None
      end
  end.

Section Wsim.
(** [W c code key]: the summary for an object of class [c] *)
Context (W : cinfo -> list wi -> string -> option (list item)).
Definition field_item (ci : cinfo) (f : string) (code : list wi) (key : string) : option (list item) :=
  match dom ci f with
  | None =>
      match dfl ci f with
      | Some DNone => if nothing KNone code key then Some [] else None
      | Some DList => if nothing KNil code key then Some [] else None
      | _ => None
      end
  | Some t =>
      let opt (m : bool) := if m then true else nothing KNone code key in
      match t with
      | FLeaf m k => if opt m then omap (fun s => [ILeaf f [] false (LtKind k) s]) (lshape_of 20 (LtKind k) code key) else None
      | FWrap c => if opt false then omap (fun s => [ILeaf f [] false (LtWrap c) s]) (lshape_of 20 (LtWrap c) code key) else None
      | FObj m cs => if opt m then omap (fun a => [IObj f [] false a]) (oshapes cs code key) else None
      | FLeafs k =>
          match lwrap 20 code key with
          | Some (wr, al, b, k') => omap (fun s => [ILeaf f wr al (LtKind k) s]) (lshape_of 20 (LtKind k) b k')
          | None => None
          end
      | FObjs _ cs =>
          match lwrap 20 code key with
          | Some (wr, al, b, k') => omap (fun a => [IObj f wr al a]) (oshapes cs b k')
          | None => None
          end
      | FAttr m =>
          if opt m then match wred fuel KSome code key with Some [(WXAttr n [], _)] => Some [IXAttr n f] | _ => None end else None
      | FAttrOf c =>
          if opt false then match wred fuel KSome code key with
                      | Some [(WXAttr n [GM m], _)] => if String.eqb m "getValue" then Some [IXAttr n f] else None | _ => None end else None
      | FText => match wred fuel KSome code key with Some [(WSetText [], _)] => Some [IText f] | _ => None end
      | FTextOf c =>
          if opt false then match wred fuel KSome code key with
                      | Some [(WSetText [GM m], _)] => if String.eqb m "getValue" then Some [IText f] else None | _ => None end else None
      | FPart c => omap (fun its => [IInl f c its]) (W (cinfo_of c) code key)
      | FPartAny c => if opt false then omap (fun its => [IInl f c its]) (W (cinfo_of c) code key) else None
      | FName => None
      end
  end.
End Wsim.

Definition cond_must (ci : cinfo) (c : wcond) : bool :=
  match c with
  | CSome [g] => match getter ci g with Some f => must ci f | None => false end
  | _ => false
  end.

(** one statement of the writer of an object; [W] for the blocks below it *)
Definition wgroup (W : cinfo -> list wi -> string -> option (list item)) (ci : cinfo) (i : wi) (key : string) : option (list item) :=
  match i with
  | WSub t b => omap (fun its => [IGroup (wtag key t) its b key]) (W ci b key)
  | _ => None
  end.
Definition wfield (W : cinfo -> list wi -> string -> option (list item)) (ci : cinfo) (i : wi) (key : string) : option (list item) :=
  match first 50 i with
  | None => wgroup W ci i key
  | Some m =>
      match getter ci m with
      | None => None
      | Some f =>
          match strip 50 m [i] with
          | None => wgroup W ci i key
          | Some code' =>
              if match i, dom ci f with WSub _ _, None => true | _, _ => false end then wgroup W ci i key
              else field_item W ci f code' key
          end
      end
  end.
Definition wsim1 (W : cinfo -> list wi -> string -> option (list item)) (ci : cinfo) (i : wi) (key : string) : option (list item) :=
  match i with
  | WAttrs [] => Some [IAttrs]
  | WShort [m] =>
      match getter ci m, dom ci "short_name" with
      | Some f, Some FName => if String.eqb f "short_name" then Some [IName] else None
      | _, _ => None
      end
  | WCall f t [] => match assoc f wfuns with Some b => W ci b (wkey key t) | None => None end
  | WIf c a b =>
      match keval (KObj ci) c with
      | Some x => W ci (if x then a else b) key
      | None => if cond_must ci c then W ci a key else wfield W ci i key
      end
  | _ => wfield W ci i key
  end.
Fixpoint wsim (n : nat) (ci : cinfo) (code : list wi) (key : string) : option (list item) :=
  match n with
  | O => None
  | S n =>
    match code with
    | [] => Some []
    | i :: rest =>
      match wsim1 (wsim n) ci i key with
      | Some a => match wsim n ci rest key with Some b => Some (a ++ b) | None => None end
      | None => None
      end
    end
  end.

(** object codes reached from a summary: class, code, key *)
Fixpoint wkids (i : item) : list (string * (list wi * string)) :=
  match i with
  | IObj _ _ _ alts => map (fun a => (fst a, snd (snd a))) alts
  | IGroup _ its _ _ | IInl _ _ its => flat_map wkids its
  | _ => []
  end.

(** ** Reader side *)
Definition ltag (s : lshape) : string := match s with LSub t _ | LEnd t _ => t end.
Fixpoint itags (i : item) : list string :=
  match i with
  | IName => ["SHORT-NAME"]
  | ILeaf _ (t :: _) _ _ _ | IObj _ (t :: _) _ _ => [t]
  | ILeaf _ [] _ _ s => [ltag s]
  | IObj _ [] _ alts => map (fun a => fst (snd a)) alts
  | IGroup t _ _ _ => [t]
  | IInl _ _ its => flat_map itags its
  | IForeign ts => ts
  | _ => []
  end.
Fixpoint iattrs (i : item) : list string :=
  match i with
  | IAttrs => ["T"; "UUID"]
  | IXAttr n _ => [n]
  | IInl _ _ its => flat_map iattrs its
  | _ => []
  end.
Fixpoint itexts (i : item) : list string :=
  match i with
  | IText f => [f]
  | IInl _ _ its => flat_map itexts its
  | _ => []
  end.
Fixpoint is_foreign (i : item) : bool :=
  match i with IForeign _ => true | IInl _ _ its => existsb is_foreign its | _ => false end.
Definition no_foreign (its : list item) : bool := negb (existsb is_foreign its).

(** the element being read: of an object (with the code that wrote exactly this element, if
    any), of an object whose summary has not been computed, of a primitive object *)
Inductive ctx :=
| CxE (ci : cinfo) (tag : string) (its : list item) (bk : option (list wi * string))
| CxI (c tag : string) (b : list wi) (k : string)
| CxL (lt : ltype) (s : lshape).
Definition cx_tag (cx : ctx) : string := match cx with CxE _ t _ _ | CxI _ t _ _ => t | CxL _ s => ltag s end.
Definition cx_code (cx : ctx) : option (string * string * list wi * string) :=
  match cx with
  | CxE ci t _ (Some (b, k)) => Some (ci_cls ci, t, b, k)
  | CxI c t b k => Some (c, t, b, k)
  | _ => None
  end.
Definition cx_open (cx : ctx) : option (cinfo * string * list item) :=
  match cx with
  | CxE ci t its _ => Some (ci, t, its)
  | CxI c t b k => let ci := cinfo_of c in omap (fun its => (ci, t, its)) (wsim fuel ci b k)
  | CxL _ _ => None
  end.

(** result of a path lookup *)
Inductive loc :=
| LNone                                   (* no element *)
| LOne (cx : ctx)                         (* exactly one *)
| LWrap (f : string) (cx : ctx)           (* one if the list f is not empty, else none *)
| LItems (f : string) (alts : list (option string * option ctx)).
                                          (* for each object in attribute f none or one, by class *)
Definition hits (h : string) (t : string) : bool := if String.eqb h "*" then true else String.eqb h t.
Definition to_alt (l : option loc) : option (option ctx) :=
  match l with Some LNone => Some None | Some (LOne cx) => Some (Some cx) | _ => None end.

Fixpoint locate (n : nat) (cx : ctx) (path : list string) : option loc :=
  match n with
  | O => None
  | S n =>
    match path with
    | [] => Some (LOne cx)
    | h :: r =>
      if String.eqb h "." then locate n cx r else
      match cx with
      | CxL lt (LEnd _ _) => Some LNone
      | CxL lt (LSub _ s) => if hits h (ltag s) then locate n (CxL lt s) r else Some LNone
      | _ =>
        match cx_open cx with
        | None => None
        | Some (ci, _, its) =>
          match filter (fun i => existsb (hits h) (itags i)) its with
          | [] => Some LNone
          | [IGroup t its' b k] => locate n (CxE ci t its' (Some (b, k))) r
          | [ILeaf f (t :: wr) al lt s] =>
              let c' := CxE ci t [ILeaf f wr al lt s] None in
              match locate n c' r with
              | Some (LOne x) => if al then Some (LOne x) else match r with [] => Some (LWrap f c') | _ => None end
              | Some (LWrap g x) => if String.eqb f g then Some (LWrap g x) else None
              | Some (LItems g a) => if String.eqb f g then Some (LItems g a) else None
              | l => l
              end
          | [IObj f (t :: wr) al a] =>
              let c' := CxE ci t [IObj f wr al a] None in
              match locate n c' r with
              | Some (LOne x) => if al then Some (LOne x) else match r with [] => Some (LWrap f c') | _ => None end
              | Some (LWrap g x) => if String.eqb f g then Some (LWrap g x) else None
              | Some (LItems g a) => if String.eqb f g then Some (LItems g a) else None
              | l => l
              end
          | [ILeaf f [] _ lt s] => omap (fun a => LItems f [(None, a)]) (to_alt (locate n (CxL lt s) r))
          | [IObj f [] _ alts] =>
              omap (LItems f)
                ((fix go (l : list (string * (string * (list wi * string)))) :=
                    match l with
                    | [] => Some []
                    | (c, (t, (b, k))) :: l' =>
                        omap2 (fun x y => (Some c, x) :: y)
                          (if hits h t then to_alt (locate n (CxI c t b k) r) else Some None) (go l')
                    end) alts)
          | _ => None
          end
        end
      end
    end
  end.
Definition find_at (cx : ctx) (key : string) : option loc := locate 30 cx (split_char "/" key).

(** entries: an object of class [en_cls] written by [en_wb] in an element [en_tag] is to be
    read back by [en_rb] *)
Record entry := mkEnt {
  en_cls : string; en_named : bool; en_tag : string; en_wb : list wi; en_wk : string;
  en_rb : list ri; en_rk : string }.

(** results that depend on entries *)
Definition M (A : Type) : Type := option (A * list entry).
Definition ret {A} (a : A) : M A := Some (a, []).
Definition bnd {A B} (m : M A) (f : A -> M B) : M B :=
  match m with
  | None => None
  | Some (a, l) => match f a with Some (b, l') => Some (b, l ++ l') | None => None end
  end.
Notation "'let!' x := a 'in' b" := (bnd a (fun x => b)) (at level 200, x pattern, right associativity).
Definition guard (b : bool) : M unit := if b then ret tt else None.

(** restored attributes, with the classes for which they are *)
Definition rest := list (string * option (list string)).
Definition in_rest (R : rest) (f : string) : bool := existsb (fun p => String.eqb (fst p) f) R.
(** an object of class c (no class: another value) in attribute f is restored *)
Definition has_rest (R : rest) (f : string) (c : option string) : bool :=
  existsb (fun p => if String.eqb (fst p) f then
                      match snd p with None => true
                      | Some cs => match c with Some c => mem c cs | None => false end end
                    else false) R.
Definition covered (ci : cinfo) (R : rest) (f : string) : bool :=
  if has_rest R f None then true else
  match dom ci f with
  | Some (FObj _ cs) => if is_dnone (dfl ci f) then forallb (fun c => has_rest R f (Some c)) cs else false
  | _ => false
  end.

(** expressions that evaluate without error in every element *)
Fixpoint vtot (n : nat) (v : vx) : bool :=
  match n with
  | O => false
  | S n => match v with VNoneX => true | VFindX _ a b => if vtot n a then vtot n b else false | _ => false end
  end.

Definition ckey (key : string) (cx : ctx) (t : option tagx) : string :=
  match t with Some (TLit s) => s | Some TKey => key | Some TOwn => cx_tag cx | None => "" end.
Definition is_text_cond (c : rcond) : bool := match c with CBoth CHasText CHasWord => true | _ => false end.

(** effect of reader code at the element of one object: appended to the target list, added to
    an attribute list or stored in an attribute *)
Inductive eff := EAppend | EAdd (f : string) | ESlot (f : string).
Definition target := option (cinfo * rest).

Fixpoint csim (n : nat) (c : rcond) (key : string) (cx : ctx) (tg : target) : M bool :=
  match n with
  | O => None
  | S n =>
    if is_text_cond c then
      match cx_open cx with
      | Some (_, _, its) => if (match flat_map itexts its with [] => no_foreign its | _ => false end) then ret false else None
      | None => None
      end
    else
    match c with
    | CTrue => ret true
    | CTag s => ret (String.eqb (cx_tag cx) s)
    | CKeyIs s => ret (String.eqb key s)
    | CHasAttr a | CGot (VAttrX a) =>
        match cx_open cx with
        | Some (_, _, its) => if (if mem a (flat_map iattrs its) then false else no_foreign its) then ret false else None
        | None => None
        end
    | CAt p a =>
        match find_at cx (rkey key p) with
        | Some LNone => ret false
        | Some (LOne c') => csim n a key c' tg
        | _ => None
        end
    | CGot v => match cx with CxL _ _ => let! _ := robj n v key cx tg in ret true | _ => None end
    | CIsA d => match tg with Some (ci, _) => ret (mem d (ci_anc ci)) | None => None end
    | CObjHas [g] =>
        match tg with
        | Some (ci, R) =>
            match getter ci g with
            | Some f => if must ci f then if covered ci R f then ret true else None else None
            | None => None
            end
        | None => None
        end
    | CNeg a => let! x := csim n a key cx tg in ret (negb x)
    | CBoth a b => let! x := csim n a key cx tg in if x then csim n b key cx tg else ret false
    | CEither a b => let! x := csim n a key cx tg in if x then ret true else csim n b key cx tg
    | _ => None
    end
  end
(** the value is the object of the element *)
with robj (n : nat) (v : vx) (key : string) (cx : ctx) (tg : target) : M unit :=
  match n with
  | O => None
  | S n =>
    match v with
    | VNewX d named b =>
        match cx_code cx with
        | Some (d', tag, wb, wk) =>
            if String.eqb d d' then Some (tt, [mkEnt d named tag wb wk b key]) else None
        | None => None
        end
    | VGetX f t =>
        match assoc f rfuns with
        | Some (b, Some r) =>
            let! e := ract n b (ckey key cx t) cx None in
            match e with None => robj n r (ckey key cx t) cx None | Some _ => None end
        | _ => None
        end
    | VIfX c a b => let! x := csim n c key cx tg in robj n (if x then a else b) key cx tg
    | VFindX p a b =>
        match find_at cx (rkey key p) with
        | Some LNone => robj n b key cx tg
        | Some (LOne c') => robj n a key c' tg
        | _ => None
        end
    | VLeafX k p =>
        match cx with
        | CxL _ _ =>
            match find_at cx (rkey key p) with
            | Some (LOne (CxL (LtKind k') (LEnd _ _))) =>
                guard (rkind_eqb k k')
            | _ => None
            end
        | _ => None
        end
    | VOrX a _ =>
        match cx with
        | CxL (LtKind RRef) _ | CxE _ _ _ (Some _) | CxI _ _ _ _ => robj n a key cx tg
        | _ => None
        end
    | _ => None
    end
  end
with ract (n : nat) (code : list ri) (key : string) (cx : ctx) (tg : target) : M (option eff) :=
  match n with
  | O => None
  | S n =>
    match code with
    | [] => ret None
    | i :: rest =>
      let! a :=
        match i with
        | RIf c a b => let! x := csim n c key cx tg in ract n (if x then a else b) key cx tg
        | RCall f t =>
            match assoc f rfuns with
            | Some (b, r) =>
                if match r with Some r => vtot 30 r | None => true end
                then ract n b (ckey key cx t) cx tg else None
            | None => None
            end
        | RPut m v =>
            let! _ := robj n v key cx tg in
            match tg with
            | None => if String.eqb m "append" then ret (Some EAppend) else None
            | Some (ci, _) =>
                match acc ci m with
                | Some (ASet f _) => ret (Some (ESlot f))
                | Some (AAdd f _) => ret (Some (EAdd f))
                | _ => None
                end
            end
        | RSet f v =>
            let! _ := robj n v key cx tg in
            match tg with Some _ => ret (Some (ESlot f)) | None => None end
        | RCreate m named b =>
            match tg, cx_code cx with
            | Some (ci, _), Some (d', tag, wb, wk) =>
                match acc ci m with
                | Some (ANew d named' p) =>
                    if (if Bool.eqb named named' then String.eqb d d' else false)
                    then Some (Some (match p with PList f => EAdd f | PSlot f => ESlot f end),
                               [mkEnt d named tag wb wk b key])
                    else None
                | _ => None
                end
            | _, _ => None
            end
        | RFind p a b =>
            match find_at cx (rkey key p) with
            | Some LNone => ract n b key cx tg
            | Some (LOne c') => ract n a key c' tg
            | _ => None
            end
        | RFor p b =>
            match find_at cx (rkey key p) with
            | Some LNone => ret None
            | Some (LOne c') => ract n b key c' tg
            | _ => None
            end
        | _ => None
        end in
      let! b := ract n rest key cx tg in
      match a, b with
      | None, x => ret x
      | x, None => ret x
      | _, _ => None
      end
    end
  end.

(** a static condition at the element of the object being read: may not depend on entries *)
Definition csim0 (n : nat) (c : rcond) (key : string) (cx : ctx) (tg : target) : option bool :=
  match csim n c key cx tg with Some (b, []) => Some b | _ => None end.

(** the object being filled: with the restored attributes, a list (of all objects of an
    attribute), an object that is not used *)
Inductive mode := MObj (R : rest) | MList (f : option string) | MDummy.
Definition mtarget (ci : cinfo) (md : mode) : target := match md with MObj R => Some (ci, R) | _ => None end.
(** values: None, [], the value of an attribute if of one of the classes (else None), a literal
    with the value of the literal in an attribute, that value, the text in an attribute *)
Inductive aval :=
| AVNone | AVNil | AVSel (f : string) (cs : option (list string)) | AVLit (f : string) | AVStr (f : string) | AVText (f : string).

Definition known (ci : cinfo) (kn : rest) (f : string) (cs : option (list string)) : bool :=
  if match cs with None => must ci f | _ => false end then true
  else existsb (fun p => if String.eqb (fst p) f then
                           match snd p, cs with
                           | None, None => true
                           | Some a, Some b => if list_eq_dec string_dec a b then true else false
                           | _, _ => false end
                         else false) kn.

Definition attr_ok (ci : cinfo) (f : string) : bool :=
  match dfl ci f with
  | Some DNone => match dom ci f with None | Some (FAttr _) => true | _ => false end
  | _ => false
  end.
(** object.f = None changes nothing *)
Definition attr_free (ci : cinfo) (R : rest) (f : string) : bool :=
  match dfl ci f with Some DNone => negb (mem f (map fst R)) | _ => false end.

(** object.f = v *)
Definition put_av (ci : cinfo) (R : rest) (kn : rest) (f : string) (g : bool) (v : aval) : option rest :=
  match v with
  | AVNone => if g then Some R else if in_rest R f then None else if is_dnone (dfl ci f) then Some R else None
  | AVNil => if in_rest R f then None else if is_dlist (dfl ci f) then Some R else None
  | AVSel f' cs =>
      if String.eqb f f' then
        if single ci f then
          if (if g then true else if known ci kn f cs then true else negb (in_rest R f))
          then Some ((f, cs) :: R) else None
        else match dom ci f, cs with
             | Some (FLeafs _), None | Some (FObjs _ _), None | Some (FPart _), None => 
                 match dfl ci f with Some _ => Some ((f, None) :: R) | None => None end
             | _, _ => None
             end
      else None
  | AVText f' =>
      match dom ci f with
      | Some FText => if (if String.eqb f f' then if g then is_dempty (dfl ci f) else false else false)
                      then Some ((f, None) :: R) else None
      | _ => None
      end
  | _ => None
  end.
Definition put_md (ci : cinfo) (md : mode) (kn : rest) (f : string) (g : bool) (v : aval) : M mode :=
  match md with
  | MObj R => match put_av ci R kn f g v with Some R' => ret (MObj R') | None => None end
  | _ => None
  end.

(** effects of the elements of attribute f, by class *)
Definition acts_of (n : nat) (code : list ri) (key : string) (tg : target) :=
  fix go (alts : list (option string * option ctx)) : M (list (option string * option eff)) :=
    match alts with
    | [] => ret []
    | (c, None) :: r => go r
    | (c, Some cx) :: r =>
        let! e := ract n code key cx tg in
        let! l := go r in ret ((c, e) :: l)
    end.
Definition objs_of (n : nat) (v : vx) (key : string) (tg : target) :=
  fix go (alts : list (option string * option ctx)) : M (list (option string)) :=
    match alts with
    | [] => ret []
    | (c, None) :: r => go r
    | (c, Some cx) :: r =>
        let! _ := robj n v key cx tg in
        let! l := go r in ret (c :: l)
    end.
(** classes of a list of alternatives; None: a primitive object *)
Fixpoint classes (l : list (option string)) : option (list string) :=
  match l with
  | [] => Some []
  | Some c :: r => omap (cons c) (classes r)
  | None :: _ => None
  end.
Definition eff_is (e : eff) (f : string) : bool := match e with ESlot g => String.eqb f g | _ => false end.
Definition eff_add (md : mode) (e : eff) (f : string) : bool :=
  match md, e with MObj _, EAdd g => String.eqb f g | MList None, EAppend => true | _, _ => false end.
Definition all_some {A} (l : list (A * option ctx)) : bool :=
  forallb (fun p => match snd p with Some _ => true | None => false end) l.
Definition quiet (l : list (option string * option eff)) : bool :=
  forallb (fun p => match snd p with None => true | Some _ => false end) l.

(** code run at the elements of the objects in attribute f *)
Definition items_act (n : nat) (ci : cinfo) (md : mode) (key : string) (code : list ri)
  (f : string) (alts : list (option string * option ctx)) : M mode :=
  let! l := acts_of n code key (mtarget ci md) alts in
  if quiet l then ret md
  else if many ci f then
    if (if all_some alts then forallb (fun p => match snd p with Some e => eff_add md e f | None => false end) l else false) then
      match md with
      | MObj R => if in_rest R f then None else ret (MObj ((f, None) :: R))
      | MList None => ret (MList (Some f))
      | _ => None
      end
    else None
  else if single ci f then
    match md with
    | MObj R =>
        if forallb (fun p => match snd p with Some e => eff_is e f | None => false end) l then
          match classes (map fst l) with
          | Some cs => if forallb (fun c => negb (has_rest R f (Some c))) cs then ret (MObj ((f, Some cs) :: R)) else None
          | None => if (if in_rest R f then false else all_some alts) then ret (MObj ((f, None) :: R)) else None
          end
        else None
    | _ => None
    end
  else None.

Definition covers (ci : cinfo) (R : rest) : bool := forallb (fun p => covered ci R (fst p)) (ci_dom ci).
(** the items of an element as seen by the part in attribute f *)
Definition part_items (f : string) (its : list item) : list item :=
  flat_map (fun i => match i with
                     | IInl g _ l => if String.eqb f g then l else [IForeign (itags i)]
                     | _ => [IForeign (itags i)] end) its.
Definition part_field (ci : cinfo) (d : string) : option string :=
  match List.find (fun p => match snd p with FPart c => String.eqb c d | _ => false end) (ci_dom ci) with
  | Some p => Some (fst p) | None => None
  end.
Definition inl_count (f : string) (its : list item) : list item :=
  filter (fun i => match i with IInl g _ _ => String.eqb f g | _ => false end) its.
Definition plain_item (ci : cinfo) (i : item) : bool :=
  match i with
  | ILeaf f _ al _ _ => if al then false else match dfl ci f with Some _ => true | None => false end
  | IObj f _ al alts => if al then false else match dfl ci f with Some _ => nodupb (map fst alts) | None => false end
  | _ => false
  end.
(** attributes are None or lists, none has to be set *)
Definition plain_class (ci : cinfo) : bool :=
  if forallb (fun p => match snd p with DNone | DList => true | _ => false end) (ci_attrs ci) then
    forallb (fun p => match snd p with
                      | FLeafs _ | FObjs _ _ => is_dlist (dfl ci (fst p))
                      | FLeaf false _ | FObj false _ => is_dnone (dfl ci (fst p))
                      | _ => false end) (ci_dom ci)
  else false.
Definition inl_class (d : string) (i : item) : bool := match i with IInl _ c _ => String.eqb c d | _ => false end.
Definition inl_plain (ci : cinfo) (i : item) : bool := match i with IInl _ _ its => forallb (plain_item ci) its | _ => false end.
Definition cls_ok (ci : cinfo) : bool :=
  if nodupb (map fst (ci_attrs ci)) then
    if forallb (fun p => match snd p with DNew d => negb (mem "short_name" (map fst (attrs_of d))) | _ => true end) (ci_attrs ci)
    then forallb (fun p => mem (fst p) (map fst (ci_attrs ci))) (ci_dom ci) else false
  else false.
Definition no_new (ci : cinfo) : bool := forallb (fun p => match snd p with DNew _ => false | _ => true end) (ci_attrs ci).

Definition rest_eqb (a b : rest) : bool :=
  (fix go a b := match a, b with
    | [], [] => true
    | (f, x) :: a, (g, y) :: b =>
        if String.eqb f g then
          if match x, y with None, None => true
             | Some x, Some y => if list_eq_dec string_dec x y then true else false
             | _, _ => false end
          then go a b else false
        else false
    | _, _ => false end) a b.
Definition mode_eqb (a b : mode) : bool :=
  match a, b with
  | MObj x, MObj y => rest_eqb x y
  | MList None, MList None => true
  | MList (Some f), MList (Some g) => String.eqb f g
  | MDummy, MDummy => true
  | _, _ => false
  end.

Fixpoint vsim (n : nat) (v : vx) (key : string) (cx : ctx) (ci : cinfo) (md : mode) (kn : rest) : M aval :=
  match n with
  | O => None
  | S n =>
    match v with
    | VNoneX => ret AVNone
    | VTextX =>
        match cx with
        | CxE _ _ its _ =>
            if (match flat_map itags its with [] => no_foreign its | _ => false end) then
              match flat_map itexts its with
              | [] => ret AVNone
              | [f] => match dom ci f, existsb (fun i => match i with IText g => String.eqb g f | _ => false end) its with
                       | Some FText, true => ret (AVText f) | _, _ => None end
              | _ => None
              end
            else None
        | _ => None
        end
    | VLeafX k p =>
        match find_at cx (rkey key p) with
        | Some LNone => ret AVNone
        | Some (LItems f [(None, None)]) => ret AVNone
        | Some (LItems f [(None, Some (CxL lt (LEnd _ _)))]) =>
            if single ci f then
              match lt with
              | LtKind k' => if rkind_eqb k k' then ret (AVSel f None) else None
              | LtWrap _ => match k with RLiteral => ret (AVLit f) | _ => None end
              end
            else None
        | _ => None
        end
    | VReqX k p =>
        match find_at cx (rkey key p) with
        | Some (LItems f [(None, Some (CxL (LtKind RRef) (LEnd _ _)))]) =>
            match k with
            | RRef => if (if single ci f then must ci f else false) then ret (AVSel f None) else None
            | _ => None
            end
        | _ => None
        end
    | VLeafsX k p =>
        match find_at cx (rkey key p) with
        | Some LNone => ret AVNil
        | Some (LItems f [(None, None)]) => ret AVNil
        | Some (LItems f [(None, Some (CxL (LtKind k') (LEnd _ _)))]) =>
            if many ci f then
              if rkind_eqb k k' then ret (AVSel f None) else None
            else None
        | _ => None
        end
    | VGetX f t =>
        match assoc f rfuns with
        | Some (b, Some r) =>
            let! m := rsim n b (ckey key cx t) cx ci MDummy [] in
            match m with MDummy => vsim n r (ckey key cx t) cx ci MDummy kn | _ => None end
        | _ => None
        end
    | VFindX p a b =>
        match find_at cx (rkey key p) with
        | Some LNone => vsim n b key cx ci md kn
        | Some (LOne c') => vsim n a key c' ci md kn
        | Some (LWrap f c') =>
            let! w := vsim n b key cx ci md kn in
            let! u := vsim n a key c' ci md kn in
            match w, u with
            | AVNone, AVNone => ret AVNone
            | AVNil, AVSel g None => if (if String.eqb f g then many ci f else false) then ret u else None
            | _, _ => None
            end
        | Some (LItems f alts) =>
            let! w := vsim n b key cx ci md kn in
            match w with
            | AVNone =>
                if single ci f then
                  let! l := objs_of n a key (mtarget ci md) alts in
                  match classes l with
                  | Some cs => ret (AVSel f (Some cs))
                  | None => if all_some alts then ret (AVSel f None) else None
                  end
                else None
            | _ => None
            end
        | _ => None
        end
    | VLastX p a =>
        match find_at cx (rkey key p) with
        | Some LNone => ret AVNone
        | Some (LItems f alts) =>
            if single ci f then
              let! l := objs_of n a key (mtarget ci md) alts in
              match classes l with
              | Some cs => ret (AVSel f (Some cs))
              | None => if all_some alts then ret (AVSel f None) else None
              end
            else None
        | _ => None
        end
    | VListX b =>
        let! m := rsim n b key cx ci (MList None) [] in
        match m with MList None => ret AVNil | MList (Some f) => ret (AVSel f None) | _ => None end
    | VIfX c a b =>
        match csim0 n c key cx (mtarget ci md) with
        | Some x => vsim n (if x then a else b) key cx ci md kn
        | None => None
        end
    | VValueX a =>
        let! w := vsim n a key cx ci md kn in
        match w with AVLit f => if known ci kn f None then ret (AVStr f) else None | _ => None end
    | VWrapX c m a =>
        let! w := vsim n a key cx ci md kn in
        match w with
        | AVStr f =>
            match dom ci f with
            | Some (FWrap c') => if (if String.eqb c c' then if String.eqb m "setValue" then isinst c "ARLiteral" else false else false)
                                 then ret (AVSel f None) else None
            | _ => None
            end
        | _ => None
        end
    | VNewX d false b =>
        match part_field ci d with
        | Some f =>
            match dom ci f with
            | Some (FPart c) => if String.eqb c d then let! _ := inline n b key cx ci f d in ret (AVSel f None) else None
            | _ => None
            end
        | None => None
        end
    | _ => None
    end
  end
with inline (n : nat) (b : list ri) (key : string) (cx : ctx) (ci : cinfo) (f d : string) : M unit :=
  match n with
  | O => None
  | S n =>
    match cx with
    | CxE _ tag its _ =>
        let ci' := cinfo_of d in
        if (if forallb (inl_class d) (inl_count f its) then
              match inl_count f its with [] => false | _ => cls_ok ci' end else false) then
          if match flat_map itexts its with [] => true | _ => false end then
            let! m := rsim n b key (CxE ci' tag (part_items f its) None) ci' (MObj []) [] in
            match m with MObj R => guard (covers ci' R) | _ => None end
          else None
        else None
    | _ => None
    end
  end
with rsim (n : nat) (code : list ri) (key : string) (cx : ctx) (ci : cinfo) (md : mode) (kn : rest) : M mode :=
  match n with
  | O => None
  | S n =>
    match code with
    | [] => ret md
    | i :: rest =>
      let! md1 :=
        match i with
        | RAttrs =>
            match md, cx with
            | MObj R, CxE _ _ its _ =>
                if no_foreign its then
                  if existsb (fun i => match i with IAttrs => true | _ => false end) its then
                    if (if nodupb (flat_map iattrs its) then if attr_ok ci "timestamp" then attr_ok ci "uuid" else false else false) then ret (MObj (("timestamp", None) :: ("uuid", None) :: R)) else None
                  else if (if mem "T" (flat_map iattrs its) then true else mem "UUID" (flat_map iattrs its)) then None
                  else if (if attr_free ci R "timestamp" then attr_free ci R "uuid" else false) then ret md else None
                else None
            | _, _ => None
            end
        | RCall f t =>
            match assoc f rfuns with
            | Some (b, r) =>
                if match r with Some r => vtot 30 r | None => true end
                then rsim n b (ckey key cx t) cx ci md [] else None
            | None => None
            end
        | RPut m v =>
            match acc ci m with
            | Some (ASet f g) => let! w := vsim n v key cx ci md kn in put_md ci md kn f g w
            | _ => None
            end
        | RSet f v => let! w := vsim n v key cx ci md kn in put_md ci md kn f false w
        | RFind p a b =>
            match find_at cx (rkey key p) with
            | Some LNone => rsim n b key cx ci md kn
            | Some (LOne c') => rsim n a key c' ci md kn
            | Some (LWrap f c') =>
                let! m1 := rsim n b key cx ci md kn in
                let! m2 := rsim n a key c' ci md kn in
                if mode_eqb m1 md then
                  match md, m2 with
                  | MObj R, MObj ((g, None) :: R') =>
                      if (if String.eqb f g then if many ci f then rest_eqb R' R else false else false) then ret m2 else None
                  | MList None, MList (Some g) => if (if String.eqb f g then many ci f else false) then ret m2 else None
                  | _, _ => if mode_eqb m2 md then ret md else None
                  end
                else None
            | Some (LItems f alts) =>
                let! m1 := rsim n b key cx ci md kn in
                if mode_eqb m1 md then
                  if single ci f then items_act n ci md key a f alts else None
                else None
            | None => None
            end
        | RFor p b =>
            match find_at cx (rkey key p) with
            | Some LNone => ret md
            | Some (LOne c') => rsim n b key c' ci md kn
            | Some (LWrap f c') =>
                let! m2 := rsim n b key c' ci md kn in
                match md, m2 with
                | MObj R, MObj ((g, None) :: R') =>
                    if (if String.eqb f g then if many ci f then rest_eqb R' R else false else false) then ret m2 else None
                | MList None, MList (Some g) => if (if String.eqb f g then many ci f else false) then ret m2 else None
                | _, _ => if mode_eqb m2 md then ret md else None
                end
            | Some (LItems f alts) => items_act n ci md key b f alts
            | None => None
            end
        | RForVal v b =>
            match b with
            | [RPut m VItemX] =>
                match acc ci m, md with
                | Some (AAdd f _), MObj R =>
                    let! w := vsim n v key cx ci md kn in
                    match w with
                    | AVNil => ret md
                    | AVSel g None =>
                        if (if String.eqb f g then if many ci f then negb (in_rest R f) else false else false)
                        then ret (MObj ((f, None) :: R)) else None
                    | _ => None
                    end
                | _, _ => None
                end
            | _ => None
            end
        | RIf c a b =>
            match csim0 n c key cx (mtarget ci md) with
            | Some x => rsim n (if x then a else b) key cx ci md kn
            | None =>
                match c, md with
                | CGot (VAttrX at1), MObj R | CHasAttr at1, MObj R =>
                    match a, b, cx with
                    | [RPut m v], [], CxE _ _ its _ =>
                        match filter (fun i => mem at1 (iattrs i)) its, acc ci m with
                        | [IXAttr _ f], Some (ASet f' _) =>
                            if (if no_foreign its then if String.eqb f f' then is_dnone (dfl ci f) else false else false) then
                              match v, dom ci f with
                              | VAttrX at2, Some (FAttr _) =>
                                  if String.eqb at1 at2 then ret (MObj ((f, None) :: R)) else None
                              | VWrapX cl m2 (VAttrX at2), Some (FAttrOf cl') =>
                                  if (if String.eqb at1 at2 then if String.eqb cl cl' then if String.eqb m2 "setValue" then isinst cl "ARLiteral" else false else false else false)
                                  then ret (MObj ((f, None) :: R)) else None
                              | _, _ => None
                              end
                            else None
                        | _, _ => None
                        end
                    | _, _, _ => None
                    end
                | CGot v, MObj R =>
                    let! w := vsim n v key cx ci md kn in
                    match w with
                    | AVNone => rsim n b key cx ci md kn
                    | AVSel f cs =>
                        let! m := rsim n a key cx ci md ((f, cs) :: kn) in
                        match b with
                        | [] => if (if single ci f then mode_eqb m (MObj ((f, cs) :: R)) else false) then ret m else None
                        | _ => None
                        end
                    | AVLit f =>
                        let! m := rsim n a key cx ci md ((f, None) :: kn) in
                        match b with
                        | [] => if (if single ci f then mode_eqb m (MObj ((f, None) :: R)) else false) then ret m else None
                        | _ => None
                        end
                    | _ => None
                    end
                | CEmpty v, MObj R =>
                    let! w := vsim n v key cx ci md kn in
                    match w with
                    | AVNil => rsim n a key cx ci md kn
                    | AVSel f None =>
                        let! m1 := rsim n a key cx ci md kn in
                        let! m2 := rsim n b key cx ci md kn in
                        if (if many ci f then if mode_eqb m1 md then mode_eqb m2 (MObj ((f, None) :: R)) else false else false)
                        then ret m2 else None
                    | _ => None
                    end
                | CBoth CHasText CHasWord, MObj R =>
                    match a, b, cx with
                    | [RPut m (VWrapX cl m2 VTextX)], [], CxE _ _ its _ =>
                        match acc ci m, flat_map itags its, flat_map itexts its with
                        | Some (ASet f _), [], [f'] =>
                            match dom ci f with
                            | Some (FTextOf cl') =>
                                if (if no_foreign its then if String.eqb f f' then if is_dnone (dfl ci f) then
                                      if String.eqb cl cl' then if String.eqb m2 "setValue" then if isinst cl "ARLiteral" then
                                        existsb (fun i => match i with IText g => String.eqb g f | _ => false end) its
                                      else false else false else false else false else false else false)
                                then ret (MObj ((f, None) :: R)) else None
                            | _ => None
                            end
                        | _, _, _ => None
                        end
                    | _, _, _ => None
                    end
                | _, _ => None
                end
            end
        | RSub g b =>
            match getter ci g, md with
            | Some f, MObj R =>
                match dom ci f, dfl ci f with
                | Some (FPart d), Some (DNew d') =>
                    if (if String.eqb d d' then if in_rest R f then false else no_new (cinfo_of d) else false) then
                      let! _ := inline n b key cx ci f d in ret (MObj ((f, None) :: R))
                    else None
                | _, _ => None
                end
            | _, _ => None
            end
        | RPutAny m gs (VNewX d false b) =>
            match acc ci m, md, cx with
            | Some (ASet f _), MObj R, CxE _ _ its _ =>
                match dom ci f with
                | Some (FPartAny d') =>
                    if (if String.eqb d d' then if in_rest R f then false else
                        if is_dnone (dfl ci f) then
                        let ci' := cinfo_of d in
                        if forallb (inl_plain ci') (inl_count f its) then
                        if plain_class ci' then
                        (* every list of the part is looked at *)
                        if forallb (fun g => match acc ci' g with Some (AGet h) => is_dlist (dfl ci' h) | _ => false end) gs then
                        forallb (fun p => match snd p with
                                  | DList => existsb (fun g => match acc ci' g with Some (AGet h) => String.eqb h (fst p) | _ => false end) gs
                                  | _ => true end) (ci_attrs ci')
                        else false else false else false else false else false) then
                      let! _ := inline n b key cx ci f d in ret (MObj ((f, None) :: R))
                    else None
                | _ => None
                end
            | _, _, _ => None
            end
        | _ => None
        end in
      rsim n rest key cx ci md1 kn
    end
  end.

(** ** Checking an entry *)
Definition start (named : bool) : rest := if named then [("short_name", None)] else [].
Definition check_entry (e : entry) : option (list entry) :=
  let ci := cinfo_of (en_cls e) in
  match wsim fuel ci (en_wb e) (en_wk e) with
  | None => None
  | Some its =>
      if (if cls_ok ci then
            if en_named e then
              match filter (fun i => mem "SHORT-NAME" (itags i)) its, dom ci "short_name" with
              | [IName], Some FName => true | _, _ => false end
            else match dfl ci "short_name" with None => true | Some _ => false end
          else false) then
        match rsim fuel (en_rb e) (en_rk e) (CxE ci (en_tag e) its (Some (en_wb e, en_wk e))) ci (MObj (start (en_named e))) [] with
        | Some (MObj R, l) => if covers ci R then Some l else None
        | _ => None
        end
      else None
  end.
