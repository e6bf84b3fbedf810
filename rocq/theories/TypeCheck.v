(** A type analysis of the transcribed reader and writer code (Ir.v).  It computes, for every
    piece of code, the requirements under which running it (IrSem.v) goes wrong in no other way
    than by the exceptions asked for; TypeReader.v and TypeWriter.v prove that.  Nothing here
    models code of /repo. *)
From Coq Require Import String Ascii List Bool.
From Verif Require Import PyBase Primitives Xml Leaf ClassTable Ir Access WriterCode ReaderCode IrSem.
Import ListNotations.
Open Scope string_scope.
Open Scope list_scope.

(** ** Types of values *)

Inductive base := BNone | BStr | BLit | BNum | BBool | BLimit | BRef | BObj (c : string).
(** a scalar of one of the bases [ts], or a list with items of the bases given by [tl] *)
Record ty := mkTy { ts : list base; tl : option (list base) }.

Definition base_eqb (a b : base) : bool :=
  match a, b with
  | BNone, BNone | BStr, BStr | BLit, BLit | BNum, BNum | BBool, BBool
  | BLimit, BLimit | BRef, BRef => true
  | BObj c, BObj d => String.eqb c d
  | _, _ => false
  end.
Definition bmem (b : base) (l : list base) : bool := existsb (base_eqb b) l.
Definition bsub (l m : list base) : bool := forallb (fun b => bmem b m) l.
Definition bunion (l m : list base) : list base := filter (fun b => negb (bmem b m)) l ++ m.
Definition tsub (s t : ty) : bool :=
  bsub (ts s) (ts t) && match tl s, tl t with
                        | None, _ => true
                        | Some a, Some b => bsub a b
                        | Some _, None => false end.
Definition tunion (s t : ty) : ty :=
  mkTy (bunion (ts s) (ts t))
       match tl s, tl t with None, x => x | x, None => x | Some a, Some b => Some (bunion a b) end.
Definition tempty : ty := mkTy [] None.
Definition is_empty_ty (t : ty) : bool := match t with mkTy [] None => true | _ => false end.
Definition tbase (l : list base) : ty := mkTy l None.
Definition tlist (l : list base) : ty := mkTy [] (Some l).
Definition not_none (l : list base) : list base := filter (fun b => negb (base_eqb b BNone)) l.

(** ** Requirements *)
Inductive req :=
| QField (c f : string) (t : ty)   (* attribute f of class c may hold values of type t *)
| QItems (c f : string)            (* attribute f of class c always holds a list *)
| QHas (c f : string)              (* attribute f is made by the constructor of class c *)
| QGot (c f : string)              (* the same, or AttributeError may be raised *)
| QInit (c : string) (named : bool)  (* objects of class c are made *)
| QInitBut (c a : string)          (* objects of class c are made and given attribute a at once *)
| QCall (f c : string)             (* function f is called on objects of class c *)
| QRes (f : string) (t : ty)       (* function f returns values of type t *)
| QExc (e : exn)                   (* e may be raised *)
| QExcW (e : exn)                  (* e may be raised with the warning option *)
| QExcS (e : exn)                  (* e may be raised without the warning option *)
| QBad (s : string).               (* something the model does not describe *)

(** ** Reading attributes *)
Section Get.
Context (acc : string -> string -> option access)   (* access_of *)
        (fty : string -> string -> ty).             (* class, attribute: its type *)

(** objects of class [c] have a short name that is a string *)
Definition has_str_name (b : base) : list req :=
  match b with
  | BObj c => match fty c "short_name" with
              | mkTy [BStr] None => [QHas c "short_name"] | _ => [QExc TypeError] end
  | _ => [QExc TypeError]
  end.
Definition get_base (g : gstep) (b : base) : list req * ty :=
  match b, g with
  | BNone, _ => ([QExc AttributeError], tempty)
  | BObj c, GA a => ([QGot c a], fty c a)
  | BObj c, GM m =>
      match acc c m with
      | Some (AGet f) => ([QGot c f], fty c f)
      | Some (AGetSorted f) => (QItems c f :: QGot c f ::
            match tl (fty c f) with Some bs => flat_map has_str_name bs | None => [] end, fty c f)
      | _ => ([QBad (c ++ "." ++ m)], tempty)
      end
  | BLit, GM m => if String.eqb m "getValue" || String.eqb m "getText" then ([], tbase [BStr]) else ([QBad "get"], tempty)
  | BLit, GA a => if String.eqb a "value" then ([], tbase [BStr]) else ([QBad "get"], tempty)
  | BRef, GM m => if String.eqb m "getValue" then ([], tbase [BStr; BNone]) else ([QBad "get"], tempty)
  | _, _ => ([QBad "get"], tempty)
  end.
Definition join_all (l : list (list req * ty)) : list req * ty :=
  fold_right (fun r s => (fst r ++ fst s, tunion (snd r) (snd s))) ([], tempty) l.
Definition get_ty (t : ty) (g : gstep) : list req * ty :=
  match tl t with
  | Some _ => ([QBad "get of a list"], tempty)
  | None => join_all (map (get_base g) (ts t))
  end.
Fixpoint gets_ty (t : ty) (p : list gstep) : list req * ty :=
  match p with
  | [] => ([], t)
  | g :: r => let a := get_ty t g in let b := gets_ty (snd a) r in (fst a ++ fst b, snd b)
  end.

End Get.

(** ** Reader *)
Section Analysis.
Context (acc : string -> string -> option access)   (* access_of *)
        (isin : string -> string -> bool)           (* isinst *)
        (fty : string -> string -> ty)              (* class, attribute: its type *)
        (rty : string -> ty)                        (* function: type of its result *)
        (names : bool)             (* every SHORT-NAME element has a text *)
        (absent : list string).    (* tags that do not occur *)

(** what is known of the object under construction: its class and, for some attributes, what
    they hold; or a list under construction; [SAny]: any
    object, about which nothing is known; [SWarn]: an object of class "" (the stand-in for functions
    without object), with the warning option; [SDead]: this point is not reached *)
Inductive rf := Rf (c : string) (l : list (string * rf)).
Inductive st := SObj (r : rf) | SList (bs : list base) | SAny | SWarn | SDead.
(** what is known of the current element *)
Inductive fact := FAttr (a : string) | FText | FGot (k : rkind) (p : rpth).

(** what is known of the key parameter: its value, or that it is not in a list *)
Inductive kfact := KIs (s : string) | KNot (l : list string).

Definition is_dead (s : st) : bool := match s with SDead => true | _ => false end.
Definition forget (s : st) : st := match s with SObj (Rf c _) => SObj (Rf c []) | _ => s end.
Definition sjoin (s t : st) : list req * st :=
  match s, t with
  | SDead, x | x, SDead => ([], x)
  | SObj (Rf c _), SObj (Rf d _) => (if String.eqb c d then [] else [QBad "join"], SObj (Rf c []))
  | SList a, SList b => ([], SList (bunion a b))
  | SWarn, SWarn => ([], SWarn)
  | SWarn, SObj (Rf c _) | SObj (Rf c _), SWarn => (if String.eqb c "" then [] else [QBad "join"], SObj (Rf "" []))
  | _, _ => ([QBad "join"], SDead)
  end.
(** [s] is covered by [t] *)
Definition ssub (s t : st) : bool :=
  match s, t with
  | SDead, _ => true
  | SObj (Rf c _), SObj (Rf d []) => String.eqb c d
  | SWarn, SObj (Rf d []) => String.eqb d ""
  | SWarn, SWarn => true
  | _, SAny => true
  | SList a, SList b => bsub a b
  | _, _ => false
  end.

Definition rkind_eqb (a b : rkind) : bool :=
  match a, b with
  | RLiteral, RLiteral | RVerbatim, RVerbatim | RIdentifier, RIdentifier | RRevision, RRevision
  | RFloat, RFloat | RTime, RTime | RBool, RBool | RNumerical, RNumerical | RInteger, RInteger
  | RPositive, RPositive | RLimit, RLimit | RRef, RRef | RLitItem, RLitItem | RFloatItem, RFloatItem
  | RNumItem, RNumItem => true
  | _, _ => false
  end.
Definition rpth_eqb (a b : rpth) : bool :=
  match a, b with
  | PLit s, PLit t | PKeyThen s, PKeyThen t => String.eqb s t
  | PKey, PKey => true
  | _, _ => false
  end.
Definition fact_eqb (a b : fact) : bool :=
  match a, b with
  | FAttr x, FAttr y => String.eqb x y
  | FText, FText => true
  | FGot k p, FGot k' p' => rkind_eqb k k' && rpth_eqb p p'
  | _, _ => false
  end.
Definition knows (F : list fact) (f : fact) : bool := existsb (fact_eqb f) F.

Definition kind_base (k : rkind) : base :=
  match k with
  | RLiteral | RVerbatim | RIdentifier | RRevision | RLitItem => BLit
  | RFloat | RTime | RNumerical | RInteger | RPositive | RFloatItem | RNumItem => BNum
  | RBool => BBool
  | RLimit => BLimit
  | RRef => BRef
  end.

(** no element is found under a path that mentions an absent tag *)
Definition nowhere (p : rpth) : bool :=
  match p with PLit s => existsb (fun t => existsb (String.eqb t) (split_char "/"%char s)) absent | _ => false end.

Definition wrap_base (c m : string) (b : base) : list req * list base :=
  if isin c "ARLiteral" && String.eqb m "setValue" then
    match b with BStr | BNone | BLit => ([], [BLit]) | _ => ([QBad "wrap"], []) end
  else if String.eqb c "Numerical" && String.eqb m "setValue" then
    match b with BStr => ([], [BNum]) | _ => ([QBad "wrap"], []) end
  else if String.eqb c "RefType" && String.eqb m "setDest" then
    match b with BStr | BNone => ([], [BRef]) | _ => ([QBad "wrap"], []) end
  else ([QBad "wrap"], []).

(** a value of type [t] stored by method [m] of class [c] *)
Definition put_ty (c m : string) (t : ty) : list req :=
  match acc c m with
  | Some (ASet f g) => [QField c f (if g then mkTy (not_none (ts t)) (tl t) else t)]
  | Some (AAdd f g) =>
      match tl t with
      | Some _ => [QBad "list in a list"]
      | None => [QItems c f; QHas c f; QField c f (tlist (if g then not_none (ts t) else ts t))]
      end
  | _ => [QBad (c ++ "." ++ m)]
  end.

(** the attributes of a loop body state: run the body once more from what it leaves *)
Definition loop (body : st -> list req * st) (s : st) : list req * st :=
  let s0 := forget s in
  match s0 with
  | SList _ =>
      let a := body s0 in
      let j := sjoin s0 (forget (snd a)) in
      let b := body (snd j) in
      (fst a ++ fst j ++ fst b ++ (if ssub (snd b) (snd j) then [] else [QBad "loop"]), snd j)
  | _ => let a := body s0 in
         (fst a ++ (if ssub (snd a) s0 then [] else [QBad "loop"]), s0)
  end.

Definition rdrop (l : list (string * rf)) (f : string) : list (string * rf) :=
  filter (fun p => negb (String.eqb f (fst p))) l.

Definition key_is (K : kfact) (s : string) : option bool :=
  match K with
  | KIs k => Some (String.eqb k s)
  | KNot l => if existsb (String.eqb s) l then Some false else None
  end.

Record cres := mkC { c_req : list req; c_stat : option bool; c_true : list fact; c_false : list fact }.

(** one level; [ac], [av], [ak] analyse what is below *)
Section Bodies.
Context (ac : list ri -> kfact -> list fact -> list base -> st -> list req * st)
        (av : vx -> kfact -> list fact -> list base -> st -> list req * (ty * option rf))
        (ak : rcond -> kfact -> list fact -> list base -> st -> cres).

Definition code_body (code : list ri) (K : kfact) (F : list fact) (it : list base) (s : st) : list req * st :=
    match code with
    | [] => ([], s)
    | i :: rest =>
      if is_dead s then ([], SDead) else
        let a :=
          match i with
          | RAttrs =>
              match s with
              | SObj (Rf c _) => ([QField c "timestamp" (tbase [BStr; BNone]); QField c "uuid" (tbase [BStr; BNone])], forget s)
              | _ => ([QBad "RAttrs"], SDead) end
          | RPut m v =>
              let w := av v K F it s in
              if is_empty_ty (fst (snd w)) then (fst w, SDead) else
              match s with
              | SObj (Rf c _) => (fst w ++ put_ty c m (fst (snd w)), forget s)
              | SList bs =>
                  match tl (fst (snd w)) with
                  | Some _ => ([QBad "append"], SDead)
                  | None => (fst w ++ (if String.eqb m "append" then [] else [QBad "append"]),
                             SList (bunion (ts (fst (snd w))) bs))
                  end
              | _ => ([QBad "RPut"], SDead)
              end
          | RPutAny m gs v =>
              let w := av v K F it s in
              match s with
              | SObj (Rf c _) =>
                  (fst w ++ put_ty c m (fst (snd w)) ++
                   flat_map (fun g => let t := get_ty acc fty (fst (snd w)) (GM g) in
                                      fst t ++ match ts (snd t) with [] => [] | _ => [QBad "RPutAny"] end) gs, forget s)
              | _ => ([QBad "RPutAny"], SDead)
              end
          | RSet a v =>
              let w := av v K F it s in
              if is_empty_ty (fst (snd w)) then (fst w, SDead) else
              match s with
              | SObj (Rf c l) =>
                  (fst w ++ [QField c a (fst (snd w))],
                   SObj (Rf c (match snd (snd w) with Some r => (a, r) :: rdrop l a | None => rdrop l a end)))
              | _ => ([QBad "RSet"], SDead)
              end
          | RCall f _ =>
              match s with
              | SObj (Rf c _) => ([QCall f c], forget s)
              | _ => ([QBad "RCall"], SDead) end
          | RCreate m named b =>
              match s with
              | SObj (Rf c _) =>
                  match acc c m with
                  | Some (ANew c' named' p) =>
                      let w := ac b K F it (SObj (Rf c' [])) in
                      let r0 := (if Bool.eqb named named' then [] else [QBad (c ++ "." ++ m)]) ++ QInit c' named :: fst w in
                      match snd w with
                      | SDead => (r0, SDead)
                      | SObj (Rf d _) =>
                          (r0 ++
                           match p with
                           | PList f => [QItems c f; QHas c f; QField c f (tlist [BObj d])]
                           | PSlot f => [QHas c f; QField c f (tbase [BObj d])]
                           end, forget s)
                      | _ => ([QBad (c ++ "." ++ m)], SDead)
                      end
                  | _ => ([QBad (c ++ "." ++ m)], SDead)
                  end
              | _ => ([QBad "RCreate"], SDead)
              end
          | RFind p x y =>
              let b := ac y K F it s in
              if nowhere p then b else
              let a := ac x K [] it s in
              let j := sjoin (snd a) (snd b) in (fst a ++ fst b ++ fst j, snd j)
          | RFor p b => if nowhere p then ([], s) else loop (fun s => ac b K [] it s) s
          | RForVal v b =>
              let w := av v K F it s in
              let r1 := match ts (fst (snd w)) with
                        | [] => [] | [BNone] => [QExc TypeError] | _ => [QBad "RForVal"] end in
              match tl (fst (snd w)) with
              | None => (fst w ++ r1, s)
              | Some bs => let l := loop (fun s => ac b K F bs s) s in (fst w ++ r1 ++ fst l, snd l)
              end
          | RIf c x y =>
              let t := ak c K F it s in
              match c_stat t with
              | Some true => let a := ac x K (c_true t ++ F) it s in (c_req t ++ fst a, snd a)
              | Some false => let b := ac y K (c_false t ++ F) it s in (c_req t ++ fst b, snd b)
              | None =>
                  let a := ac x K (c_true t ++ F) it s in
                  let b := ac y K (c_false t ++ F) it s in
                  let j := sjoin (snd a) (snd b) in (c_req t ++ fst a ++ fst b ++ fst j, snd j)
              end
          | RSub g b =>
              match s with
              | SObj (Rf c l) =>
                  match (match g with GA f => Some f
                                    | GM m => match acc c m with Some (AGet f) => Some f | _ => None end end) with
                  | None => ([QBad "RSub"], SDead)
                  | Some f =>
                      match (match assoc f l with
                             | Some r => Some r
                             | None => match fty c f with
                                       | mkTy [BObj c'] None => Some (Rf c' []) | _ => None end
                             end) with
                      | None => ([QBad ("RSub " ++ c ++ "." ++ f)], SDead)
                      | Some (Rf c' l') =>
                          let w := ac b K F it (SObj (Rf c' l')) in
                          match snd w with
                          | SDead => (QHas c f :: fst w, SDead)
                          | SObj (Rf d r) => (QHas c f :: QField c f (tbase [BObj d]) :: fst w, SObj (Rf c ((f, Rf d r) :: rdrop l f)))
                          | _ => ([QBad "RSub"], SDead)
                          end
                      end
                  end
              | _ => ([QBad "RSub"], SDead)
              end
          | RFail e soft =>
              if soft then ([QExcS e], match s with SObj (Rf "" _) => SWarn | _ => s end) else ([QExc e], SDead)
          | RUnknown => ([QBad "RUnknown"], SDead)
          end in
        let b := ac rest K F it (snd a) in
        (fst a ++ fst b, snd b)
    end.
Definition val_body (v : vx) (K : kfact) (F : list fact) (it : list base) (s : st) : list req * (ty * option rf) :=
    match v with
    | VNoneX => ([], (tbase [BNone], None))
    | VLeafX k p => ([], (tbase (if knows F (FGot k p) then [kind_base k] else [kind_base k; BNone]), None))
    | VReqX RLiteral p => ([], (tbase [BLit; BNone], None))
    | VReqX RRef p => ([], (tbase [BRef; BNone], None))
    | VReqX _ p => ([QBad "VReqX"], (tempty, None))
    | VLeafsX k p => ([], (tlist [kind_base k], None))
    | VTextX => ([], (tbase (if knows F FText then [BStr] else [BStr; BNone]), None))
    | VTextOrX | VTagX => ([], (tbase [BStr], None))
    | VAttrX a => ([], (tbase (if knows F (FAttr a) then [BStr] else [BStr; BNone]), None))
    | VUnmapX a m => (if knows F (FAttr a) then [] else [QExc KeyError], (tbase [BStr; BNone], None))
    | VNameX => ([], (tbase (if names then [BStr] else [BStr; BNone]), None))
    | VWrapX c m a =>
        let w := av a K F it s in
        match tl (fst (snd w)) with
        | Some _ => ([QBad "wrap"], (tempty, None))
        | None => (fst w ++ flat_map (fun b => fst (wrap_base c m b)) (ts (fst (snd w))),
                   (tbase (flat_map (fun b => snd (wrap_base c m b)) (ts (fst (snd w)))), None))
        end
    | VValueX a =>
        let w := av a K F it s in
        let t := get_ty acc fty (fst (snd w)) (GM "getValue") in (fst w ++ fst t, (snd t, None))
    | VNewX c named b =>
        let w :=
          match named, b with
          | false, RSet a v :: b' =>
              let u := av v K F it SAny in
              let w := ac b' K F it (SObj (Rf c (match snd (snd u) with Some r => [(a, r)] | None => [] end))) in
              (fst u ++ QInitBut c a :: QField c a (fst (snd u)) :: fst w, snd w)
          | _, _ => let w := ac b K F it (SObj (Rf c [])) in (QInit c named :: fst w, snd w)
          end in
        match snd w with
        | SObj (Rf d l) => (fst w, (tbase [BObj d], Some (Rf d l)))
        | SDead => (fst w, (tempty, None))
        | _ => ([QBad "VNewX"], (tempty, None))
        end
    | VListX b =>
        let w := ac b K F it (SList []) in
        match snd w with
        | SList bs => (fst w, (tlist bs, None))
        | SDead => (fst w, (tempty, None))
        | _ => ([QBad "VListX"], (tempty, None))
        end
    | VGetX f _ => ([QCall f ""], (rty f, None))
    | VFindX p x y =>
        let b := av y K F it s in
        if nowhere p then b else
        let a := av x K [] it s in (fst a ++ fst b, (tunion (fst (snd a)) (fst (snd b)), None))
    | VLastX p a => let w := av a K [] it s in (fst w, (tunion (fst (snd w)) (tbase [BNone]), None))
    | VIfX c x y =>
        let t := ak c K F it s in
        match c_stat t with
        | Some true => let a := av x K (c_true t ++ F) it s in (c_req t ++ fst a, snd a)
        | Some false => let b := av y K (c_false t ++ F) it s in (c_req t ++ fst b, snd b)
        | None =>
            let a := av x K (c_true t ++ F) it s in
            let b := av y K (c_false t ++ F) it s in
            (c_req t ++ fst a ++ fst b, (tunion (fst (snd a)) (fst (snd b)), None))
        end
    | VOrX x y =>
        let a := av x K F it s in
        let b := av y K F it s in
        (fst a ++ fst b ++
         match tl (fst (snd a)) with Some _ => [QBad "or"] | None => [] end ++
         flat_map (fun b => match b with BNone | BRef | BObj _ => [] | _ => [QBad "or"] end) (ts (fst (snd a))),
         (tunion (tbase (not_none (ts (fst (snd a))))) (fst (snd b)), None))
    | VItemX => ([], (tbase it, None))
    | VFailX e => ([match s with SWarn => QExcW e | _ => QExc e end], (tempty, None))
    | VUnknown => ([QBad "VUnknown"], (tempty, None))
    end.
Definition cond_body (c : rcond) (K : kfact) (F : list fact) (it : list base) (s : st) : cres :=
    match c with
    | CTrue => mkC [] (Some true) [] []
    | CTag t => mkC [] (if existsb (String.eqb t) absent then Some false else None) [] []
    | CKeyIs t => mkC [] (key_is K t) [] []
    | CHasAttr a => mkC [] None [FAttr a] []
    | CHasText => mkC [] None [FText] []
    | CHasWord => mkC (if knows F FText then [] else [QExc AttributeError]) None [] []
    | CAt p a => if nowhere p then mkC [] (Some false) [] [] else
                 let t := ak a K [] it s in mkC (c_req t) None [] []
    | CGot v => let w := av v K F it s in
                mkC (fst w) None (match v with VLeafX k p => [FGot k p] | _ => [] end) []
    | CEmpty v => let w := av v K F it s in
                  mkC (fst w ++ match ts (fst (snd w)) with [] => [] | _ => [QBad "CEmpty"] end) None [] []
    | CIsA k => match s with
                | SObj (Rf c _) => mkC [] (Some (isin c k)) [] []
                | _ => mkC [QBad "CIsA"] None [] [] end
    | CObjHas p => match s with
                   | SObj (Rf c _) => let t := gets_ty acc fty (tbase [BObj c]) p in mkC (fst t) (if existsb (base_eqb BNone) (ts (snd t)) then None else Some true) [] []
                   | _ => mkC [QBad "CObjHas"] None [] [] end
    | CNeg a => let t := ak a K F it s in mkC (c_req t) (option_map negb (c_stat t)) (c_false t) (c_true t)
    | CBoth a b =>
        let t := ak a K F it s in
        match c_stat t with
        | Some false => mkC (c_req t) (Some false) [] []
        | _ => let u := ak b K (c_true t ++ F) it s in
               mkC (c_req t ++ c_req u)
                   (match c_stat t, c_stat u with _, Some false => Some false | Some true, x => x | _, _ => None end)
                   (c_true t ++ c_true u) []
        end
    | CEither a b =>
        let t := ak a K F it s in
        match c_stat t with
        | Some true => mkC (c_req t) (Some true) [] []
        | _ => let u := ak b K (c_false t ++ F) it s in
               mkC (c_req t ++ c_req u)
                   (match c_stat t, c_stat u with _, Some true => Some true | Some false, x => x | _, _ => None end)
                   [] (c_false t ++ c_false u)
        end
    end.
End Bodies.

Fixpoint an_code (n : nat) (code : list ri) (K : kfact) (F : list fact) (it : list base) (s : st) {struct n}
  : list req * st :=
  match n with
  | O => ([QBad "fuel"], SDead)
  | S n' => code_body (an_code n') (an_val n') (an_cond n') code K F it s
  end
with an_val (n : nat) (v : vx) (K : kfact) (F : list fact) (it : list base) (s : st) {struct n}
  : list req * (ty * option rf) :=
  match n with
  | O => ([QBad "fuel"], (tempty, None))
  | S n' => val_body (an_code n') (an_val n') (an_cond n') v K F it s
  end
with an_cond (n : nat) (c : rcond) (K : kfact) (F : list fact) (it : list base) (s : st) {struct n} : cres :=
  match n with
  | O => mkC [QBad "fuel"] None [] []
  | S n' => cond_body (an_val n') (an_cond n') c K F it s
  end.

(** the keys a piece of code compares with *)
Fixpoint keys_code (n : nat) (code : list ri) : list string :=
  match n with
  | O => []
  | S n' =>
    flat_map (fun i => match i with
      | RIf c a b => match c with CKeyIs s => [s] | _ => [] end ++ keys_code n' a ++ keys_code n' b
      | RFor _ b | RFind _ b _ => keys_code n' b
      | _ => [] end) code
  end.

Definition fuel : nat := 300.
(** one function called on an object of class [c], for one assumption on the key; [w] is what its
    body does, [u s] what its result is *)
Definition fun_reqs (c : string) (r : option vx) (f : string) (w : list req * st) (u : vx -> st -> list req * (ty * option rf))
  : list req :=
  (if ssub (snd w) (SObj (Rf c [])) then [] else [QBad f]) ++
  match r with
  | None => fst w ++ (if String.eqb c "" then [QRes f (tbase [BNone])] else [])
  | Some r =>
      if is_dead (snd w) then fst w
      else fst w ++ fst (u r (forget (snd w))) ++
           (if String.eqb c "" then [QRes f (fst (snd (u r (forget (snd w)))))] else [])
  end.
Definition an_fun (c : string) (b : list ri) (r : option vx) (f : string) (K : kfact) : list req :=
  fun_reqs c r f (an_code fuel b K [] [BNone] (SObj (Rf c []))) (fun r s => an_val fuel r K [] [BNone] s).
Definition an_pair (c f : string) : list req :=
  match assoc f rfuns with
  | None => [QBad f]
  | Some (b, r) =>
      flat_map (fun k => an_fun c b r f (KIs k)) (keys_code 20 b) ++ an_fun c b r f (KNot (keys_code 20 b))
  end.
End Analysis.

(** ** Writer *)
Section WAnalysis.
Context (acc : string -> string -> option access) (isin : string -> string -> bool) (fty : string -> string -> ty)
        (W : list (string * ty)).   (* function, type of its object *)

Definition gstep_eqb (a b : gstep) : bool :=
  match a, b with GM x, GM y | GA x, GA y => String.eqb x y | _, _ => false end.
Fixpoint path_eqb (p q : list gstep) : bool :=
  match p, q with
  | [], [] => true
  | a :: p', b :: q' => gstep_eqb a b && path_eqb p' q'
  | _, _ => false
  end.
(** what is known of values reached from the current one *)
Definition wfacts := list (list gstep * ty).
Fixpoint wknown (F : wfacts) (p : list gstep) : option ty :=
  match F with [] => None | (q, t) :: r => if path_eqb p q then Some t else wknown r p end.
Fixpoint path_ty (F : wfacts) (pre : list gstep) (t : ty) (p : list gstep) : list req * ty :=
  let t' := match wknown F pre with Some u => u | None => t end in
  match p with
  | [] => ([], t')
  | g :: r => let a := get_ty acc fty t' g in
              let b := path_ty F (pre ++ [g]) (snd a) r in (fst a ++ fst b, snd b)
  end.

Record wcres := mkW { w_req : list req; w_true : wfacts; w_false : wfacts }.
(** a scalar test: per base, may it be true, may it be false *)
Definition test (p : list gstep) (a : list req * ty) (f : base -> bool * bool) (r : list req) : wcres :=
  mkW (fst a ++ r) [(p, mkTy (filter (fun b => fst (f b)) (ts (snd a))) (tl (snd a)))]
      [(p, mkTy (filter (fun b => snd (f b)) (ts (snd a))) (tl (snd a)))].
Definition no_list (t : ty) (s : string) : list req := match tl t with None => [] | Some _ => [QBad s] end.
Definition only (t : ty) (f : base -> list req) : list req := flat_map f (ts t).
Fixpoint w_cond (F : wfacts) (t : ty) (c : wcond) : wcres :=
  match c with
  | CSome p =>
      let a := path_ty F [] t p in
      mkW (fst a) [(p, mkTy (not_none (ts (snd a))) (tl (snd a)))]
                  [(p, mkTy (filter (base_eqb BNone) (ts (snd a))) None)]
  | CNonEmpty p =>
      let a := path_ty F [] t p in
      mkW (fst a ++ only (snd a) (fun b => match b with BNone => [QExc TypeError] | _ => [QBad "CNonEmpty"] end)) [] []
  | CInst p cs =>
      let a := path_ty F [] t p in
      test p a (fun b => match b with
                         | BObj k => (existsb (isin k) cs, negb (existsb (isin k) cs))
                         | BNone => (false, true)
                         | BRef => (existsb (isin "RefType") cs, negb (existsb (isin "RefType") cs))
                         | _ => (true, true) end)
        (no_list (snd a) "CInst" ++
         only (snd a) (fun b => match b with BObj _ | BNone | BRef | BLit | BNum => [] | _ => [QBad "CInst"] end))
  | CType p k =>
      let a := path_ty F [] t p in
      test p a (fun b => match b with BObj c => (String.eqb c k, negb (String.eqb c k)) | _ => (false, true) end)
        (no_list (snd a) "CType" ++
         only (snd a) (fun b => match b with BObj _ | BNone => [] | _ => [QBad "CType"] end))
  | CTruthy p =>
      let a := path_ty F [] t p in
      test p a (fun b => match b with BObj _ => (true, false) | _ => (false, true) end)
        (only (snd a) (fun b => match b with BObj _ | BNone => [] | _ => [QBad "CTruthy"] end))
  | CNot c => let r := w_cond F t c in mkW (w_req r) (w_false r) (w_true r)
  | CAnd a b => let r := w_cond F t a in
                let q := w_cond (w_true r ++ F) t b in
                if existsb (fun x => is_empty_ty (snd x)) (w_true r) then mkW (w_req r) (w_true r) []
                else mkW (w_req r ++ w_req q) (w_true q ++ w_true r) []
  end.

Definition leaf_fits (k : wkind) (b : base) : list req :=
  match k, b with
  | _, BNone | WNum, BNum | WText, (BNum | BBool | BLit) | WRef, BRef | WLimit, BLimit => []
  | _, (BNum | BBool | BLit | BRef | BLimit) => [QExc AttributeError]
  | _, _ => [QBad "WLeaf"]
  end.

Fixpoint w_code (n : nat) (code : list wi) (F : wfacts) (t : ty) {struct n} : list req :=
  match n with
  | O => [QBad "fuel"]
  | S n' =>
    match code with
    | [] => []
    | i :: rest =>
      match i with
      | WAttrs p => let a := path_ty F [] t p in
          fst a ++ no_list (snd a) "WAttrs" ++
          only (snd a) (fun b => match b with BObj _ => [] | BNone => [QExc AttributeError] | _ => [QBad "WAttrs"] end)
      | WShort p => let a := path_ty F [] t p in
          fst a ++ no_list (snd a) "WShort" ++ only (snd a) (fun b => match b with BStr | BNone => [] | _ => [QBad "WShort"] end)
      | WLeaf k _ p => let a := path_ty F [] t p in
          fst a ++ no_list (snd a) "WLeaf" ++ only (snd a) (leaf_fits k)
      | WCall f _ p => let a := path_ty F [] t p in fst a ++ [QRes f (snd a)]
      | WSub _ b => w_code n' b F t
      | WIf c x y =>
          let r := w_cond F t c in
          w_req r ++
          (if existsb (fun x => is_empty_ty (snd x)) (w_true r) then [] else w_code n' x (w_true r ++ F) t) ++
          (if existsb (fun x => is_empty_ty (snd x)) (w_false r) then [] else w_code n' y (w_false r ++ F) t)
      | WFor p b => let a := path_ty F [] t p in
          fst a ++
          only (snd a) (fun b => match b with BNone => [QExc TypeError] | _ => [QBad "WFor"] end) ++
          match tl (snd a) with None | Some [] => [] | Some bs => w_code n' b [] (tbase bs) end
      | WXAttr _ p => let a := path_ty F [] t p in
          fst a ++ no_list (snd a) "WXAttr" ++ only (snd a) (fun b => match b with BStr => [] | _ => [QBad "WXAttr"] end)
      | WXConst _ _ => []
      | WXMap _ _ p => let a := path_ty F [] t p in
          fst a ++ no_list (snd a) "WXMap" ++ QExcS NotImplementedError ::
          only (snd a) (fun b => match b with BStr => [] | _ => [QBad "WXMap"] end)
      | WSetText p => let a := path_ty F [] t p in
          fst a ++ no_list (snd a) "WSetText" ++ only (snd a) (fun b => match b with BStr | BNone => [] | _ => [QBad "WSetText"] end)
      | WFail e soft => [if soft then QExcS e else QExc e]
      | WUnknown => [QBad "WUnknown"]
      end ++ w_code n' rest F t
    end
  end.
Definition w_fun (f : string) : list req :=
  match assoc f wfuns with
  | None => [QBad f]
  | Some b => match assoc f W with
              | None => [QBad f]
              | Some t => if is_empty_ty t then [] else w_code fuel b [] t end
  end.
End WAnalysis.

(** ** Checking requirements *)
Definition dflt_ty (d : dflt) : ty :=
  match d with
  | DNone => tbase [BNone] | DList => tlist [] | DEmpty => tbase [BStr] | DNew c => tbase [BObj c] end.
