(** Meaning of the code of Ir.v.  Every statement form is the Python statement given in Ir.v;
    [Stuck] stands for a situation the model does not describe (the theorems never rely on it),
    [NoFuel] for a run cut short (recursion depth [n]). *)
From Coq Require Import String Ascii List Bool Floats.SpecFloat.
From Verif Require Import PyBase Primitives Xml Leaf ClassTable Ir Access WriterCode ReaderCode.
Import ListNotations.
Open Scope string_scope.
Open Scope list_scope.

Inductive out (A : Type) : Type :=
| Done (a : A) | Exc (e : exn) | Stuck | NoFuel.
Arguments Done {A}. Arguments Exc {A}. Arguments Stuck {A}. Arguments NoFuel {A}.

Definition obind {A B} (o : out A) (f : A -> out B) : out B :=
  match o with Done a => f a | Exc e => Exc e | Stuck => Stuck | NoFuel => NoFuel end.
Notation "'do' x <- a ; b" := (obind a (fun x => b)) (at level 200, x name, right associativity).

Definition of_res {A} (r : res A) : out A := match r with Ok a => Done a | Raise e => Exc e end.

(** ** Objects *)

Fixpoint assoc {A} (k : string) (l : list (string * A)) : option A :=
  match l with
  | [] => None
  | (k', a) :: r => if String.eqb k k' then Some a else assoc k r
  end.

(** the accessor a class has or inherits (first class in the order of [ancestors]; for every
    method in use this is the class Python selects, see tools/gen_access.py) *)
Fixpoint first_access (cs : list string) (m : string) : option access :=
  match cs with
  | [] => None
  | c :: r => match assoc c access_table with
              | Some t => match assoc m t with Some a => Some a | None => first_access r m end
              | None => first_access r m
              end
  end.
Definition access_of (c m : string) : option access := first_access (ancestors 20 c) m.

(** fresh attributes: those of the class and of every ancestor, each once *)
Fixpoint merge_attrs (acc : list (string * dflt)) (l : list (string * dflt)) : list (string * dflt) :=
  match l with
  | [] => acc
  | (a, d) :: r => merge_attrs (match assoc a acc with Some _ => acc | None => acc ++ [(a, d)] end) r
  end.
Definition attrs_of (c : string) : list (string * dflt) :=
  fold_left (fun acc c' => match assoc c' attr_table with Some l => merge_attrs acc l | None => acc end)
            (ancestors 20 c) [].
(** [n]: nesting of DNew *)
Fixpoint init_val (n : nat) (d : dflt) : val :=
  match d with
  | DNone => VNone
  | DList => VList []
  | DEmpty => VStr ""
  | DNew c => match n with
              | O => VNone
              | S n' => VObj c (map (fun p => (fst p, init_val n' (snd p))) (attrs_of c))
              end
  end.
(** c() *)
Definition init (c : string) : val := init_val 2 (DNew c).

Definition field (v : val) (f : string) : option val :=
  match v with VObj _ fs => assoc f fs | _ => None end.
Fixpoint set_assoc (fs : list (string * val)) (f : string) (v : val) : list (string * val) :=
  match fs with
  | [] => [(f, v)]
  | (k, w) :: r => if String.eqb f k then (k, v) :: r else (k, w) :: set_assoc r f v
  end.
Definition set_field (o : val) (f : string) (v : val) : val :=
  match o with VObj c fs => VObj c (set_assoc fs f v) | _ => o end.

(** short name used as a sort key *)
Definition sort_key (v : val) : string :=
  match field v "short_name" with Some (VStr s) => s | _ => "" end.

(** sorted() compares the short names as soon as there are two objects; None cannot be compared
    (a SHORT-NAME element without text gives None) *)
Definition has_name (v : val) : bool := match field v "short_name" with Some (VStr _) => true | _ => false end.
Definition sortable (l : list val) : bool :=
  match l with _ :: _ :: _ => forallb has_name l | _ => true end.

(** one getter call or attribute access; for a literal the value property gives "" instead of
    None (PrimitiveTypes.py:271-276); RefType.getValue is PrimitiveTypes.py:1076-1083 *)
Definition get1 (v : val) (g : gstep) : out val :=
  match v with
  | VNone => Exc AttributeError
  | VObj c fs =>
      match g with
      | GA a => match assoc a fs with Some x => Done x | None => Exc AttributeError end
      | GM m =>
          match access_of c m with
          | Some (AGet f) => match assoc f fs with Some x => Done x | None => Exc AttributeError end
          | Some (AGetSorted f) =>
              match assoc f fs with
              | Some (VList l) => if sortable l then Done (VList (py_sorted sort_key l)) else Exc TypeError
              | Some _ => Stuck
              | None => Exc AttributeError
              end
          | _ => Stuck
          end
      end
  | VLeaf (LLit _ l) =>
      match g with
      | GM m => if String.eqb m "getValue" || String.eqb m "getText" then Done (VStr (lit_str l)) else Stuck
      | GA a => if String.eqb a "value" then Done (VStr (lit_str l)) else Stuck
      end
  | VLeaf (LRef r) =>
      match g with
      | GM m => if String.eqb m "getValue" then Done (match r_value r with Some s => VStr s | None => VNone end) else Stuck
      | GA _ => Stuck
      end
  | _ => Stuck
  end.
Fixpoint gets (v : val) (p : list gstep) : out val :=
  match p with
  | [] => Done v
  | g :: r => do x <- get1 v g; gets x r
  end.

(** object.m(v) for a setter or adder *)
Definition put1 (o : val) (m : string) (v : val) : out val :=
  match o with
  | VObj c fs =>
      match access_of c m with
      | Some (ASet f g) => Done (if g && match v with VNone => true | _ => false end then o
                                 else set_field o f v)
      | Some (AAdd f g) =>
          if g && match v with VNone => true | _ => false end then Done o
          else match assoc f fs with
               | Some (VList l) => Done (set_field o f (VList (l ++ [v])))
               | _ => Stuck
               end
      | _ => Stuck
      end
  | VList l => if String.eqb m "append" then Done (VList (l ++ [v])) else Stuck
  | _ => Stuck
  end.

(** the objects directly below an object, and their short names *)
Definition items_of (v : val) : list val :=
  match v with VList l => l | VObj _ _ => [v] | _ => [] end.
Definition children (o : val) : list val :=
  match o with VObj _ fs => flat_map (fun p => items_of (snd p)) fs | _ => [] end.
Definition name_is (n : string) (v : val) : bool :=
  match field v "short_name" with Some (VStr s) => String.eqb s n | _ => false end.

(** store a created object.  The creation methods differ when the name or the attribute is already
    in use (Creators.v); that case is not described further here, the run ends with NameInUse. *)
Definition store (o : val) (p : place) (x : val) : out val :=
  match o with
  | VObj c fs =>
      if match field x "short_name" with Some (VStr n) => existsb (name_is n) (children o) | _ => false end
      then Exc NameInUse
      else match p with
           | PList f => match assoc f fs with
                        | Some (VList l) => Done (set_field o f (VList (l ++ [x])))
                        | _ => Stuck end
           | PSlot f => match assoc f fs with
                        | Some VNone => Done (set_field o f x)
                        | Some _ => Exc NameInUse
                        | None => Stuck end
           end
  | _ => Stuck
  end.

Definition named_init (c : string) (n : val) : val := set_field (init c) "short_name" n.
Definition of_opt_str (o : option string) : val := match o with Some s => VStr s | None => VNone end.

(** c().setValue(v) for primitive types (a literal takes str() of what is not a str,
    PrimitiveTypes.py:278-283); RefType().setDest(v) *)
Definition wrap (c m : string) (v : val) : out val :=
  if isinst c "ARLiteral" && String.eqb m "setValue" then
    match v with
    | VStr s => Done (VLeaf (LLit c (mkLit None None (Some s))))
    | VNone => Done (VLeaf (LLit c lit_new))
    | VLeaf (LLit _ l) => Done (VLeaf (LLit c (mkLit None None (Some (lit_str l)))))
    | _ => Stuck
    end
  else if String.eqb c "Numerical" && String.eqb m "setValue" then
    match v with
    | VStr s => match num_set num_new (PStr s) with
                | (n, None) => Done (VLeaf (LNum c n))
                | (_, Some e) => Exc e
                end
    | _ => Stuck
    end
  else if String.eqb c "RefType" && String.eqb m "setDest" then
    match v with
    | VStr s => Done (VLeaf (LRef (mkRef None (Some s) None)))
    | VNone => Done (VLeaf (LRef (mkRef None None None)))
    | _ => Stuck
    end
  else Stuck.

(** ** Writer *)

Definition wtag (key : string) (t : tagx) : string :=
  match t with TLit s => s | TKey => key | TOwn => "" end.

(** the element being filled: attributes, text, children *)
Record elem := mkElem { e_attrs : list (string * string); e_text : option string; e_kids : list xml }.
Definition elem0 : elem := mkElem [] None [].
Definition add_kid (e : elem) (x : xml) : elem := mkElem (e_attrs e) (e_text e) (e_kids e ++ [x]).
Definition add_attr (e : elem) (k v : string) : elem := mkElem (dset (e_attrs e) k v) (e_text e) (e_kids e).
Definition set_text (e : elem) (t : option string) : elem := mkElem (e_attrs e) t (e_kids e).
Definition to_xml (tag : string) (e : elem) : xml := El tag (e_attrs e) (e_text e) (e_kids e).

Definition as_leaf (v : val) : out (option lval) :=
  match v with VNone => Done None | VLeaf l => Done (Some l) | _ => Stuck end.
Definition is_none (v : val) : bool := match v with VNone => true | _ => false end.

Fixpoint wcheck (v : val) (c : wcond) : out bool :=
  match c with
  | CSome p => do x <- gets v p; Done (negb (is_none x))
  | CNonEmpty p => do x <- gets v p;
      match x with VList l => Done (match l with [] => false | _ => true end) | VNone => Exc TypeError | _ => Stuck end
  | CInst p cs => do x <- gets v p;
      match x with
      | VObj k _ => Done (existsb (isinst k) cs)
      | VNone => Done false
      | VLeaf (LLit k _) | VLeaf (LNum k _) => Done (existsb (isinst k) cs)
      | VLeaf (LRef _) => Done (existsb (isinst "RefType") cs)
      | _ => Stuck end
  | CType p c => do x <- gets v p;
      match x with VObj k _ => Done (String.eqb k c) | VNone => Done false | _ => Stuck end
  | CTruthy p => do x <- gets v p;
      match x with
      | VNone => Done false
      | VList l => Done (match l with [] => false | _ => true end)
      | VObj _ _ => Done true
      | _ => Stuck end
  | CNot c => do b <- wcheck v c; Done (negb b)
  | CAnd a b => do x <- wcheck v a; if x then wcheck v b else Done false
  end.

(** arguments of writeARObjectAttributes: abstract_arxml_writer.py:70-76 *)
Definition opt_str (v : option val) : option string :=
  match v with Some (VStr s) => Some s | _ => None end.
Definition write_attrs (e : elem) (v : val) : out elem :=
  match v with
  | VObj _ _ =>
      let e1 := match opt_str (field v "timestamp") with Some t => add_attr e "T" t | None => e end in
      Done (match opt_str (field v "uuid") with Some u => add_attr e1 "UUID" u | None => e1 end)
  | VNone => Exc AttributeError
  | _ => Stuck
  end.

Fixpoint fold_out {A S} (f : A -> S -> out S) (l : list A) (s : S) : out S :=
  match l with [] => Done s | a :: r => do s' <- f a s; fold_out f r s' end.

Section Run.
Context (repr : spec_float -> string) (warn : bool).

Fixpoint wrun (n : nat) (code : list wi) (key : string) (v : val) (e : elem) {struct n} : out elem :=
  match n with
  | O => NoFuel
  | S n' =>
    match code with
    | [] => Done e
    | i :: rest =>
      do e' <-
        match i with
        | WAttrs p => do x <- gets v p; write_attrs e x
        | WShort p => do x <- gets v p;
            match x with
            | VStr s => Done (add_kid e (El "SHORT-NAME" [] (Some s) []))
            | VNone => Done (add_kid e (El "SHORT-NAME" [] None []))
            | _ => Stuck end
        | WLeaf k t p => do x <- gets v p; do l <- as_leaf x;
            do xs <- of_res (leaf_write repr k (wtag key t) l); Done (fold_left add_kid xs e)
        | WCall f t p => do x <- gets v p;
            match assoc f wfuns with
            | Some body => wrun n' body (match t with Some t => wtag key t | None => "" end) x e
            | None => Stuck
            end
        | WSub t b => do s <- wrun n' b key v elem0; Done (add_kid e (to_xml (wtag key t) s))
        | WIf c a b => do x <- wcheck v c; wrun n' (if x then a else b) key v e
        | WFor p b => do x <- gets v p;
            match x with
            | VList l => fold_out (fun y s => wrun n' b key y s) l e
            | VNone => Exc TypeError
            | _ => Stuck end
        | WXAttr a p => do x <- gets v p;
            match x with VStr s => Done (add_attr e a s) | _ => Stuck end
        | WXConst a s => Done (add_attr e a s)
        | WXMap a m p => do x <- gets v p;
            match x with
            | VStr s => match assoc s m with
                        | Some t => Done (add_attr e a t)
                        | None => if warn then Done e else Exc NotImplementedError
                        end
            | _ => Stuck end
        | WSetText p => do x <- gets v p;
            match x with
            | VStr s => Done (set_text e (Some s))
            | VNone => Done (set_text e None)
            | _ => Stuck end
        | WFail x soft => if soft && warn then Done e else Exc x
        | WUnknown => Stuck
        end;
      wrun n' rest key v e'
    end
  end.

(** ** Reader *)

Definition rkey (key : string) (p : rpth) : string :=
  match p with PLit s => s | PKey => key | PKeyThen s => (key ++ s)%string end.
Definition rtag (key : string) (x : xml) (t : option tagx) : string :=
  match t with Some (TLit s) => s | Some TKey => key | Some TOwn => xtag x | None => "" end.

(** abstract_arxml_parser.py:314-319 readARObjectAttributes: T and UUID *)
Definition read_attrs (o : val) (x : xml) : out val :=
  match o with
  | VObj _ _ =>
      Done (set_field (set_field o "timestamp" (of_opt_str (xattr "T" x))) "uuid" (of_opt_str (xattr "UUID" x)))
  | _ => Stuck
  end.

Definition of_leaf (l : option lval) : val := match l with Some l => VLeaf l | None => VNone end.
Definition has_word (s : string) : bool := negb (is_empty (strip s)).
Definition key_of (m : list (string * string)) (t : string) : option string :=
  match List.find (fun p => String.eqb (snd p) t) m with Some p => Some (fst p) | None => None end.

Fixpoint rrun (n : nat) (code : list ri) (key : string) (x : xml) (it : val) (o : val) {struct n} : out val :=
  match n with
  | O => NoFuel
  | S n' =>
    match code with
    | [] => Done o
    | i :: rest =>
      do o' <-
        match i with
        | RAttrs => read_attrs o x
        | RPut m v => do w <- vrun n' v key x it o; put1 o m w
        | RPutAny m gs v => do w <- vrun n' v key x it o;
            do b <- fold_out (fun g s => do l <- get1 w (GM g);
                                match l with VList [] => Done s | VList _ => Done true | _ => Stuck end) gs false;
            if b then put1 o m w else Done o
        | RSet a v => do w <- vrun n' v key x it o;
            match o with VObj _ _ => Done (set_field o a w) | _ => Stuck end
        | RCall f t =>
            match assoc f rfuns with
            | Some (b, r) =>
                do o1 <- rrun n' b (rtag key x t) x VNone o;
                match r with
                | Some r => do _w <- vrun n' r (rtag key x t) x VNone o1; Done o1
                | None => Done o1
                end
            | None => Stuck
            end
        | RCreate m named b =>
            match o with
            | VObj c _ =>
                match access_of c m with
                | Some (ANew c' named' p) =>
                    if negb (Bool.eqb named named') then Stuck else
                    do nm <- (if named then do s <- of_res (short_name x); Done (of_opt_str s) else Done VNone);
                    do w <- rrun n' b key x it (if named then named_init c' nm else init c');
                    store o p w
                | _ => Stuck
                end
            | _ => Stuck
            end
        | RFind p a b =>
            match find (rkey key p) x with
            | Some y => rrun n' a key y it o
            | None => rrun n' b key x it o
            end
        | RFor p b => fold_out (fun y s => rrun n' b key y it s) (findall (rkey key p) x) o
        | RForVal v b => do w <- vrun n' v key x it o;
            match w with
            | VList l => fold_out (fun y s => rrun n' b key x y s) l o
            | VNone => Exc TypeError
            | _ => Stuck end
        | RIf c a b => do t <- crun n' c key x it o; rrun n' (if t then a else b) key x it o
        | RSub g b =>
            match o, g with
            | VObj c fs, GA f =>
                match assoc f fs with
                | Some w => do w' <- rrun n' b key x it w; Done (set_field o f w')
                | None => Exc AttributeError end
            | VObj c fs, GM m =>
                match access_of c m with
                | Some (AGet f) =>
                    match assoc f fs with
                    | Some w => do w' <- rrun n' b key x it w; Done (set_field o f w')
                    | None => Exc AttributeError end
                | _ => Stuck end
            | _, _ => Stuck
            end
        | RFail e soft => if soft && warn then Done o else Exc e
        | RUnknown => Stuck
        end;
      rrun n' rest key x it o'
    end
  end
with vrun (n : nat) (v : vx) (key : string) (x : xml) (it : val) (o : val) {struct n} : out val :=
  match n with
  | O => NoFuel
  | S n' =>
    match v with
    | VNoneX => Done VNone
    | VLeafX k p => do l <- of_res (leaf_read k (rkey key p) x); Done (of_leaf l)
    | VReqX k p =>
        match k with
        | RLiteral => do l <- of_res (literal_required warn (rkey key p) x);
                      Done (of_leaf (option_map (LLit "ARLiteral") l))
        | RRef => do l <- of_res (ref_required warn (rkey key p) x); Done (of_leaf (option_map LRef l))
        | _ => Stuck
        end
    | VLeafsX k p => do l <- of_res (leaf_list k (rkey key p) x); Done (VList (map VLeaf l))
    | VTextX => Done (of_opt_str (xtext x))
    | VTextOrX => Done (VStr (text_or_empty (xtext x)))
    | VAttrX a => Done (of_opt_str (xattr a x))
    | VUnmapX a m => match xattr a x with Some s => Done (of_opt_str (key_of m s)) | None => Exc KeyError end
    | VNameX => do s <- of_res (short_name x); Done (of_opt_str s)
    | VTagX => Done (VStr (xtag x))
    | VWrapX c m a => do w <- vrun n' a key x it o; wrap c m w
    | VValueX a => do w <- vrun n' a key x it o; get1 w (GM "getValue")
    | VNewX c named b =>
        do nm <- (if named then do s <- of_res (short_name x); Done (of_opt_str s) else Done VNone);
        rrun n' b key x it (if named then named_init c nm else init c)
    | VListX b => rrun n' b key x it (VList [])
    | VGetX f t =>
        match assoc f rfuns with
        | Some (b, r) =>
            do o1 <- rrun n' b (rtag key x t) x VNone (VObj "" []);
            match r with Some r => vrun n' r (rtag key x t) x VNone o1 | None => Done VNone end
        | None => Stuck
        end
    | VFindX p a b =>
        match find (rkey key p) x with
        | Some y => vrun n' a key y it o
        | None => vrun n' b key x it o
        end
    | VLastX p a =>
        fold_out (fun y s => do w <- vrun n' a key y it o;
                             Done (match w with VNone => s | _ => w end)) (findall (rkey key p) x) VNone
    | VIfX c a b => do t <- crun n' c key x it o; vrun n' (if t then a else b) key x it o
    | VOrX a b => do w <- vrun n' a key x it o;
        match w with
        | VNone => vrun n' b key x it o
        | VLeaf (LRef _) | VObj _ _ => Done w
        | _ => Stuck
        end
    | VItemX => Done it
    | VFailX e => Exc e
    | VUnknown => Stuck
    end
  end
with crun (n : nat) (c : rcond) (key : string) (x : xml) (it : val) (o : val) {struct n} : out bool :=
  match n with
  | O => NoFuel
  | S n' =>
    match c with
    | CTrue => Done true
    | CTag s => Done (String.eqb (xtag x) s)
    | CKeyIs s => Done (String.eqb key s)
    | CHasAttr a => Done (match xattr a x with Some _ => true | None => false end)
    | CHasText => Done (match xtext x with Some _ => true | None => false end)
    | CHasWord => match xtext x with Some s => Done (has_word s) | None => Exc AttributeError end
    | CAt p a => match find (rkey key p) x with Some y => crun n' a key y it o | None => Done false end
    | CGot v => do w <- vrun n' v key x it o; Done (negb (is_none w))
    | CEmpty v => do w <- vrun n' v key x it o;
        match w with VList l => Done (match l with [] => true | _ => false end) | _ => Stuck end
    | CIsA c => match o with VObj k _ => Done (isinst k c) | _ => Stuck end
    | CObjHas p => do w <- gets o p; Done (negb (is_none w))
    | CNeg a => do t <- crun n' a key x it o; Done (negb t)
    | CBoth a b => do t <- crun n' a key x it o; if t then crun n' b key x it o else Done false
    | CEither a b => do t <- crun n' a key x it o; if t then Done true else crun n' b key x it o
    end
  end.
End Run.
