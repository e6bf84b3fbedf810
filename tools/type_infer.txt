Scripts of the type inference that produced rocq/theories/TypeTable.v (not part of the build;
the result is checked in TypeProps.v).  Each part is a Coq file, run in this order; the printed
tables of dump.v and w6.v are the input of gen_types.py.

==== Infer4.v
From Coq Require Import String List Bool.
From Verif Require Import PyBase Primitives Xml Leaf ClassTable Ir Access WriterCode ReaderCode IrSem SpecRoundTrip Trie TypeCheck.
Import ListNotations.
Open Scope string_scope.
Open Scope list_scope.
Record state := mkS { sgs : trie (trie ty); rss : trie ty; clt : trie (list string) }.
Fixpoint tl_of {A} (n : nat) (t : trie A) : list (string * A) :=
  match n with O => [] | S n' =>
  match t with Tr o l => (match o with Some a => [("", a)] | None => [] end) ++ flat_map (fun p => map (fun q => (String (fst p) (fst q), snd q)) (tl_of n' (snd p))) l end end.
Definition addty t (o : option ty) := match o with None => t | Some u => if tsub t u then u else tunion t u end.
Definition set_fty c f t (T : state) :=
  let u := match tfind c (sgs T) with Some u => u | None => t0 end in
  match tfind f u with
  | Some old => if tsub t old then T else mkS (tins c (tins f (tunion t old) u) (sgs T)) (rss T) (clt T)
  | None => mkS (tins c (tins f t u) (sgs T)) (rss T) (clt T)
  end.
Definition init1 (skip : string) c T :=
  fold_left (fun T p => if String.eqb (fst p) skip then T else set_fty c (fst p) (dflt_ty (snd p)) T) (attrs_of c) T.
Definition seen_init (k : string) (T : state) : bool := match tfind k (clt T) with Some _ => true | None => false end.
Definition mark (k : string) (T : state) : state := mkS (sgs T) (rss T) (tins k [] (clt T)).
Definition init_sub skip c T :=
  fold_left (fun T p => match snd p with DNew c' => if String.eqb (fst p) skip then T else init1 "" c' T | _ => T end) (attrs_of c) (init1 skip c T).
Definition do_init c skip T := let k := ("init:" ++ c ++ ":" ++ skip)%string in if seen_init k T then T else init_sub skip c (mark k T).
Definition step1 (T : state) (q : req) : state :=
  match q with
  | QField c f t => set_fty c f t T
  | QInit c named =>
      if named then do_init c "short_name" (set_fty c "short_name" (tbase [BStr; BNone]) T) else do_init c "" T
  | QInitBut c a => do_init c a T
  | QCall f c => match tfind c (clt T) with
                 | Some l => if existsb (String.eqb f) l then T else mkS (sgs T) (rss T) (tins c (f :: l) (clt T))
                 | None => mkS (sgs T) (rss T) (tins c [f] (clt T)) end
  | QRes f t => mkS (sgs T) (match tfind f (rss T) with Some u => if tsub t u then rss T else tins f (tunion t u) (rss T) | None => tins f t (rss T) end) (clt T)
  | _ => T
  end.
Definition ftyS (T : state) c f := match tfind c (sgs T) with Some u => match tfind f u with Some t => t | None => tempty end | None => tempty end.
Definition rtyS (T : state) f := match tfind f (rss T) with Some t => t | None => tempty end.
Definition is_init (c : string) := prefix "init:" c.
Definition pairs (T : state) := filter (fun p => negb (is_init (fst p))) (tl_of 300 (clt T)).
Section R.
Context (an : trie (list string)) (ac : trie (trie access)).
Definition an1 T c f := an_pair (acc_in an ac) (isin_in an) (ftyS T) (rtyS T) false [] c f.
Definition root T := fst (an_code (acc_in an ac) (isin_in an) (ftyS T) (rtyS T) false [] fuel load_code (KNot []) [] [BNone] (SObj (Rf "AUTOSAR" []))).
Definition all_reqs T := root T ++ flat_map (fun p => flat_map (fun f => an1 T (fst p) f) (snd p)) (pairs T).
Fixpoint iter (n : nat) (T : state) : state :=
  match n with O => T | S n' => iter n' (fold_left step1 (all_reqs T) T) end.
Definition sat (T : state) (q : req) : bool :=
  match q with
  | QField c f t => tsub t (ftyS T c f)
  | QItems c f => match ftyS T c f with mkTy [] (Some _) => true | _ => false end
  | QHas c f | QGot c f => match assoc f (attrs_of c) with Some _ => true | None => false end
  | QInit c named => seen_init ("init:" ++ c ++ ":" ++ (if named then "short_name" else "")) T
  | QInitBut c a => seen_init ("init:" ++ c ++ ":" ++ a) T
  | QCall f c => match tfind c (clt T) with Some l => existsb (String.eqb f) l | None => false end
  | QRes f t => tsub t (rtyS T f)
  | QExc e => false | QExcS NotImplementedError => true | QExcS ValueError => true | QExcS _ => false | QExcW e => false
  | QBad _ => false
  end.
Definition bad (T : state) := flat_map (fun p => flat_map (fun f => match filter (fun q => negb (sat T q)) (an1 T (fst p) f) with [] => [] | l => [(fst p, f, l)] end) (snd p)) (pairs T).
End R.
Definition T0 := step1 (mkS t0 t0 t0) (QInit "AUTOSAR" false).
Definition run n := (fun an ac => iter an ac n T0) anc_trie acc_trie.
Definition badr T := (fun an ac => bad an ac T) anc_trie acc_trie.
Definition count (T : state) := (List.length (tl_of 300 (sgs T)), List.length (tl_of 300 (rss T)), fold_left (fun a p => a + List.length (snd p)) (pairs T) 0).

==== Tab4.v
From Verif Require Import PyBase Trie TypeCheck.
Require Import Infer4.
Definition T1 := Eval vm_compute in run 36.

==== dump.v
From Verif Require Import PyBase Ir IrSem Trie TypeCheck.
From Coq Require Import List String Bool. Import ListNotations.
Open Scope string_scope.
Require Import Infer4 Tab4.
Set Printing Width 200. Set Printing Depth 1000000. Unset Printing Records.
Definition same (a b : ty) := tsub a b && tsub b a.
Definition ch (c : string) (u : trie ty) := let l := attrs_of c in
  filter (fun p : string * ty => match assoc (fst p) l with Some d => negb (same (snd p) (dflt_ty d)) | None => true end) (tl_of 300 u).
Eval vm_compute in map (fun p => (fst p, ch (fst p) (snd p))) (tl_of 300 (sgs T1)).
Eval vm_compute in tl_of 300 (rss T1).
Eval vm_compute in pairs T1.

==== Infer5.v
From Coq Require Import String List Bool.
From Verif Require Import PyBase Primitives Xml Leaf ClassTable Ir Access WriterCode ReaderCode IrSem SpecRoundTrip Trie TypeCheck.
Import ListNotations.
Open Scope string_scope.
Open Scope list_scope.
Record state := mkS { sgs : trie (trie ty); rss : trie ty; clt : trie (list string) }.
Fixpoint tl_of {A} (n : nat) (t : trie A) : list (string * A) :=
  match n with O => [] | S n' =>
  match t with Tr o l => (match o with Some a => [("", a)] | None => [] end) ++ flat_map (fun p => map (fun q => (String (fst p) (fst q), snd q)) (tl_of n' (snd p))) l end end.
Definition addty t (o : option ty) := match o with None => t | Some u => if tsub t u then u else tunion t u end.
Definition set_fty c f t (T : state) :=
  let u := match tfind c (sgs T) with Some u => u | None => t0 end in
  match tfind f u with
  | Some old => if tsub t old then T else mkS (tins c (tins f (tunion t old) u) (sgs T)) (rss T) (clt T)
  | None => mkS (tins c (tins f t u) (sgs T)) (rss T) (clt T)
  end.
Definition init1 (skip : string) c T :=
  fold_left (fun T p => if String.eqb (fst p) skip then T else set_fty c (fst p) (dflt_ty (snd p)) T) (attrs_of c) T.
Definition seen_init (k : string) (T : state) : bool := match tfind k (clt T) with Some _ => true | None => false end.
Definition mark (k : string) (T : state) : state := mkS (sgs T) (rss T) (tins k [] (clt T)).
Definition init_sub skip c T :=
  fold_left (fun T p => match snd p with DNew c' => if String.eqb (fst p) skip then T else init1 "" c' T | _ => T end) (attrs_of c) (init1 skip c T).
Definition do_init c skip T := let k := ("init:" ++ c ++ ":" ++ skip)%string in if seen_init k T then T else init_sub skip c (mark k T).
Definition step1 (T : state) (q : req) : state :=
  match q with
  | QField c f t => set_fty c f t T
  | QInit c named =>
      if named then do_init c "short_name" (set_fty c "short_name" (tbase [BStr]) T) else do_init c "" T
  | QInitBut c a => do_init c a T
  | QCall f c => match tfind c (clt T) with
                 | Some l => if existsb (String.eqb f) l then T else mkS (sgs T) (rss T) (tins c (f :: l) (clt T))
                 | None => mkS (sgs T) (rss T) (tins c [f] (clt T)) end
  | QRes f t => mkS (sgs T) (match tfind f (rss T) with Some u => if tsub t u then rss T else tins f (tunion t u) (rss T) | None => tins f t (rss T) end) (clt T)
  | _ => T
  end.
Definition ftyS (T : state) c f := match tfind c (sgs T) with Some u => match tfind f u with Some t => t | None => tempty end | None => tempty end.
Definition rtyS (T : state) f := match tfind f (rss T) with Some t => t | None => tempty end.
Definition is_init (c : string) := prefix "init:" c.
Definition pairs (T : state) := filter (fun p => negb (is_init (fst p))) (tl_of 300 (clt T)).
Definition absentL := ["MODE-SWITCH-POINT"; "SW-RECORD-LAYOUT"; "ECUC-INSTANCE-REFERENCE-VALUE"; "HW-ATTRIBUTE-LITERAL-DEF"; "BULK-NV-BLOCK"].
Section R.
Context (an : trie (list string)) (ac : trie (trie access)).
Definition an1 T c f := an_pair (acc_in an ac) (isin_in an) (ftyS T) (rtyS T) true absentL c f.
Definition root T := fst (an_code (acc_in an ac) (isin_in an) (ftyS T) (rtyS T) true absentL fuel load_code (KNot []) [] [BNone] (SObj (Rf "AUTOSAR" []))).
Definition all_reqs T := root T ++ flat_map (fun p => flat_map (fun f => an1 T (fst p) f) (snd p)) (pairs T).
Fixpoint iter (n : nat) (T : state) : state :=
  match n with O => T | S n' => iter n' (fold_left step1 (all_reqs T) T) end.
Definition sat (T : state) (q : req) : bool :=
  match q with
  | QField c f t => tsub t (ftyS T c f)
  | QItems c f => match ftyS T c f with mkTy [] (Some _) => true | _ => false end
  | QHas c f | QGot c f => match assoc f (attrs_of c) with Some _ => true | None => false end
  | QInit c named => seen_init ("init:" ++ c ++ ":" ++ (if named then "short_name" else "")) T
  | QInitBut c a => seen_init ("init:" ++ c ++ ":" ++ a) T
  | QCall f c => match tfind c (clt T) with Some l => existsb (String.eqb f) l | None => false end
  | QRes f t => tsub t (rtyS T f)
  | QExc e => false | QExcS NotImplementedError => true | QExcS ValueError => true | QExcS _ => false | QExcW e => false
  | QBad _ => false
  end.
Definition bad (T : state) := flat_map (fun p => flat_map (fun f => match filter (fun q => negb (sat T q)) (an1 T (fst p) f) with [] => [] | l => [(fst p, f, l)] end) (snd p)) (pairs T).
End R.
Definition T0 := step1 (mkS t0 t0 t0) (QInit "AUTOSAR" false).
Definition run n := (fun an ac => iter an ac n T0) anc_trie acc_trie.
Definition badr T := (fun an ac => bad an ac T) anc_trie acc_trie.
Definition count (T : state) := (List.length (tl_of 300 (sgs T)), List.length (tl_of 300 (rss T)), fold_left (fun a p => a + List.length (snd p)) (pairs T) 0).

==== Tab5.v
From Verif Require Import PyBase Trie TypeCheck.
Require Import Infer5.
Definition T1 := Eval vm_compute in run 36.

==== Infer6.v
From Coq Require Import String List Bool.
From Verif Require Import PyBase Primitives Xml Leaf ClassTable Ir Access WriterCode ReaderCode IrSem SpecRoundTrip Trie TypeCheck.
Require Import Infer5 Tab5.
Import ListNotations.
Open Scope string_scope.
Open Scope list_scope.
Definition wtyS (W : trie ty) f := match tfind f W with Some t => t | None => tempty end.
Section W.
Context (an : trie (list string)) (ac : trie (trie access)).
Context (fty : string -> string -> ty).
Definition wreq1 (f : string) (t : ty) : list req := match assoc f wfuns with Some b => w_code (acc_in an ac) (isin_in an) fty fuel b [] t | None => [QBad f] end.
Definition wroot := w_code (acc_in an ac) (isin_in an) fty fuel save_code [] (tbase [BObj "AUTOSAR"]).
(* worklist *)
Definition wmerge (a : trie ty * list string) (q : req) :=
  let '(W, l) := a in
  match q with
  | QRes f t => if is_empty_ty t then a else match tfind f W with
     | Some u => if tsub t u then a else (tins f (tunion t u) W, if existsb (String.eqb f) l then l else l ++ [f])
     | None => (tins f t W, if existsb (String.eqb f) l then l else l ++ [f]) end
  | _ => a end.
Fixpoint witer n (W : trie ty) (l : list string) : trie ty * list string :=
  match n with O => (W, l) | S n' => match l with [] => (W, []) | f :: r => let '(W', l') := fold_left wmerge (wreq1 f (wtyS W f)) (W, r) in witer n' W' l' end end.
Definition wrun0 := let '(W, l) := fold_left wmerge wroot (t0, []) in witer 8000 W l.
Definition wsat W q := match q with QRes f t => tsub t (wtyS W f) | QHas c f | QGot c f => match assoc f (attrs_of c) with Some _ => true | None => false end
 | QExc e => false | QExcS e => false | QExcW e => false | QBad _ => false | _ => true end.
Definition wbad W := flat_map (fun p => match filter (fun q => negb (wsat W q)) (wreq1 (fst p) (snd p)) with [] => [] | l => [(fst p, l)] end) (tl_of 300 W).
End W.
Definition wgo := (fun an ac T => wrun0 an ac (ftyS T)) anc_trie acc_trie T1.
Definition wgobad W := (fun an ac T => wbad an ac (ftyS T) W) anc_trie acc_trie T1.

==== w6.v
From Verif Require Import PyBase Trie TypeCheck.
From Coq Require Import List String. Import ListNotations.
Open Scope string_scope.
Require Import Infer5 Tab5 Infer6.
Set Printing Width 200. Set Printing Depth 1000000. Unset Printing Records.
Definition W1 := Eval vm_compute in wgo.
Eval vm_compute in (tl_of 300 (fst W1)).
