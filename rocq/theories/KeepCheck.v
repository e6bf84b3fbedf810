(** The check behind C59: at every place where the reader makes an object, its code fills the attributes
    as the rows of SpecKeep.v say. *)
From Coq Require Import String Ascii List Bool Arith.
From Verif Require Import PyBase Primitives Xml Leaf ClassTable Ir Access ReaderCode IrSem Trie Term SpecRoundTrip SpecKeep Keep KeepEq.
Import ListNotations.
Open Scope string_scope.
Open Scope list_scope.

Definition step_eqb (a b : step) : bool :=
  match a, b with All p, All q => String.eqb p q | First p, First q => String.eqb p q | _, _ => false end.
Fixpoint steps_eqb (a b : list step) : bool :=
  match a, b with
  | [], [] => true
  | x :: a, y :: b => if step_eqb x y then steps_eqb a b else false
  | _, _ => false
  end.
Fixpoint kinds_eqb (d : disp) (ks : kinds) : bool :=
  match d, ks with
  | [], [] => true
  | (t, (c, _, _, _)) :: d, (t', c') :: ks => if String.eqb t t' then if String.eqb c c' then kinds_eqb d ks else false else false
  | _, _ => false
  end.
Definition key_eqb (a b : option string) : bool :=
  match a, b with Some s, Some t => String.eqb s t | None, None => true | _, _ => false end.
Definition row_trie (l : list row) : trie (list row) :=
  fold_right (fun r t => tins (r_class r) (r :: match tfind (r_class r) t with Some l => l | None => [] end) t) t0 l.
Definition rows_in (rs : trie (list row)) (cs : list string) : list row :=
  flat_map (fun a => match tfind a rs with Some l => l | None => [] end) cs.


(** a place where an object is made: its class, the key parameter, the code that fills it *)
Definition spot : Type := string * option string * list ri.
Definition spot_trie := trie (list (option string * list ri)).
Definition put_spot (s : spot) (t : spot_trie) : spot_trie :=
  match s with (c, k, b) => tins c ((k, b) :: match tfind c t with Some l => l | None => [] end) t end.
Definition spots_trie (l : list spot) : spot_trie := fold_right put_spot t0 l.
Definition same_spot (k : option string) (b : list ri) (q : option string * list ri) : bool :=
  match q with (k', b') => if match k' with None => true | Some _ => key_eqb k k' end then code_eqb b b' else false end.
Definition spot_in (t : spot_trie) (c : string) (k : option string) (b : list ri) : bool :=
  match tfind c t with Some l => existsb (same_spot k b) l | None => false end.

Section Check.
Context (rt : trie (list ri * option vx)) (at_ : trie (list string)) (ac : trie (trie access)) (rs : trie (list row)).

Definition start_ok (ats : list (string * dflt)) (f : string) (once : bool) : bool :=
  match assoc f ats with Some DNone => true | Some DList => negb once | _ => false end.
Definition spot_ok (ts : spot_trie) (c : string) (key : option string) (body : list ri) : bool :=
    let ats := attrs_of c in
    let acc := acc_in at_ ac c in
    if match assoc "short_name" ats with
       | None => true
       | Some _ => match eff (fun f => tfind f rt) acc "short_name" 200 key body with Some None => true | _ => false end
       end
    then if (if existsb (String.eqb c) bare then
         forallb (fun a => match eff (fun f => tfind f rt) acc a 200 key body with
           | Some None => if String.eqb a "short_name" then false else match assoc a ats with Some DNone => true | _ => false end
           | _ => false end) unread else true)
    then forallb (fun r =>
      if existsb (String.eqb c) (r_except r) then true
      else match eff (fun f => tfind f rt) acc (r_attr r) 200 key body with
      | Some (Some g) =>
          if String.eqb (r_attr r) "short_name" then false else
          if start_ok ats (r_attr r) (g_once g) then
          if steps_eqb (g_steps g) (r_path r) then
          if kinds_eqb (g_disp g) (r_kinds r) then
            forallb (fun te : string * entry => match snd te with (cl, nm, b, k) =>
              if (if nm then true else negb (has_name cl)) then spot_in ts cl k b else false end) (g_disp g)
          else false else false else false
      | _ => false
      end) (rows_in rs (anc_in at_ c))
    else false else false.
Definition spots_ok (ts : spot_trie) (l : list spot) : bool := forallb (fun s => match s with (c, k, b) => spot_ok ts c k b end) l.

(** the places reachable from the root *)
Definition below (s : spot) : list spot :=
  match s with (c, key, body) =>
    let acc := acc_in at_ ac c in
    flat_map (fun r => if existsb (String.eqb c) (r_except r) then [] else
      match eff (fun f => tfind f rt) acc (r_attr r) 200 key body with
      | Some (Some g) => map (fun te : string * entry => match snd te with (cl, _, b, k) => (cl, k, b) end) (g_disp g)
      | _ => []
      end) (rows_in rs (anc_in at_ c))
  end.
Fixpoint reach (n : nat) (todo : list spot) (seen : spot_trie) (l : list spot) : list spot :=
  match n, todo with
  | O, _ => []
  | _, [] => l
  | S n, (c, k, b) :: todo =>
      if spot_in seen c k b then reach n todo seen l
      else reach n (below (c, k, b) ++ todo) (put_spot (c, k, b) seen) ((c, k, b) :: l)
  end.
End Check.

Definition root_spot : spot := ("AUTOSAR", Some "", load_code).
Definition spots : list spot := Eval vm_compute in reach rfun_trie anc_trie acc_trie (row_trie kept_rows) (10 * 1000) [root_spot] t0 [].
Lemma all_spots_ok : spots_ok rfun_trie anc_trie acc_trie (row_trie kept_rows) (spots_trie spots) spots = true.
Proof. vm_cast_no_check (eq_refl true). Qed.
Lemma root_in : spot_in (spots_trie spots) "AUTOSAR" (Some "") load_code = true.
Proof. vm_cast_no_check (eq_refl true). Qed.
