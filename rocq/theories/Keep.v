(** Static analysis of the reader code for C59: what a piece of code adds to one attribute of the
    object it runs on; soundness for the interpreter of IrSem.v. *)
From Coq Require Import String Ascii List Bool Arith Lia.
From Verif Require Import PyBase Primitives Xml Leaf ClassTable Ir Access ReaderCode IrSem SpecKeep.
Import ListNotations.
Open Scope string_scope.
Open Scope list_scope.

(** class, whether it gets the short name, code that fills it, key parameter *)
Definition entry : Type := string * bool * list ri * option string.
Definition disp := list (string * entry).
(** [once]: the attribute is assigned, not added to *)
Record gain := mkGain { g_once : bool; g_steps : list step; g_disp : disp }.

Definition fits (a : option string) (s : string) : Prop := match a with Some t => s = t | None => True end.
Definition akey (key : option string) (t : option tagx) : option string :=
  match t with Some (TLit s) => Some s | Some TKey => key | Some TOwn => None | None => Some "" end.
Definition apath (key : option string) (p : rpth) : option string :=
  match p, key with
  | PLit s, _ => Some s
  | PKey, Some k => Some k
  | PKeyThen s, Some k => Some (k ++ s)%string
  | _, None => None
  end.

Section Eff.
Context (look : string -> option (list ri * option vx)) (acc : string -> option access) (f : string).

Definition gif (t : string) (a b : option (list step * disp)) : option (list step * disp) :=
  match a, b with
  | Some ([], da), Some ([], db) =>
      if String.eqb t "*" then None else match pick da t with Some e => Some ([], (t, e) :: db) | None => None end
  | _, _ => None
  end.

Fixpoint vgain (n : nat) (key : option string) (v : vx) : option (list step * disp) :=
  match n with
  | O => None
  | S n' =>
    match v with
    | VNoneX => Some ([], [])
    | VNewX c nm b => Some ([], [("*", (c, nm, b, key))])
    | VGetX g t => match look g with Some (_, Some r) => vgain n' (akey key t) r | _ => None end
    | VFindX p a VNoneX =>
        match apath key p, vgain n' key a with Some q, Some (st, d) => Some (First q :: st, d) | _, _ => None end
    | VIfX (CTag t) a b => gif t (vgain n' key a) (vgain n' key b)
    | _ => None
    end
  end.

Definition seq (a b : option (option gain)) : option (option gain) :=
  match a, b with Some None, _ => b | _, Some None => a | _, _ => None end.
Definition other (g : string) : option (option gain) := if String.eqb g f then None else Some None.
Definition total (st : list step) (d : disp) : bool :=
  match st, d with [], [(t, _)] => String.eqb t "*" | _, _ => false end.

(** None: unknown; Some None: [f] is not touched; Some (Some g): [f] gains the objects of [g] *)
Fixpoint eff (n : nat) (key : option string) (code : list ri) : option (option gain) :=
  match n with
  | O => None
  | S n' =>
    match code with
    | [] => Some None
    | i :: rest =>
      seq (match i with
           | RAttrs => seq (other "timestamp") (other "uuid")
           | RPut m v =>
               match acc m with
               | Some (ASet g _) => if String.eqb g f then
                   match vgain n' key v with Some (st, d) => Some (Some (mkGain true st d)) | None => None end else Some None
               | Some (AAdd g gd) => if String.eqb g f then
                   match vgain n' key v with
                   | Some (st, d) => if gd || total st d then Some (Some (mkGain false st d)) else None
                   | None => None end else Some None
               | _ => Some None
               end
           | RPutAny m _ _ => match acc m with Some (ASet g _) => other g | Some (AAdd g _) => other g | _ => Some None end
           | RSet g v => if String.eqb g f then
                   match vgain n' key v with Some (st, d) => Some (Some (mkGain true st d)) | None => None end else Some None
           | RCall g t => match look g with Some (b, _) => eff n' (akey key t) b | None => Some None end
           | RCreate m _ b =>
               match acc m with
               | Some (ANew c nm (PList g)) | Some (ANew c nm (PSlot g)) =>
                   if String.eqb g f then Some (Some (mkGain false [] [("*", (c, nm, b, key))])) else Some None
               | _ => Some None
               end
           | RFind p a b =>
               match eff n' key a, eff n' key b with
               | Some None, Some None => Some None
               | Some (Some g), Some None =>
                   match apath key p with Some q => Some (Some (mkGain (g_once g) (First q :: g_steps g) (g_disp g))) | None => None end
               | _, _ => None
               end
           | RFor p b =>
               match eff n' key b with
               | Some None => Some None
               | Some (Some g) =>
                   if g_once g then None else
                   match apath key p with Some q => Some (Some (mkGain false (All q :: g_steps g) (g_disp g))) | None => None end
               | None => None
               end
           | RForVal _ b => match eff n' key b with Some None => Some None | _ => None end
           | RIf c a b =>
               match c, key with
               | CKeyIs s, Some k => if String.eqb k s then eff n' key a else eff n' key b
               | CTag t, _ =>
                   match eff n' key a, eff n' key b with
                   | Some None, Some None => Some None
                   | Some (Some g), Some None =>
                       match gif t (Some (g_steps g, g_disp g)) (Some ([], [])) with
                       | Some (st, d) => Some (Some (mkGain (g_once g) st d)) | None => None end
                   | Some (Some g), Some (Some h) =>
                       match gif t (Some (g_steps g, g_disp g)) (Some (g_steps h, g_disp h)) with
                       | Some (st, d) => Some (Some (mkGain (g_once g || g_once h) st d)) | None => None end
                   | _, _ => None
                   end
               | _, _ => match eff n' key a, eff n' key b with Some None, Some None => Some None | _, _ => None end
               end
           | RSub (GA g) _ => other g
           | RSub (GM m) _ => match acc m with Some (AGet g) => other g | _ => Some None end
           | RFail _ _ => Some None
           | RUnknown => Some None
           end) (eff n' key rest)
    end
  end.
End Eff.
