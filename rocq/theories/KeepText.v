(** Static analysis of the reader code for the texts of C60: from where one attribute of the object
    takes its value. *)
From Coq Require Import String Ascii List Bool Arith Lia.
From Verif Require Import PyBase Primitives Xml Leaf ClassTable Ir Access ReaderCode IrSem SpecKeep Keep SpecText.
Import ListNotations.
Open Scope string_scope.
Open Scope list_scope.

Section Text.
Context (look : string -> option (list ri * option vx)) (acc : string -> option access) (f : string).

Definition vtext (key : option string) (v : vx) : option source :=
  match v with
  | VLeafX k p => match apath key p with Some q => Some (SText k q) | None => None end
  | VReqX RRef p => match apath key p with Some q => Some (SText RRef q) | None => None end
  | VAttrX a => Some (SAttr a)
  | _ => None
  end.
Definition tseq (a b : option (option (list string * source))) : option (option (list string * source)) :=
  match a, b with Some None, _ => b | _, Some None => a | _, _ => None end.
Definition tput (key : option string) (m : string) (v : vx) : option (option (list string * source)) :=
  match acc m with
  | Some (ASet g _) =>
      if String.eqb g f then match vtext key v with Some s => Some (Some ([], s)) | None => None end else Some None
  | Some (AAdd g _) => if String.eqb g f then None else Some None
  | _ => Some None
  end.
Definition tloop (key : option string) (v : vx) (b : list ri) : option (list string * source) :=
  match v, b with
  | VLeafsX k p, [RPut m VItemX] =>
      match acc m with
      | Some (AAdd g _) => if String.eqb g f then match apath key p with Some q => Some ([], STexts k q) | None => None end else None
      | _ => None
      end
  | _, _ => None
  end.

(** None: unknown; Some None: [f] is not touched; Some (Some (ps, s)): [f] gets what is at [ps], [s] *)
Fixpoint text (n : nat) (key : option string) (code : list ri) : option (option (list string * source)) :=
  match n with
  | O => None
  | S n' =>
    match code with
    | [] => Some None
    | i :: rest =>
      tseq (match i with
            | RAttrs => if String.eqb f "timestamp" then Some (Some ([], SAttr "T")) else if String.eqb f "uuid" then Some (Some ([], SAttr "UUID")) else Some None
            | RPut m v => tput key m v
            | RCall g t => match look g with Some (b, _) => text n' (akey key t) b | None => Some None end
            | RFind p a b =>
                match text n' key a, eff look acc f n' key b with
                | Some None, Some None => Some None
                | Some (Some (st, s)), Some None => match apath key p with Some q => Some (Some (q :: st, s)) | None => None end
                | _, _ => None
                end
            | RForVal v b =>
                match tloop key v b with
                | Some q => Some (Some q)
                | None => match eff look acc f n key [i] with Some None => Some None | _ => None end
                end
            | _ => match eff look acc f n key [i] with Some None => Some None | _ => None end
            end) (text n' key rest)
    end
  end.
End Text.
