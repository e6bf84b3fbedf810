(** The entries (object codes) reached from the document. *)
From Coq Require Import String Ascii List Bool Arith.
From Verif Require Import PyBase Leaf Ir WriterCode ReaderCode IrSem Domain IrCheck IrEq.
Import ListNotations.
Open Scope string_scope.
Open Scope list_scope.

Definition entry_eqb (a b : entry) : bool :=
  String.eqb (en_cls a) (en_cls b) &&& String.eqb (en_tag a) (en_tag b) &&& Bool.eqb (en_named a) (en_named b)
  &&& String.eqb (en_wk a) (en_wk b) &&& String.eqb (en_rk a) (en_rk b)
  &&& list_eqb (wi_eqb 1000) (en_wb a) (en_wb b) &&& list_eqb (ri_eqb 1000) (en_rb a) (en_rb b).

(** the file level: arxml_writer.py:9620-9633 save, arxml_parser.py load *)
Definition root_entry : entry :=
  mkEnt "AUTOSAR" false "AUTOSAR"
    [WCall "setAdminData" None [GM "getAdminData"]; WCall "writeARPackages" None [GM "getARPackages"]] ""
    [RPut "setAdminData" (VGetX "getAdminData" (Some (TLit "ADMIN-DATA"))); RCall "readARPackages" None] "".

Fixpoint closure (n : nat) (todo seen : list entry) (bad : list entry) : list entry * list entry :=
  match n with
  | O => (seen, bad)
  | S n =>
    match todo with
    | [] => (seen, bad)
    | e :: r =>
        if existsb (entry_eqb e) seen then closure n r seen bad
        else match check_entry e with
             | Some l => closure n (l ++ r) (e :: seen) bad
             | None => closure n r (e :: seen) (e :: bad)
             end
    end
  end.
