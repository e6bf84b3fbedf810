(** Vocabulary of the setter theorems. *)
From Coq Require Import String List.
From Verif Require Import PyBase SetterTable Setters.
Import ListNotations.

(** the method does its work only if its argument is not None
    (one method has statements after its `return self`, which are never reached) *)
Definition none_guarded (b : list mstmt) : Prop :=
  exists work rest, b = MIfSome work :: rest /\ (rest = [] \/ exists dead, rest = MReturnSelf :: dead).

(** the call ended normally and left the object in state [o'] *)
Definition left_as {V} (x : @mout V) (o' : @attrs V) : Prop := x = Fall o' \/ x = Ret o' RetSelf.

(** the method first stores its argument, whatever it is *)
Definition stores (b : list mstmt) : Prop :=
  exists f rest, b = MAssign f :: rest.
(** setters which do neither; their bodies are not described:
    AbstractAUTOSAR.setARRelease (looks the release up in a dictionary), setCategory of Identifiable
    and ARPackage (wrap a str), System.setJ1939SharedAddressClusters (appends to a list) *)
Definition other_setters : list string := ["ARRelease"; "Category"; "J1939SharedAddressClusters"]%string.
