(** What C34 says: documents with elements the reader does not know. *)
From Coq Require Import String List Bool Floats.SpecFloat.
From Verif Require Import PyBase Xml Leaf Ir Access IrSem SpecRoundTrip.
Import ListNotations.
Open Scope string_scope.
Open Scope list_scope.

(** tags the reader knows inside ELEMENTS *)
Definition known (x : xml) : bool := existsb (fun p => String.eqb (fst p) (xtag x)) readable_elements.
Definition is_package (x : xml) : bool := String.eqb (xtag x) "AR-PACKAGE".

(** the same root or package without unknown elements in ELEMENTS and without anything but
    packages in AR-PACKAGES, at every depth *)
Fixpoint clean (x : xml) : xml :=
  match x with
  | El t a s kids =>
      El t a s (map (fun k =>
        match k with
        | El t' a' s' kids' =>
            if String.eqb t' "ELEMENTS" then El t' a' s' (filter known kids')
            else if String.eqb t' "AR-PACKAGES"
                 then El t' a' s' (flat_map (fun y => if is_package y then [clean y] else []) kids')
                 else k
        end) kids)
  end.

(** [unknown_in x]: the root or package [x] has an unknown element, at some depth *)
Inductive unknown_in : xml -> Prop :=
| unknown_element : forall x y, In y (findall "ELEMENTS/*" x) -> known y = false -> unknown_in x
| unknown_package : forall x y, In y (findall "AR-PACKAGES/*" x) -> is_package y = false -> unknown_in x
| unknown_below : forall x y, In y (findall "AR-PACKAGES/*" x) -> is_package y = true -> unknown_in y -> unknown_in x.

(** an unknown element below the packages of the root; ELEMENTS of the root itself is not read *)
Inductive unknown_in_root (x : xml) : Prop :=
| root_package : forall y, In y (findall "AR-PACKAGES/*" x) -> is_package y = false -> unknown_in_root x
| root_below : forall y, In y (findall "AR-PACKAGES/*" x) -> is_package y = true -> unknown_in y -> unknown_in_root x.

(** [load] of root element [x] into a new document raises [e] *)
Definition load_raises (warn : bool) (x : xml) (e : exn) : Prop :=
  exists n, rrun warn n load_code "" x VNone (init "AUTOSAR") = Exc e.

(** [save] of document [u] raises [e] *)
Definition saving_raises (repr : spec_float -> string) (warn : bool) (u : val) (e : exn) : Prop :=
  exists n, wrun repr warn n save_code "" u elem0 = Exc e.

(** a document with unknown elements in two packages, one below the other, and a stray element
    among the packages *)
Definition strange (kids : list xml) : xml :=
  tagged "AUTOSAR" [tagged "AR-PACKAGES" (kids ++ [named_xml "AR-PACKAGE" "P" [
    tagged "ELEMENTS" (kids ++ [named_xml "SW-BASE-TYPE" "t" []] ++ kids);
    tagged "AR-PACKAGES" [named_xml "AR-PACKAGE" "Q" [tagged "ELEMENTS" (named_xml "SW-BASE-TYPE" "u" [] :: kids)]]]])].
Definition stray : xml := named_xml "STATE-MACHINE" "m" [tagged "ELEMENTS" [text_of "SHORT-NAME" "x"]].
