(** The arxml-format command: load, optional removal of administrative data, save. *)
From Coq Require Import String List Bool Floats.SpecFloat.
From Verif Require Import PyBase Xml Ir ClassTable Access IrSem SpecRoundTrip SpecTolerant Serial SpecFile.
Import ListNotations.
Open Scope string_scope.
Open Scope list_scope.

(** transformer/admin_data.py:26-32: an element of a package; removeAdminData is
    GenericStructure/GeneralTemplateClasses/Identifiable.py:508-512 and 712-716 *)
Definition clear_element (v : val) : val :=
  match v with
  | VObj c _ => if isinst c "Describable" || isinst c "Identifiable" then set_field v "adminData" VNone else v
  | _ => v
  end.
(** transformer/admin_data.py:19-32 process_pkg on the attributes of a package (ARPackage.py:607-611
    removeAdminData).  The order in which packages are visited has no effect on the result. *)
Fixpoint clear_package (v : val) : val :=
  match v with
  | VObj c fs =>
      VObj c (map (fun p => match p with (f, w) =>
        (f, if String.eqb f "arPackages" then match w with VList l => VList (map clear_package l) | _ => w end
            else if String.eqb f "elements" then match w with VList l => VList (map clear_element l) | _ => w end
            else if String.eqb f "adminData" then VNone
            else w) end) fs)
  | _ => v
  end.
(** transformer/admin_data.py:34-37 remove (AutosarTopLevelStructure/__init__.py:131-132) *)
Definition clear_document (v : val) : val :=
  match v with
  | VObj c fs =>
      VObj c (map (fun p => match p with (f, w) =>
        (f, if String.eqb f "arPackages" then match w with VList l => VList (map clear_package l) | _ => w end
            else if String.eqb f "adminData" then VNone
            else w) end) fs)
  | _ => v
  end.
(** getARPackages sorts by name: TypeError if one of several packages has no name
    (ARPackage.py:705-713, AutosarTopLevelStructure/__init__.py:182-183) *)
Fixpoint packages_named (v : val) : bool :=
  match v with
  | VObj _ fs => forallb (fun p => match p with (f, w) =>
      if String.eqb f "arPackages" then match w with VList l => sortable l && forallb packages_named l | _ => true end else true end) fs
  | _ => true
  end.
(** Simplification: the removals made before the TypeError are forgotten; the command does not save
    the document then. *)
Definition remove_admin_data (v : val) : out val := if packages_named v then Done (clear_document v) else Exc TypeError.

(** cli/arxml_format_cli.py:73-75: -w, --remove-admin-data, --unescape-entities *)
Record options := mkOptions { o_warning : bool; o_remove : bool; o_unescape : bool }.
(** cli/arxml_format_cli.py:43-57 perform_format: the file with text [s] is read and [t] is written.
    The writer is given only the option unescape_entities (56), so it never runs in warning mode.
    [decl] as in Serial.v. *)
Definition arxml_format (repr : spec_float -> string) (decl : bool) (o : options) (s t : string) : Prop :=
  exists location u v x,
    loaded_text (o_warning o) s location u /\
    (if o_remove o then remove_admin_data u else Done u) = Done v /\
    saved repr false v x /\
    save_text decl (o_unescape o) (with_attrs (root_attrs location) x) = Some t.
(** 59-63: an exception raised while saving is logged, the output is not written *)
Definition arxml_format_save_fails (repr : spec_float -> string) (o : options) (s : string) (e : exn) : Prop :=
  exists location u v, loaded_text (o_warning o) s location u /\ (if o_remove o then remove_admin_data u else Done u) = Done v /\
    saving_raises repr false v e.
