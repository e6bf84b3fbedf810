(** The statement language in which the methods of ARXMLWriter
    (/repo/src/armodel/writer/arxml_writer.py) and ARXMLParser
    (/repo/src/armodel/parser/arxml_parser.py) are transcribed by tools/gen_ir.py, and model
    objects as values.  The meaning of the code is in IrSem.v. *)
From Coq Require Import String List Bool.
From Verif Require Import PyBase Primitives Leaf.
Import ListNotations.
Open Scope string_scope.
Open Scope list_scope.

(** ** Values held by attributes of model objects.
    [VLeaf]: an object of one of the primitive types (GeneralTemplateClasses/PrimitiveTypes.py);
    [VObj]: any other model object, with its class and attributes.
    Simplification: the parent attribute of ARObject is not kept. *)
Inductive val : Type :=
| VNone
| VStr (s : string)
| VLeaf (l : lval)
| VObj (cls : string) (fields : list (string * val))
| VList (vs : list val).

(** initial value of an attribute in a constructor: None, [], "" or a new object *)
Inductive dflt := DNone | DList | DEmpty | DNew (cls : string).

(** where a creation method stores the new object: at the end of a list or in an attribute *)
Inductive place := PList (f : string) | PSlot (f : string).

(** accessor methods (table in Access.v):
    [AGet f]         return self.f
    [AGetSorted f]   return self.f sorted by short name
    [ASet f g]       self.f = value, skipped for None if [g]
    [AAdd f g]       self.f.append(value), skipped for None if [g]
    [ANew c n p]     store a new object of class c, with the name given as argument if [n] *)
Inductive access :=
| AGet (f : string) | AGetSorted (f : string)
| ASet (f : string) (guard : bool) | AAdd (f : string) (guard : bool)
| ANew (cls : string) (named : bool) (p : place).

(** tag arguments: a literal, the key parameter of the method, the tag of the current element *)
Inductive tagx := TLit (s : string) | TKey | TOwn.

(** obj.getX() and obj.x; a path is applied left to right to the current object *)
Inductive gstep := GM (m : string) | GA (a : string).

(** ** Writer: code run on a current object, adding to a current element *)
Inductive wcond :=
| CSome (p : list gstep)                       (* p is not None *)
| CNonEmpty (p : list gstep)                   (* len(p) > 0 *)
| CInst (p : list gstep) (cs : list string)    (* isinstance(p, (cs)) *)
| CType (p : list gstep) (c : string)          (* type(p) is c *)
| CTruthy (p : list gstep)                     (* p *)
| CNot (c : wcond) | CAnd (a b : wcond).

Inductive wi :=
| WAttrs (p : list gstep)                      (* self.writeARObjectAttributes(element, p) *)
| WShort (p : list gstep)                      (* self.setShortName(element, p) *)
| WLeaf (k : wkind) (t : tagx) (p : list gstep)  (* self.setChildElementOptional<kind>(element, t, p) *)
| WCall (f : string) (t : option tagx) (p : list gstep) (* self.f(element, t, p) *)
| WSub (t : tagx) (b : list wi)                (* child = ET.SubElement(element, t); b on child *)
| WIf (c : wcond) (a b : list wi)
| WFor (p : list gstep) (b : list wi)          (* for x in p: b with x as current object *)
| WXAttr (n : string) (p : list gstep)         (* element.attrib[n] = p *)
| WXConst (n s : string)                       (* element.attrib[n] = "s" *)
| WXMap (n : string) (m : list (string * string)) (p : list gstep)
                                               (* element.attrib[n] = m[p], notImplemented if absent *)
| WSetText (p : list gstep)                     (* element.text = p *)
| WFail (e : exn) (soft : bool)                (* raise e; [soft]: only logged in warning mode *)
| WUnknown.                                    (* not transcribed *)

(** ** Reader: code run on a current element, changing a current object *)
Inductive rpth := PLit (s : string) | PKey | PKeyThen (s : string).

Inductive rcond :=
| CTrue
| CTag (s : string)                            (* self.getTagName(element) == s *)
| CKeyIs (s : string)                          (* key == s *)
| CHasAttr (a : string)                        (* a in element.attrib *)
| CHasText                                     (* element.text is not None *)
| CHasWord                                     (* element.text.strip() != "" *)
| CAt (p : rpth) (c : rcond)                   (* self.find(element, p) is not None, and c there *)
| CGot (v : vx)                                (* v is not None *)
| CEmpty (v : vx)                              (* len(v) == 0 *)
| CIsA (c : string)                            (* isinstance(object, c) *)
| CObjHas (p : list gstep)                     (* object.p is not None *)
| CNeg (c : rcond) | CBoth (a b : rcond) | CEither (a b : rcond)
with vx :=
| VNoneX
| VLeafX (k : rkind) (p : rpth)                (* self.getChildElementOptional<kind>(element, p) *)
| VReqX (k : rkind) (p : rpth)                 (* self.getChildElement<kind>(name, element, p) *)
| VLeafsX (k : rkind) (p : rpth)               (* self.getChildElement<kind>List(element, p) *)
| VTextX                                       (* element.text *)
| VTextOrX                                     (* element.text or "" *)
| VAttrX (a : string)                          (* element.attrib.get(a) *)
| VUnmapX (a : string) (m : list (string * string))  (* the key of element.attrib[a] in m, or None *)
| VNameX                                       (* self.getShortName(element) *)
| VTagX                                        (* self.getTagName(element) *)
| VWrapX (c m : string) (v : vx)               (* c().m(v), c a primitive type *)
| VValueX (v : vx)                             (* v.getValue() *)
| VNewX (c : string) (named : bool) (b : list ri)  (* x = c() or c(parent, short name); b on x *)
| VListX (b : list ri)                         (* l = []; b, which appends to l *)
| VGetX (f : string) (t : option tagx)         (* self.f(element, t) *)
| VFindX (p : rpth) (a b : vx)                 (* a on self.find(element, p), b if there is none *)
| VLastX (p : rpth) (a : vx)                    (* x = None; for e in self.findall(element, p): x = a on e,
                                                  where a is VNoneX if e leaves x as it is *)
| VIfX (c : rcond) (a b : vx)
| VOrX (a b : vx)                              (* a or b *)
| VItemX                                       (* the loop variable of RForVal *)
| VFailX (e : exn)                             (* evaluation raises e *)
| VUnknown
with ri :=
| RAttrs                                       (* self.readARObjectAttributes(element, object) *)
| RPut (m : string) (v : vx)                   (* object.m(v) *)
| RPutAny (m : string) (gs : list string) (v : vx)
                                               (* x = v; if any len(x.g()) > 0: object.m(x) *)
| RSet (a : string) (v : vx)                   (* object.a = v *)
| RCall (f : string) (t : option tagx)         (* self.f(element, object, t) *)
| RCreate (m : string) (named : bool) (b : list ri) (* x = object.m(short name); b on x *)
| RFind (p : rpth) (a b : list ri)             (* a on self.find(element, p), b if there is none *)
| RFor (p : rpth) (b : list ri)                (* for e in self.findall(element, p): b on e *)
| RForVal (v : vx) (b : list ri)               (* for x in v: b *)
| RIf (c : rcond) (a b : list ri)
| RSub (g : gstep) (b : list ri)               (* b on object.g *)
| RFail (e : exn) (soft : bool)
| RUnknown.

(** arxml_writer.py:666-678 = arxml_parser.py:701-713 *)
Definition binding_time_xml_map : list (string * string) :=
  [("codeGenerationTime", "CODE-GENERATION-TIME"); ("linkTime", "LINK-TIME");
   ("preCompileTime", "PRE-COMPILE-TIME"); ("systemDesignTime", "SYSTEM-DESIGN-TIME")].
Definition interval_type_xml_map : list (string * string) :=
  [("closed", "CLOSED"); ("open", "OPEN")].
