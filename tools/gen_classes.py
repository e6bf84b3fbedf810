"""Generate rocq/theories/ClassTable.v: the class hierarchy of /repo/src/armodel/models."""
import ast
import os

src = "/repo/src/armodel"
rows, seen = [], {}
for d, ds, fs in sorted(os.walk(os.path.join(src, "models"))):
    for f in sorted(fs):
        if not f.endswith(".py"):
            continue
        p = os.path.join(d, f)
        rel = os.path.relpath(p, src)
        for c in ast.parse(open(p).read()).body:
            if isinstance(c, ast.ClassDef):
                if c.name in seen:
                    continue
                seen[c.name] = 1
                rows.append((rel, c.lineno, c.name, [ast.unparse(b) for b in c.bases]))
out = ["(** Generated by tools/gen_classes.py: every class of /repo/src/armodel/models with its",
       "    direct base classes (paths below are relative to /repo/src/armodel).  ABC and Enum bases",
       "    are dropped.  Two class names occur in two modules (EcucConfigurationVariantEnum,",
       "    InitialSdDelayConfig) with the same bases; the first occurrence is kept. *)",
       "From Coq Require Import String List Bool.", "Import ListNotations.", "Open Scope string_scope.", ""]
out.append("Definition class_bases : list (string * list string) := [")
lines, last = [], None
names = {r[2] for r in rows}
for i, (rel, ln, n, bs) in enumerate(rows):
    cm = ""
    if rel != last:
        cm = "  (* %s *)\n" % rel
        last = rel
    sep = ";" if i + 1 < len(rows) else ""
    lines.append('%s  ("%s", [%s])%s (* line %d *)' % (cm, n, "; ".join('"%s"' % b for b in bs if b in names), sep, ln))
out.append("\n".join(lines))
out.append("].")
out.append('''
Definition bases (c : string) : list string :=
  match find (fun p => String.eqb c (fst p)) class_bases with Some p => snd p | None => [] end.

(** The class itself and all its ancestors; depth 20 covers the whole hierarchy. *)
Fixpoint ancestors (depth : nat) (c : string) : list string :=
  c :: match depth with O => [] | S d => flat_map (ancestors d) (bases c) end.

(** isinstance(x, d) for an object x of class c *)
Definition isinst (c d : string) : bool := existsb (String.eqb d) (ancestors 20 c).

(** No ancestor chain is longer than the depth used. *)
Fixpoint depth_ok (depth : nat) (c : string) : bool :=
  match depth with
  | O => match bases c with [] => true | _ => false end
  | S d => forallb (depth_ok d) (bases c)
  end.
Example depth_enough : forallb (fun p => depth_ok 20 (fst p)) class_bases = true.
Proof. vm_compute. reflexivity. Qed.

Lemma isinst_refl : forall c, isinst c c = true.
Proof. intro c. unfold isinst. simpl. now rewrite String.eqb_refl. Qed.''')
open("/verif/rocq/theories/ClassTable.v", "w").write("\n".join(out) + "\n")
print(len(rows))
