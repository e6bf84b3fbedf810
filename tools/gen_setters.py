#!/usr/bin/env python3
"""Generate rocq/theories/SetterTable.v: the set*/get*/is* methods of the model classes."""
import ast, os, re, sys
sys.dont_write_bytecode = True
sys.path.insert(0, os.path.dirname(os.path.abspath(__file__)))
import ir_access
U = ast.unparse
cl = ir_access.load_classes()
props = {}
for c in cl.values():
    props[c.name] = {m.name for m in c.node.body if isinstance(m, ast.FunctionDef) and any('property' in U(d) or 'setter' in U(d) for d in m.decorator_list)}
desc = {c: set() for c in cl}
for c in cl:
    for d in ir_access.mro(cl, c):
        desc[d].add(c)
def isprop(c, a):
    # the attribute is a property in the class, an ancestor or a descendant of it
    return any(a in props[d] for d in cl if d in ir_access.mro(cl, c) or d in desc[c])
def stmt(s, arg, c):
    if isinstance(s, ast.Return):
        if s.value is not None and U(s.value) == 'self': return 'MReturnSelf'
        a = ir_access.selfattr(s.value) if s.value is not None else None
        if a and not isprop(c, a): return 'MReturnAttr "%s"' % a
    if arg and isinstance(s, ast.Assign) and len(s.targets) == 1:
        a = ir_access.selfattr(s.targets[0])
        if a and U(s.value) == arg and not isprop(c, a): return 'MAssign "%s"' % a
    if arg and isinstance(s, ast.If) and not s.orelse and U(s.test) == '%s is not None' % arg:
        return 'MIfSome [%s]' % '; '.join(stmt(x, arg, c) for x in ir_access.nodoc(s.body))
    if isinstance(s, ast.Raise) and U(s.exc).startswith('ValueError('): return 'MRaise'
    if arg and isinstance(s, ast.If):
        r = re.match(r'^self\.(\w+) is not None$', U(s.test))
        if r and not isprop(c, r.group(1)):
            return 'MIfAttr "%s" [%s] [%s]' % (r.group(1), '; '.join(stmt(x, arg, c) for x in s.body), '; '.join(stmt(x, arg, c) for x in s.orelse))
        r = re.match(r'^%s\.getShortName\(\) != self\.(\w+)\.getShortName\(\)$' % arg, U(s.test))
        if r and not s.orelse:
            return 'MIfOtherName "%s" [%s]' % (r.group(1), '; '.join(stmt(x, arg, c) for x in s.body))
    return 'MOther'
n = k = 0
rows = []; last = None
for c in cl.values():
    ms = []
    for name, m in c.methods.items():
        if not re.match('(set|get|is)[A-Z]', name): continue
        args = [a.arg for a in m.args.args][1:]
        if len(args) > 1 or m.args.vararg or m.args.kwarg or m.decorator_list: b = ['MOther']
        else: b = [stmt(s, args[0] if args else None, c.name) for s in ir_access.nodoc(m.body)]
        n += 1; k += 'MOther' not in ' '.join(b)
        ms.append('("%s", [%s])' % (name, '; '.join(b)))
    if ms:
        h = ''
        if c.rel != last: h = '  (* %s *)\n' % c.rel; last = c.rel
        rows.append((h, '  ("%s", [ (* line %d *)\n    %s])' % (c.name, c.line, ';\n    '.join(ms))))
out = '''(** Generated by tools/gen_setters.py: the bodies of the methods set*, get* and is* of every class
    of /repo/src/armodel/models (paths below are relative to /repo/src/armodel), statement by
    statement.  [MOther] stands for a statement that is none of the forms below; it is also
    used for accesses to attributes that are Python properties (ARType.value and the like). *)
From Coq Require Import String List.
Import ListNotations.
Open Scope string_scope.

Inductive mstmt :=
| MAssign (a : string)          (* self.a = value *)
| MIfSome (b : list mstmt)      (* if value is not None: b *)
| MIfAttr (a : string) (b c : list mstmt)   (* if self.a is not None: b else: c *)
| MIfOtherName (a : string) (b : list mstmt) (* if value.getShortName() != self.a.getShortName(): b *)
| MRaise                        (* raise ValueError(...) *)
| MReturnSelf                   (* return self *)
| MReturnAttr (a : string)      (* return self.a *)
| MOther.

Definition method_table : list (string * list (string * list mstmt)) := [
%s
].
''' % '\n'.join(h + r + (';' if i + 1 < len(rows) else '') for i, (h, r) in enumerate(rows))
open('/verif/rocq/theories/SetterTable.v', 'w').write(out)
print(n, 'methods', k, 'fully described')
