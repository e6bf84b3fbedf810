#!/usr/bin/env python3
"""Generate rocq/theories/ObjectTable.v: constructors and add* methods of the model classes."""
import ast, os, re, sys
sys.dont_write_bytecode = True
sys.path.insert(0, os.path.dirname(os.path.abspath(__file__)))
import ir_access
U = ast.unparse
cl = ir_access.load_classes()
props = {}
for c in cl.values():
    props[c.name] = {m.name for m in c.node.body if isinstance(m, ast.FunctionDef) and any('property' in U(d) or 'setter' in U(d) for d in m.decorator_list)}
desc = {c: set() for c in cl}
for c in cl:
    for d in ir_access.mro(cl, c):
        desc[d].add(c)
def isprop(c, a):
    return any(a in props[d] for d in cl if d in ir_access.mro(cl, c) or d in desc[c])
def value(v, args):
    u = U(v)
    if u == 'None': return 'CNone'
    if u == '[]': return 'CList'
    if u in args: return 'CArg %d' % args.index(u)
    if isinstance(v, ast.Dict): return 'CFresh "dict"'
    if isinstance(v, (ast.List, ast.Tuple)): return 'CFresh "list"'
    if isinstance(v, ast.Constant) and isinstance(v.value, str): return 'CFresh "str"'
    r = re.match(r'^(\w+)\(\)$', u)
    if r: return 'CFresh "%s"' % r.group(1)
    raise Exception(u)
def consts(v):
    if isinstance(v, (ast.List, ast.Tuple)):
        return ['("%s", "%s")' % (U(e.value), e.attr) for e in v.elts if isinstance(e, ast.Attribute)]
    return []
def stmt(s, args, c):
    u = U(s)
    if isinstance(s, (ast.Assign, ast.AnnAssign)):
        t = s.targets[0] if isinstance(s, ast.Assign) else s.target
        a = ir_access.selfattr(t)
        if a and s.value is not None and not isprop(c, a) and not a.startswith('__'): return 'CSet "%s" (%s)' % (a, value(s.value, args))
        if u == 'AUTOSAR.__instance = self': return 'CSingleton'
    if isinstance(s, ast.Expr) and isinstance(s.value, ast.Call):
        f = U(s.value.func)
        if f == 'super().__init__':
            k = [x for a in s.value.args for x in consts(a)]
            return 'CSuper [%s] [%s]' % ('; '.join(value(a, args) for a in s.value.args), '; '.join(k))
        r = re.match(r'^(\w+)\.__init__$', f)
        if r: return 'CBase "%s" [%s]' % (r.group(1), '; '.join(value(a, args) for a in s.value.args[1:]))
        if f == 'self.clear' and not s.value.args: return 'CClear'
    if isinstance(s, ast.If) and not s.orelse:
        r = re.match(r'^type\(self\) (is|==) (\w+)$', U(s.test))
        if r and len(s.body) == 1 and U(s.body[0]).startswith('raise TypeError('): return 'CAbstract "%s"' % r.group(2)
        if U(s.test) == 'AUTOSAR.__instance is not None': return 'CSingleton'
    return 'COther'
def astmt(s, arg):
    if isinstance(s, ast.Return) and s.value is not None and U(s.value) == 'self': return 'AReturnSelf'
    r = re.match(r'^self\.(\w+)\.append\(%s\)$' % arg, U(s))
    if r: return 'AAppend "%s"' % r.group(1)
    r = re.match(r'^self\.(\w+) = %s$' % arg, U(s))
    if r: return 'AAssign "%s"' % r.group(1)
    if isinstance(s, ast.If) and not s.orelse:
        b = '; '.join(astmt(x, arg) for x in ir_access.nodoc(s.body))
        if U(s.test) == '%s is not None' % arg: return 'AIfSome [%s]' % b
        r = re.match(r'^%s not in self\.(\w+)$' % arg, U(s.test))
        if r: return 'AIfNew "%s" [%s]' % (r.group(1), b)
        r = re.match(r'^%s is not None and %s not in self\.(\w+)$' % (arg, arg), U(s.test))
        if r: return 'AIfSome [AIfNew "%s" [%s]]' % (r.group(1), b)
    return 'AOther'
def table(f):
    rows = []; last = None
    for c in cl.values():
        r = f(c)
        if r is None: continue
        h = ''
        if c.rel != last: h = '  (* %s *)\n' % c.rel; last = c.rel
        rows.append((h, r))
    return '\n'.join(h + '  ' + r + (';' if i + 1 < len(rows) else '') for i, (h, r) in enumerate(rows))
def ctor(c):
    m = c.methods.get('__init__')
    if m is None: return None
    args = [a.arg for a in m.args.args][1:]
    assert not m.args.defaults and not m.args.vararg and not m.args.kwarg
    return '("%s", (%d, [%s])) (* line %d *)' % (c.name, len(args), '; '.join(stmt(s, args, c.name) for s in ir_access.nodoc(m.body)), m.lineno)
def clear(c):
    m = c.methods.get('clear')
    if m is None: return None
    return '("%s", [%s]) (* line %d *)' % (c.name, '; '.join(stmt(s, [], c.name) for s in ir_access.nodoc(m.body)), m.lineno)
def constants(c):
    k = [t.id for s in c.node.body if isinstance(s, ast.Assign) for t in s.targets if isinstance(t, ast.Name)] + \
        [s.target.id for s in c.node.body if isinstance(s, ast.AnnAssign) and s.value is not None]
    used = [x for x in k if x in refs.get(c.name, ())]
    return '("%s", [%s])' % (c.name, '; '.join('"%s"' % x for x in used)) if used else None
refs = {}
for c in cl.values():
    m = c.methods.get('__init__')
    if m is None: continue
    for s in m.body:
        if isinstance(s, ast.Expr) and isinstance(s.value, ast.Call):
            for a in s.value.args:
                if isinstance(a, (ast.List, ast.Tuple)):
                    for e in a.elts:
                        if isinstance(e, ast.Attribute): refs.setdefault(U(e.value), set()).add(e.attr)
nadd = nok = 0
def adders(c):
    global nadd, nok
    ms = []
    for name, m in c.methods.items():
        if not re.match('[aA]dd[A-Z]', name): continue
        args = [a.arg for a in m.args.args][1:]
        if len(args) != 1 or m.args.defaults or m.decorator_list: b = ['AOther']
        else: b = [astmt(s, args[0]) for s in ir_access.nodoc(m.body)]
        nadd += 1; nok += 'AOther' not in ' '.join(b)
        ms.append('("%s", [%s])' % (name, '; '.join(b)))
    return '("%s", [ (* line %d *)\n    %s])' % (c.name, c.line, ';\n    '.join(ms)) if ms else None
out = '''(** Generated by tools/gen_objects.py: the constructors and the add* methods of every class of
    /repo/src/armodel/models (paths below are relative to /repo/src/armodel), statement by
    statement.  [COther] and [AOther] stand for statements that are none of the forms below. *)
From Coq Require Import String List.
Import ListNotations.
Open Scope string_scope.

(** values in constructors: None, [], a parameter of the constructor, or an object made on the spot
    (a non-empty list or dictionary display, a string, an object of a class) *)
Inductive cval := CNone | CList | CArg (i : nat) | CFresh (c : string).
Inductive cstmt :=
| CSet (a : string) (v : cval)                                (* self.a = v *)
| CSuper (args : list cval) (consts : list (string * string)) (* super().__init__(args); consts: the class
                                                                 constants C.A mentioned in the arguments *)
| CBase (b : string) (args : list cval)                       (* B.__init__(self, args) *)
| CAbstract (c : string)                                      (* if type(self) is C: raise TypeError(...) *)
| CClear                                                      (* self.clear() *)
| CSingleton                                                  (* AUTOSAR.__instance: test and assignment; not modelled, the
                                                                 first construction of the singleton is meant *)
| COther.

(** class, number of parameters, body of __init__ *)
Definition ctor_table : list (string * (nat * list cstmt)) := [
%s
].

(** the method clear *)
Definition clear_table : list (string * list cstmt) := [
%s
].

(** class constants mentioned in the constructors *)
Definition const_table : list (string * list string) := [
%s
].

Inductive astmt :=
| AAppend (a : string)                  (* self.a.append(value) *)
| AAssign (a : string)                  (* self.a = value *)
| AIfSome (b : list astmt)              (* if value is not None: b *)
| AIfNew (a : string) (b : list astmt)  (* if value not in self.a: b *)
| AReturnSelf                           (* return self *)
| AOther.

Definition add_table : list (string * list (string * list astmt)) := [
%s
].
''' % (table(ctor), table(clear), table(constants), table(adders))
open('/verif/rocq/theories/ObjectTable.v', 'w').write(out)
print(nadd, 'add methods', nok, 'described', out.count('COther') - 2, 'other constructor statements')
