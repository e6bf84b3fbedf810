"""Generate rocq/theories/Creators.v: every createX method of the model classes as a [creator]
(guard, registration, typed list, attribute, returned object).  See ObjHeap.v for the meaning."""
import ast
import os

src = "/repo/src/armodel"


def nodoc(body):
    return [s for s in body if not (isinstance(s, ast.Expr) and isinstance(s.value, ast.Constant))
            and not isinstance(s, ast.ImportFrom)]


def attr_of_self(e):
    if isinstance(e, ast.Attribute) and isinstance(e.value, ast.Name) and e.value.id == "self":
        return e.attr
    return None


def selfcall(e, name):
    return isinstance(e, ast.Call) and attr_of_self(e.func) == name


def is_ctor(e, arg):
    return (isinstance(e, ast.Call) and isinstance(e.func, ast.Name) and len(e.args) == 2
            and isinstance(e.args[0], ast.Name) and e.args[0].id == "self"
            and isinstance(e.args[1], ast.Name) and e.args[1].id == arg)


def parse_effects(stmts, arg, k):
    """statements executed when the guard holds"""
    var = None
    for s in stmts:
        if isinstance(s, ast.Assign) and len(s.targets) == 1:
            t = s.targets[0]
            if isinstance(t, ast.Name) and is_ctor(s.value, arg):
                var, k["class"] = t.id, s.value.func.id
                continue
            a = attr_of_self(t)
            if a and is_ctor(s.value, arg) and k["guard"] == ("GUnset", a):
                k["class"], k["attr"] = s.value.func.id, a
                continue
            if a and isinstance(s.value, ast.Name) and s.value.id == var:
                k["attr"] = a
                continue
        if isinstance(s, ast.Expr) and selfcall(s.value, "addElement") and s.value.args[0].id == var:
            k["add"] = True
            continue
        if isinstance(s, ast.If) and "hasattr" in ast.unparse(s.test):
            # CryptoKeySlot.createKeySlotContent: addElement only if the class has getShortName (it has)
            if [ast.unparse(x) for x in s.body] == ["self.addElement(%s)" % var]:
                k["add"] = True
                continue
        if (isinstance(s, ast.Expr) and isinstance(s.value, ast.Call) and isinstance(s.value.func, ast.Attribute)
                and s.value.func.attr == "append" and attr_of_self(s.value.func.value) and s.value.args[0].id == var):
            k["list"] = attr_of_self(s.value.func.value)
            continue
        return None
    return var


def parse_ret(e, arg, k, var):
    if selfcall(e, "getElement") and e.args[0].id == arg:
        if len(e.args) == 1:
            return "RGet"
        if isinstance(e.args[1], ast.Name) and e.args[1].id == k["class"]:
            return "RGetTyped"
    if isinstance(e, ast.Name) and e.id == var:
        return "RNew"
    if attr_of_self(e) and attr_of_self(e) == k["attr"]:
        return 'RAttr "%s"' % attr_of_self(e)
    return None


def parse(m):
    args = [a.arg for a in m.args.args][1:]
    body = nodoc(m.body)
    if len(args) != 1:
        return None
    arg = args[0]
    k = {"class": None, "guard": None, "add": False, "list": None, "attr": None, "ret": None}
    # scan shape
    b = body
    if ast.unparse(b[0]).startswith("if %s is None:" % arg):
        b = b[1:]
    if isinstance(b[0], ast.For) and len(b) == 4:
        lst = attr_of_self(b[0].iter)
        v = b[0].target.id
        cond = ast.unparse(b[0].body[0])
        if lst and cond in ("if %s.getShortName() == %s:\n    return %s" % (v, arg, v), "if %s.short_name == %s:\n    return %s" % (v, arg, v)):
            k["guard"] = ("GScan", lst)
            var = parse_effects(b[1:3], arg, k)
            if var and k["list"] == lst and ast.unparse(b[3]) == "return " + var:
                k["ret"] = "RNew"
                return k
        return None
    if len(body) == 2 and isinstance(body[0], ast.If) and not body[0].orelse and isinstance(body[1], ast.Return):
        t = body[0].test
        if isinstance(t, ast.UnaryOp) and isinstance(t.op, ast.Not) and selfcall(t.operand, "IsElementExists") and t.operand.args[0].id == arg:
            k["guard"] = ("GUntyped",) if len(t.operand.args) == 1 else ("GTyped", t.operand.args[1].id)
        elif isinstance(t, ast.Compare) and isinstance(t.ops[0], ast.NotIn) and t.left.id == arg and attr_of_self(t.comparators[0]):
            k["guard"] = ("GAlways",)   # a str is compared with model objects: never equal
        elif isinstance(t, ast.Compare) and isinstance(t.ops[0], ast.Is) and attr_of_self(t.left):
            k["guard"] = ("GUnset", attr_of_self(t.left))
        elif ast.unparse(t).startswith("not any((") and "getShortName() == %s" % arg in ast.unparse(t):
            lst = attr_of_self(t.operand.args[0].generators[0].iter)
            k["guard"] = ("GScan", lst)
            var = parse_effects(body[0].body, arg, k)
            r = ast.unparse(body[1])
            if var and k["list"] == lst and r.startswith("return next(") and "in self.%s if" % lst in r:
                k["ret"] = "RNew"
                return k
            return None
        else:
            return None
        var = parse_effects(body[0].body, arg, k)
        if k["class"] is None:
            return None
        if k["guard"][0] == "GTyped" and k["guard"][1] != k["class"]:
            return None
        k["ret"] = parse_ret(body[1].value, arg, k, var)
        return k if k["ret"] else None
    if isinstance(body[-1], ast.Return):
        k["guard"] = ("GAlways",)
        var = parse_effects(body[:-1], arg, k)
        if var is None:
            return None
        k["ret"] = parse_ret(body[-1].value, arg, k, var)
        return k if k["ret"] else None
    return None


rows, skipped = [], []
for d, ds, fs in sorted(os.walk(os.path.join(src, "models"))):
    for f in sorted(fs):
        if not f.endswith(".py"):
            continue
        p = os.path.join(d, f)
        rel = os.path.relpath(p, src)
        for c in ast.parse(open(p).read()).body:
            if not isinstance(c, ast.ClassDef):
                continue
            for m in c.body:
                if not (isinstance(m, ast.FunctionDef) and m.name.startswith("create")):
                    continue
                b = nodoc(m.body)
                k = None
                if len(b) == 1 and "_createVariableAccess" in ast.unparse(b[0]):
                    k = {"class": "VariableAccess", "guard": ("GUntyped",), "add": True,
                         "list": attr_of_self(b[0].value.args[1]), "attr": None, "ret": "RGetTyped"}
                else:
                    k = parse(m)
                if k is None:
                    skipped.append((rel, m.lineno, c.name, m.name))
                else:
                    rows.append((rel, m.lineno, c.name, m.name, k))


def opt(x):
    return "None" if x is None else '(Some "%s")' % x


def guard(g):
    return {"GTyped": "GTyped", "GUntyped": "GUntyped", "GAlways": "GAlways"}.get(g[0]) or '(%s "%s")' % g


out = ["(** Generated by tools/gen_creators.py from the createX methods of /repo/src/armodel/models",
       "    (paths relative to /repo/src/armodel).  Each row: container class, method, creator.",
       "    Methods that do not fit the [creator] form and are not in the table:"]
for r in skipped:
    out.append("      %s:%d %s.%s" % r)
out += ["*)", "From Coq Require Import String List.", "From Verif Require Import PyBase ObjHeap.",
        "Import ListNotations.", "Open Scope string_scope.", "",
        "Definition creators : list (string * string * creator) := ["]
last = None
L = []
for i, (rel, ln, c, m, k) in enumerate(rows):
    cm = ""
    if rel != last:
        cm = "  (* %s *)\n" % rel
        last = rel
    L.append('%s  ("%s", "%s", mkCreator "%s" %s %s %s %s %s)%s (* line %d *)' % (
        cm, c, m, k["class"], guard(k["guard"]), "true" if k["add"] else "false", opt(k["list"]), opt(k["attr"]),
        "(%s)" % k["ret"] if " " in k["ret"] else k["ret"], ";" if i + 1 < len(rows) else "", ln))
out.append("\n".join(L))
out.append("].")
open("/verif/rocq/theories/Creators.v", "w").write("\n".join(out) + "\n")
import collections
print(len(rows), len(skipped))
for r in skipped:
    print(r)
cnt = collections.Counter((k["guard"][0], k["add"], k["list"] is not None, k["attr"] is not None, k["ret"].split()[0]) for *_, k in rows)
for x, n in cnt.most_common():
    print(n, x)
