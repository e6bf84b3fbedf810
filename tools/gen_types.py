"""Turn the printed tables of an inference run (tools/type_infer.txt) into TypeTable.v.
Usage: gen_types.py DUMP > TypeTable.v"""
import re, sys
s = open(sys.argv[1]).read()
parts = re.split(r'^     = ', s, flags=re.M)[1:]
parts = [re.sub(r'\s+', ' ', p[:p.rindex('\n     : ')]).strip() for p in parts]
fields, results, calls = parts[:3]
def short(t):
    t = re.sub(r'mkTy \[\] \(Some (\[[^\]]*\])\)', r'tlist \1', t)
    t = re.sub(r'mkTy (\[[^\]]*\]) None', r'tbase \1', t)
    for a, b in (('tbase [BStr; BNone]', 'o_str'), ('tbase [BLit; BNone]', 'o_lit'), ('tbase [BNum; BNone]', 'o_num'),
                 ('tbase [BRef; BNone]', 'o_ref'), ('tbase [BBool; BNone]', 'o_bool')):
        t = t.replace(a, b)
    t = re.sub(r'tbase \[BObj ("[^"]*"); BNone\]', r'o_obj \1', t)
    t = re.sub(r'tlist \[BObj ("[^"]*")\]', r'l_obj \1', t)
    return t
def lines(t):
    # break the outer list into lines
    out, depth, cur, q = [], 0, '', False
    for ch in t:
        cur += ch
        if ch == '"': q = not q
        if q: continue
        if ch in '[(': depth += 1
        if ch in '])': depth -= 1
        if ch == ';' and depth == 1: out.append(cur); cur = ''
    out.append(cur)
    return '\n  '.join(x.strip() for x in out)
print('''(** Types of the attributes of the objects that reading makes (TypeCheck.v), found by an inference
    run (tools/type_infer.txt) and checked in TypeProps.v.  GENERATED by tools/gen_types.py; nothing here
    models code, and nothing here is trusted: a wrong entry makes the check fail. *)
From Coq Require Import String List.
From Verif Require Import TypeCheck.
Import ListNotations.
Open Scope string_scope.

Definition o_str := tbase [BStr; BNone].
Definition o_lit := tbase [BLit; BNone].
Definition o_num := tbase [BNum; BNone].
Definition o_ref := tbase [BRef; BNone].
Definition o_bool := tbase [BBool; BNone].
Definition o_obj (c : string) := tbase [BObj c; BNone].
Definition l_obj (c : string) := tlist [BObj c].

(** class, the attributes whose type is not that of their initial value *)
Definition field_types : list (string * list (string * ty)) :=''')
print(' ', lines(short(fields)) + '.')
print('\n(** reader function, type of its result *)\nDefinition result_types : list (string * ty) :=')
print(' ', lines(short(results)) + '.')
print('\n(** class, the reader functions called on objects of that class; "": functions that return a value *)\nDefinition calls : list (string * list string) :=')
print(' ', lines(calls) + '.')
if len(parts) > 3:
    print('\n(** writer function, type of the value it is called on *)\nDefinition writer_types : list (string * ty) :=')
    print(' ', lines(short(parts[3])) + '.')
