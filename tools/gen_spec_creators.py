# run from /verif/rocq
import re,collections
cls={}
for m in re.finditer(r'\("([^"]+)", \[([^\]]*)\]\)',open('theories/ClassTable.v').read()):
    cls[m.group(1)]=[x.strip().strip('"') for x in m.group(2).split(';') if x.strip()]
def isinst(c,d):
    return c==d or any(isinst(b,d) for b in cls.get(c,[]))
rows=[]
for m in re.finditer(r'^  \("([^"]+)", "([^"]+)", mkCreator "([^"]+)" (\(.*?\)|\w+) (true|false) (\(Some "[^"]*"\)|None) (\(Some "[^"]*"\)|None) (\(.*?\)|\w+)\)',open('theories/Creators.v').read(),re.M):
    rows.append(m.groups())
sub=collections.defaultdict(set)
for c in cls:
    for d in cls:
        if isinst(c,d): sub[d].add(c)
def nm(s): return s
idem=[];non=[];typed=[];sole=[];coll=[]
def opt(s): return None if s=='None' else re.match(r'\(Some "(.*)"\)',s).group(1)
for r in rows:
    c,m,k,g,a,l,at,rt=r; l=opt(l);at=opt(at);G=g.strip('(').split()[0];R=rt.strip('(').split()[0]; add=a=='true'
    if G in('GTyped','GUntyped'): ok=add and R!='RNew'
    elif G in('GScan','GUnset'): ok=True
    else: ok = l is None and at is None and R in('RGet','RGetTyped') and add
    (idem if ok else non).append((c,m))
    if (G=='GTyped' and add and R=='RGetTyped') or (G=='GAlways' and add and R=='RGetTyped') or (G=='GAlways' and R=='RNew' and (l or at)) or (G=='GAlways' and R=='RAttr'):
        typed.append((c,m)); continue
    if G=='GUnset':
        coll.append(((c,m),c,(c,m),"y")); continue
    if G=='GScan': sole.append((c,m)); continue
    best=None
    for r2 in rows:
        if r2[4]=='true' and not isinst(r2[2],k):
            cs=sub[c]&sub[r2[0]]
            if cs:
                d = c if c in cs else (r2[0] if r2[0] in cs else sorted(cs)[0])
                best=((c,m),d,(r2[0],r2[1]),"x"); break
    if best: coll.append(best)
    else: sole.append((c,m))
print(len(idem),len(non),len(typed),len(sole),len(coll))
def lst(name,xs,doc):
    return "(** %s *)\nDefinition %s : list (string * string) := [\n%s\n].\n\n"%(doc,name,";\n".join('  ("%s", "%s")'%x for x in xs))
out='''(** Lists of createX methods, by container class and method name, used to state C08 and C09.
    The theorems in Prop_Heap.v show that every method of the table in Creators.v is on the
    right list. *)
From Coq Require Import String List.
Import ListNotations.
Open Scope string_scope.

'''
out+=lst('non_idempotent',non,'Methods for which a second call with the same name changes the container or the result.')
out+=lst('typed_methods',typed,'Methods that return an object of their own type in every document.')
out+=lst('sole_methods',sole,'Methods that return an object of their own type in documents built by the creation methods\n    alone (no removeElement, no addElement of foreign objects).')
out+="(** Methods that can return None or an object of another type or name: with a class of\n    container, and the creation method and name to call first. *)\nDefinition colliding_methods : list ((string * string) * (string * (string * string) * string)) := [\n"
out+=";\n".join('  (("%s", "%s"), ("%s", ("%s", "%s"), "%s"))'%(x[0][0],x[0][1],x[1],x[2][0],x[2][1],x[3]) for x in coll)+"\n].\n"
open('theories/SpecCreators.v','w').write(out)
