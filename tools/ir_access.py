#!/usr/bin/env python3
"""Accessors of the model classes used by the reader and the writer."""
import ast,os,re,collections
U=ast.unparse
SRC='/repo/src/armodel'
class Cls: pass
def load_classes():
    cl={}
    for d,ds,fs in sorted(os.walk(os.path.join(SRC,'models'))):
        for f in sorted(fs):
            if not f.endswith('.py'): continue
            p=os.path.join(d,f)
            for c in ast.parse(open(p).read()).body:
                if isinstance(c,ast.ClassDef) and c.name not in cl:
                    o=Cls(); o.name=c.name; o.rel=os.path.relpath(p,SRC); o.line=c.lineno
                    o.bases=[U(b) for b in c.bases]; o.methods={}; o.node=c
                    for m in c.body:
                        if isinstance(m,ast.FunctionDef):
                            if any('setter' in U(x) for x in m.decorator_list): continue
                            o.methods[m.name]=m
                    cl[c.name]=o
    for o in cl.values(): o.bases=[b for b in o.bases if b in cl]
    return cl
def mro(cl,c,memo={}):
    if c in memo: return memo[c]
    seqs=[list(mro(cl,b)) for b in cl[c].bases]+[list(cl[c].bases)]
    out=[c]
    while any(seqs):
        for s in seqs:
            if s and not any(s[0] in t[1:] for t in seqs):
                h=s[0]; break
        else: raise Exception('mro '+c)
        out.append(h); seqs=[[x for x in t if x!=h] for t in seqs]
    memo[c]=out; return out
def dfs(cl,c):
    out=[c]
    for b in cl[c].bases: out+=dfs(cl,b)
    return out
def nodoc(b): return [s for s in b if not(isinstance(s,ast.Expr) and isinstance(s.value,ast.Constant)) and not isinstance(s,(ast.ImportFrom,ast.Pass))]
def selfattr(e):
    if isinstance(e,ast.Attribute) and isinstance(e.value,ast.Name) and e.value.id=='self': return e.attr
def parse_method(m):
    """-> tuple kind or None"""
    args=[a.arg for a in m.args.args][1:]
    b=nodoc(m.body)
    t=[U(x) for x in b]
    if not args and len(b)==1 and isinstance(b[0],ast.Return):
        e=b[0].value
        if selfattr(e): return ('get',selfattr(e))
        s=U(e)
        r=re.match(r"^(?:list\()?sorted\(self\.(\w+)(\.values\(\))?, key=lambda (\w+): \3\.(?:short_name|getShortName\(\))\)\)?$",s)
        if r: return ('getsorted',r.group(1))
        r=re.match(r"^(?:list\()?filter\(lambda (\w+): isinstance\(\1, (\w+)\), self\.(\w+)\)\)?$",s)
        if r: return ('getf',r.group(3),r.group(2),False)
        r=re.match(r"^(?:list\()?sorted\(filter\(lambda (\w+): isinstance\(\1, (\w+)\), self\.(\w+)\), key=lambda (\w+): \4\.(?:short_name|getShortName\(\))\)\)?$",s)
        if r: return ('getf',r.group(3),r.group(2),True)
        r=re.match(r"^\[(\w+) for \1 in self\.(\w+) if isinstance\(\1, (\w+)\)\]$",s)
        if r: return ('getf',r.group(2),r.group(3),False)
        if s=='self.getElements()': return ('get','elements')
    if len(args)==1:
        a=args[0]
        if t and t[-1]=='return self': t=t[:-1]; b=b[:-1]
        if len(b)==1:
            s=b[0]
            if isinstance(s,ast.Assign) and selfattr(s.targets[0]) and U(s.value)==a: return ('set',selfattr(s.targets[0]),False)
            r=re.match(r"^self\.(\w+)\.append\((\w+)\)$",t[0])
            if r and r.group(2)==a: return ('add',r.group(1),False)
            if isinstance(s,ast.If) and not s.orelse and U(s.test)=='%s is not None'%a and len(nodoc(s.body))==1:
                x=nodoc(s.body)[0]
                if isinstance(x,ast.Assign) and selfattr(x.targets[0]) and U(x.value)==a: return ('set',selfattr(x.targets[0]),True)
                r=re.match(r"^self\.(\w+)\.append\((\w+)\)$",U(x))
                if r and r.group(2)==a: return ('add',r.group(1),True)
            # new model objects compare by identity: "not in" holds for every object not yet added
            if isinstance(s,ast.If) and not s.orelse:
                r=re.match(r"^(?:%s is not None and )?%s not in self\.(\w+)$"%(a,a),U(s.test))
                if r and U(s.body[0])=='self.%s.append(%s)'%(r.group(1),a) and len(s.body)==1: return ('add',r.group(1),'is not None' in U(s.test))
        if len(b)==1 and isinstance(b[0],ast.If) and U(b[0].test)=='isinstance(%s, str)'%a and b[0].orelse:
            x=b[0].orelse[0]
            if isinstance(x,ast.Assign) and selfattr(x.targets[0]) and U(x.value)==a: return ('set',selfattr(x.targets[0]),False)
        # validation, then append
        if len(b)==2 and isinstance(b[0],ast.Expr) and '._validate' in t[0] :
            r=re.match(r"^self\.(\w+)\.append\((\w+)\)$",t[1])
            if r and r.group(2)==a: return ('add',r.group(1),False)
    if not args:
        # anonymous creators
        if len(b)==3:
            r=re.match(r"^(\w+) = (\w+)\(\)$",t[0])
            if r:
                v,c=r.groups()
                q=re.match(r"^self\.(\w+)\.append\(%s\)$"%v,t[1])
                if q and t[2]=='return '+v: return ('newanon',c,'PList',q.group(1))
                q=re.match(r"^self\.(\w+) = %s$"%v,t[1])
                if q and t[2]=='return '+v: return ('newanon',c,'PSlot',q.group(1))
    return None
def attrs_of(c):
    """own attributes with defaults: name -> 'none'|'list'|'dict'|('new',C)|'param'|('other',txt)"""
    out=collections.OrderedDict()
    m=c.methods.get('__init__')
    if not m: return out
    body=list(m.body)
    if 'clear' in c.methods and any(U(s)=='self.clear()' for s in m.body): body+=c.methods['clear'].body
    for s in ast.walk(ast.Module(body=body,type_ignores=[])):
        if isinstance(s,(ast.Assign,ast.AnnAssign)):
            tg=s.targets[0] if isinstance(s,ast.Assign) else s.target
            a=selfattr(tg)
            if a and s.value is not None:
                v=s.value
                if isinstance(v,ast.Constant) and v.value is None: d='none'
                elif isinstance(v,ast.List) and not v.elts: d='list'
                elif isinstance(v,ast.Dict) and not v.keys: d='dict'
                elif isinstance(v,ast.Call) and isinstance(v.func,ast.Name) and not v.args: d=('new',v.func.id)
                elif isinstance(v,ast.Name): d='param'
                else: d=('other',U(v))
                out.setdefault(a,d)
    return out
