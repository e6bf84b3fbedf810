#!/usr/bin/env python3
"""Translate ARXMLWriter methods into the writer IR.  Anything outside the listed
statement patterns raises Unk and the whole function is reported as unknown."""
import ast,sys,collections
SRC='/repo/src/armodel/writer/arxml_writer.py'
def absorb(*ds):
    # a failing statement touches no element: keep it with the element its neighbours fill
    keys=[x for d in ds for x in d if x!='cur']
    if not keys or not any('cur' in d for d in ds): return
    for d in ds:
        c=d.pop('cur',None)
        if c is not None:
            k=[x for x in d]
            d.setdefault(k[-1] if k else keys[-1],[]).extend(c)
class Unk(Exception): pass
U=ast.unparse
LEAFW={'setChildElementOptionalLiteral':'WText','setChildElementOptionalNumericalValue':'WNum','setChildElementOptionalIntegerValue':'WNum',
 'setChildElementOptionalPositiveInteger':'WNum','setChildElementOptionalRevisionLabelString':'WText','setChildElementOptionalDataTime':'WText',
 'setChildElementOptionalRefType':'WRef','setChildElementOptionalFloatValue':'WText','setChildElementOptionalTimeValue':'WText',
 'setChildElementOptionalBooleanValue':'WText','setChildElementOptionalIdentifier':'WText','setChildLimitElement':'WLimit'}
def is_self(n,names=None):
    return isinstance(n,ast.Call) and isinstance(n.func,ast.Attribute) and isinstance(n.func.value,ast.Name) and n.func.value.id=='self' and (names is None or n.func.attr in names)
def is_sub(n):
    return isinstance(n,ast.Call) and U(n.func)=='ET.SubElement' and len(n.args)==2
class Fn:
    def __init__(s,m,sigs,defaults={}):
        s.m=m; s.sigs=sigs; s.defaults=defaults
        kind=sigs[m.name]
        s.nobj=0
        env={}
        for a,k in zip(m.args.args[1:],kind):
            if k=='E': env[a.arg]=('elem',0)
            elif k=='K': env[a.arg]=('key',)
            elif k=='O': env[a.arg]=('obj',0,[])   # level, path
        s.nel=1
        s.body=s.block(m.body,env,0)
    # ---- expressions
    def path(s,n,env):
        """object expression -> (level,path)"""
        if isinstance(n,ast.Name):
            v=env.get(n.id)
            if v and v[0]=='obj': return v[1],v[2]
            raise Unk('name %s is not an object'%n.id)
        if isinstance(n,ast.Call) and isinstance(n.func,ast.Attribute) and not n.args and not n.keywords and not (isinstance(n.func.value,ast.Name) and n.func.value.id=='self'):
            l,p=s.path(n.func.value,env); return l,p+[('M',n.func.attr)]
        if isinstance(n,ast.Attribute):
            l,p=s.path(n.value,env); return l,p+[('A',n.attr)]
        raise Unk('path '+U(n))
    def tag(s,n,env):
        if isinstance(n,ast.Constant) and isinstance(n.value,str): return ('lit',n.value)
        if isinstance(n,ast.Name) and env.get(n.id,('',))[0]=='key': return ('key',)
        if isinstance(n,ast.Name) and env.get(n.id,('',))[0]=='str': return ('lit',env[n.id][1])
        raise Unk('tag '+U(n))
    def cond(s,t,env):
        if isinstance(t,ast.Compare) and len(t.ops)==1:
            c=t.comparators[0]
            if isinstance(t.ops[0],(ast.IsNot,ast.Is)) and isinstance(c,ast.Constant) and c.value is None:
                k=('some',)+s.path(t.left,env)
                return k if isinstance(t.ops[0],ast.IsNot) else ('not',k)
            if isinstance(t.ops[0],ast.Gt) and isinstance(c,ast.Constant) and c.value==0 and isinstance(t.left,ast.Call) and U(t.left.func)=='len':
                return ('nonempty',)+s.path(t.left.args[0],env)
        if isinstance(t,ast.Call) and U(t.func)=='len':
            return ('nonempty',)+s.path(t.args[0],env)
        if isinstance(t,ast.UnaryOp) and isinstance(t.op,ast.Not): return ('not',s.cond(t.operand,env))
        if isinstance(t,ast.Compare) and isinstance(t.ops[0],ast.Gt) and isinstance(t.left,ast.Call) and isinstance(t.left.func,ast.Attribute) and t.left.func.attr=='getTotalElement':
            l,p=s.path(t.left.func.value,env); return ('nonempty',l,p+[('M','getElements')])
        if isinstance(t,ast.Call) and U(t.func)=='isinstance':
            l,p=s.path(t.args[0],env)
            c=t.args[1]
            if isinstance(c,ast.Name): return ('inst',l,p,[c.id])
            if isinstance(c,ast.Tuple): return ('inst',l,p,[x.id for x in c.elts])
        if isinstance(t,ast.BoolOp) and isinstance(t.op,ast.And):
            return ('and',[s.cond(x,env) for x in t.values])
        if isinstance(t,(ast.Name,ast.Attribute)) or (isinstance(t,ast.Call)):
            return ('true',)+s.path(t,env)
        raise Unk('cond '+U(t))
    # ---- statements. returns dict elemid -> list of instrs ; env mutated
    def block(s,stmts,env,lvl):
        out=collections.OrderedDict()
        subs={}   # elem created in this block: id -> list
        def emit(e,i):
            if e in subs: subs[e].append(i)
            else: out.setdefault(e,[]).append(i)
        def elem(n):
            if isinstance(n,ast.Name):
                v=env.get(n.id)
                if v and v[0]=='elem': return v[1]
                raise Unk('elem '+n.id)
            if is_sub(n):
                return newsub(n)
            raise Unk('elem '+U(n))
        def newsub(n):
            p=elem(n.args[0]); t=s.tag(n.args[1],env)
            i=s.nel; s.nel+=1
            lst=[]; subs[i]=lst
            emit(p,('sub',t,lst))
            return i
        def merge(d,wrap):
            for e,l in d.items(): emit(e,wrap(l))
        k=0
        while k<len(stmts):
            st=stmts[k]; k+=1
            if isinstance(st,ast.Expr) and isinstance(st.value,ast.Constant): continue
            if isinstance(st,ast.Pass): continue
            if isinstance(st,ast.Expr) and isinstance(st.value,ast.Call):
                c=st.value
                fn=U(c.func)
                if fn.startswith('self.logger.'): continue
                if is_self(c):
                    f=c.func.attr
                    if f in('notImplemented','_raiseError'):
                        emit('cur',('notimpl' if f=='notImplemented' else 'softerr',)); continue
                    if f in LEAFW:
                        e=elem(c.args[0]); t=s.tag(c.args[1],env); l,p=s.path(c.args[2],env)
                        emit(e,('leaf',LEAFW[f],t,l,p)); continue
                    if f=='setShortName':
                        e=elem(c.args[0]); l,p=s.path(c.args[1],env); emit(e,('shortname',l,p)); continue
                    if f=='writeARObjectAttributes':
                        e=elem(c.args[0]); l,p=s.path(c.args[1],env); emit(e,('attrs',l,p)); continue
                    if f in s.sigs:
                        sg=s.sigs[f]
                        args=list(c.args)
                        if len(args)<len(sg): args+=s.defaults.get(f,[])[len(args)-len(sg):]
                        if len(sg)!=len(args): raise Unk('arity '+U(c))
                        e=None;t=('none',);o=None
                        for a,x in zip(args,sg):
                            if x=='E': e=elem(a)
                            elif x=='K': t=s.tag(a,env)
                            elif x=='O': o=s.path(a,env)
                        emit(e,('call',f,t)+o); continue
                    emit('cur',('noattr',)); continue
                if is_sub(c): elem(c); continue
                if isinstance(c.func,ast.Attribute) and c.func.attr=='set' and len(c.args)==2:
                    e=elem(c.func.value); l,p=s.path(c.args[1],env); emit(e,('xattr',c.args[0].value,l,p)); continue
                raise Unk('expr '+U(st))
            if isinstance(st,ast.For) and isinstance(st.target,ast.Tuple) and isinstance(st.iter,ast.Name) and env.get(st.iter.id,('',))[0]=='pylist':
                for el in env[st.iter.id][1].elts:
                    e1=dict(env)
                    for t,v in zip(st.target.elts,el.elts):
                        if isinstance(v,ast.Constant): e1[t.id]=('str',v.value)
                        else: e1[t.id]=('obj',)+s.path(v,env)
                    for e,lst in s.block(st.body,e1,lvl).items():
                        for i in lst: emit(e,i)
                continue
            if isinstance(st,ast.Assign) and len(st.targets)==1:
                tg=st.targets[0]; v=st.value
                if isinstance(tg,ast.Name):
                    if isinstance(v,ast.List): env[tg.id]=('pylist',v); continue
                    if is_sub(v): env[tg.id]=('elem',elem(v)); continue
                    if isinstance(v,ast.Call) and U(v.func)=='VALUE_ACCESS_CLASS_TO_TAG.get':
                        env[tg.id]=('clstag',)+s.path(v.args[0].args[0],env); continue
                    if isinstance(v,ast.Call) and U(v.func).endswith('_XML_MAP.get'):
                        env[tg.id]=('mapped',U(v.func)[:-4])+s.path(v.args[0],env); continue
                    l,p=s.path(v,env); env[tg.id]=('obj',l,p); continue
                if isinstance(tg,ast.Subscript) and isinstance(tg.value,ast.Attribute) and tg.value.attr=='attrib':
                    e=elem(tg.value.value)
                    if isinstance(v,ast.Name) and env.get(v.id,('',))[0]=='mapped':
                        emit(e,('xattrmap',tg.slice.value)+env[v.id][1:]); continue
                    if isinstance(v,ast.Constant): emit(e,('xattrc',tg.slice.value,v.value)); continue
                    l,p=s.path(v,env); emit(e,('xattr',tg.slice.value,l,p)); continue
                if isinstance(tg,ast.Attribute) and tg.attr=='text':
                    e=elem(tg.value)
                    if isinstance(v,ast.IfExp) and U(v.test)=="hasattr(monotony, 'getText')":
                        v=v.body   # MonotonyEnum is an ARLiteral: it has getText
                    if isinstance(v,ast.IfExp) and isinstance(v.orelse,ast.Constant) and v.orelse.value is None:
                        l,p=s.path(v.body,env); emit(e,('if',s.cond(v.test,env),[('text',l,p)],[])); continue
                    l,p=s.path(v,env); emit(e,('text',l,p)); continue
                raise Unk('assign '+U(st))
            if isinstance(st,ast.If):
                # early return
                if len(st.body)==1 and isinstance(st.body[0],ast.Return) and not st.orelse and (st.body[0].value is None or
                        isinstance(st.body[0].value,ast.Name) and env.get(st.body[0].value.id,('',))[0] in('elem','obj')):
                    cd=s.cond(st.test,env)
                    d=s.block(stmts[k:],env,lvl)
                    merge(d,lambda l:('if',cd,[],l)); k=len(stmts); continue
                if isinstance(st.test,ast.Compare) and isinstance(st.test.left,ast.Name) and env.get(st.test.left.id,('',))[0]=='elem' and isinstance(st.test.ops[0],ast.IsNot):
                    stmts=stmts[:k]+st.body+stmts[k:]; continue
                if isinstance(st.test,ast.Compare) and isinstance(st.test.left,ast.Name) and env.get(st.test.left.id,('',))[0]=='mapped' and isinstance(st.test.ops[0],ast.Is) and 'notImplemented' in U(st.body[0]):
                    stmts=stmts[:k]+st.orelse+stmts[k:]; continue   # the missing case is part of xattrmap
                if isinstance(st.test,ast.Compare) and isinstance(st.test.left,ast.Name) and env.get(st.test.left.id,('',))[0]=='clstag':
                    x=st.test.left.id; l,p=env[x][1:]
                    def chain(m):
                        if not m: return s.block(st.orelse,dict(env),lvl)
                        e1=dict(env); e1[x]=('str',m[0][1])
                        da=s.block(st.body,e1,lvl); db=chain(m[1:])
                        return collections.OrderedDict((o,[('if',('type',l,p,m[0][0]),da.get(o,[]),db.get(o,[]))]) for o in list(da)+[z for z in db if z not in da])
                    for e,lst in chain(s.clsmap).items():
                        for i in lst: emit(e,i)
                    continue
                cd=s.cond(st.test,env)
                rest=stmts[k:]
                if rest and any(isinstance(y,ast.Return) for y in ast.walk(st)): raise Unk('return before the end')
                if s.assigned(st.body+st.orelse)&s.used(rest)&set(x for x in env if env[x][0]=='elem'):
                    e1=dict(env); e2=dict(env)
                    d1=s.block(st.body+rest,e1,lvl); d2=s.block(st.orelse+rest,e2,lvl)
                    for e in [x for x in list(d1)+[y for y in d2 if y not in d1]]: emit(e,('if',cd,d1.get(e,[]),d2.get(e,[])))
                    k=len(stmts); continue
                e1=dict(env); e2=dict(env)
                d1=s.block(st.body,e1,lvl); d2=s.block(st.orelse,e2,lvl)
                for v in env:
                    if e1.get(v)!=env[v] or e2.get(v)!=env[v]:
                        env[v]=('dead',)
                absorb(d1,d2)
                keys=[x for x in list(d1)+[y for y in d2 if y not in d1]]
                for e in keys: emit(e,('if',cd,d1.get(e,[]),d2.get(e,[])))
                continue
            if isinstance(st,ast.For) and isinstance(st.target,ast.Name) and not st.orelse:
                l,p=s.path(st.iter,env)
                e1=dict(env); e1[st.target.id]=('obj',lvl+1,[])
                d=s.block(st.body,e1,lvl+1)
                for v in env:
                    if v!=st.target.id and e1.get(v)!=env[v]: env[v]=('dead',)
                env[st.target.id]=('dead',)
                absorb(d)
                for e,lst in d.items(): emit(e,('for',l,p,lst))
                continue
            if isinstance(st,ast.Raise):
                emit('cur',('raise',)); continue
            if isinstance(st,ast.Return):
                if st.value is None: raise Unk('return')
                # the returned object or element is not used by any caller (checked in load)
                if isinstance(st.value,ast.Name) and env.get(st.value.id,('',))[0] in('elem','obj') and k==len(stmts): continue
                raise Unk('return '+U(st))
            raise Unk('stmt '+type(st).__name__+' '+U(st)[:80])
        return out
    def assigned(s,b):
        return {y.id for x in b for y in ast.walk(x) if isinstance(y,ast.Name) and isinstance(y.ctx,ast.Store)}
    def used(s,b):
        st=set(); r=set()
        for x in b:   # names read before being written again
            for y in ast.walk(x):
                if isinstance(y,ast.Name) and isinstance(y.ctx,ast.Load) and y.id not in st: r.add(y.id)
            if isinstance(x,ast.Assign):
                st|={t.id for t in x.targets if isinstance(t,ast.Name)}
        return r
def load():
    t=ast.parse(open(SRC).read())
    for x in t.body:
        if isinstance(x,ast.Assign) and U(x.targets[0])=='VALUE_ACCESS_CLASS_TO_TAG': Fn.clsmap=[(k.id,v.value) for k,v in zip(x.value.keys,x.value.values)]
    cls=[c for c in t.body if isinstance(c,ast.ClassDef)][0]
    ms=[m for m in cls.body if isinstance(m,ast.FunctionDef)]
    sigs={}
    for m in ms:
        a=[x for x in m.args.args[1:]]
        ks=[]
        for i,x in enumerate(a):
            an=U(x.annotation) if x.annotation else ''
            if i==0: ks.append('E')
            elif an=='str' or x.arg=='key': ks.append('K')
            else: ks.append('O')
        if ks.count('O')>1:
            nm={y.id for x in m.body for y in ast.walk(x) if isinstance(y,ast.Name)}
            ks=['X' if k=='O' and x.arg not in nm else k for k,x in zip(ks,a)]
        sigs[m.name]=ks
    return ms,sigs,{m.name:m.args.defaults for m in ms}
if __name__=='__main__':
    ms,sigs,defaults=load()
    names=collections.Counter(m.name for m in ms)
    print('dups',[n for n in names if names[n]>1])
    ok=0; bad=[]; multi=[]
    for m in ms:
        if sigs[m.name].count('O')!=1 or sigs[m.name].count('E')!=1: bad.append((m.name,m.lineno,'sig %s'%sigs[m.name])); continue
        try:
            f=Fn(m,sigs,defaults); 
            ok+=1
            if [e for e in f.body if e not in(0,)]: multi.append((m.name,m.lineno,list(f.body)))
        except Unk as e: bad.append((m.name,m.lineno,str(e)))
        except (AttributeError,IndexError,TypeError) as e: bad.append((m.name,m.lineno,repr(e)))
    print(ok,len(bad))
    for b in bad: print(b)
    print('MULTI',len(multi)); 
    for b in multi[:5]: print(b)
