#!/usr/bin/env python3
import ast,sys,collections,re
SRC='/repo/src/armodel/parser/arxml_parser.py'
class Unk(Exception): pass
U=ast.unparse
LEAFR={'getChildElementOptionalLiteral':'RLiteral','getChildElementOptionalVerbatimString':'RVerbatim','getChildElementOptionalIdentifier':'RIdentifier',
'getChildElementOptionalRevisionLabelString':'RRevision','getChildElementOptionalDataTime':'RLiteral','getChildElementOptionalFloatValue':'RFloat',
'getChildElementOptionalTimeValue':'RTime','getChildElementOptionalBooleanValue':'RBool','getChildElementOptionalNumericalValue':'RNumerical',
'getChildElementOptionalIntegerValue':'RInteger','getChildElementOptionalPositiveInteger':'RPositive','getChildLimitElement':'RLimit',
'getChildElementOptionalRefType':'RRef'}
LEAFL={'getChildElementLiteralValueList':'RLitItem','getChildElementFloatValueList':'RFloatItem','getChildElementNumericalValueList':'RNumItem','getChildElementRefTypeList':'RRef'}
LEAFQ={'getChildElementRefType':'RRef','getChildElementLiteral':'RLiteral'}
def selfcall(n,names=None):
    return isinstance(n,ast.Call) and isinstance(n.func,ast.Attribute) and isinstance(n.func.value,ast.Name) and n.func.value.id=='self' and (names is None or n.func.attr in names)
def isdoc(st):
    return isinstance(st,ast.Expr) and isinstance(st.value,ast.Constant)
def islog(st):
    return isinstance(st,ast.Expr) and isinstance(st.value,ast.Call) and U(st.value.func).startswith('self.logger.')
def logonly(st):
    if islog(st) or isdoc(st): return True
    return isinstance(st,ast.If) and all(map(logonly,st.body+st.orelse))
class Fn:
    def __init__(s,m,sigs,classes,meth=None):
        s.m=m; s.meth=meth; s.sigs=sigs; s.classes=classes
        s.nobj=0
        env={}
        s.bodies={}
        for a,k in zip(m.args.args[1:],sigs[m.name]):
            if k=='E': env[a.arg]=('elem',0)
            elif k=='K': env[a.arg]=('key',)
            elif k=='O': env[a.arg]=('obj',0)
            elif k=='M': env[a.arg]=('method',0,s.meth)
        s.bodies[0]=[]
        s.locals=s.assigned(m.body)
        s.nobj=1
        s.spec=set(); s.names={}; s.depth={}
        d,r=s.block(m.body,env,0)
        s.out=d.get(0,[])
        s.other=[k for k in d if k!=0]
        s.res=r
    def newobj(s,depth):
        i=s.nobj; s.nobj+=1; s.depth[i]=depth; return i
    # -------- expressions
    def elem(s,n,env):
        if isinstance(n,ast.Name):
            v=env.get(n.id)
            if v and v[0]=='elem': return v[1]
            if v and v[0]=='maybe': raise Unk('unguarded find '+n.id)
        raise Unk('elem '+U(n))
    def path(s,n,env):
        if isinstance(n,ast.Constant) and isinstance(n.value,str): return [n.value]
        if isinstance(n,ast.Name):
            v=env.get(n.id)
            if v and v[0]=='key': return [('KEY',)]
            if v and v[0]=='str': return [v[1]]
        if isinstance(n,ast.BinOp) and isinstance(n.op,ast.Mod) and isinstance(n.left,ast.Constant) and isinstance(n.right,ast.Name) and env.get(n.right.id,('',))[0] in('key','str'):
            a=n.left.value.split('%s')
            if len(a)!=2: raise Unk('fmt')
            k=('KEY',) if env[n.right.id][0]=='key' else env[n.right.id][1]
            return [x for x in [a[0],k,a[1]] if x!='']
        if isinstance(n,ast.BinOp) and isinstance(n.op,ast.Add):
            return s.path(n.left,env)+s.path(n.right,env)
        raise Unk('path '+U(n))
    def nspath(s,n):
        t=n.value
        p=[x for x in t.split('/')]
        if p[0]=='.': p=p[1:]
        if all(x.startswith('xmlns:') or x=='*' for x in p): return ['/'.join(x[6:] if x!='*' else x for x in p)]
        raise Unk('nspath '+t)
    def findexpr(s,n,env):
        """find call -> (lvl,path)"""
        if selfcall(n,('find',)): return s.elem(n.args[0],env),s.path(n.args[1],env)
        raise Unk('find '+U(n))
    def vexp(s,n,env,depth):
        if isinstance(n,ast.Constant) and n.value is None: return ('none',)
        if isinstance(n,ast.Name):
            v=env.get(n.id)
            if v is None and n.id in s.locals: return ('unbound',)
            if v is None: raise Unk('unbound '+n.id)
            if v[0]=='obj':
                if v[1]==0: return ('selfobj',)
                return ('newref',v[1])
            if v[0]=='none': return ('none',)
            if v[0]=='val': return v[1]
            if v[0]=='tagname': return ('tagname',v[1])
            raise Unk('vexp name %s %s'%(n.id,v))
        if selfcall(n):
            f=n.func.attr
            if f in LEAFR: return ('leaf',LEAFR[f],s.elem(n.args[0],env),s.path(n.args[1],env))
            if f in LEAFL: return ('leaflist',LEAFL[f],s.elem(n.args[0],env),s.path(n.args[1],env))
            if f in LEAFQ: return ('leafreq',LEAFQ[f],s.elem(n.args[1],env),s.path(n.args[2],env))
            if f=='getShortName': return ('shortname',s.elem(n.args[0],env))
            if f=='readElementOptionalAttrib': return ('attr',s.elem(n.args[0],env),n.args[1].value)
            if f in s.sigs:
                sg=s.sigs[f]
                if len(sg)!=len(n.args): raise Unk('arity '+U(n))
                l=None;k=('none',);o=None;mb=None
                for a,x in zip(n.args,sg):
                    if x=='E':
                        if isinstance(a,ast.Call): mb=s.findexpr(a,env); l=depth+1
                        elif isinstance(a,ast.Name) and env.get(a.id,('',))[0]=='maybe': mb=env[a.id][1:]; l=depth+1
                        else: l=s.elem(a,env)
                    elif x=='K': k=s.tagarg(a,env)
                    elif x=='O': o=a
                if o is None: r=('get',f,k,l)
                else:
                    # readX(elem,Cls()) / readX(elem,v) returning the object
                    if isinstance(o,ast.Constant) and o.value is None: r=('get',f,k,l)
                    elif isinstance(o,ast.Call) and isinstance(o.func,ast.Name) and not o.args:
                        if o.func.id in env and env[o.func.id][0]=='clsconst': o=ast.Call(func=ast.Name(id=env[o.func.id][1]),args=[],keywords=[])
                        i=s.newobj(depth); s.bodies[i]=[('call',f,k,l)]; s.names[i]=(s.cls(o.func.id),None)
                        r=('newref',i)
                    elif isinstance(o,ast.Name) and env.get(o.id,('',))[0]=='obj':
                        r=('getobj',f,k,l,env[o.id][1])
                    else: raise Unk('object arg '+U(n))
                if mb is not None: return ('gfind',mb[0],mb[1],r,('callnone',f))
                return r
            return ('noattr',)
        if isinstance(n,ast.Call) and isinstance(n.func,ast.Attribute) and n.func.attr=='getValue' and isinstance(n.func.value,ast.Name) and env.get(n.func.value.id,('',))[0]=='val':
            return ('valueof',env[n.func.value.id][1])
        # Cls().setValue(x)
        if isinstance(n,ast.Call) and isinstance(n.func,ast.Attribute) and n.func.attr.startswith('set') and isinstance(n.func.value,ast.Call) and isinstance(n.func.value.func,ast.Name) and not n.func.value.args and len(n.args)==1:
            c=s.cls(n.func.value.func.id)
            a=n.args[0]
            if isinstance(a,ast.Call) and isinstance(a.func,ast.Attribute) and a.func.attr=='getValue' and isinstance(a.func.value,ast.Name) and env.get(a.func.value.id,('',))[0]=='val':
                return ('wrap',c,n.func.attr,('valueof',env[a.func.value.id][1]))
            return ('wrap',c,n.func.attr,s.vexp(a,env,depth))
        if isinstance(n,ast.Attribute) and n.attr=='text': return ('text',s.elem(n.value,env))
        if isinstance(n,ast.BoolOp) and isinstance(n.op,ast.Or) and len(n.values)==2 and isinstance(n.values[0],ast.Attribute) and n.values[0].attr=='text' and isinstance(n.values[1],ast.Constant) and n.values[1].value=='':
            return ('textor',s.elem(n.values[0].value,env))
        if isinstance(n,ast.BoolOp) and isinstance(n.op,ast.Or) and len(n.values)==2:
            a,b=s.vexp(n.values[0],env,depth),s.vexp(n.values[1],env,depth)
            return ('or',a,b)
        if isinstance(n,ast.Subscript) and isinstance(n.value,ast.Attribute) and n.value.attr=='attrib': return ('attr',s.elem(n.value.value,env),n.slice.value)
        if isinstance(n,ast.Call) and isinstance(n.func,ast.Attribute) and (n.func.attr=='get') and len(n.args)==1 and isinstance(n.args[0],ast.Constant):
            b=n.func.value
            if isinstance(b,ast.Attribute) and b.attr=='attrib': b=b.value
            return ('attr',s.elem(b,env),n.args[0].value)
        if isinstance(n,ast.Call) and isinstance(n.func,ast.Name) and n.func.id in s.classes:
            i=s.newobj(depth); s.bodies[i]=[]; s.names[i]=s.ctor(n,env); return ('newref',i)
        if isinstance(n,ast.List) and not n.elts:
            i=s.newobj(depth); s.bodies[i]=[]; s.names[i]=('[]',None); return ('newref',i)
        raise Unk('vexp '+U(n))
    def cls(s,c):
        if c not in s.classes: raise Unk('class '+c)
        return c
    def ctor(s,n,env):
        c=s.cls(n.func.id)
        if not n.args: return (c,None)
        if len(n.args)==2:
            a=n.args[1]
            if selfcall(a,('getShortName',)): return (c,s.elem(a.args[0],env))
            if isinstance(a,ast.Name) and env.get(a.id,('',))[0]=='val' and env[a.id][1][0]=='shortname': return (c,env[a.id][1][1])
        raise Unk('ctor '+U(n))
    def tagarg(s,n,env):
        if isinstance(n,ast.Constant) and isinstance(n.value,str): return ('lit',n.value)
        if isinstance(n,ast.Name) and env.get(n.id,('',))[0]=='key': return ('key',)
        if isinstance(n,ast.Name) and env.get(n.id,('',))[0]=='tagname': return ('tagname',env[n.id][1])
        if selfcall(n,('getTagName',)): return ('tagname',s.elem(n.args[0],env))
        raise Unk('tagarg '+U(n))
    def objref(s,n,env):
        """object expression being mutated: returns (objid, [sub getters])"""
        if isinstance(n,ast.Name):
            v=env.get(n.id)
            if v and v[0]=='obj': return v[1],[]
            if v and v[0]=='objsub': return v[1],v[2]
            raise Unk('objref %s %s'%(n.id,v))
        if isinstance(n,ast.Call) and isinstance(n.func,ast.Attribute) and not n.args:
            i,p=s.objref(n.func.value,env); return i,p+[n.func.attr]
        if isinstance(n,ast.Attribute):
            i,p=s.objref(n.value,env); return i,p+['.'+n.attr]
        raise Unk('objref '+U(n))
    # -------- statements
    def block(s,stmts,env,depth,inloop=False):
        out=collections.OrderedDict(); local=set()
        def emit(o,ins,sub=()):
            # x.a = C(); x.a.setValue(v), next to each other: the new object is given its value
            if ins[:2]==('put','setValue') and sub and sub[-1][0]=='.':
                done=s.bodies[o] if o in local else out.get(o,[])
                last=done[-1] if done else None
                for g in sub[:-1]: last=last[2][0] if last and last[:2]==('sub',g) else None
                if last and last[:2]==('setattr',sub[-1][1:]) and last[2][0]=='newref' and not s.bodies[last[2][1]]:
                    s.bodies[last[2][1]].append(ins); return
            for g in reversed(sub): ins=('sub',g,[ins])
            if o in local: s.bodies[o].append(ins)
            else: out.setdefault(o,[]).append(ins)
        def mk(c,name):
            i=s.newobj(depth); s.bodies[i]=[]; s.names[i]=(c,name); local.add(i); return i
        def adopt(v):
            """objects created inside an expression belong to this block"""
            if isinstance(v,tuple):
                if v and v[0]=='newref': local.add(v[1])
                for x in v: adopt(x)
            return v
        def branch(mkins,variants):
            """variants: list of (env,depth,stmts); returns list of (dict,res)"""
        k=0
        while k<len(stmts):
            st=stmts[k]; k+=1
            if isdoc(st) or logonly(st) or isinstance(st,ast.Pass): continue
            if isinstance(st,ast.Return):
                if st.value is None: return out,('ret',('none',))
                v=adopt(s.vexp(st.value,env,depth))
                return out,('ret',v)
            if isinstance(st,ast.Continue):
                return out,('cont',)
            if isinstance(st,(ast.Assign,ast.AnnAssign)):
                tg=st.targets[0] if isinstance(st,ast.Assign) else st.target
                v=st.value
                if isinstance(tg,ast.Attribute):
                    o,sub=s.objref(tg.value,env)
                    emit(o,('setattr',tg.attr,adopt(s.vexp(v,env,depth))),sub); continue
                if not isinstance(tg,ast.Name): raise Unk('assign '+U(st))
                x=tg.id
                if isinstance(v,ast.Constant) and v.value is None: env[x]=('none',); continue
                if isinstance(v,ast.Constant) and isinstance(v.value,bool): env[x]=('bool',v.value); continue
                if isinstance(v,ast.List) and not v.elts: env[x]=('obj',mk('[]',None)); continue
                if isinstance(v,ast.List): env[x]=('pylist',v); continue
                # x = x.addY(v): the adder returns self
                if isinstance(v,ast.Call) and isinstance(v.func,ast.Attribute) and isinstance(v.func.value,ast.Name) and v.func.value.id==x and v.func.attr.startswith('add') and env.get(x,('',))[0]=='obj':
                    emit(env[x][1],('put',v.func.attr,adopt(s.vexp(v.args[0],env,depth)))); continue
                if isinstance(v,ast.Call) and U(v.func)=='VALUE_ACCESS_TAG_TO_CLASS.get':
                    env[x]=('clsmap',env[v.args[0].id][1]); continue
                if selfcall(v,('find',)) and k<len(stmts) and isinstance(stmts[k],ast.Assign) and x in s.used([stmts[k]]) and not selfcall(stmts[k].value,('find','findall')) and not(selfcall(stmts[k].value) and stmts[k].value.func.attr in s.sigs):
                    # unguarded use of the result: AttributeError when nothing is found
                    env[x]=('maybe',s.elem(v.args[0],env),s.path(v.args[1],env))
                    g=ast.parse('if %s is not None:\n  pass\nelse:\n  self.noSuchMethod()'%x).body[0]
                    g.body=stmts[k:]; stmts=stmts[:k]+[g]; continue
                if selfcall(v,('find',)):
                    env[x]=('maybe',s.elem(v.args[0],env),s.path(v.args[1],env)); continue
                if selfcall(v,('findall',)):
                    env[x]=('elems',s.elem(v.args[0],env),s.path(v.args[1],env)); continue
                if isinstance(v,ast.Call) and isinstance(v.func,ast.Attribute) and v.func.attr=='findall' and len(v.args)==2:
                    env[x]=('elems',s.elem(v.func.value,env),s.nspath(v.args[0])); continue
                if selfcall(v,('getTagName',)): env[x]=('tagname',s.elem(v.args[0],env)); continue
                if isinstance(v,ast.Call) and isinstance(v.func,ast.Name) and v.func.id in s.classes:
                    c,nm=s.ctor(v,env); env[x]=('obj',mk(c,nm)); continue
                if U(v)=='AUTOSAR.getInstance()': env[x]=('document',); continue
                if isinstance(v,ast.Call) and isinstance(v.func,ast.Attribute) and not selfcall(v) and (v.func.attr.startswith('create') or v.func.attr.startswith('read')):
                    o,sub=s.objref(v.func.value,env)
                    if v.args:
                        a=v.args[0]
                        nm=s.vexp(a,env,depth)
                        if nm[0]!='shortname': raise Unk('creator name '+U(v))
                        nm=nm[1]
                    else: nm=None
                    i=mk('?',nm); env[x]=('obj',i)
                    emit(o,('create',v.func.attr,nm,i),sub); continue
                if isinstance(v,ast.Call) and isinstance(v.func,ast.Name) and env.get(v.func.id,('',))[0]=='method':
                    _,o,mn=env[v.func.id]
                    nm=s.vexp(v.args[0],env,depth)
                    i=mk('?',nm[1]); env[x]=('obj',i)
                    emit(o,('create',mn,nm[1],i)); continue
                if isinstance(v,ast.Call) and isinstance(v.func,ast.Attribute) and not selfcall(v) and not v.args and isinstance(v.func.value,ast.Name) and env.get(v.func.value.id,('',))[0]=='obj':
                    o,sub=s.objref(v,env); env[x]=('objsub',o,sub); continue
                if isinstance(v,ast.Name) and env.get(v.id,('',))[0] in('obj','val','none'): env[x]=env[v.id]; continue
                vv=adopt(s.vexp(v,env,depth))
                if vv[0]=='newref': env[x]=('obj',vv[1])
                else: env[x]=('val',vv)
                continue
            if isinstance(st,ast.Expr) and isinstance(st.value,ast.Call):
                c=st.value
                if selfcall(c):
                    f=c.func.attr
                    if f in('notImplemented','raiseError','raiseWarning'):
                        emit(0,({'notImplemented':'notimpl','raiseError':'raise','raiseWarning':'nop'}[f],)); continue
                    if f=='readARObjectAttributes':
                        o,sub=s.objref(c.args[1],env); emit(o,('attrs',s.elem(c.args[0],env)),sub); continue
                    if f in s.sigs:
                        sg=s.sigs[f]
                        if len(sg)!=len(c.args): raise Unk('arity '+U(c))
                        l=None;kk=('none',);o=None;sub=[]; mb=None; meth=None
                        for a,x in zip(c.args,sg):
                            if x=='E':
                                if isinstance(a,ast.Name) and env.get(a.id,('',))[0]=='maybe': mb=env[a.id]; l=depth+1
                                else: l=s.elem(a,env)
                            elif x=='K': kk=s.tagarg(a,env)
                            elif x=='M':
                                o2,_=s.objref(a.value,env); meth=a.attr
                            elif x=='O':
                                if isinstance(a,ast.Call) and isinstance(a.func,ast.Attribute) and a.func.attr.startswith('create') and len(a.args)==1:
                                    p,sub=s.objref(a.func.value,env)
                                    nm=s.vexp(a.args[0],env,depth)
                                    if nm[0]!='shortname': raise Unk('creator name')
                                    o=mk('?',nm[1]); emit(p,('create',a.func.attr,nm[1],o),sub); sub=[]
                                else: o,sub=s.objref(a,env)
                        ins=('call',f if meth is None else f+':'+meth,kk,l)
                        if meth is not None: s.spec.add((f,meth))
                        if mb: raise Unk('maybe elem call '+U(c))
                        if o is None: raise Unk('no object '+U(c))
                        emit(o,ins,sub); continue
                    emit(0,('noattr',)); continue
                if isinstance(c.func,ast.Attribute):
                    b=c.func.value
                    if isinstance(b,ast.Name) and env.get(b.id,('',))[0]=='document':
                        emit(0,('document',c.func.attr)); continue
                    o,sub=s.objref(b,env); mname=c.func.attr
                    if mname.startswith('create') and len(c.args)==1:
                        nm=s.vexp(c.args[0],env,depth)
                        if nm[0]!='shortname': raise Unk('creator name')
                        emit(o,('create',mname,nm[1],None),sub); continue
                    if len(c.args)==1:
                        emit(o,('put',mname,adopt(s.vexp(c.args[0],env,depth))),sub); continue
                if isinstance(c.func,ast.Name) and env.get(c.func.id,('',))[0]=='method' and len(c.args)==1:
                    _,o,mn=env[c.func.id]
                    emit(o,('put',mn,adopt(s.vexp(c.args[0],env,depth)))); continue
                raise Unk('expr '+U(st))
            if isinstance(st,ast.For) and isinstance(st.target,ast.Name):
                it=st.iter; x=st.target.id
                head=None
                if selfcall(it,('findall',)): head=('for',s.elem(it.args[0],env),s.path(it.args[1],env))
                elif isinstance(it,ast.Name) and env.get(it.id,('',))[0]=='elems': head=('for',)+env[it.id][1:]
                elif isinstance(it,ast.Name) and env.get(it.id,('',))[0]=='elem': head=('for',env[it.id][1],['*'])
                elif isinstance(it,ast.Call) and isinstance(it.func,ast.Attribute) and it.func.attr=='findall' and len(it.args)==2:
                    head=('for',s.elem(it.func.value,env),s.nspath(it.args[0]))
                e1=dict(env)
                if head:
                    e1[x]=('elem',depth+1)
                    carried=(s.assigned(st.body)-{x})&s.used(stmts[k:])
                    if carried:
                        # variable set in the loop and used after it: the last assignment counts
                        if len(carried)>1 or env.get(list(carried)[0])!=('none',): raise Unk('loop variable '+str(carried))
                        y=list(carried)[0]
                        if y in s.used(st.body): raise Unk('loop variable '+y)
                        d,r=s.block(list(st.body)+[ast.Return(value=ast.Name(id=y,ctx=ast.Load()))],e1,depth+1,False)
                        for o,l in d.items(): emit(o,head+(l,))
                        env[y]=('val',('last',head[1],head[2],r[1])); env[x]=('dead',)
                        continue
                    d,r=s.block(st.body,e1,depth+1,True)
                    if r and r[0]=='ret': raise Unk('return in loop')
                    for o,l in d.items(): emit(o,head+(l,))
                else:
                    v=adopt(s.vexp(it,env,depth))
                    if v[0] not in('leaflist','get'): raise Unk('for over '+U(it))
                    e1[x]=('val',('item',))
                    d,r=s.block(st.body,e1,depth,True)
                    for o,l in d.items(): emit(o,('forval',v,l))
                for y in env:
                    if y in e1 and e1[y]!=env[y] : env[y]=('dead',)
                env[x]=('dead',)
                continue
            if isinstance(st,ast.For) and isinstance(st.target,ast.Tuple) and U(st.iter).endswith('_XML_MAP.items()'):
                i=st.body[0]
                a=i.test.comparators[0]
                env[i.body[0].targets[0].id]=('val',('unmap',s.elem(a.value.value,env),a.slice.value,U(st.iter)[:-8]))
                continue
            if isinstance(st,ast.For) and isinstance(st.target,ast.Tuple):
                it=st.iter
                if isinstance(it,ast.Name) and env.get(it.id,('',))[0]=='pylist': it=env[it.id][1]
                if isinstance(it,(ast.Tuple,ast.List)):
                    rest=[]
                    for el in it.elts:
                        e1=dict(env)
                        for t,v in zip(st.target.elts,el.elts):
                            if isinstance(v,ast.Constant): e1[t.id]=('str',v.value)
                            elif isinstance(v,ast.Attribute):
                                o,sub=s.objref(v.value,env)
                                if sub: raise Unk('sub method')
                                e1[t.id]=('method',o,v.attr)
                            elif isinstance(v,ast.Name): e1[t.id]=('clsname',v.id)
                            else: raise Unk('tuple '+U(v))
                        d,r=s.block(st.body,e1,depth,True)
                        if r: raise Unk('return in loop')
                        for o,l in d.items():
                            for i in l: emit(o,i)
                    continue
                raise Unk('for tuple '+U(st.iter))
            if isinstance(st,ast.Try):
                if all(isinstance(x,ast.ExceptHandler) for x in st.handlers) and 'document' in U(st.body[0]):
                    stmts=stmts[:k]+st.body+stmts[k:]; continue   # document tables are outside this model
            if isinstance(st,ast.If) and isinstance(st.test,ast.BoolOp) and isinstance(st.test.op,ast.And) and not st.orelse and len(st.test.values)==2 and isinstance(st.test.values[0],ast.Compare) and isinstance(st.test.values[0].left,ast.Name) and env.get(st.test.values[0].left.id,('',))[0]=='maybe':
                inner=ast.If(test=st.test.values[1],body=st.body,orelse=[])
                st=ast.If(test=st.test.values[0],body=[inner],orelse=[])
            if isinstance(st,ast.If):
                rest=stmts[k:]
                if isinstance(st.test,ast.Compare) and isinstance(st.test.left,ast.Name) and env.get(st.test.left.id,('',))[0]=='clsmap':
                    x=st.test.left.id; lv=env[x][1]
                    def chain(l):
                        if not l: return s.block(st.orelse,dict(env),depth,inloop)[0]
                        e1=dict(env); e1[x]=('clsconst',l[0][1])
                        da=s.block(st.body,e1,depth,inloop)[0]; db=chain(l[1:])
                        return collections.OrderedDict((o,[('if',('tageq',lv,l[0][0]),da.get(o,[]),db.get(o,[]))]) for o in list(da)+[z for z in db if z not in da])
                    for o,l in chain(s.clsmap).items():
                        for i in l: emit(o,i)
                    continue
                # the map lookups: for camel, token in MAP.items(): if token == e.attrib[a]: x = camel; break
                conds=s.cond(st.test,env,depth)
                # conds: (instr-maker, then-env-updates, depth+)
                kind=conds[0]
                e1=dict(env); e2=dict(env); d1depth=depth
                if kind=='true': st_t,st_e=st.body,None
                if kind=='const':
                    b=st.body if conds[1] else st.orelse
                    return_rest=b+rest
                    d,r=s.block(return_rest,env,depth,inloop)
                    for o,l in d.items():
                        for i in l: emit(o,i)
                    return out,r
                if kind=='find':
                    (_,var,lvl,path,pos)=conds
                    d1depth=depth+1
                    (e1 if pos else e2)[var]=('elem',depth+1)
                    (e2 if pos else e1)[var]=('none',)
                a1=s.assigned(st.body); a2=s.assigned(st.orelse)
                used=s.used(rest)
                need=bool((a1|a2)&used) or s.jumps(st.body) or s.jumps(st.orelse)
                b1=list(st.body); b2=list(st.orelse)
                if need: b1=b1+rest; b2=b2+rest
                if kind=='find':
                    pos=conds[4]
                    da,ra=s.block(b1,e1,depth+1 if pos else depth,inloop)
                    db,rb=s.block(b2,e2,depth if pos else depth+1,inloop)
                    if not pos: da,ra,db,rb=db,rb,da,ra
                    w=lambda x,y:('find',conds[2],conds[3],x,y)
                else:
                    da,ra=s.block(b1,e1,depth,inloop); db,rb=s.block(b2,e2,depth,inloop)
                    w=lambda x,y:('if',conds,x,y)
                for o in list(da)+[z for z in db if z not in da]:
                    emit(o,w(da.get(o,[]),db.get(o,[])))
                if need:
                    if ra is None and rb is None: return out,None
                    if (ra is None or ra[0]=='cont') and (rb is None or rb[0]=='cont'): return out,None
                    f=lambda r: r[1] if r and r[0]=='ret' else ('none',)
                    if kind=='find': return out,('ret',('gfind',conds[2],conds[3],f(ra),f(rb)))
                    return out,('ret',('gif',conds,f(ra),f(rb)))
                continue
            raise Unk('stmt '+type(st).__name__+' '+U(st)[:100])
        return out,None
    def assigned(s,b):
        r=set()
        for x in b:
            for y in ast.walk(x):
                if isinstance(y,ast.Name) and isinstance(y.ctx,ast.Store): r.add(y.id)
        return r
    def used(s,b):
        """names read before being assigned again"""
        def names(e): return {y.id for y in ast.walk(e) if isinstance(y,ast.Name) and isinstance(y.ctx,ast.Load)} if e is not None else set()
        def live(b,killed):
            r=set(); killed=set(killed)
            for x in b:
                if isinstance(x,ast.Assign):
                    r|=names(x.value)-killed
                    for t in x.targets:
                        if isinstance(t,ast.Name): killed.add(t.id)
                        else: r|=names(t)-killed
                elif isinstance(x,ast.For):
                    r|=names(x.iter)-killed
                    t={y.id for y in ast.walk(x.target) if isinstance(y,ast.Name)}
                    r|=live(x.body,killed|t)[0]
                elif isinstance(x,ast.If):
                    r|=names(x.test)-killed
                    r1,k1=live(x.body,killed); r2,k2=live(x.orelse,killed)
                    r|=r1|r2; killed=k1&k2
                else: r|=names(x)-killed
            return r,killed
        return live(b,set())[0]
    def jumps(s,b):
        def j(x):
            if isinstance(x,(ast.Return,ast.Continue)): return True
            if isinstance(x,ast.For): return any(isinstance(y,ast.Return) for y in ast.walk(x))
            if isinstance(x,ast.If): return any(map(j,x.body+x.orelse))
            return False
        return any(map(j,b))
    def cond(s,t,env,depth):
        if isinstance(t,ast.Compare) and len(t.ops)==1:
            c=t.comparators[0]; op=t.ops[0]
            if isinstance(op,(ast.IsNot,ast.Is)) and isinstance(c,ast.Constant) and c.value is None:
                pos=isinstance(op,ast.IsNot)
                if isinstance(t.left,ast.Name):
                    v=env.get(t.left.id)
                    if v is None: raise Unk('unbound '+t.left.id)
                    if v[0]=='maybe': return ('find',t.left.id,v[1],v[2],pos)
                    if v[0]=='elem': return ('const',pos)
                    if v[0]=='none': return ('const',not pos)
                    if v[0]=='val': return ('isome',v[1],pos)
                    if v[0]=='obj' : return ('const',pos)
                    if v[0]=='objsub' : return ('isome',('getter',v[1],v[2]),pos)
                if selfcall(t.left,('find',)):
                    return ('find','',s.elem(t.left.args[0],env),s.path(t.left.args[1],env),pos)
                if isinstance(t.left,ast.Attribute) and t.left.attr=='text': return ('istext',s.elem(t.left.value,env),pos)
                if isinstance(t.left,ast.Call) and isinstance(t.left.func,ast.Attribute) and not selfcall(t.left):
                    o,sub=s.objref(t.left,env); return ('isome',('getter',o,sub),pos)
            if isinstance(op,ast.Eq) and isinstance(c,ast.Constant) and isinstance(c.value,str):
                if isinstance(t.left,ast.Name):
                    v=env.get(t.left.id)
                    if v and v[0]=='tagname': return ('tageq',v[1],c.value)
                    if v and v[0]=='key': return ('keyeq',c.value)
                if selfcall(t.left,('getTagName',)): return ('tageq',s.elem(t.left.args[0],env),c.value)
            if isinstance(op,ast.In) and isinstance(t.left,ast.Constant) and isinstance(c,ast.Attribute) and c.attr=='attrib':
                return ('hasattr',s.elem(c.value,env),t.left.value)
            if isinstance(op,(ast.Eq,ast.Gt)) and isinstance(c,ast.Constant) and c.value==0 and isinstance(t.left,ast.Call) and U(t.left.func)=='len':
                a=t.left.args[0]
                if isinstance(a,ast.Name):
                    v=env.get(a.id)
                    if v and v[0]=='elems': return ('has',v[1],v[2]) if isinstance(op,ast.Gt) else ('neg',('has',v[1],v[2]))
                    if v and v[0]=='val': return ('neg',('isempty',v[1])) if isinstance(op,ast.Gt) else ('isempty',v[1])
                if isinstance(a,ast.Call) and isinstance(a.func,ast.Attribute) and isinstance(a.func.value,ast.Name) and env.get(a.func.value.id,('',))[0]=='obj' and isinstance(op,ast.Gt):
                    return ('newhas',env[a.func.value.id][1],a.func.attr)
        if isinstance(t,ast.Compare) and isinstance(t.ops[0],ast.NotEq) and U(t).endswith(".text.strip() != ''"):
            return ('hasword',s.elem(t.left.func.value.value,env))
        if isinstance(t,ast.BoolOp) and isinstance(t.op,ast.Or):
            cs=[s.cond(x,env,depth) for x in t.values]
            return ('or',[('has',c[2],c[3]) if c[0]=='find' and c[4] else c for c in cs])
        if isinstance(t,ast.Call) and U(t.func)=='isinstance' and isinstance(t.args[0],ast.Name) and env.get(t.args[0].id)==('obj',0):
            return ('inst',t.args[1].id)
        if isinstance(t,ast.Name) and env.get(t.id,('',))[0]=='bool': return ('const',env[t.id][1])
        if isinstance(t,ast.BoolOp) and isinstance(t.op,ast.And):
            cs=[s.cond(x,env,depth) for x in t.values]
            if any(c[0] in('find','const') for c in cs): raise Unk('and find')
            return ('and',cs)
        m=re.match(r"^(\w+)\.text is not None and \1\.text\.strip\(\) != ''$",U(t))
        raise Unk('cond '+U(t))
def load():
    t=ast.parse(open(SRC).read())
    for x in t.body:
        if isinstance(x,ast.Assign) and U(x.targets[0])=='VALUE_ACCESS_TAG_TO_CLASS': Fn.clsmap=[(k.value,v.id) for k,v in zip(x.value.keys,x.value.values)]
    cls=[c for c in t.body if isinstance(c,ast.ClassDef)][0]
    ms=[m for m in cls.body if isinstance(m,ast.FunctionDef)]
    classes=set()
    for x in t.body:
        if isinstance(x,ast.ImportFrom):
            for a in x.names: classes.add(a.asname or a.name)
    sigs={}
    for m in ms:
        ks=[]
        for i,x in enumerate(m.args.args[1:]):
            an=U(x.annotation) if x.annotation else ''
            if i==0: ks.append('E')
            elif an=='str' or x.arg=='key': ks.append('K')
            elif x.arg=='create': ks.append('M')
            else: ks.append('O')
        sigs[m.name]=ks
    return ms,sigs,classes
if __name__=='__main__':
    ms,sigs,classes=load()
    names=collections.Counter(m.name for m in ms)
    print('dups',[n for n in names if names[n]>1])
    ok=0;bad=[]
    for m in ms:
        try:
            f=Fn(m,sigs,classes); ok+=1
        except Unk as e: bad.append((m.name,m.lineno,str(e)))
        except (AttributeError,IndexError,TypeError) as e:
            bad.append((m.name,m.lineno,repr(e)))
    print(ok,len(bad))
    for b in bad: print(b)
