#!/usr/bin/env python3
"""Generate rocq/theories/{Access,WriterCode,ReaderCode}.v: the ARXMLWriter and ARXMLParser methods as code
of the small languages of Ir.v, and the accessors of the model classes they use."""
import sys,os,collections,re,ast
sys.dont_write_bytecode=True
HERE=os.path.dirname(os.path.abspath(__file__)); sys.path.insert(0,HERE)
OUT=sys.argv[1] if len(sys.argv)>1 else '/verif/rocq/theories'
import ir_writer,ir_reader,ir_access
import importlib.util,io,contextlib
U=ast.unparse
def q(s): return '"%s"'%s.replace('"','""')
class Bad(Exception): pass
# ------------------------------------------------------------------ writer
WMAPS={}; RMAPS={}
def maps(src,M):
    for x in ast.parse(open(src).read()).body:
        if isinstance(x,ast.Assign) and isinstance(x.value,ast.Dict) and U(x.targets[0]).endswith('_XML_MAP'):
            M[U(x.targets[0])]=[(k.value,v.value) for k,v in zip(x.value.keys,x.value.values)]
maps(ir_writer.SRC,WMAPS); maps(ir_reader.SRC,RMAPS)
assert WMAPS==RMAPS
MAPNAME={k:k.lower() for k in WMAPS}
used_get=set(); used_attr=set()
def gp(lvl,l,p):
    if l!=lvl: raise Bad('outer object')
    for a,b in p: (used_get if a=='M' else used_attr).add(b)
    return '[%s]'%'; '.join('%s %s'%('GM' if a=='M' else 'GA',q(b)) for a,b in p)
def wtag(t): return {'lit':lambda:'(TLit %s)'%q(t[1]),'key':lambda:'TKey'}[t[0]]()
def wcond(c,lvl):
    k=c[0]
    if k=='some': return '(CSome %s)'%gp(lvl,c[1],c[2])
    if k=='nonempty': return '(CNonEmpty %s)'%gp(lvl,c[1],c[2])
    if k=='true': return '(CTruthy %s)'%gp(lvl,c[1],c[2])
    if k=='inst': return '(CInst %s [%s])'%(gp(lvl,c[1],c[2]),'; '.join(map(q,c[3])))
    if k=='not': return '(CNot %s)'%wcond(c[1],lvl)
    if k=='type': return '(CType %s %s)'%(gp(lvl,c[1],c[2]),q(c[3]))
    if k=='and':
        r=wcond(c[1][-1],lvl)
        for x in reversed(c[1][:-1]): r='(CAnd %s %s)'%(wcond(x,lvl),r)
        return r
    raise Bad(k)
def wl(l,lvl,ind):
    if not l: return '[]'
    pad='\n'+' '*ind
    return '['+(';'+pad+' ').join(w1(i,lvl,ind+1) for i in l)+']'
def w1(i,lvl,ind):
    k=i[0]
    if k=='attrs': return 'WAttrs %s'%gp(lvl,i[1],i[2])
    if k=='shortname': return 'WShort %s'%gp(lvl,i[1],i[2])
    if k=='leaf': return 'WLeaf %s %s %s'%(i[1],wtag(i[2]),gp(lvl,i[3],i[4]))
    if k=='call':
        return 'WCall %s %s %s'%(q(i[1]),'None' if i[2][0]=='none' else '(Some %s)'%wtag(i[2]),gp(lvl,i[3],i[4]))
    if k=='sub':
        b=wl(i[2],lvl,ind+2); nl='\n'+' '*(ind+2)
        return 'WSub %s%s%s'%(wtag(i[1]),nl if b!='[]' else ' ',b)
    if k=='if':
        nl='\n'+' '*(ind+2)
        return 'WIf %s%s%s%s%s'%(wcond(i[1],lvl),nl,wl(i[2],lvl,ind+2),nl,wl(i[3],lvl,ind+2))
    if k=='for':
        nl='\n'+' '*(ind+2)
        return 'WFor %s%s%s'%(gp(lvl,i[1],i[2]),nl,wl(i[3],lvl+1,ind+2))
    if k=='xattr': return 'WXAttr %s %s'%(q(i[1]),gp(lvl,i[2],i[3]))
    if k=='xattrc': return 'WXConst %s %s'%(q(i[1]),q(i[2]))
    if k=='xattrmap': return 'WXMap %s %s %s'%(q(i[1]),MAPNAME[i[2]],gp(lvl,i[3],i[4]))
    if k=='text': return 'WSetText %s'%gp(lvl,i[1],i[2])
    if k=='notimpl': return 'WFail NotImplementedError true'
    if k=='softerr': return 'WFail ValueError true'
    if k=='raise': return 'WFail ValueError false'
    if k=='noattr': return 'WFail AttributeError false'
    raise Bad('instr '+k)
ms,sigs,dfl=ir_writer.load()
WF=collections.OrderedDict(); wunk=[]
for m in ms:
    if m.name in('__init__','save','setShortName') or m.name in ir_writer.LEAFW: continue
    try:
        if sigs[m.name].count('O')!=1 or sigs[m.name].count('E')!=1: raise Bad('sig')
        f=ir_writer.Fn(m,sigs,dfl)
        l=[]
        for e,x in f.body.items():
            if e not in(0,'cur'): raise Bad('element')
            l+=x
        WF[m.name]=(m.lineno,m.end_lineno,wl(l,0,2))
    except (Bad,ir_writer.Unk) as e:
        wunk.append((m.name,m.lineno,str(e))); WF[m.name]=(m.lineno,m.end_lineno,'[WUnknown]')
hdr='''(** Generated by tools/gen_ir.py from /repo/src/armodel/%s.
    One definition per method of %s, in source order, in the language of Ir.v; the comment gives the
    lines.  Methods outside the language are %s:
%s
*)
From Coq Require Import String List.
From Verif Require Import PyBase Leaf Ir.
Import ListNotations.
Open Scope string_scope.
'''
o=[hdr%('writer/arxml_writer.py','ARXMLWriter','[WUnknown]','\n'.join('      %d %s'%(b,a) for a,b,c in wunk) or '      (none)')]
for n,(a,b,t) in WF.items():
    o.append('(** arxml_writer.py:%d-%d *)\nDefinition w_%s : list wi :=\n  %s.'%(a,b,n,t))
o.append('Definition wfuns : list (string * list wi) := [\n'+';\n'.join('  (%s, w_%s)'%(q(n),n) for n in WF)+'].')
open(os.path.join(OUT,'WriterCode.v'),'w').write('\n'.join(o)+'\n')
# ------------------------------------------------------------------ reader
_cl=ir_access.load_classes(); WMRO={c:ir_access.mro(_cl,c) for c in _cl}
used_put=set(); used_new=set()
rms,rsigs,rcl=ir_reader.load()
RF=collections.OrderedDict(); runk=[]
def rpath(p):
    if p==[('KEY',)]: return 'PKey'
    if all(isinstance(x,str) for x in p): return '(PLit %s)'%q(''.join(p))
    if p[0]==('KEY',) and all(isinstance(x,str) for x in p[1:]): return '(PKeyThen %s)'%q(''.join(p[1:]))
    raise Bad('path %s'%p)
class RP:
    def __init__(s,f,allf): s.f=f; s.allf=allf
    def lv(s,l,d):
        if l!=d: raise Bad('outer element')
    def tag(s,t,d):
        if t[0]=='lit': return '(Some (TLit %s))'%q(t[1])
        if t[0]=='key': return '(Some TKey)'
        if t[0]=='tagname': s.lv(t[1],d); return '(Some TOwn)'
        return 'None'
    def cond(s,c,d):
        k=c[0]
        if k=='tageq': s.lv(c[1],d); return '(CTag %s)'%q(c[2])
        if k=='keyeq': return '(CKeyIs %s)'%q(c[1])
        if k=='hasattr': s.lv(c[1],d); return '(CHasAttr %s)'%q(c[2])
        if k=='istext': s.lv(c[1],d); return '(CHasText)' if c[2] else '(CNeg CHasText)'
        if k=='hasword': s.lv(c[1],d); return 'CHasWord'
        if k=='has': s.lv(c[1],d); return '(CAt %s CTrue)'%rpath(c[2])
        if k=='at': s.lv(c[1],d); return '(CAt %s %s)'%(rpath(c[2]),s.cond(c[3],d+1))
        if k=='isempty': return '(CEmpty %s)'%s.v(c[1],d)
        if k=='isome':
            if c[1][0]=='getter':
                if c[1][1]!=0: raise Bad('getter on new object')
                for g in c[1][2]: used_get.add(g)
                r='(CObjHas [%s])'%'; '.join(s.gs(g) for g in c[1][2])
            else: r='(CGot %s)'%s.v(c[1],d)
            return r if c[2] else '(CNeg %s)'%r
        if k=='inst': return '(CIsA %s)'%q(c[1])
        if k=='neg': return '(CNeg %s)'%s.cond(c[1],d)
        if k in('and','or'):
            r=s.cond(c[1][-1],d)
            for x in reversed(c[1][:-1]): r='(%s %s %s)'%('CBoth' if k=='and' else 'CEither',s.cond(x,d),r)
            return r
        raise Bad('cond '+k)
    def gs(s,g):
        if g.startswith('.'): used_attr.add(g[1:]); return 'GA %s'%q(g[1:])
        used_get.add(g); return 'GM %s'%q(g)
    def new(s,i,d,ind):
        c,n=s.f.names[i]
        if s.f.depth[i]!=d: raise Bad('object created outside the block')
        if n is not None: s.lv(n,d)
        if c=='[]': return '(VListX %s)'%s.l(s.f.bodies[i],d,ind)
        return '(VNewX %s %s %s)'%(q(c),'true' if n is not None else 'false',s.l(s.f.bodies[i],d,ind))
    def v(s,x,d,ind=4):
        k=x[0]
        if k in('none',): return 'VNoneX'
        if k in('leaf','leafreq','leaflist'):
            s.lv(x[2],d); return '(%s %s %s)'%({'leaf':'VLeafX','leafreq':'VReqX','leaflist':'VLeafsX'}[k],x[1],rpath(x[3]))
        if k=='text': s.lv(x[1],d); return 'VTextX'
        if k=='textor': s.lv(x[1],d); return 'VTextOrX'
        if k=='attr': s.lv(x[1],d); return '(VAttrX %s)'%q(x[2])
        if k=='unmap': s.lv(x[1],d); return '(VUnmapX %s %s)'%(q(x[2]),MAPNAME[x[3]])
        if k=='shortname': s.lv(x[1],d); return 'VNameX'
        if k=='tagname': s.lv(x[1],d); return 'VTagX'
        if k=='wrap':
            return '(VWrapX %s %s %s)'%(q(x[1]),q(x[2]),s.v(x[3],d))
        if k=='valueof': return '(VValueX %s)'%s.v(x[1],d)
        if k=='newref':
            c,n=s.f.names[x[1]]; b=s.f.bodies[x[1]]
            if s.f.depth[x[1]]==d and n is None and len(b)==1 and b[0][:2]==('put','setValue') and c!='[]' and 'ARType' in WMRO.get(c,[]):
                return s.v(('wrap',c,'setValue',b[0][2]),d)
            return s.new(x[1],d,ind+1)
        if k=='get':
            s.lv(x[3],d); return '(VGetX %s %s)'%(q(x[1]),s.tag(x[2],d))
        if k=='getobj':
            g=s.allf.get(x[1])
            if g is None: raise Bad('calls untranslated '+x[1])
            if g.out or (g.res and g.res[1]==('selfobj',)): raise Bad('object result of '+x[1])
            s.lv(x[3],d); return '(VGetX %s %s)'%(q(x[1]),s.tag(x[2],d))
        if k=='gfind':
            s.lv(x[1],d)
            if min(s.levels(x[3],d+1))<=d: return s.v(s.lowerv(x[3],d,x[2],x[4]),d,ind)
            return '(VFindX %s %s %s)'%(rpath(x[2]),s.v(x[3],d+1,ind+1),s.v(x[4],d,ind+1))
        if k=='last': s.lv(x[1],d); return '(VLastX %s %s)'%(rpath(x[2]),s.v(x[3],d+1,ind+1))
        if k=='gif': return '(VIfX %s %s %s)'%(s.cond(x[1],d),s.v(x[2],d,ind+1),s.v(x[3],d,ind+1))
        if k=='or': return '(VOrX %s %s)'%(s.v(x[1],d),s.v(x[2],d))
        if k=='item': return 'VItemX'
        if k=='callnone': return s.callnone(x[1])
        if k=='noattr': return '(VFailX AttributeError)'
        if k=='unbound': return '(VFailX UnboundLocalError)'
        raise Bad('value '+k)
    # Code in a find block that also uses an element outside the block:
    #   find p [a(outer); b(inner)]  is printed as  if has p [a]; find p [b]
    def levels(s,x,d):
        r=set()
        def go(x):
            if isinstance(x,list):
                for y in x: go(y)
            elif isinstance(x,tuple) and x:
                k=x[0]
                if k in('attrs','text','textor','attr','shortname','tagname','tageq','hasattr','istext','hasword','has','unmap','at'): r.add(x[1])
                if k in('leaf','leafreq','leaflist'): r.add(x[2])
                if k in('call','get','getobj'): r.add(x[3])
                if k in('find','for','gfind','last'): r.add(x[1])
                if k=='create':
                    if x[2] is not None: r.add(x[2])
                    if x[3] is not None: go(s.f.bodies[x[3]])
                if k=='newref':
                    if s.f.names[x[1]][1] is not None: r.add(s.f.names[x[1]][1])
                    go(s.f.bodies[x[1]])
                for y in x[1:]: go(y)
        go(x)
        return r or {d}
    def lower(s,x,d,p):
        lv=s.levels(x,d+1)
        if max(lv)<=d: return [('if',('has',d,p),[x],[])]
        if min(lv)>d: return [('find',d,p,[x],[])]
        if x[0]=='put': return [('put',x[1],s.lowerv(x[2],d,p,('none',)))]
        raise Bad('outer element')
    def lowerv(s,v,d,p,els):
        lv=s.levels(v,d+1)
        if v[0]=='newref' and s.f.names[v[1]][1] is None:
            i=v[1]; l=[]
            for y in s.f.bodies[i]:
                if min(s.levels(y,d+1))>d and l and l[-1][0]=='find' and l[-1][2]==p: l[-1][3].append(y)
                else: l+=s.lower(y,d,p)
            l2=[]
            for y in l:   # attrs of the outer element: the condition holds already
                l2+=y[2] if y[0]=='if' and y[1]==('has',d,p) else [y]
            s.f.bodies[i]=l2; s.f.depth[i]=d
            return ('gif',('has',d,p),v,els)
        if v[0]=='gif' and min(s.levels(v[1],d+1))>d:
            a=s.lowerv(v[2],d,p,els) if v[2]!=('none',) else v[2]
            if a[0]=='gif': a=a[2]
            b=s.lowerv(v[3],d,p,els) if v[3]!=('none',) else v[3]
            return ('gif',('at',d,p,v[1]),a,b)
        raise Bad('outer element')
    def callnone(s,f):
        # the callee is called with None: these callees start with "if element is not None"
        g=s.allf.get(f)
        m=g.m; a=m.args.args[1].arg
        b=[x for x in m.body if not ir_reader.isdoc(x) and not ir_reader.islog(x)]
        txt=[U(x) for x in b]
        for x in b:
            if isinstance(x,ast.If) and U(x.test)=='%s is None'%a and U(x.body[0])=='return None': return 'VNoneX'
            if isinstance(x,ast.If) and U(x.test)=='%s is not None'%a: continue
            if isinstance(x,ast.Assign) and U(x.value)=='None': continue
            if isinstance(x,ast.Return) and (x.value is None or isinstance(x.value,ast.Name)): continue
            raise Bad('call with None of '+f)
        return 'VNoneX'
    def l(s,l,d,ind):
        r=[s.i(x,d,ind+1) for x in l]
        r=[x for x in r if x]
        if not r: return '[]'
        return '['+(';\n'+' '*(ind+1)).join(r)+']'
    def i(s,x,d,ind):
        k=x[0]; nl='\n'+' '*(ind+2)
        if k=='attrs': s.lv(x[1],d); return 'RAttrs'
        if k=='put': used_put.add(x[1]); return 'RPut %s %s'%(q(x[1]),s.v(x[2],d,ind+2))
        if k=='setattr': used_attr.add(x[1]); return 'RSet %s %s'%(q(x[1]),s.v(x[2],d,ind+2))
        if k=='call': s.lv(x[3],d); return 'RCall %s %s'%(q(x[1]),s.tag(x[2],d))
        if k=='create':
            used_new.add(x[1])
            if x[2] is not None: s.lv(x[2],d)
            if x[3] is not None and s.f.depth[x[3]]!=d: raise Bad('created object used outside')
            return 'RCreate %s %s%s%s'%(q(x[1]),'true' if x[2] is not None else 'false',nl,s.l(s.f.bodies[x[3]] if x[3] is not None else [],d,ind+2))
        if k=='find':
            s.lv(x[1],d)
            if min(s.levels(x[3],d+1))<=d:
                l=[]
                for y in x[3]: l+=s.lower(y,d,x[2])
                if x[4]: l.append(('find',d,x[2],[],x[4]))
                return (';\n'+' '*ind).join(z for z in (s.i(y,d,ind) for y in l) if z)
            return 'RFind %s%s%s%s%s'%(rpath(x[2]),nl,s.l(x[3],d+1,ind+2),nl,s.l(x[4],d,ind+2))
        if k=='for':
            s.lv(x[1],d); return 'RFor %s%s%s'%(rpath(x[2]),nl,s.l(x[3],d+1,ind+2))
        if k=='forval':
            return 'RForVal %s%s%s'%(s.v(x[1],d,ind+2),nl,s.l(x[2],d,ind+2))
        if k=='if':
            c=x[1]
            if c[0]=='or' and all(y[0]=='newhas' for y in c[1]):
                i=c[1][0][1]
                assert len(x[2])==1 and not x[3] and x[2][0][0]=='put' and x[2][0][2]==('newref',i)
                for y in c[1]: used_get.add(y[2])
                used_put.add(x[2][0][1])
                return 'RPutAny %s [%s]%s%s'%(q(x[2][0][1]),'; '.join(q(y[2]) for y in c[1]),nl,s.v(x[2][0][2],d,ind+2))
            if not [y for y in x[2]+x[3] if y[0] not in('document','nop')]: return ''
            return 'RIf %s%s%s%s%s'%(s.cond(c,d),nl,s.l(x[2],d,ind+2),nl,s.l(x[3],d,ind+2))
        if k=='sub': return 'RSub (%s) %s'%(s.gs(x[1]),s.l(x[2],d,ind+2))
        if k=='document': return ''
        if k=='nop': return ''
        if k=='notimpl': return 'RFail NotImplementedError true'
        if k=='raise': return 'RFail ValueError true'
        if k=='noattr': return 'RFail AttributeError false'
        raise Bad('instr '+k)
fs=collections.OrderedDict(); spec=set(); err={}
byname={m.name:m for m in rms}
todo=[(m.name,None) for m in rms if m.name not in('__init__','load') and m.name not in ir_reader.LEAFR]
done=set()
while todo:
    n,meth=todo.pop(0)
    if (n,meth) in done: continue
    done.add((n,meth))
    m=byname[n]
    if 'M' in rsigs[n] and meth is None: continue
    key=n if meth is None else n+':'+meth
    try:
        f=ir_reader.Fn(m,rsigs,rcl,meth); fs[key]=f
        for a,b in sorted(f.spec): todo.append((a,b))
        if f.other: raise ir_reader.Unk('assigns to another object')
    except (ir_reader.Unk,AttributeError,IndexError,TypeError) as e:
        fs[key]=None; err[key]=str(e)
for k,f in fs.items():
    m=byname[k.split(':')[0]]
    try:
        if f is None: raise Bad(err[k])
        p=RP(f,fs)
        body=p.l(f.out,0,4)
        res=None
        if f.res and f.res[0]=='ret' and f.res[1]!=('selfobj',): res=p.v(f.res[1],0,4)
        RF[k]=(m.lineno,m.end_lineno,body,res)
    except Bad as e:
        runk.append((k,m.lineno,str(e))); RF[k]=(m.lineno,m.end_lineno,'[RUnknown]','VUnknown')
o=[(hdr%('parser/arxml_parser.py','ARXMLParser','[RUnknown]','\n'.join('      %d %s'%(b,a) for a,b,c in runk) or '      (none)')).replace('in source order, in the','in source order: what it does\n    to its object parameter and the value it returns, in the')]
def cn(k): return k.replace(':','__')
for k,(a,b,t,r) in RF.items():
    o.append('(** arxml_parser.py:%d-%d *)\nDefinition r_%s : list ri * option vx :=\n  (%s,\n   %s).'%(a,b,cn(k),t,'None' if r is None else 'Some '+r))
o.append('Definition rfuns : list (string * (list ri * option vx)) := [\n'+';\n'.join('  (%s, r_%s)'%(q(n),cn(n)) for n in RF)+'].')
open(os.path.join(OUT,'ReaderCode.v'),'w').write('\n'.join(o)+'\n')
print('writer',len(WF),'unknown',wunk)
print('reader',len(RF),'unknown'); 
for x in runk: print('   ',x)
if __name__=='__main__':
    exec(open(os.path.join(HERE,'gen_access.py')).read()) if os.path.exists(os.path.join(HERE,'gen_access.py')) else None
