# executed by gen_ir.py: accessors of the model classes
spec_=importlib.util.spec_from_file_location('gen_creators',os.path.join(HERE,'gen_creators.py'))
with contextlib.redirect_stdout(io.StringIO()):
    gc=importlib.util.module_from_spec(spec_); spec_.loader.exec_module(gc)
cl=ir_access.load_classes()
MRO={c:ir_access.mro(cl,c) for c in cl}
def isa(c,d): return d in MRO[c]
used=used_get|used_put|used_new
SPECIAL={('AbstractAUTOSAR','createARPackage'):('new','ARPackage',True,None,'arPackages',None),
 ('ARPackage','createARPackage'):('new','ARPackage',True,None,'arPackages',None),
 ('ModeSwitchInterface','createModeGroup'):('new','ModeDeclarationGroupPrototype',True,True,None,'modeGroup'),
 ('NmCluster','readUdpNmNode'):('new','UdpNmNode',True,True,'nmNodes',None),
 ('Code','getArtifactDescriptors'):('get','artifactDescriptors'),   # called without argument
 ('ResourceConsumption','getExecutionTimes'):('getf','elements',('AnalyzedExecutionTime','MeasuredExecutionTime','RoughEstimateOfExecutionTime','SimulatedExecutionTime'),True),
 ('CompositeNetworkRepresentation','setNetworkRepresentation'):('set','networkRepresentation',False),
}
for l in ('dataReadAccesses','dataReceivePointByArguments','dataReceivePointByValues','dataSendPoints','dataWriteAccesses','readLocalVariables','writtenLocalVariables'): pass
K=collections.OrderedDict(); other=[]
for c in cl.values():
    for n,m in c.methods.items():
        if n not in used: continue
        k=SPECIAL.get((c.name,n)) or ir_access.parse_method(m)
        b=ir_access.nodoc(m.body)
        if k is None and len(b)==1 and '_createVariableAccess' in U(b[0]):
            k=('new','VariableAccess',True,True,ir_access.selfattr(b[0].value.args[1]),None)
        if k is None and n.startswith('create'):
            g=gc.parse(m)
            if g: k=('new',g['class'],True,g['add'],g['list'],g['attr'])
        if k and k[0]=='newanon': k=('new',k[1],False,False,k[3] if k[2]=='PList' else None,k[3] if k[2]=='PSlot' else None)
        if k is None: other.append((c.name,n,m.lineno)); continue
        K[c.name,n]=k
ATTR=collections.OrderedDict((c,ir_access.attrs_of(cl[c])) for c in cl)
def related(a,b): return isa(a,b) or isa(b,a)
def vname(f,C): return f+'/'+(C if isinstance(C,str) else '+'.join(C))
def sub(D,C): return isa(D,C) if isinstance(C,str) else any(isa(D,x) for x in C)
getters={k:v for k,v in K.items() if v[0] in('get','getsorted','getf') and k[1] in used_get}
virt=collections.defaultdict(dict)   # class -> virtual fields
for (c,n),v in getters.items():
    if v[0]=='getf': virt[c][vname(v[1],v[2])]='list'
report=[]
def readers_of(X,f,D):
    """used getters that return a D created by a method of X and stored in f"""
    r=[]
    for (c,n),v in getters.items():
        if not related(c,X) or v[1]!=f: continue
        if v[0]=='getf':
            if sub(D,v[2]): r.append(((c,n),vname(f,v[2])))
        elif f=='elements' and c in('CollectableElement','Identifiable') and X!='ARPackage': continue
        else: r.append(((c,n),f))
    return r
PLACE={}
for (c,n),v in K.items():
    if v[0]!='new': continue
    D=v[1]; cands=[]
    for pl,f in (('PList',v[4]),('PSlot',v[5]),('PList','elements' if v[3] else None)):
        if f is None: continue
        fields=sorted({x[1] for x in readers_of(c,f,D)},key=lambda x:(-sum(1 for d in cl if '/' in x and sub(d,tuple(x.split('/')[1].split('+')))),x) if '/' in x else (-10**6,x))
        for x in fields: cands.append((pl,x))
    if not cands:
        f=v[4] or v[5] or 'elements'
        PLACE[c,n]=('PList' if f!=v[5] else 'PSlot',f if f!='elements' else 'elements/'+D)
        if f=='elements': virt[c]['elements/'+D]='list'
        report.append(('NOT WRITTEN',c,n,v))
    else:
        PLACE[c,n]=cands[0]
        if len(cands)>1: report.append(('SEVERAL',c,n,v,cands))
# adders / setters with a split field
for (c,n),v in K.items():
    if v[0]=='add':
        g=[x for x,w in getters.items() if w[0]=='getf' and w[1]==v[1] and related(x[0],c)]
        p=[x for x,w in getters.items() if w[0]!='getf' and w[1]==v[1] and related(x[0],c)]
        if g and not p: report.append(('ADD TO SPLIT',c,n,v,g))
    if v[0]=='getf':
        p=[x for x,w in getters.items() if w[0]!='getf' and w[1]==v[1] and related(x[0],c) and v[1]!='elements']
        if p: report.append(('SPLIT AND WHOLE',c,n,v,p))
if '-v' in sys.argv:
    for r in report: print(r)
    print('other',other)
def acc(c,n,v):
    k=v[0]
    if k=='get': return 'AGet %s'%q(v[1])
    if k=='getsorted': return 'AGetSorted %s'%q(v[1])
    if k=='getf': return '%s %s'%('AGetSorted' if v[3] else 'AGet',q(vname(v[1],v[2])))
    if k=='set': return 'ASet %s %s'%(q(v[1]),'true' if v[2] else 'false')
    if k=='add': return 'AAdd %s %s'%(q(v[1]),'true' if v[2] else 'false')
    if k=='new': return 'ANew %s %s (%s %s)'%(q(v[1]),'true' if v[2] else 'false',PLACE[c,n][0],q(PLACE[c,n][1]))
o=['''(** Generated by tools/gen_ir.py from /repo/src/armodel/models: the attributes set by the constructors
    and the accessor methods that ARXMLParser and ARXMLWriter call, class by class (a class inherits
    the rest).  Methods in use that have no entry: %s.'''%', '.join('%s.%s'%x[:2] for x in other),
'''    Simplifications.  A getter that filters a list by class reads its own list "list/Class" and the
    creation methods of that class append there: the order between objects of different such
    lists of one container is not represented.  A creation method stores the new object once, in
    the place the getter used by the writer reads.  setCategory is taken with a literal argument. *)
From Coq Require Import String List.
From Verif Require Import PyBase Ir.
Import ListNotations.
Open Scope string_scope.
''']
rows=[]
for c in cl:
    l=[]
    for a,d in list(ATTR[c].items())+list(virt.get(c,{}).items()):
        if a in('parent','enumValues','release_xsd_mappings','element_mappings','uuid_object_mappings','uuid_mgr'): continue
        t={'none':'DNone','list':'DList','dict':'DList','param':'DNone'}.get(d) if isinstance(d,str) else ('(DNew %s)'%q(d[1]) if d[0]=='new' else 'DEmpty')
        l.append('(%s, %s)'%(q(a),t))
    if l: rows.append('  (* %s:%d *)\n  (%s, [%s])'%(cl[c].rel[7:],cl[c].line,q(c),'; '.join(l)))
o.append('Definition attr_table : list (string * list (string * dflt)) := [\n'+';\n'.join(rows)+'].\n')
rows=[]
for c in cl:
    l=['(%s, %s) (* %d *)'%(q(n),acc(c,n,v),cl[c].methods[n].lineno) for (x,n),v in K.items() if x==c]
    if c=='CollectableElement': pass
    if l: rows.append('  (* %s *)\n  (%s, [%s])'%(cl[c].rel[7:],q(c),';\n    '.join(l)))
o.append('Definition access_table : list (string * list (string * access)) := [\n'+';\n'.join(rows)+'].')
open(os.path.join(OUT,'Access.v'),'w').write('\n'.join(o)+'\n')
# resolution order used in Coq (depth first) gives the same method as Python's
for n in used:
    for c in cl:
        a=[x for x in MRO[c] if n in cl[x].methods][:1]; b=[x for x in ir_access.dfs(cl,c) if n in cl[x].methods][:1]
        assert a==b,(c,n,a,b)
