"""Generates lemmas [clv_F : ... clv (F args)] for the definitions of a model file.
usage: gen_clv.py Model Out 'Imports' overrides.json"""
import re, sys, json
model, out, imports, ov = sys.argv[1:5]
OV = json.load(open(ov)).get(model, {})
src = open(f'/verif/rocq/theories/{model}.v').read()
# strip comments
def strip(t):
    o=[];d=0;i=0
    while i<len(t):
        if t[i:i+2]=='(*': d+=1;i+=2;continue
        if t[i:i+2]=='*)': d-=1;i+=2;continue
        if d==0:o.append(t[i])
        i+=1
    return ''.join(o)
src=strip(src)
TRIV={'handle','connid','nat','Z','bool','ctype','chandle','N','option handle','option connid','option chandle','option nat','list handle','list connid','list nat','list Z',
 'option Z','Type','list chandle','class','remove_type','oddity','Prop','logprio','option bool', 'ascii -> bool','bytes -> bool','list Z'}
lem=[]
# section variables
secs=[]
for sm in re.finditer(r'^Section (\w+)\.(.*?)^End \1\.',src,re.M|re.S):
    vs=[]
    for vm in re.finditer(r'^(?:Variables?|Context) (.*?)\.$',sm.group(2),re.M|re.S):
        for g in re.findall(r'\(([^()]*)\)',vm.group(1)):
            ns,ty=g.split(':',1)
            vs+=[(x,' '.join(ty.split())) for x in ns.split()]
    secs.append((sm.start(),sm.end(),vs))
used={}
def secvars(name,pos,end):
    for a,b,vs in secs:
        if a<=pos<b:
            body=src[pos:end]; words=set(re.findall(r"[\w']+",body)); u=set()
            for w in words:
                if w in dict(vs): u.add(w)
                u|=used.get(w,set())
            used[name]=u
            return [(x,t) for x,t in vs if x in u]
    return []
for m in re.finditer(r'^(Definition|Fixpoint) (\w+)', src, re.M):
    name=m.group(2); i=m.end(); binders=[]; ok=True
    while True:
        while src[i].isspace(): i+=1
        if src[i] in '({':
            close={'(':')','{':'}'}[src[i]]; op=src[i]
            j=i+1;d=1
            while d:
                if src[j] in '({':d+=1
                if src[j] in ')}':d-=1
                j+=1
            binders.append((op,src[i+1:j-1])); i=j
        else: break
    nx=re.compile(r'^(?:Definition|Fixpoint|End|Section|Inductive|Record) ',re.M).search(src,i)
    sec=secvars(name,m.start(),nx.start() if nx else len(src))
    binders=[('(',x+' : '+t) for x,t in sec]+binders
    rest=src[i:i+200]
    if rest.startswith(':='): rtype=None
    else:
        e=src.index(':=',i); rtype=src[i+1:e].strip()
        if rtype.endswith('}'): rtype=re.sub(r'\{struct \w+\}','',rtype)
    k=OV.get(name)
    if k=='skip': continue
    if isinstance(k,dict) and 'raw' in k:
        lem.append((name,k['raw'],None)); continue
    if rtype in ('nat','Z','bool','N','Prop','handle','ctype','option nat','string','list handle','list connid','M bool_') : continue
    args=[];bind=[];prem=[]
    for op,b in binders:
        b=b.strip()
        if op=='{' and ':' not in b: b+=' : Type'
        names,ty=b.split(':',1); ty=' '.join(ty.split())
        for x in names.split():
            if x=='_': x='u_'+str(len(bind))
            bind.append(f'({x} : {ty})')
            if op=='(': args.append(x)
            if ty=='Type': bind.append(f'(C{x} : Cl {x})')
            elif ty in TRIV: pass
            elif ty=='string': prem.append(f'clv (B {x})')
            else: prem.append(f'clv {x}')
    body=' -> '.join(prem+[f'clv ({name} {" ".join(args)})' if args else f'clv {name}'])
    st=f'Lemma clv_{name} : '+(f'forall {" ".join(bind)}, ' if bind else '')+body+'.'
    dflt=f'intros. unfold {name}. cl_all.'
    if m.group(1)=='Fixpoint':
        sm=re.search(r'\{struct (\w+)\}',src[i:i+100])
        tys={x:' '.join(b.split(':',1)[1].split()) for op,b in binders if ':' in b for x in b.split(':',1)[0].split()}
        sv=sm.group(1) if sm else sorted([x for x in args if tys[x]=='nat' and x=='n' or tys[x].startswith('list') or tys[x] in ('mlist','bytes')],key=lambda x:0 if x=='n' else 2 if tys[x]=='bytes' else 1)[0]
        others=[x for x in args if x!=sv]
        tysv=[x for op,b in binders for x in b.split(':')[0].split() if x in tys and tys[x]=='Type']
        pre=f'intros {" ".join(y for b in bind for y in [b[1:].split(" :")[0]])}. '+(f'revert {" ".join(others)}. ' if others else '')
        dflt=pre+f'induction {sv}; intros; cl_invs; cbn [{name}]; cl_all.'
    pf=k if isinstance(k,str) else dflt
    lem.append((name,st+f'\nProof. {pf} Qed.',1))
o=f'''(** Generated by tools/gen_clv.py from {model}.v: its functions keep strings clean (C08). *)
From Coq Require Import List Ascii String ZArith NArith Bool Lia Arith.
From Verif Require Import {imports}.
Import ListNotations.
Local Open Scope m_scope.

'''
o+=OV.get('_pre','')
for n,s,h in lem:
    o+=s+'\n'
    if h: o+=f'#[export] Hint Resolve clv_{n} : clv.\n'
open(f'/verif/rocq/theories/{out}.v','w').write(o)
