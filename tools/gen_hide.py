"""Generates lemmas [comm_F : ... comm ch (F args)] for the monadic definitions of the model that do
not look at channels (C30).  usage: gen_hide.py"""
import re
PARTS={'Hide1':['Core','Write','Info']}
TAINT=re.compile(r'\b(Channel_\w+|chan|upd_chan|Chans|Members|ChannelsOf|s_chans|s_members)\b')
tainted=set('Adjust_Counters odd class_list set_class'.split())
SKIP={'write_as_format','IRC_ISON','IRC_USERHOST','nick_introduce','IRC_NICK','next_mode','user_modes','Client_Mode',
      'chan_advance','chan_modes','Channel_Mode','IRC_MODE','run_command','Parse_Request','Handle_Request'}
def strip(t):
    o=[];d=0;i=0
    while i<len(t):
        if t[i:i+2]=='(*': d+=1;i+=2;continue
        if t[i:i+2]=='*)': d-=1;i+=2;continue
        if d==0:o.append(t[i])
        i+=1
    return ''.join(o)
RAW={}
import json,os
if os.path.exists('hide_over.json'): RAW=json.load(open('hide_over.json'))
HEAD='''(** Generated by tools/gen_hide.py: the functions of the model that do not look at channels
    work in the same way when a channel is taken out of the state (C30). *)
From Coq Require Import List Ascii String ZArith NArith Bool Lia Arith.
From Verif Require Import Bytes Strl Match Lists Hash ParseReq State Messages Monad Core Write Info Chan Mode Msg Login Oper Server Dispatch Conn %s.
Import ListNotations.
Local Open Scope m_scope.

'''
for part,MODELS in PARTS.items():
 out=HEAD%'Hide0'
 for model in MODELS:
   src=strip(open(f'/verif/rocq/theories/{model}.v').read())
   secs=[]
   for sm in re.finditer(r'^Section (\w+)\.(.*?)^End \1\.',src,re.M|re.S):
     vs=[]
     for vm in re.finditer(r'^(?:Variables?|Context) (.*?)\.$',sm.group(2),re.M|re.S):
         for g in re.findall(r'\(([^()]*)\)',vm.group(1)):
             ns,ty=g.split(':',1)
             vs+=[(x,' '.join(ty.split())) for x in ns.split()]
     secs.append((sm.start(),sm.end(),vs))
   used={}
   def secvars(name,pos,end):
     for a,b,vs in secs:
         if a<=pos<b:
             words=set(re.findall(r"[\w']+",src[pos:end])); u=set()
             for w in words:
                 if w in dict(vs): u.add(w)
                 u|=used.get(w,set())
             used[name]=u
             return [(x,t) for x,t in vs if x in u]
     return []
   out+=f'(** ** {model}.v *)\n'
   for m in re.finditer(r'^(Definition|Fixpoint) (\w+)', src, re.M):
     name=m.group(2); i=m.end(); binders=[]
     while True:
         while src[i].isspace(): i+=1
         if src[i] in '({':
             close={'(':')','{':'}'}[src[i]]; op=src[i]; j=i+1;d=1
             while d:
                 if src[j] in '({':d+=1
                 if src[j] in ')}':d-=1
                 j+=1
             binders.append((op,src[i+1:j-1])); i=j
         else: break
     nx=re.compile(r'^(?:Definition|Fixpoint|End|Section|Inductive|Record) ',re.M).search(src,i)
     sec=secvars(name,m.start(),nx.start() if nx else len(src))
     binders=[('(',x+' : '+t) for x,t in sec]+binders
     if src[i:i+2]==':=': rtype=None
     else:
         e=src.index(':=',i); rtype=re.sub(r'\{struct \w+\}','',src[i+1:e]).strip()
     body=src[m.start():nx.start() if nx else len(src)]
     if TAINT.search(body) or any(re.search(r'\b'+x+r'\b',body) for x in tainted): tainted.add(name); continue
     if name in SKIP: continue
     if name in RAW: out+=RAW[name]+'\n'; continue
     if not rtype or not (rtype.startswith('M ') or rtype in ('marg','list marg')): continue
     args=[];bind=[];prem=[]
     for op,b in binders:
         b=b.strip()
         if op=='{' and ':' not in b: b+=' : Type'
         names,ty=b.split(':',1); ty=' '.join(ty.split())
         for x in names.split():
             if x=='_': x='u_'+str(len(bind))
             bind.append(f'({x} : {ty})')
             if op=='(': args.append(x)
             parts=[p.strip() for p in re.split(r'->',ty)]
             if ty=='list marg': prem.append(f'Forall (comm q) {x}')
             elif parts[-1].startswith('M ') or parts[-1]=='marg':
                 vs=[f'y{k}' for k in range(len(parts)-1)]
                 prem.append((f'(forall {" ".join(vs)}, comm q ({x} {" ".join(vs)}))' if vs else f'comm q {x}'))
     st=f'Lemma comm_{name} : '+f'forall q {" ".join(bind)}, '+' -> '.join(prem+[f'{"Forall (comm q)" if rtype=="list marg" else "comm q"} ({name} {" ".join(args)})'])+'.'
     pf=f'intros. unfold {name}. cm.'
     if m.group(1)=='Fixpoint':
         sm=re.search(r'\{struct (\w+)\}',src[i:i+100])
         tys={x:' '.join(b.split(':',1)[1].split()) for op,b in binders if ':' in b for x in b.split(':',1)[0].split()}
         sv={'help_lines':'l'}.get(name) or sm.group(1) if sm or name=='help_lines' else sorted([x for x in args if tys[x]=='nat' and x=='n' or (tys[x].startswith('list') or tys[x] in ('mlist','bytes')) and x!='seen'],key=lambda x:0 if x=='n' else 2 if tys[x]=='bytes' else 1)[0]
         others=[x for x in args if x!=sv]
         pre='intros q '+' '.join(b[1:].split(' :')[0] for b in bind)+'. '+(f'revert {" ".join(others)}. ' if others else '')
         pf=pre+f'induction {sv}; intros; cbn [{name}]; cm.'
     out+=st+f'\nProof. {pf} Qed.\n#[export] Hint Resolve comm_{name} : comm.\n'
 open(f'/verif/rocq/theories/{part}.v','w').write(out)
