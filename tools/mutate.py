import sys,os,re,subprocess,json,shutil,time
# usage: run.py mutants.json out.jsonl
W='/tmp/mut/work'
ms=json.load(open(sys.argv[1])); out=sys.argv[2]
done=set()
if os.path.exists(out):
    for l in open(out):
        done.add(json.loads(l)['id'])
def make():
    p=subprocess.run('make -k -j3 2>&1',shell=True,cwd=W,stdout=subprocess.PIPE,text=True,errors='replace',timeout=4000)
    return p.returncode,p.stdout
START=re.compile(r'^\s*(?:#\[[^\]]*\]\s*)?(?:Local |Global )?(Lemma|Theorem|Example|Instance|Corollary|Fact|Remark|Definition|Fixpoint|Program Instance|Global Instance)\s+([\w\']+)',re.M)
def admit(fn,line):
    t=open(fn).read()
    lines=t.split('\n'); off=sum(len(x)+1 for x in lines[:line-1])
    # candidates: proof containing position
    best=None
    for m in START.finditer(t):
        if m.start()<=off+len(lines[line-1]): best=m if (best is None or m.start()>best.start()) and True else best
        else: break
    # several on the same line: handled by choosing the last start <= line end; check Proof..Qed span
    cands=[m for m in START.finditer(t) if m.start()<=off+len(lines[line-1])]
    for m in reversed(cands[-3:]):
        nxt=START.search(t,m.end())
        lim=nxt.start() if nxt else len(t)
        q=re.compile(r'\bProof\b[^.]*\.').search(t,m.end())
        e=None
        if q and q.start()<lim:
            e=re.compile(r'\b(Qed|Defined)\.').search(t,q.end())
        if e and e.end()>=off:
            st=t.count('\n',0,m.start())+1; pr=t.count('\n',0,q.start())+1
            if line<pr: return ('structural',m.group(2))
            t=t[:q.start()]+'Proof. Admitted.'+'\n'*t.count('\n',q.start(),e.end())+t[e.end():]
            open(fn,'w').write(t); return ('admitted',m.group(2))
        if nxt is None or True:
            if m.start()<off: return ('structural',m.group(2))
    return ('structural','?')
for mu in ms:
    if mu['id'] in done: continue
    t0=time.time()
    shutil.rmtree(W,ignore_errors=True); subprocess.run(['cp','-a','/tmp/mut/base',W])
    fn=W+'/theories/'+mu['file']
    t=open(fn).read()
    if t.count(mu['old'])!=1:
        print(mu['id'],'BAD SNIPPET',t.count(mu['old'])); continue
    open(fn,'w').write(t.replace(mu['old'],mu['new']))
    adm=[];status='ok'
    outs=''
    for it in range(80):
        rc,o=make()
        outs=o
        errs=set(re.findall(r'File "\.?/?(theories/\w+\.v)", line (\d+), characters [\d-]+:\nError',o))
        if rc==0: break
        if not errs: status='noerr '+o[-300:]; break
        for f,l in errs:
            k,n=admit(W+'/'+f,int(l))
            adm.append(f[9:-2]+'.'+n)
            if k=='structural': status='structural '+f+':'+l+' '+n
        if status!='ok': break
        if time.time()-t0>2400: status='timeout'; break
    failed=[];ok=[]
    if status=='ok':
        for f in sorted(os.listdir(W+'/theories')):
            if f.startswith('Props') and f.endswith('.v'):
                p=subprocess.run(['coqc','-Q','.','Verif',f],cwd=W+'/theories',stdout=subprocess.PIPE,stderr=subprocess.STDOUT,text=True)
                names=re.findall(r'^Print Assumptions (\w+)\.',open(W+'/theories/'+f).read(),re.M)
                ch=re.findall(r'^(Closed under the global context|Axioms:)',p.stdout,re.M)
                if len(names)!=len(ch): status='mismatch '+f
                for n,c in zip(names,ch):
                    (ok if c.startswith('Closed') else failed).append(n)
    r=dict(id=mu['id'],definition=mu['def'],edit=mu['edit'],claim=mu['claim'],status=status,admitted=adm,failed=failed,secs=int(time.time()-t0))
    open(out,'a').write(json.dumps(r)+'\n')
    print(r['id'],status,len(adm),'failed:',failed,r['secs'],flush=True)
