import os,re,sys,json,shutil,subprocess,time
BASE='/tmp/mutbase'
def load_graph():
    deps={}
    out=subprocess.run(['coqdep','-Q','theories','Verif']+['theories/'+f for f in os.listdir(BASE+'/theories') if f.endswith('.v')],cwd=BASE,capture_output=True,text=True).stdout
    for line in out.splitlines():
        m=re.match(r'theories/(\w+)\.vo\b.*?: (.*)',line)
        if m: deps[m.group(1)]=[x for x in re.findall(r'theories/(\w+)\.vo\b',m.group(2))]
    return deps
def topo(deps,changed):
    order=[];seen=set()
    def visit(x):
        if x in seen: return
        seen.add(x)
        for d in deps[x]: visit(d)
        order.append(x)
    for x in sorted(deps): visit(x)
    aff=set(changed)
    res=[]
    for x in order:
        if x in aff or any(d in aff for d in deps[x]):
            aff.add(x);res.append(x)
    return res
STMT=re.compile(r'^\s*(?:Local |Global |#\[[^\]]*\] )?(Theorem|Lemma|Corollary|Example|Fact|Remark|Instance|Proposition)\s+([\w\']+)',re.M)
def proofs(src):
    """list of (kind,name,stmt_start,proof_start,qed_end)"""
    res=[]
    for m in STMT.finditer(src):
        p=re.compile(r'\bProof\.').search(src,m.end())
        if not p: continue
        if re.search(r'\bAdmitted\.',src[m.end():p.start()]) or STMT.search(src,m.end(),p.start()): continue
        q=re.compile(r'\b(Qed|Defined|Admitted)\.').search(src,p.end())
        if not q: continue
        res.append((m.group(1),m.group(2),m.start(),p.start(),q.end()))
    return res
def admit(src,i,f):
    k,n,s,p,q=i
    body=src[p:q]
    nl=body.count('\n')
    return src[:p]+'Admitted.'+'\n'*nl+src[q:]
_G=None
def graph():
    """textual use graph between proofs: (file,name)->set of (file,name) used"""
    global _G
    if _G is None:
        ps={};byname={}
        for f in sorted(os.listdir(BASE+'/theories')):
            if not f.endswith('.v'): continue
            src=open(BASE+'/theories/'+f).read()
            orig=open('/verif/rocq/theories/'+f).read() if os.path.exists('/verif/rocq/theories/'+f) else src
            for k,n,a,p,q in proofs(orig):
                if k=='Example': continue
                ps[(f[:-2],n)]=set(re.findall(r"[A-Za-z_][\w']*",orig[a:q]))
                byname.setdefault(n,[]).append((f[:-2],n))
            for m in re.finditer(r'^\s*Ltac\s+(\w+)(.*?)\.\s*$',orig,re.M|re.S): pass
        _G={k:{x for w in ws if w in byname and w!=k[1] for x in byname[w]} for k,ws in ps.items()}
    return _G
def dependents(failed):
    g=graph(); bad=set(tuple(x) for x in failed); ch=True
    while ch:
        ch=False
        for k,us in g.items():
            if k not in bad and us&bad: bad.add(k);ch=True
    return sorted(n for f,n in bad if re.match(r'C\d{2,3}_',n))
def run(mid,muts,log=print,tmo=900):
    """muts: list of (file, old, new)"""
    d='/tmp/mut_%s'%mid
    shutil.rmtree(d,ignore_errors=True)
    subprocess.run(['cp','-a',BASE,d],check=True)
    deps=load_graph()
    for f,old,new in muts:
        p=d+'/theories/'+f
        s=open(p).read()
        assert s.count(old)==1,(mid,f,old,s.count(old))
        open(p,'w').write(s.replace(old,new))
    aff=topo(deps,[f[:-2] for f,_,_ in muts])
    changed=[f[:-2] for f,_,_ in muts]
    failed=[];hard=[];t0=time.time()
    dead=set()
    for x in aff:
        if any(y in dead for y in deps[x]):
            dead.add(x);hard.append(x);continue
        p=d+'/theories/'+x+'.v'
        while True:
            try:
                r=subprocess.run('ulimit -v 6000000; exec timeout %d coqc -q -Q theories Verif -w none theories/%s.v'%(tmo,x),shell=True,cwd=d,capture_output=True,text=True,executable='/bin/bash')
            except Exception as e:
                dead.add(x);hard.append(x);break
            if r.returncode==0: break
            src=open(p).read()
            m=re.search(r'File "[^"]*", line (\d+), characters (\d+)-',r.stderr)
            if not m:
                # timeout / memory: cannot tell
                dead.add(x);hard.append(x+'(timeout/mem)');break
            ln=int(m.group(1))
            off=sum(len(l)+1 for l in src.split('\n')[:ln-1])+int(m.group(2))
            # bytes vs chars: files ascii
            hit=[i for i in proofs(src) if i[3]<=off<i[4]]
            if not hit:
                if x in changed:
                    return dict(mid=mid,error='edit does not compile: '+r.stderr[-400:])
                hit2=[i for i in proofs(src) if i[2]<=off<i[4]]
                dead.add(x);hard.append(x+':'+str(ln));break
            i=hit[-1]
            failed.append((x,i[1]))
            open(p,'w').write(admit(src,i,x))
    failedthms=dependents(failed)
    deadthms=[]
    for x in sorted(dead):
        if x.startswith('Thm_'):
            deadthms+=re.findall(r'^(?:Theorem|Corollary)\s+(C\d{2,3}_[\w\']+)',open(d+'/theories/'+x+'.v').read(),re.M)
    shutil.rmtree(d,ignore_errors=True)
    return dict(mid=mid,lemmas=['%s.%s'%y for y in failed],hard=hard,failed=sorted(set(failedthms+deadthms)),secs=int(time.time()-t0))
if __name__=='__main__':
    batch=json.load(open(sys.argv[1])); out=sys.argv[2]
    from concurrent.futures import ThreadPoolExecutor
    done=set()
    if os.path.exists(out): done={json.loads(l)['mid'] for l in open(out)}
    def job(m):
        if m['id'] in done: return
        try: r=run(m['id'],[tuple(x) for x in m['edits']])
        except AssertionError as e: r=dict(mid=m['id'],error='no match '+str(e)[:300])
        r['m']=m
        with open(out,'a') as f: f.write(json.dumps(r)+'\n')
        print(m['id'],r.get('error'),len(r.get('failed',[])),r.get('secs'),r.get('lemmas'),r.get('hard'),flush=True)
    with ThreadPoolExecutor(int(sys.argv[3]) if len(sys.argv)>3 else 3) as ex: list(ex.map(job,batch))
