import sys; sys.path.insert(0,'/root/mut')
import mut,os,subprocess,time
n=0
for f in os.listdir(mut.BASE+'/theories'):
    if not f.endswith('.v'): continue
    p=mut.BASE+'/theories/'+f
    s=open(p).read()
    ps=[i for i in mut.proofs(s) if i[0]=='Example']
    for i in reversed(ps):
        s=mut.admit(s,i,f); n+=1
    s=''.join(l for l in s.splitlines(True) if not l.startswith('Print Assumptions'))
    open(p,'w').write(s)
print(n,'examples admitted')
deps=mut.load_graph()
for x in mut.topo(deps,list(deps)):
    t=time.time()
    r=subprocess.run(['coqc','-q','-w','none','-Q','theories','Verif','theories/%s.v'%x],cwd=mut.BASE,capture_output=True,text=True)
    if r.returncode: print('FAIL',x,r.stderr[-300:])
    dt=time.time()-t
    if dt>5: print(x,round(dt,1),flush=True)
