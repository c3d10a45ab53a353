#!/usr/bin/env python3
"""Seeded-bug runner.  mutate.py MUTANTS.json OUT.jsonl
Each mutant: {definition, file, old, new, edit, claim}.  Works in /tmp/mut, a copy of /tmp/mutbase (a built copy of rocq/)."""
import json,os,re,subprocess,sys
src='/tmp/mutbase'; W='/tmp/mut'
def sh(c,t=3000): return subprocess.run(c,shell=True,capture_output=True,text=True,timeout=t)
def setup():
    sh(f'rm -rf {W}; cp -a {src} {W}')
def enclosing(f,line):
    ls=open(f).read().split('\n')
    for i in range(min(line,len(ls))-1,-1,-1):
        m=re.match(r'\s*(?:Lemma|Theorem|Example|Definition|Fixpoint|Corollary)\s+([\w\']+)',ls[i])
        if m: return m[1]
    return '?'
def deps():
    d={}
    for f in os.listdir(W+'/theories'):
        if f.endswith('.v'):
            t=open(f'{W}/theories/{f}').read()
            d[f]=[x+'.v' for l in re.findall(r'From Verif Require (?:Import|Export)?\s*([^.]*)\.',t) for x in l.split()]
    return d
def main():
    muts=json.load(open(sys.argv[1])); out=sys.argv[2]; done=set()
    if os.path.exists(out):
        for l in open(out):
            d=json.loads(l); done.add((d['definition'],d['edit']))
    for m in muts:
        if (m['definition'],m['edit']) in done: continue
        setup(); D=deps()
        p=f"{W}/theories/{m['file']}"; orig=open(p).read()
        if m['old'] not in orig: print('NOT FOUND',m['definition'],m['edit'],flush=True); continue
        n=m.get('nth',0); parts=orig.split(m['old'])
        open(p,'w').write(m['old'].join(parts[:n+1])+m['new']+m['old'].join(parts[n+1:]))
        txt=sh(f'cd {W} && nice timeout 2400 make -k -j2 TIMECMD="timeout 400" 2>&1').stdout
        errs=[]
        for mm in re.finditer(r'File "\./theories/([\w.]+)", line (\d+), characters[^\n]*\nError',txt):
            errs.append((mm[1],enclosing(f'{W}/theories/{mm[1]}',int(mm[2]))))
        for mm in re.finditer(r'theories/(\w+)\.vo\] Error 124',txt): errs.append((mm[1]+'.v','(timeout)'))
        bad={a for a,_ in errs}
        def blocked(f,seen=None): return any(x in bad or blocked(x) for x in D.get(f,[]))
        P=[f for f in D if f.startswith('P_')]
        direct=[b for a,b in errs if a.startswith('P_')]
        blk=sorted(t for f in P if f not in bad and blocked(f) for t in re.findall(r'^\s*Theorem\s+(C\d+_\w+)',open(f'{W}/theories/{f}').read(),re.M))
        rep={'definition':f"{m['file']}:{m['definition']}",'edit':m['edit'],'claim_broken':m['claim'],'survived':not errs,
             'first_failing_proofs':[f'{a}:{b}' for a,b in errs],'theorems_failed':direct+blk,'theorems_tightened':[]}
        rep['definition']=m['definition']
        open(out,'a').write(json.dumps(rep)+'\n')
        print('SURVIVED' if not errs else 'killed',m['definition'],'|',m['edit'],'|',rep['first_failing_proofs'][:4],flush=True)
main()
