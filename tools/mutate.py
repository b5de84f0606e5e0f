#!/usr/bin/env python3
"""Mutation test of the theorems: copies rocq/ to a scratch directory, applies one textual edit to a
model file, rebuilds with `make -k` and reports which theorems of Properties*.v no longer build.

usage: mutate.py SPEC.json   where SPEC is a list of
  {"file": "EventModel.v", "def": "...", "old": "...", "new": "...", "claim": "...", "expect": ["C01"]}
Writes one line per attempt to /verif/seeded/LOG.jsonl.
A broken proof file makes everything depending on it fail; the theorems listed as failed are those of the
first failing files: the lemma where the build stopped, and the property theorems that are not built."""
import json, os, re, shutil, subprocess, sys, glob
SRC=os.environ.get('MUTSRC','/verif/rocq'); DST=os.environ.get('MUTDST','/tmp/mut/rocq')
def run(cmd,t=1500):
    return subprocess.run(cmd,shell=True,cwd=DST,capture_output=True,text=True,timeout=t)
def stmt_at(f,line):
    name=None
    for i,l in enumerate(open(f),1):
        m=re.match(r'\s*(?:Theorem|Lemma|Example|Corollary|Definition|Fixpoint)\s+(\w+)',l)
        if m: name=m.group(1)
        if i>=line: break
    return name
def deps():
    """textual dependency graph: declared name -> identifiers in its statement and proof"""
    g={}; thm=[]
    for p in glob.glob(f'{DST}/theories/*.v'):
        cur=None
        for l in open(p):
            m=re.match(r'\s*(?:Theorem|Lemma|Example|Corollary|Definition|Fixpoint|Ltac|Record|Inductive)\s+(\w+)',l)
            if m:
                cur=m.group(1); g.setdefault(cur,set())
                if re.match(r'\s*Theorem\s+C\d\d+_',l) and 'Properties' in p: thm.append((cur,os.path.basename(p)[:-2]))
            if cur: g[cur]|=set(re.findall(r"[A-Za-z_][\w']*",l))
    return g,thm
def reaches(g,a,targets):
    seen={a}; st=[a]
    while st:
        x=st.pop()
        if x in targets: return True
        for y in g.get(x,()):
            if y in g and y not in seen: seen.add(y); st.append(y)
    return False
def dependents(m):
    """modules that require m, directly or not"""
    req={}
    for p in glob.glob(f'{SRC}/theories/*.v'):
        src=open(p).read()
        req[os.path.basename(p)[:-2]]=set(w for x in re.findall(r'From Verif Require (?:Import|Export) ([^.]*)\.',src) for w in x.split())
    out={m}; more=True
    while more:
        more=False
        for k,v in req.items():
            if k not in out and v & out: out.add(k); more=True
    return out
def main():
    specs=json.load(open(sys.argv[1]))
    for sp in specs:
        subprocess.run(f'rm -rf {DST}; mkdir -p /tmp/mut; cp -a {SRC} {DST}',shell=True,check=True)
        subprocess.run(f"sed -i '/theories.Vec/d' {DST}/_CoqProject; rm -f {DST}/theories/Vec*",shell=True)
        f=f'{DST}/theories/{sp["file"]}'
        s=open(f).read()
        if s.count(sp['old'])<1:
            print('NOT FOUND',sp); continue
        open(f,'w').write(s.replace(sp['old'],sp['new'],1))
        for d in dependents(sp['file'][:-2]):
            run(f'rm -f theories/{d}.vo')
        r=run('coq_makefile -f _CoqProject -o Makefile; make -k -j2 COQC="timeout 420 coqc" 2>&1',7200)
        fails=[]
        for m in re.finditer(r'File "\./theories/(\w+)\.v", line (\d+)',r.stdout):
            fl,ln=m.group(1),int(m.group(2))
            if 'Error' in r.stdout[m.end():m.end()+400]:
                fails.append(f'{fl}.{stmt_at(f"{DST}/theories/{fl}.v",ln)}')
        slow=re.findall(r'theories/(\w+)\.vo\] Error 124',r.stdout)   # a proof that no longer ends
        fails+=[f'{x}.(no end within 7 minutes)' for x in slow]
        unbuilt=[]
        for pf in sorted(glob.glob(f'{DST}/theories/Properties*.v')):
            if not os.path.exists(pf+'o'):
                unbuilt.append(os.path.basename(pf)[:-2])
        g,thm=deps(); lem=set(x.split('.')[1] for x in fails)|set(n for x in slow for n in re.findall(r'(?:Theorem|Lemma) +(\w+)',open(f'{DST}/theories/{x}.v').read()))
        unb=set(unbuilt)
        props=[t for t,pf in thm if pf in unb and reaches(g,t,lem)]
        log={"definition":sp["file"][:-2]+"."+sp["def"],"edit":f'{sp["old"]} -> {sp["new"]}',"claim_broken":sp["claim"],
             "theorems_failed":props,"proofs_failed":fails,"property_files_not_built":unbuilt,"tightened":sp.get("tightened",[])}
        print(json.dumps(log),flush=True)
        if '--dry' not in sys.argv:
            open('/verif/seeded/LOG.jsonl','a').write(json.dumps(log)+"\n")
main()
