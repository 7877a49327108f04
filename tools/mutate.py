#!/usr/bin/env python3
"""Seeded-bug testing.  Usage: mutate.py LIST.py
LIST.py defines M = [(file, definition, old, new, edit in words, claim broken), ...].
Each edit is applied to a scratch copy (/tmp/mut) of rocq/, which is rebuilt; one JSON line per
edit is appended to /verif/seeded/LOG.jsonl."""
import sys, os, re, json, subprocess, shutil, runpy, glob
SRC=os.environ.get('MUT_SRC','/verif/rocq'); W=os.environ.get('MUT_DIR','/tmp/mut')
def sh(c, t=2400):
    p=subprocess.run(c,shell=True,capture_output=True,text=True,timeout=t); return p.stdout+p.stderr
def items():
    """name -> (file, line, set of tokens) for every Lemma/Theorem/Definition... of the copy"""
    it={}
    for f in glob.glob(W+'/theories/*.v'):
        cur=None
        for n,l in enumerate(open(f),1):
            m=re.match(r'\s*(?:Local |Global |#\[.*?\] *)?(?:Lemma|Theorem|Corollary|Definition|Fixpoint|Example|Ltac|Fact|Remark|Inductive|Instance)\s+([\w\']+)',l)
            if m: cur=m.group(1); it.setdefault(cur,[os.path.basename(f),n,set()])
            if cur: it[cur][2]|=set(re.findall(r"[\w']+",l))
    return it
def enclosing(f,line):
    best=None
    for n,l in enumerate(open(f),1):
        if n>line: break
        m=re.match(r'\s*(?:Local )?(?:Lemma|Theorem|Corollary|Example|Definition|Fixpoint|Fact|Remark)\s+([\w\']+)',l)
        if m: best=m.group(1)
    return best
def deps(it,roots):
    """theorems Cnn_ (directly or not) using one of the failing items"""
    users={}
    for k,(f,n,t) in it.items():
        for x in t:
            if x in it and x!=k: users.setdefault(x,set()).add(k)
    seen=set(roots); todo=list(roots)
    while todo:
        for u in users.get(todo.pop(),()):
            if u not in seen: seen.add(u); todo.append(u)
    return sorted(x for x in seen if re.match(r'C\d\d+_',x))
def main():
    M=runpy.run_path(sys.argv[1])['M']
    os.makedirs(W,exist_ok=True)
    for (f,d,old,new,edit,claim) in M:
        sh(f'rsync -a --delete {SRC}/ {W}/') if shutil.which('rsync') else sh(f'rm -rf {W}; cp -a {SRC} {W}')
        p=f'{W}/theories/{f}'; s=open(p).read()
        if s.count(old)<1: print('NOT FOUND',d,old); continue
        i=s.find(old, max(s.find('Definition '+d+' '),s.find('Fixpoint '+d+' '),0))
        s=s[:i]+new+s[i+len(old):]
        open(p,'w').write(s)
        out=sh(f'cd {W} && coq_makefile -f _CoqProject -o Makefile >/dev/null && timeout 2300 make -j2 2>&1')
        errs=re.findall(r'File "\./(theories/\w+\.v)", line (\d+), characters [^\n]*\n(?:Error|In nested)',out)
        it=items()
        lem=[]
        for ef,el in errs:
            e=enclosing(f'{W}/{ef}',int(el))
            if e and e not in lem: lem.append(e)
        ex=[x for x in lem if x.endswith('example') or '_example' in x]
        th=deps(it,[x for x in lem])
        rec=dict(file=f,definition=d,edit=edit,before=old,after=new,claim_broken=claim,
                 failed_at=lem,theorems_failed=th,caught=bool(lem),tightened=[])
        if not lem and 'Error' in out: rec['note']='build error: '+out[-400:]
        print(d,'|',edit,'|',claim,'| failed at',lem,'| n theorems',len(th), '' if lem else '<<<<<< SURVIVED '+out[-300:],flush=True)
        with open('/verif/seeded/LOG.jsonl','a') as o: o.write(json.dumps(rec)+'\n')
main()
