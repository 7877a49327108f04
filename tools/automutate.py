#!/usr/bin/env python3
"""Systematic operator mutation.  Usage: automutate.py OUT.jsonl PER_DEF SEED [file ...]
For every Definition/Fixpoint of the model files (M_*.v) up to PER_DEF edits are drawn at random
(comparison, connective, constant, branch, offset); each is applied to a scratch copy which is
rebuilt up to the first error.  Edits that do not type-check are dropped.  One JSON line per edit
goes to OUT.jsonl; survivors are printed and have to be judged by hand."""
import sys, os, re, json, subprocess, random, glob
SRC=os.environ.get('MUT_SRC','/verif/rocq'); W=os.environ.get('MUT_DIR','/tmp/amut')
def sh(c,t=2400):
    try:
        p=subprocess.run(c,shell=True,capture_output=True,text=True,timeout=t); return p.stdout+p.stderr
    except subprocess.TimeoutExpired: return 'TIMEOUT'
RULES=[(r'<=\?','<?','<= becomes <'),(r'(?<![=<])<\?','<=?','< becomes <='),(r'(?<![<=])=\?','<?','= becomes <'),
 (r'&&','||','and becomes or'),(r'\|\|','&&','or becomes and'),(r'\bnegb ','','negation dropped'),
 (r'\btrue\b','false','true becomes false'),(r'\bfalse\b','true','false becomes true'),
 (r' \+ 1\b','','+ 1 dropped'),(r' - 1\b','','- 1 dropped'),(r' \+ ',' - ','+ becomes -'),(r' - ',' + ','- becomes +'),
 (r'(?<![\w.^])(\d+)(?![\w])',None,'constant'),(r'\bmod ','/ ','mod becomes /'),(r' \+\+ \[[^\]]*\]','','append dropped'),
 (r'\bThrow (\w+)',None,'other exception'),(r'\bmin\b','max','min becomes max'),(r'\bmax\b','min','max becomes min'),
 (r'\bfst\b','snd','fst becomes snd'),(r'\bcx\b','cy','x becomes y'),(r'\bcy\b','cx','y becomes x'),
 (r'Z\.lor\b','Z.lxor','or becomes xor'),(r'Z\.land\b','Z.lor','and becomes or (bits)'),(r'Z\.shiftl\b','Z.shiftr','shift direction'),
 (r'Z\.shiftr\b','Z.shiftl','shift direction'),(r'\bskipn\b','firstn','skipn becomes firstn'),(r'\bx00\b','x01','zero byte becomes one'),
 (r'if (.+?) then (\w+) else (\w+)',None,'swap branches'),(r'\bIsize\b','Jsize','Isize becomes Jsize'),(r'\bJsize\b','Isize','Jsize becomes Isize'),
 (r'\bSome\b (\w+)',None,'None instead'),(r'Ok \((\w+), (\w+)\)',None,'swap pair')]
def repl(m,new,name):
    if new is not None: return new
    if name=='constant': return str(int(m.group(1))+1)
    if name=='other exception':
        return 'Throw '+('RuntimeError' if m.group(1)!='RuntimeError' else 'InvalidArgument')
    if name=='swap branches': return f'if {m.group(1)} then {m.group(3)} else {m.group(2)}'
    if name=='None instead': return 'None'
    if name=='swap pair': return f'Ok ({m.group(2)}, {m.group(1)})'
def blank(s):
    """comments replaced by spaces"""
    out=[];d=0;i=0
    while i<len(s):
        if s.startswith('(*',i): d+=1; out.append('  '); i+=2; continue
        if s.startswith('*)',i) and d: d-=1; out.append('  '); i+=2; continue
        out.append(s[i] if d==0 or s[i]=='\n' else ' '); i+=1
    return ''.join(out)
def enclosing(f,line):
    best=None
    for n,l in enumerate(open(f),1):
        if n>line: break
        m=re.match(r'\s*(?:Local )?(?:Lemma|Theorem|Corollary|Example|Definition|Fixpoint|Fact|Remark)\s+([\w\']+)',l)
        if m: best=m.group(1)
    return best
def main():
    out,per,seed=sys.argv[1],int(sys.argv[2]),int(sys.argv[3]); random.seed(seed)
    files=sys.argv[4:] or sorted(os.path.basename(f) for f in glob.glob(SRC+'/theories/M_*.v'))
    done=set()
    if os.path.exists(out): done={(r['file'],r['pos'],r['after']) for r in map(json.loads,open(out))}
    for f in files:
        s=open(f'{SRC}/theories/{f}').read(); b=blank(s)
        ds=[m for m in re.finditer(r'^(Definition|Fixpoint|Inductive|Record|Lemma|Example|Local|Notation)\s+([\w\']+)',b,re.M)]
        for k,m in enumerate(ds):
            if m.group(1) not in('Definition','Fixpoint'): continue
            a=m.end(); e=ds[k+1].start() if k+1<len(ds) else len(b)
            ce=b.find(':=',a,e)
            if ce<0: continue
            c=[]
            for (rx,new,name) in RULES:
                for x in re.finditer(rx,b[ce:e]):
                    c.append((ce+x.start(),ce+x.end(),repl(x,new,name),name))
            random.shuffle(c); n=0
            for (i,j,new,name) in c:
                if n>=per: break
                if (f,i,new) in done: n+=1; continue
                sh(f'mkdir -p {W}; rsync -a --delete {SRC}/ {W}/' if os.path.exists('/usr/bin/rsync') else f'rm -rf {W}; cp -a {SRC} {W}')
                open(f'{W}/theories/{f}','w').write(s[:i]+new+s[j:])
                o=sh(f'cd {W} && timeout 2300 make -j2 2>&1')
                errs=re.findall(r'File "\./(theories/\w+\.v)", line (\d+), characters [^\n]*\n(?:Error|In nested)',o)
                if errs and errs[0][0]==f'theories/{f}': continue   # does not type-check
                n+=1
                lem=[enclosing(f'{W}/{ef}',int(el)) for ef,el in errs]
                files_=[os.path.basename(ef) for ef,_ in errs]
                ctx=s[max(s.rfind('\n',0,i),0):s.find('\n',j)].strip()
                rec=dict(file=f,definition=m.group(2),pos=i,edit=name,before=s[i:j],after=new,line=ctx,failed_at=lem,failed_in=files_,caught=bool(errs))
                if not errs and 'Error' in o: rec['note']=o[-300:]
                open(out,'a').write(json.dumps(rec)+'\n')
                print(f,m.group(2),name,'|',s[i:j],'->',new,'|',ctx[:100],'|',lem,'' if errs else '<<<<< SURVIVED',flush=True)
main()
