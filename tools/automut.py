#!/usr/bin/env python3
"""Automatic mutants of the model.  usage: automut.py SNAPSHOT OUT.jsonl [-n per definition] [-s seed] [-w worker] File...
SNAPSHOT: a built copy of rocq/theories.  For every definition of the files, some syntactic edits are tried, one at
a time, in a hard-linked copy; the dependents are rebuilt (cheapest first) until a proof fails.  A mutant that
does not type-check is dropped.  Nothing is written under /verif."""
import sys, os, re, json, random, subprocess, time, shutil
args=sys.argv[1:]; snap=args[0]; out=args[1]; files=[]; n=2; seed=1; worker='0'; skip=set(); maxt=900
i=2
while i<len(args):
    if args[i]=='-n': n=int(args[i+1]); i+=2
    elif args[i]=='-s': seed=int(args[i+1]); i+=2
    elif args[i]=='-w': worker=args[i+1]; i+=2
    else: files.append(args[i]); i+=1
rnd=random.Random(seed); W=f'/tmp/automut/w{worker}'
allf=[f[:-2] for f in os.listdir(snap) if f.endswith('.v')]
def deps_of(f):
    s=open(f'{snap}/{f}.v').read(); o=set()
    for m in re.finditer(r'From Verif Require (?:Import|Export)\s+([^.]*)\.', s): o|=set(m.group(1).split())
    return o & set(allf)
D={f:deps_of(f) for f in allf}
def dependents(f):
    S={f}; ch=True
    while ch:
        ch=False
        for g in allf:
            if g not in S and D[g]&S: S.add(g); ch=True
    S.discard(f); return S
TF='/tmp/automut/times.json'
try: T=json.load(open(TF))
except Exception: T={}
def cost(f): return T.get(f, os.path.getsize(f'{snap}/{f}.v')/4000.0)
def coqc(f,tmo):
    for e in ('.vo','.vos','.vok','.glob'):
        try: os.unlink(f'{W}/{f}{e}')
        except FileNotFoundError: pass
    t=time.time()
    try: r=subprocess.run(['coqc','-noglob','-Q','.','Verif',f+'.v'],cwd=W,capture_output=True,text=True,timeout=tmo)
    except subprocess.TimeoutExpired: return None,'timeout',time.time()-t
    return r.returncode,r.stderr,time.time()-t
def blank(s):
    """the text with comments and strings blanked (same length): returns (no comments, no comments nor strings)"""
    a=list(s); b=list(s); d=0; q=False; i=0
    while i<len(s):
        if not q and s.startswith('(*',i): 
            d+=1; a[i]=a[i+1]=b[i]=b[i+1]=' '; i+=2; continue
        if not q and d and s.startswith('*)',i):
            d-=1; a[i]=a[i+1]=b[i]=b[i+1]=' '; i+=2; continue
        if d:
            if s[i]!='\n': a[i]=b[i]=' '
            i+=1; continue
        if s[i]=='"': q=not q; b[i]='"'; i+=1; continue
        if q and s[i]!='\n': b[i]='_'
        i+=1
    return ''.join(a),''.join(b)
DEF=re.compile(r'^\s*(?:Local |Global |#\[[^\]]*\]\s*)*(Definition|Fixpoint)\s+([\w\']+)',re.M)
ANY=re.compile(r'^\s*(?:Local |Global |#\[[^\]]*\]\s*)*(Definition|Fixpoint|Lemma|Theorem|Corollary|Example|Instance|Fact|Inductive|Record|Class|Notation|Section|End|Context|Ltac|Arguments|Print|From|Require|Declare|Delimit|Open|Set|Unset|Opaque|Existing|Variant)\b',re.M)
SUB=[(r' && ',' || '),(r' \|\| ',' && '),(r'\bnegb ',''),(r'\btrue\b','false'),(r'\bfalse\b','true'),(r'<\?','<=?'),(r'<=\?','<?'),(r' \+ ',' - '),(r' - ',' + '),(r' \* ',' + '),(r' / ',' * '),
     (r'\bfst\b','snd'),(r'\bsnd\b','fst'),(r'\bq_unit a\b','q_unit b'),(r'\bq_unit b\b','q_unit a'),(r'\bq_val a\b','q_val b'),(r'\bq_val b\b','q_val a'),
     (r'\bTypeError\b','ValueError'),(r'\bValueError\b','TypeError'),(r'\bWrongUnitsError\b','TypeError'),(r'\bKeyError\b','TypeError'),(r'\bNameError\b','TypeError'),(r'\bNoConversionFoundError\b','TypeError'),
     (r'(?<![\w.])_ <- [^;]*? ;; ',''),(r'\bexistsb\b','forallb'),(r'\bforallb\b','existsb'),(r'\bskipn\b','firstn'),(r'\bfirstn\b','skipn'),(r' \+\+ ([\w\']+|\([^()]*\))',''),
     (r'\bSome ([\w\']+)\b','None'),(r'=> Some\b','=> id None'),(r'\brev ',''),(r'\bfind\b','(fun f l => find f (rev l))'),(r'\bfold_left\b','(fun f l a => fold_left f (rev l) a)'),(r'\bstartswith\b','endswith'),(r'\bendswith\b','startswith'),(r'\blstrip\b','rstrip'),(r'\brstrip\b','lstrip')]
def mutants(src,lo,hi):
    a,b=blank(src); res=[]
    for p,r in SUB:
        for m in re.finditer(p,b[lo:hi]): res.append((lo+m.start(),lo+m.end(),r,f'{src[lo+m.start():lo+m.end()]!r} -> {r!r}'))
    for m in re.finditer(r'\bif ((?:(?!\bif\b|\bthen\b).)*?) then\b',b[lo:hi],re.S):
        x=src[lo+m.start(1):lo+m.end(1)]; res.append((lo+m.start(),lo+m.end(),f'if negb ({x}) then',f'condition negated: {x}'))
    for m in re.finditer(r'(?<![\w.#%\'_])(\d+)(?![\w.\'])',b[lo:hi]):
        v=int(m.group(1)); res.append((lo+m.start(),lo+m.end(),str(v+1),f'{v} -> {v+1}'))
    for m in re.finditer(r'"[^"\n]*"',a[lo:hi]):
        x=m.group(0); y='"'+x[1:-1]+'q"' ; res.append((lo+m.start(),lo+m.end(),y,f'{x} -> {y}'))
        if b[lo+m.end():lo+m.end()+2]=='; ': res.append((lo+m.start(),lo+m.end()+2,'',f'{x} left out'))
    for m in re.finditer(r'\b(\w+) <- ([^;]*?) ;; ',b[lo:hi]): pass
    return res
def main():
    os.makedirs('/tmp/automut',exist_ok=True)
    done=set()
    if os.path.exists(out):
        for l in open(out):
            r=json.loads(l); done.add((r['file'],r['def'],r['edit'],r['pos']))
    for f in files:
        src=open(f'{snap}/{f}.v').read(); a,b=blank(src)
        starts=[m.start() for m in ANY.finditer(b)]+[len(src)]
        dep=dependents(f)
        for m in DEF.finditer(b):
            hi=min(x for x in starts if x>m.start()+2 and x>m.end()-3)
            name=m.group(2); lo=m.end()
            c=mutants(src,lo,hi); rnd.shuffle(c); k=0
            for (x,y,r,desc) in c:
                if k>=n: break
                key=(f,name,desc,x-m.start())
                if key in done: k+=1; continue
                if os.path.exists(W): shutil.rmtree(W)
                subprocess.run(['cp','-al',snap,W],check=True)
                os.unlink(f'{W}/{f}.v'); open(f'{W}/{f}.v','w').write(src[:x]+r+src[y:])
                rc,err,t=coqc(f,120)
                if rc!=0: continue
                k+=1; res=dict(file=f,**{'def':name},edit=desc,pos=x-m.start(),line=src[:x].count('\n')+1,killed=None)
                built={f}; todo=set(dep)
                for g in todo:
                    for e in ('.vo','.vos','.vok'):
                        try: os.unlink(f'{W}/{g}{e}')
                        except FileNotFoundError: pass
                t0=time.time()
                while todo:
                    ready=[g for g in todo if not (D[g]&todo)]
                    g=min(ready,key=cost)
                    rc,err,t=coqc(g,max(90,8*cost(g)) if not g.startswith('Shipped') else 1500)
                    if rc is None: res['killed']=g+': timeout'; break
                    if rc!=0:
                        mm=re.search(r'line (\d+)',err); ln=int(mm.group(1)) if mm else 0
                        txt=open(f'{W}/{g}.v').read().split('\n')[:ln]; nm='?'
                        for l in reversed(txt):
                            q=re.match(r'\s*(?:Local |Global |#\[[^\]]*\]\s*)*(Lemma|Theorem|Corollary|Example|Instance|Fact|Definition|Fixpoint)\s+([\w\']+)',l)
                            if q: nm=q.group(2); break
                        res['killed']=f'{g}: {nm}'; break
                    T[g]=t if g not in T else 0.7*T[g]+0.3*t
                    todo.discard(g)
                res['time']=round(time.time()-t0,1)
                open(out,'a').write(json.dumps(res,ensure_ascii=False)+'\n')
                json.dump(T,open(TF,'w'))
main()
