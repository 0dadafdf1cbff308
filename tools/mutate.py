#!/usr/bin/env python3
"""Seeded-bug runner.  usage: mutate.py bugs.json [--log]
Each bug: {"file","old","new","definition","edit","claim","expect":[theorems]}.
Works in a scratch copy outside /verif.  A lemma whose proof no longer goes through is
replaced by Admitted *in the scratch copy* and the build continues; the theorems that fail are
those whose Print Assumptions then lists such a lemma, or that fail themselves."""
import sys, os, re, json, shutil, subprocess
SRC=os.environ.get('SRC','/verif/rocq'); W='/tmp/mut/work'
def order():
    return [l.strip().split('/')[-1][:-2] for l in open(SRC+'/_CoqProject') if l.strip().endswith('.v')]
def deps(f, files):
    s=open(f'{W}/{f}.v').read(); out=set()
    for m in re.finditer(r'From Verif Require (?:Import|Export)\s+([^.]*)\.', s): out|=set(m.group(1).split())
    return out & set(files)
START=re.compile(r'^\s*(?:Local |Global |#\[[^\]]*\]\s*)*(Lemma|Theorem|Corollary|Example|Instance|Fact|Remark|Proposition)\s+([\w\']+)',re.M)
def line_off(s,n):
    i=0
    for _ in range(n-1): i=s.index('\n',i)+1
    return i
def coqc(f):
    """A sentence that does not end in time counts as a failed proof."""
    with open('/tmp/mut/out','w') as o, open('/tmp/mut/err','w') as e:
        try:
            r=subprocess.run(['coqc','-time','-Q','.','Verif',f+'.v'],cwd=W,stdout=o,stderr=e,timeout=1500 if f.startswith('Shipped') else 240); rc=r.returncode
        except subprocess.TimeoutExpired: rc=None
    out=open('/tmp/mut/out').read(); err=open('/tmp/mut/err').read()
    t=re.findall(r'(?m)^Chars (\d+) - (\d+) \[.*$',out)
    out=re.sub(r'(?m)^Chars \d+ - \d+ \[.*\n','',out)
    if rc is None and t:
        s=open(f'{W}/{f}.v','rb').read(); n=int(t[-1][1])
        while s[n:n+1].isspace(): n+=1
        return 1,out,f'File "./{f}.v", line {s[:n].count(10)+1}, does not end in time'
    return rc,out,err
def run(bug):
    os.makedirs('/tmp/mut',exist_ok=True)
    if os.path.exists(W): shutil.rmtree(W)
    shutil.copytree(SRC+'/theories',W)
    p=f"{W}/{bug['file']}.v"; s=open(p).read()
    if s.count(bug['old'])<1: return dict(error='pattern not found')
    if s.count(bug['old'])>1 and not bug.get('first'): return dict(error='pattern not unique')
    open(p,'w').write(s.replace(bug['old'],bug['new'],1))
    files=order(); dirty={bug['file']}; failed={}; assum={}
    for f in files:
        d=deps(f,files)
        if f!=bug['file'] and not (d & dirty): continue
        dirty.add(f)
        tries=0
        while True:
            tries+=1
            rc,out,err=coqc(f)
            if rc is None: return dict(error=f'timeout in {f}')
            if rc==0: break
            m=re.search(r'File "\./(\w+)\.v", line (\d+)',err)
            s=open(f'{W}/{f}.v').read()
            if not m or tries>60: return dict(error=f'does not build: {f}: {err[-300:]}',failed=failed)
            off=line_off(s,int(m.group(2)))
            eol=s.find('\n',off); eol=len(s) if eol<0 else eol
            st=[x for x in START.finditer(s) if x.start()<=eol]
            if not st: return dict(error=f'definition broken: {f}: {err[-300:]}',failed=failed)
            x=st[-1]
            q=re.search(r'\b(Qed|Defined)\.',s[x.start():])
            pr=re.search(r'\bProof\b[^.]*\.',s[x.start():])
            if not q or x.start()+q.end()<off or not pr or pr.start()>q.start():
                return dict(error=f'definition broken: {f}:{m.group(2)}: {err[-300:]}',failed=failed)
            a=x.start()+pr.start(); b=x.start()+q.end()
            if s[a:b].strip()=='Admitted.' : return dict(error='loop')
            # the statement itself may fail
            if off < x.start()+pr.start() and int(m.group(2)) <= s[:x.start()+pr.start()].count('\n'):
                return dict(error=f'statement broken: {f}: {x.group(2)}: {err[-200:]}',failed=failed)
            failed.setdefault(f,[]).append(x.group(2))
            s=s[:a]+'Admitted.'+'\n'*s[a:b].count('\n')+s[b:]
            open(f'{W}/{f}.v','w').write(s)
        if f.startswith('Props'):
            # attach Print Assumptions outputs in order
            names=re.findall(r'^Print Assumptions (\w+)\.',open(f'{W}/{f}.v').read(),re.M)
            blocks=re.split(r'(?m)^(?=Closed under|Axioms:)',out)[1:]
            for n,b in zip(names,blocks): assum[n]=b
    lem=[l for v in failed.values() for l in v]
    bad=[n for n,b in assum.items() if n in lem or any(re.search(r'(?m)^(?:[\w.]*\.)?'+re.escape(l)+r'\s',b) for l in lem)]
    bad+= [l for l in lem if l not in bad and re.match(r'C\d\d_',l)]
    return dict(failed=failed,theorems=bad)
if __name__=='__main__':
    bugs=json.load(open(sys.argv[1])); log='--log' in sys.argv
    for b in bugs:
        r=run(b); print(b['definition'],'|',b['edit'],'->',json.dumps(r)); sys.stdout.flush()
        if log and 'error' not in r:
            with open('/verif/seeded/LOG.jsonl','a') as f:
                f.write(json.dumps(dict(definition=b['definition'],edit=b['edit'],claim=b['claim'],theorems_failed=r['theorems'],lemmas_failed=[l for v in r['failed'].values() for l in v],tightened=b.get('tightened',[])))+'\n')
