"""Test the theorems against wrong programs.

usage: mutate.py MUTANTS.py [id ...]

MUTANTS.py calls mut(id, file, definition, old, new, claim, expected) where expected lists the properties whose English claim is false
of the edited program.  For each mutant the model is edited in a scratch copy and everything that depends on it is rebuilt; a proof that
fails is replaced by Admitted there (so that the dependent theorems show up in Print Assumptions) and the theorems that failed, or that
depend on a lemma that failed, are listed.  Results are written to /tmp/mut/results.jsonl.
"""
import re,sys,os,subprocess,shutil,json,time
from concurrent.futures import ThreadPoolExecutor, FIRST_COMPLETED, wait
SRC=os.environ.get('MUTSRC','/verif/rocq/theories'); W='/tmp/mut'
os.makedirs(W,exist_ok=True)
def files(): return [l.strip()[len('theories/'):-2] for l in open(os.path.join(os.path.dirname(SRC),'_CoqProject')) if l.strip().endswith('.v')]
FILES=files()
def deps(f):
    s=open(f'{SRC}/{f}.v').read(); d=set()
    for m in re.finditer(r'From Verif Require (?:Import|Export) ([^.]*)\.',s): d|=set(m.group(1).split())
    return d
DEPS={f:deps(f)&set(FILES) for f in FILES}
def dependents(f):
    out={f}; ch=True
    while ch:
        ch=False
        for g in FILES:
            if g not in out and DEPS[g]&out: out.add(g); ch=True
    return out
START=re.compile(r'^\s*(?:Local |Global |#\[\w+\] ?)*(Lemma|Theorem|Example|Corollary|Fact|Remark|Instance|Definition|Fixpoint)\s+(\w+)',re.M)
def admit_at(text,pos):
    """replace the proof around character pos by Admitted; returns (newtext,name) or None"""
    best=None
    for m in START.finditer(text):
        if m.start()<=pos: best=m
        else: break
    if best is None: return None
    m=best
    p=re.compile(r'\bProof\b[^.]*\.').search(text,m.end())
    nxt=START.search(text,m.end())
    if not p or (nxt and nxt.start()<p.start()): return None
    if pos<p.start(): return ('STATEMENT',m.group(2))
    q=re.compile(r'\b(Qed|Defined)\.').search(text,p.end())
    if not q: return None
    body=text[p.start():q.end()]
    return (text[:p.start()]+'Admitted.'+re.sub(r'[^\n]',' ',body)[len('Admitted.'):]+text[q.end():],m.group(2))
def compile_one(d,f,limit=150):
    """returns (admitted names, statement errors, stdout, fatal)"""
    path=f'{d}/{f}.v'; adm=[]; fatal=None
    for _ in range(80):
        to=False
        try:
            r=subprocess.run(['coqc','-q','-time','-Q',d,'Verif',path],stdout=subprocess.PIPE,stderr=subprocess.STDOUT,timeout=limit,text=True,errors='replace')
            out=r.stdout
            if r.returncode==0: return adm,None,out,None
        except subprocess.TimeoutExpired as e:
            out=(e.stdout or b'').decode(errors='replace') if isinstance(e.stdout,bytes) else (e.stdout or ''); to=True
        text=open(path,encoding='latin-1').read()
        mm=list(re.finditer(r'File "[^"]*", line (\d+), characters (\d+)-(\d+):\nError',out))
        if mm and not to:
            ln,c=int(mm[-1].group(1)),int(mm[-1].group(2)); lines=text.split('\n'); pos=sum(len(l)+1 for l in lines[:ln-1])+c
        else:
            ch=re.findall(r'^Chars (\d+) - (\d+)',out,re.M); pos=(int(ch[-1][1])+2) if ch else 0
            if not to and not ch: return adm,None,out,'no position: '+out[-300:]
        a=admit_at(text,pos)
        if a is None: return adm,None,out,f'not in a proof: {f} pos {pos}: '+out[-300:]
        if a[0]=='STATEMENT': return adm,a[1],out,'statement of '+a[1]+': '+out[-200:]
        open(path,'w',encoding='latin-1').write(a[0]); adm.append(a[1])
    return adm,None,'','too many'
def run(m):
    d=f"{W}/{m['id']}"; shutil.rmtree(d,ignore_errors=True); os.makedirs(d)
    for f in FILES:
        for ext in ('.v','.vo'): shutil.copy2(f'{SRC}/{f}{ext}',d)
    p=f"{d}/{m['file']}.v"; s=open(p).read()
    for old,new in m['edits']:
        if s.count(old)!=1: return {'id':m['id'],'error':f"old text occurs {s.count(old)} times: {old[:60]}"}
        s=s.replace(old,new)
    open(p,'w').write(s)
    for f in FILES:
        if f.startswith('Prop'):
            q=f'{d}/{f}.v'; t=open(q,encoding='latin-1').read(); t=re.sub(r'^Print Assumptions \w+\.\n?','',t,flags=re.M)
            t+='\n'+''.join('Print Assumptions %s.\n'%x for x in re.findall(r'^Theorem (\w+)',t,re.M)); open(q,'w',encoding='latin-1').write(t)
    todo=[f for f in FILES if f in dependents(m['file'])]
    for f in todo: os.remove(f'{d}/{f}.vo')
    done=set(FILES)-set(todo); admitted={}; tainted=[]; fatal={}; running={}
    with ThreadPoolExecutor(4) as ex:
        pend=list(todo)
        while pend or running:
            for f in list(pend):
                if DEPS[f]&set(fatal): fatal[f]='depends'; pend.remove(f); continue
                if DEPS[f]<=done and len(running)<4: running[ex.submit(compile_one,d,f)]=f; pend.remove(f)
            if not running:
                if pend: continue
                break
            dn,_=wait(running,return_when=FIRST_COMPLETED)
            for x in dn:
                f=running.pop(x); adm,st,out,ft=x.result()
                if adm: admitted[f]=adm
                if ft: fatal[f]=ft
                else: done.add(f)
                if f.startswith('Prop') and not ft:
                    names=re.findall(r'^Print Assumptions (\w+)\.',open(f'{d}/{f}.v',encoding='latin-1').read(),re.M)
                    blocks=re.split(r'^(?=Closed under the global context|Axioms:)',out,flags=re.M)[1:]
                    for n,b in zip(names,blocks):
                        used=[x for x in re.findall(r'^([A-Za-z_][\w.]*)(?: *:|$)',b,re.M) if x!='Axioms' and not x.startswith('Chars') and x not in STD and x.split('.')[-1] not in STD]
                        if b.startswith('Axioms:') and used: tainted.append(n)
    res={'id':m['id'],'file':m['file'],'definition':m['definition'],'edit':m['edits'],'claim':m['claim'],'expected':m['expected'],
      'admitted':admitted,'failed_theorems':sorted(tainted),'fatal':fatal}
    cl={re.match(r'(C\d+)',t).group(1) for t in tainted if re.match(r'C\d+',t)}
    res['properties_hit']=sorted(cl); res['survived']=[e for e in m['expected'] if e not in cl]
    shutil.rmtree(d,ignore_errors=True)
    return res
MUTS=[]
# axioms of the standard library (used by C89)
STD={'sig_forall_dec','sig_not_dec','functional_extensionality_dep','classic'}
def mut(id,file,definition,old,new,claim,expected):
    edits=[(old,new)] if isinstance(old,str) else list(zip(old,new))
    MUTS.append(dict(id=id,file=file,definition=definition,edits=edits,claim=claim,expected=expected.split()))
if __name__=='__main__':
    exec(open(sys.argv[1]).read())
    ids=sys.argv[2:]
    for m in MUTS:
        if ids and m['id'] not in ids: continue
        t=time.time(); r=run(m); r['secs']=round(time.time()-t)
        open(f'{W}/results.jsonl','a').write(json.dumps(r)+'\n')
        if 'error' in r: print(r['id'],'ERROR',r['error']); continue
        print(r['id'],m['definition'],'| hit:',' '.join(r['properties_hit']),'| SURVIVED' if r['survived'] else '| ok',r['survived'],
              '| fatal' if r['fatal'] else '',{k:v for k,v in r['fatal'].items() if v!='depends'} if r['fatal'] else '',r['secs'],'s',flush=True)
