"""Systematic wrong programs: one token of one definition of the model is changed (a comparison, a constant, a connective, an operator, an
updated variable replaced by the old one), everything that depends on it is rebuilt, file by file, until a proof fails.
usage: automut.py OUT.jsonl SEED PER_DEFINITION WORKERS [File ...]      environment: MUTSRC (a built copy of rocq/theories), HOURS, RERUN (the OUT.jsonl of an earlier run)
verdicts: invalid (the edited definition does not type-check), killed (with the file and the statement whose proof failed), survived."""
import re,sys,os,glob,json,random,subprocess,shutil,time
from concurrent.futures import ThreadPoolExecutor
SRC=os.environ.get('MUTSRC','/tmp/mutsrc2/theories'); W='/tmp/automut'; os.makedirs(W,exist_ok=True)
out,seed,per,workers=sys.argv[1],int(sys.argv[2]),int(sys.argv[3]),int(sys.argv[4]); only=sys.argv[5:]
# a private copy: SRC may be refreshed while the mutants run
PRIV=f'{W}/src{seed}'; shutil.rmtree(PRIV,ignore_errors=True); shutil.copytree(os.path.dirname(SRC),PRIV); SRC=PRIV+'/theories'
T0=time.time(); LIMIT=float(os.environ.get('HOURS','3'))*3600
FILES=[l.strip()[len('theories/'):-2] for l in open(os.path.join(os.path.dirname(SRC),'_CoqProject')) if l.strip().endswith('.v')]
def deps(f):
    s=open(f'{SRC}/{f}.v',encoding='latin-1').read(); d=set()
    for m in re.finditer(r'From Verif Require (?:Import|Export) ([^.]*)\.',s): d|=set(m.group(1).split())
    return d
DEPS={f:deps(f)&set(FILES) for f in FILES}
def dependents(f):
    o={f}; ch=True
    while ch:
        ch=False
        for g in FILES:
            if g not in o and DEPS[g]&o: o.add(g); ch=True
    return [g for g in FILES if g in o]
def strip(s):
    o=[];d=0;i=0
    while i<len(s):
        if s.startswith('(*',i): d+=1;i+=2;o.append('  ');continue
        if d and s.startswith('*)',i): d-=1;i+=2;o.append('  ');continue
        o.append(s[i] if (not d or s[i]=='\n') else ' ');i+=1
    return ''.join(o)
TOK=re.compile(r'<=\?|<\?|=\?|&&|\|\||(?<= )\+(?= )|(?<= )-(?= )|\btrue\b|\bfalse\b|(?<![\w."])\d+\b(?!["\w])|\bfirstn\b|\bskipn\b|\b[a-z_]+[0-9]?\'(?![\w\'])|\b[a-z]+[23]\b')
def change(t):
    if t in ('<?',): return '<=?'
    if t=='<=?': return '<?'
    if t=='=?': return '<=?'
    if t=='&&': return '||'
    if t=='||': return '&&'
    if t=='+': return '-'
    if t=='-': return '+'
    if t=='true': return 'false'
    if t=='false': return 'true'
    if t=='firstn': return 'skipn'
    if t=='skipn': return 'firstn'
    if t.isdigit(): return str(int(t)+1)
    if t.endswith("'"): return t[:-1]
    return t[:-1]+str(int(t[-1])-1)
rnd=random.Random(seed); M=[]
for path in sorted(glob.glob(SRC+'/*Model.v'))+[SRC+'/PyStruct.v',SRC+'/Defines.v']:
    F=path.split('/')[-1][:-2]
    if (only and F not in only) or F not in FILES: continue
    raw=open(path,encoding='latin-1').read(); s=strip(raw)
    defs=[(m.start(),m.group(2)) for m in re.finditer(r'^\s*(Definition|Fixpoint|with)\s+(\w+)',s,re.M)]
    for i,(p,name) in enumerate(defs):
        e=defs[i+1][0] if i+1<len(defs) else len(s)
        a=s.find(':=',p,e)
        if a<0: continue
        sites=[m for m in TOK.finditer(s,a,e) if change(m.group(0))!=m.group(0)]
        for m in rnd.sample(sites,min(per,len(sites))):
            ls=raw.rfind('\n',0,m.start())+1; le=raw.find('\n',m.end()); le=len(raw) if le<0 else le
            line=raw[ls:le]; new=raw[ls:m.start()]+change(m.group(0))+raw[m.end():le]
            M.append((F,name,m.start(),m.group(0),change(m.group(0)),line.strip(),new.strip()))
if os.environ.get('RERUN'):            # try again the edits that survived in an earlier run
    M=[]
    for j in map(json.loads,open(os.environ['RERUN'])):
        if j['verdict']!='survived': continue
        F,name=j['definition'].split('.'); raw=open(f'{SRC}/{F}.v',encoding='latin-1').read(); p=raw.find(name); p=raw.find(j['old'],p)
        if p<0: print('not found',j['definition'],j['old']); continue
        M.append((F,name,p,j['old'],j['new'],j['old'],j['new']))
rnd.shuffle(M); print(len(M),'mutants'); sys.stdout.flush()
done=set()
if os.path.exists(out): done={(j['definition'],j['old'],j['new']) for j in map(json.loads,open(out))}
def name_at(text,ln):
    pre='\n'.join(text.split('\n')[:ln]); n=re.findall(r'^\s*(?:Local )?(?:Lemma|Theorem|Example|Definition|Fixpoint|Corollary)\s+(\w+)',pre,re.M); return n[-1] if n else '?'
def run(k):
    F,name,pos,t,c,line,new=M[k]
    if time.time()-T0>LIMIT or (F+'.'+name,line,new) in done: return None
    d=f'{W}/{seed}_{k}'; shutil.rmtree(d,ignore_errors=True); os.makedirs(d); D=dependents(F)
    for f in FILES:
        if f in D: shutil.copy2(f'{SRC}/{f}.v',d)
        else: os.symlink(f'{SRC}/{f}.vo',f'{d}/{f}.vo')
    raw=open(f'{d}/{F}.v',encoding='latin-1').read(); open(f'{d}/{F}.v','w',encoding='latin-1').write(raw[:pos]+c+raw[pos+len(t):])
    v={'definition':F+'.'+name,'old':line,'new':new}; t0=time.time(); v['verdict']='survived'
    for f in D:
        try:
            r=subprocess.run(['coqc','-q','-Q',d,'Verif',f'{d}/{f}.v'],stdout=subprocess.PIPE,stderr=subprocess.STDOUT,timeout=240,text=True,errors='replace')
            if r.returncode==0: continue
            mm=list(re.finditer(r'File "[^"]*", line (\d+), characters (\d+)-(\d+):\nError',r.stdout)); ln=int(mm[-1].group(1)) if mm else 0
            if f==F: v['verdict']='invalid'
            else: v['verdict']='killed'
            v['at']=f+'.'+name_at(open(f'{d}/{f}.v',encoding='latin-1').read(),ln)
        except subprocess.TimeoutExpired: v['verdict']='killed'; v['at']=f+' (a proof no longer ends)'
        break
    v['seconds']=int(time.time()-t0); shutil.rmtree(d,ignore_errors=True)
    with open(out,'a') as g: g.write(json.dumps(v)+'\n')
    return v
with ThreadPoolExecutor(workers) as ex: list(ex.map(run,range(len(M))))
