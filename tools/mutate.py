#!/usr/bin/env python3
"""Seeded-bug runner.  usage: mutate.py mutations.py [id...]
mutations.py defines M = [(id, file, definition, old, new, claim, props), ...].
Works in scratch copies outside /verif: /tmp/mutbase (pristine, compiled) and
/tmp/mut (edited).  Appends one JSON line per attempt to /tmp/mutlog.jsonl.
The theorems reported as failed are those of MANIFEST.json that use (via the
reference graph in the .glob files) a lemma whose proof no longer goes through."""
import sys,os,re,json,subprocess,shutil,glob,runpy,time
BASE='/tmp/mutbase'; K,NSH=map(int,os.environ.get('SH','0/1').split('/')); W=f'/tmp/mut{K}'  # SH=k/n: this is worker k of n
def sh(c,**k): return subprocess.run(c,shell=True,capture_output=True,text=True,**k)
def prepare():
    if not os.path.exists(BASE):
        shutil.copytree('/verif/rocq',BASE,symlinks=True); sh(f'find {BASE} -exec touch -r /verif/rocq/_CoqProject {{}} +')
def graph():
    """name -> set of names used; names are 'File.ident'"""
    g={}; defs={}
    for f in glob.glob(BASE+'/theories/*.glob'):
        m=os.path.basename(f)[:-5]
        ents=[]
        for l in open(f,errors='replace'):
            t=l.split()
            if not t: continue
            if t[0][0]=='R' and len(t)>=4:
                pos=int(t[0][1:].split(':')[0]); lib=t[1]; nm=t[3]
                if lib.startswith('Verif.'): ents.append((pos,'R',lib[6:]+'.'+nm))
            elif t[0] in('def','prf','thm','lem','inst','rec','ind','ax','constr','proj','fix','ex') and len(t)>=4:
                pos=int(t[1].split(':')[0]); ents.append((pos,'D' if t[0] not in('constr','proj') else 'C',m+'.'+t[3]))
        ents.sort(key=lambda e:e[0]); cur=None
        for p,k,n in ents:
            if k=='D': cur=n; g.setdefault(cur,set())
            elif k=='C':
                g.setdefault(n,set()).add(cur)
            elif cur: g[cur].add(n)
    return g
def enclosing(path,line):
    src=open(path).read().split('\n')
    for i in range(min(line,len(src))-1,-1,-1):
        m=re.match(r"\s*(?:Local |Global |#\[.*\] *)?(Lemma|Theorem|Definition|Fixpoint|Example|Corollary|Fact|Let|Goal|Remark|Instance|Ltac|Inductive|Record)\s+([\w']+)",src[i])
        if m: return m.group(2)
    return '?'
def main():
    prepare(); g=graph()
    rev={}
    for a,bs in g.items():
        for b in bs: rev.setdefault(b,set()).add(a)
    man=json.load(open('/verif/MANIFEST.json')); thms={}
    for c in man['claims']:
        for t in c['theorems']: thms[t.split('.')[-1]]=c['property']
    muts=runpy.run_path(sys.argv[1])['M']; want=set(sys.argv[2:])
    done=set()
    if os.path.exists('/tmp/mutlog.jsonl'):
        done={json.loads(l)['id'] for l in open('/tmp/mutlog.jsonl')}
    todo=[m for m in muts if (m[0] in want if want else m[0] not in done)]
    for (mid,f,d,old,new,claim,props) in todo[K::NSH]:
        t0=time.time()
        sh(f'rm -rf {W}; cp -a {BASE} {W}')
        p=f'{W}/theories/{f}.v'; s=open(p).read()
        if s.count(old)!=1: print(mid,'PATTERN COUNT',s.count(old)); continue
        open(p,'w').write(s.replace(old,new))
        errs=[]; seen=set(); failed=set(); out=''
        # with -k, polling: stop as soon as a theorem of an expected property is lost
        po=open(W+'.make','w')
        # first only the files of the expected properties, then everything
        tgt=sorted({'theories/'+n.split('.')[0]+'.vo' for n in g for t in [n.split('.')[-1]] if thms.get(t) in props and n.split('.')[0].startswith(('Prop','Check'))})
        J=os.environ.get('J','3')
        pr=subprocess.Popen(f'cd {W}; ulimit -v 6500000; make -k -j{J} COQC="timeout --foreground 300 coqc" '+' '.join(tgt)+f' && exec make -k -j{J} COQC="timeout --foreground 300 coqc"',shell=True,stdout=po,stderr=subprocess.STDOUT,start_new_session=True)
        rc=None
        while True:
            time.sleep(2); rc=pr.poll()
            out=open(W+'.make',errors='replace').read()
            for m in re.finditer(r'File "\./theories/([\w]+)\.v", line (\d+), characters [\d-]+:\n(.*)',out):
                if not m.group(3).startswith('Error'): continue
                if m.group(1) in seen: continue
                seen.add(m.group(1)); errs.append((m.group(1),enclosing(f'{W}/theories/{m.group(1)}.v',int(m.group(2)))))
            # a proof that no longer ends: all of that file is lost
            for m in re.finditer(r'theories/(\w+)\.vo\] Error 124',out):
                if m.group(1) not in seen: seen.add(m.group(1)); errs.append((m.group(1),'(does not end)'))
            for (mf,nm) in errs:
                st=[n for n in g if n.startswith(mf+'.')] if nm[0]=='(' else [mf+'.'+nm]; vis=set(st)
                while st:
                    x=st.pop()
                    for y in rev.get(x,()):
                        if y not in vis: vis.add(y); st.append(y)
                failed|={v.split('.')[-1] for v in vis}&set(thms)
            if rc is not None: break
            if ({thms[t] for t in failed}&set(props)) or time.time()-t0>3000:
                os.killpg(pr.pid,9); rc=2
                if time.time()-t0>3000: errs.append(('TIMEOUT','TIMEOUT'))
                break
        fp=sorted({thms[t] for t in failed})
        hit=[q for q in props if q in fp]
        rec=dict(id=mid,definition=f'{f}.{d}',edit=f'{old}  ==>  {new}',claim_broken=claim,properties=props,
                 first_failing=[a+'.'+b for a,b in errs],theorems_failed=sorted(failed),props_failed=fp,
                 survived=(rc==0),secs=int(time.time()-t0))
        open('/tmp/mutlog.jsonl','a').write(json.dumps(rec)+'\n')
        print(mid,f,d,'rc',rc,'SURVIVED' if rc==0 else ('ok' if set(props)&set(fp) else 'NOHIT'),rec['first_failing'],fp,rec['secs'],flush=True)
        if rc and not errs: print(out[-600:])
main()
