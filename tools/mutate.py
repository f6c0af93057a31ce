#!/usr/bin/env python3
"""Seed one wrong program into a scratch copy of the model and see which theorems fail.

usage: mutate.py MUTANT.json [WORKDIR]
MUTANT.json: {"file": "Gp_Model.v", "old": "...", "new": "...", "definition": "...",
              "edit": "...", "claim": "C04 ...", ...}   ("edits": [[file, old, new], ...] for several)
Every proof that no longer goes through is replaced by an appeal to the scratch axiom
[mut_cheat]; the theorems of the *_Props.v files that depend on it are the ones that failed.
Prints a JSON object: {"failed": [...], "cheated": [...], "bad": reason or null}.
"""
import json, os, re, subprocess, sys, shutil, time
SRC=os.environ.get('MUT_SRC','/verif/rocq')
def coqdep(root, files):
    out=subprocess.run(['coqdep','-Q','theories','Verif']+['theories/'+f for f in files],cwd=root,capture_output=True,text=True).stdout
    deps={}
    for l in out.splitlines():
        m=re.match(r'theories/(\S+)\.vo\s.*?: (.*)$',l)
        if m:
            deps[m.group(1)+'.v']=[os.path.basename(x)[:-1] for x in m.group(2).split() if x.endswith('.vo') and x.startswith('theories/')]
    return deps
HEAD=re.compile(r'^\s*(?:Local |Global |#\[[^\]]*\] )?(?:Lemma|Theorem|Corollary|Example|Fact|Remark|Instance|Definition|Fixpoint|Program)\s+([\w\']+)',re.M)
def cheat(text, pos):
    """replace the proof around character pos; return (text, name) or None"""
    starts=[m for m in re.finditer(r'\bProof\b[^.]*\.',text)]
    best=None
    for m in starts:
        e=re.compile(r'\b(Qed|Defined)\.').search(text,m.end())
        if e is None: continue
        hs=[h for h in HEAD.finditer(text,0,m.start())]
        if not hs: continue
        if hs[-1].start()<=pos<=e.end(): best=(m,e,hs[-1])
        if m.start()>pos: break
    if best is None: return None
    m,e,h=best
    if text[m.end():e.start()].strip()=='exact (mut_cheat _).': return None
    if pos<m.start(): return None      # the statement itself is broken
    return text[:m.end()]+' exact (mut_cheat _). '+text[e.start():], h.group(1)
def byte2char(text,b): return len(text.encode()[:b].decode(errors='ignore'))
def run(mut, root):
    shutil.rmtree(root,ignore_errors=True)
    subprocess.run(['cp','-a',SRC,root],check=True)
    th=root+'/theories/'
    order=[os.path.basename(l.strip()) for l in open(root+'/_CoqProject') if l.strip().endswith('.v')]
    edits=mut.get('edits') or [[mut['file'],mut['old'],mut['new']]]
    dirty=set()
    for f,o,n in edits:
        t=open(th+f).read()
        if t.count(o)!=1: return {'bad':'%d occurrences of the text to replace in %s'%(t.count(o),f),'failed':[],'cheated':[]}
        open(th+f,'w').write(t.replace(o,n)); dirty.add(f)
    open(th+'Mut.v','w').write('Axiom mut_cheat : forall A : Type, A.\n')
    subprocess.run(['coqc','-Q','theories','Verif','theories/Mut.v'],cwd=root,check=True,capture_output=True)
    deps=coqdep(root,order)
    # topological order
    done=[];seen=set()
    def go(f):
        if f in seen: return
        seen.add(f)
        for d in deps.get(f,[]):
            if d in deps: go(d)
        done.append(f)
    for f in order: go(f)
    affected=set(dirty); cheated=[]; failed=[]
    for f in done:
        if f not in affected and not any(d in affected for d in deps.get(f,[])): continue
        affected.add(f)
        tries=0
        while True:
            tries+=1
            try:
                p=subprocess.run(['timeout',str(mut.get('timeout',150)),'coqc','-time','-Q','theories','Verif','theories/'+f],cwd=root,capture_output=True,text=True)
            except Exception as ex: return {'bad':str(ex),'failed':failed,'cheated':cheated}
            if p.returncode==0: break
            text=open(th+f).read()
            m=re.search(r'File "[^"]*", line (\d+), characters (\d+)-(\d+):\n(?!Warning)',p.stderr)
            errs=[x for x in re.finditer(r'File "[^"]*", line (\d+), characters (\d+)-(\d+):\s*\nError',p.stderr)]
            if errs:
                ln=int(errs[-1].group(1)); c=int(errs[-1].group(2))
                lines=text.split('\n'); pos=sum(len(x)+1 for x in lines[:ln-1])+c
            else: # time limit: last finished sentence
                cs=re.findall(r'^Chars (\d+) - (\d+)',p.stdout,re.M)
                pos=byte2char(text,int(cs[-1][1])+2) if cs else 0
            r=cheat(text,pos)
            if r is None or tries>200:
                return {'bad':'cannot repair %s: %s'%(f,p.stderr[-400:]),'failed':failed,'cheated':cheated}
            text,name=r
            if 'Import Mut.' not in text:
                text='From Verif Require Import Mut.\n'+text
            open(th+f,'w').write(text); cheated.append(f[:-2]+'.'+name)
        if f.endswith('_Props.v'):
            # outputs of Print Assumptions in order
            text=open(th+f).read()
            names=re.findall(r'Print Assumptions ([\w\']+)\.',text)
            out=[l for l in p.stdout.splitlines() if not l.startswith('Chars ')]
            res=[];
            for l in out:
                if l.startswith('Closed under'): res.append(True)
                elif l.startswith('Axioms:'): res.append(False)
            if len(res)!=len(names): return {'bad':'%s: %d results for %d names'%(f,len(res),len(names)),'failed':failed,'cheated':cheated}
            failed+=[n for n,ok in zip(names,res) if not ok]
    return {'bad':None,'failed':failed,'cheated':cheated}
if __name__=='__main__':
    mut=json.load(open(sys.argv[1])); root=sys.argv[2] if len(sys.argv)>2 else '/tmp/mut'
    t=time.time(); r=run(mut,root); r['secs']=round(time.time()-t); print(json.dumps(r,indent=1))
