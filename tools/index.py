"""Writes the index of properties at the end of DESIGN.md."""
import json,re,glob,os
root=os.path.dirname(os.path.dirname(os.path.abspath(__file__)))
th=root+'/rocq/theories/'
props=[json.loads(l) for l in open(root+'/properties.jsonl')]
src={os.path.basename(f)[:-2]:open(f).read() for f in glob.glob(th+'*.v')}
def req(f):
    out=[]
    for m in re.finditer(r'From Verif Require (?:Import|Export)?\s*([\w\s]+)\.',src[f]): out+=[x for x in m.group(1).split() if x in src]
    return out
defs={}
for f in src:
    for m in re.finditer(r'^\s*(?:Definition|Fixpoint|Inductive|CoInductive|Record|with|Notation)\s+(\w+)',src[f],re.M): defs.setdefault(m.group(1),set()).add(f)
def closure(fs):
    seen=set(); todo=list(fs)
    while todo:
        f=todo.pop()
        if f not in seen: seen.add(f); todo+=req(f)
    return seen
def used(i,fs):
    cl=closure(fs); out=set()
    for f in fs:
        for m in re.finditer(r'^Theorem %s_.*?^Proof'%i,src[f],re.M|re.S):
            for t in set(re.findall(r'\w{4,}',m.group(0))):
                d=[x for x in defs.get(t,()) if x in cl and not x.endswith(('Proofs','More','Final','Acks'))]
                if len(d)==1: out.add(d[0])
    return out
L=['','## Index of properties','','For each property: the files with its theorems, the files with the specifications and model','definitions that their statements mention, and the files of lemmas. (Generated by','`tools/index.py`; the approach to each is in the list above.)','']
for p in props:
    i=p['id']
    fs=sorted(f for f in src if f.startswith('Prop_') and re.search(r'^Theorem %s_'%i,src[f],re.M))
    rs=[]
    for f in fs:
        for r in req(f):
            if r not in rs: rs.append(r)
    us=used(i,fs)
    spec=sorted(r for r in us if r.startswith('Spec'))
    model=sorted(r for r in us if not r.startswith(('Spec','Prop_')) and r not in('Lib','Samples'))
    other=[r for r in rs if not r.startswith(('Spec','Prop_')) and r not in('Lib','Samples') and r not in model and re.search(r'^(Lemma|Theorem)',src[r],re.M)]
    L.append('* %s (%s): theorems in %s%s%s%s.'%(i,p['title'],', '.join(fs),'; specification '+', '.join(spec) if spec else '','; model '+', '.join(model) if model else '','; lemmas '+', '.join(other) if other else ''))
d=open(root+'/DESIGN.md').read()
j=d.find('\n## Index of properties')
if j>=0: d=d[:j].rstrip('\n')+'\n'
open(root+'/DESIGN.md','w').write(d+'\n'.join(L)+'\n')
