"""writes DESIGN.md: the text below plus, per property, the theorems found in MANIFEST.json"""
import json,os
R=os.path.dirname(os.path.dirname(os.path.abspath(__file__)))
P=[json.loads(l) for l in open(R+'/properties.jsonl')]
M={c['property']:c for c in json.load(open(R+'/MANIFEST.json'))['claims']}
HEAD=open(R+'/tools/design_head.md').read()
HOW={}
cur=None
for l in open(R+'/tools/design_how.md'):
    if l[:1]=='C' and l[1:3].isdigit() and l[3:5]==': ': cur=l[:3]; HOW[cur]=l[5:].strip()
    elif l.strip(): HOW[cur]+='\n'+l.rstrip()
out=[HEAD,'\n## 6. Property by property\n','Each entry: what is modelled and how it is proved, then the theorems (in `theories/P_*.v`). The English text is in `properties.jsonl`.\n']
n=0
for p in P:
    i=p['id']; c=M[i]; n+=len(c['theorems'])
    out.append(f"**{i} — {p['title']}** ({c['status']}). {HOW[i]}\nTheorems: "+', '.join('`'+t+'`' for t in c['theorems'])+'.'+(' Note: '+c['note']+'.' if c['note'] else '')+'\n')
s='\n'.join(out).replace('@N@',str(n)).replace('@P@',str(len(P)))
open(R+'/DESIGN.md','w').write(s)
print('DESIGN.md',len(s),n)
