"""Writes /verif/MANIFEST.json from the table below and checks that every theorem exists."""
import json,re,glob
C=[]
def c(prop,status,theorems,note=''):
    C.append(dict(property=prop,status=status,theorems=theorems.split(),note=note))
exec(open('/verif/tools/claims.py').read())
names=set()
for f in glob.glob('/verif/rocq/theories/*.v'):
    names|=set(re.findall(r'^(?:Theorem|Lemma|Corollary)\s+([A-Za-z0-9_\']+)',open(f).read(),re.M))
for k in C:
    for t in k['theorems']:
        assert t in names,(k['property'],t)
ids=[json.loads(l)['id'] for l in open('/verif/properties.jsonl')]
have=[k['property'] for k in C]
print('missing:',[i for i in ids if i not in have],'unknown:',[h for h in have if h not in ids])
used=set(t for k in C for t in k['theorems'])
print('unlisted C-theorems:',sorted(n for n in names if re.match(r'C\d\d_',n) and n not in used))
json.dump({'claims':C},open('/verif/MANIFEST.json','w'),indent=1)
