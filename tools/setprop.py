"""Update fields of a property: setprop.py C05 statement 'text'  (append if new id with a JSON object)."""
import json,sys
P='/verif/properties.jsonl'
def load(): return [json.loads(l) for l in open(P)]
def save(ps):
    with open(P,'w') as f:
        for p in ps: f.write(json.dumps(p)+'\n')
def setp(i,**kw):
    ps=load()
    for p in ps:
        if p['id']==i:
            p.update(kw); break
    else:
        kw['id']=i; d={'id':i}; d.update(kw); ps.append(d)
    save(ps)
