import json,sys
def add(id,title,statement,quantifier,why,anchors):
    L=[json.loads(l) for l in open('/verif/properties.jsonl')]
    L=[d for d in L if d['id']!=id]
    L.append(dict(id=id,title=title,statement=statement,quantifier=quantifier,why_tests_cant=why,anchors=anchors))
    L.sort(key=lambda d:int(d['id'][1:]))
    open('/verif/properties.jsonl','w').write(''.join(json.dumps(d,ensure_ascii=False)+'\n' for d in L))
