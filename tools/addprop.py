"""addprop.py specs.json: append properties, DESIGN rows and statuses. Each: {id,title,statement,quantifier,why,anchors,design:[a,b],status:[s,n]?}"""
import json, sys
specs = json.load(open(sys.argv[1]))
have = {json.loads(l)['id'] for l in open('properties.jsonl') if l.strip()}
st = json.load(open('tools/status.json'))
design = open('DESIGN.md').read().split('\n')
with open('properties.jsonl', 'a') as f:
    for s in specs:
        assert s['id'] not in have
        f.write(json.dumps({"id": s['id'], "title": s['title'], "statement": s['statement'], "quantifier": s['quantifier'],
                            "why_tests_cant": s['why'], "anchors": s['anchors']}) + '\n')
        last = max(i for i, l in enumerate(design) if l.startswith('| C'))
        design.insert(last + 1, f"| {s['id']} | {s['design'][0]} | {s['design'][1]} |")
        if 'status' in s: st[s['id']] = s['status']
open('DESIGN.md', 'w').write('\n'.join(design))
json.dump(st, open('tools/status.json', 'w'), indent=1)
