"""setprop.py ID field 'text' : edit one field of properties.jsonl"""
import json,sys
rows=[json.loads(l) for l in open('/verif/properties.jsonl')]
for r in rows:
    if r['id']==sys.argv[1]: r[sys.argv[2]]=sys.argv[3]
open('/verif/properties.jsonl','w').write(''.join(json.dumps(r,ensure_ascii=False)+'\n' for r in rows))
