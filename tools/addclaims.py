"""usage: addclaims.py < json object {id: [status, [theorems], note]} ; merges into claims.json"""
import json,sys,os
p=os.path.join(os.path.dirname(__file__),'claims.json')
d=json.load(open(p)); d.update(json.load(sys.stdin))
json.dump(dict(sorted(d.items())),open(p,'w'),indent=0)
