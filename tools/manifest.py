#!/usr/bin/env python3
"""Regenerates MANIFEST.json from tools/claims.json: {id: [status, [theorems], note]}."""
import json, os
root = os.path.dirname(os.path.dirname(os.path.abspath(__file__)))
claims = json.load(open(os.path.join(root, 'tools', 'claims.json')))
ids = [json.loads(l)['id'] for l in open(os.path.join(root, 'properties.jsonl')) if l.strip()]
out = [{"property": i, "status": claims[i][0], "theorems": claims[i][1], "note": claims[i][2]}
       for i in ids if i in claims]
json.dump({"claims": out}, open(os.path.join(root, 'MANIFEST.json'), 'w'), indent=1)
