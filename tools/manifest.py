#!/usr/bin/env python3
"""Write MANIFEST.json.  The status of each property is listed here."""
import json, os
C = {}
def claim(p, status, theorems, note=""):
    C[p] = {"property": p, "status": status, "theorems": theorems, "note": note}
exec(open(os.path.join(os.path.dirname(__file__), "claims.py")).read())
props = [json.loads(l)["id"] for l in open("/verif/properties.jsonl")]
json.dump({"claims": [C[p] for p in props if p in C]}, open("/verif/MANIFEST.json", "w"), indent=1)
print("missing:", [p for p in props if p not in C])
