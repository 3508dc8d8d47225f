#!/usr/bin/env python3
"""Write MANIFEST.json from the table below."""
import json
CLAIMS = []
def c(p, status, theorems, note=""):
    CLAIMS.append({"property": p, "status": status, "theorems": theorems.split(), "note": note})
exec(open(__file__.replace("manifest.py", "claims.py")).read())
json.dump({"claims": CLAIMS}, open(__file__.replace("manifest.py", "MANIFEST.json"), "w"), indent=1)
