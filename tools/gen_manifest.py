#!/usr/bin/env python3
"""Writes MANIFEST.json from the table below."""
import json, os
C = []
def c(prop, status, theorems, note):
    C.append({"property": prop, "status": status, "theorems": theorems.split(), "note": note})
exec(open(os.path.join(os.path.dirname(__file__), "manifest_table.py")).read())
json.dump({"claims": sorted(C, key=lambda x: x["property"])}, open("/verif/MANIFEST.json", "w"), indent=1)
