"""setst.py C25 proved "note" : update tools/status.json"""
import json, sys, os
f = os.path.join(os.path.dirname(__file__), 'status.json')
d = json.load(open(f)); d[sys.argv[1]] = [sys.argv[2], sys.argv[3]]
json.dump(d, open(f, 'w'), indent=0)
