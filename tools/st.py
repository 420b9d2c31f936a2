#!/usr/bin/env python3
"""tools/st.py Cnn status note: records a status and regenerates MANIFEST.json."""
import json,sys,os,subprocess
root=os.path.dirname(os.path.dirname(os.path.abspath(__file__)))
p=os.path.join(root,'tools','status.json'); d=json.load(open(p))
if len(sys.argv)>3: d[sys.argv[1]]=[sys.argv[2],sys.argv[3]]
json.dump(d,open(p,'w'),indent=1)
subprocess.check_call([sys.executable,os.path.join(root,'tools','gen_manifest.py')])
