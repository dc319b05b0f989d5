#!/usr/bin/env python3
"""Writes MANIFEST.json from tools/claims.txt.
Each line:  Cnn | status | theorem names, comma separated | note"""
import json,os
here=os.path.dirname(os.path.abspath(__file__))
claims=[]
for l in open(os.path.join(here,'claims.txt')):
    l=l.strip()
    if not l or l.startswith('#'): continue
    p,st,th,note=[x.strip() for x in l.split('|',3)]
    claims.append({"property":p,"status":st,"theorems":[t.strip() for t in th.split(',') if t.strip()],"note":note})
json.dump({"claims":claims},open(os.path.join(here,'..','MANIFEST.json'),'w'),indent=1,ensure_ascii=False)
print(len(claims),'claims')
