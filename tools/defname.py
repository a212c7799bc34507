#!/usr/bin/env python3
"""Name of the model definition that contains a given piece of text."""
import re,os
root=os.path.join(os.path.dirname(os.path.abspath(__file__)),'..','rocq','theories')
def defname(file,old):
    p=os.path.join(root,file)
    if not os.path.exists(p): return file
    s=open(p).read(); i=s.find(old)
    if i<0: return file
    i+=len(old)
    name=file
    for m in re.finditer(r'^\s*(?:Definition|Fixpoint|Inductive|Record|with)\s+([\w\']+)',s,re.M):
        if m.start()<i: name=m.group(1)
    return name
