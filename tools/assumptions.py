#!/usr/bin/env python3
"""Generates rocq/theories/Assumptions.v: Print Assumptions of all claimed theorems together."""
import re,glob,os
root=os.path.dirname(os.path.dirname(os.path.abspath(__file__)))
proj=[l.strip() for l in open(root+'/rocq/_CoqProject')]
names=[]
for f in proj:
    if f.startswith('theories/') and 'Props' in f:
        m=f[len('theories/'):-2]
        names+=['%s.%s'%(m,n) for n in re.findall(r'^Theorem (C\d+_\w+)',open(root+'/rocq/'+f).read(),re.M)]
mods=sorted({n.split('.')[0] for n in names})
out='(** Generated by tools/assumptions.py: the assumptions of all the theorems named in MANIFEST.json, asked for together. *)\n'
out+='From Verif Require '+' '.join(mods)+'.\n\n'
parts=[]
for i,m in enumerate(mods):
    ns=[n for n in names if n.split('.')[0]==m]
    parts.append('theorems_of_'+m)
    out+='Definition theorems_of_%s :=\n  (%s).\n'%(m,',\n   '.join('@'+n for n in ns))
out+='\nDefinition all_theorems :=\n  (%s).\nPrint Assumptions all_theorems.\n'%(',\n   '.join(parts))
open(root+'/rocq/theories/Assumptions.v','w').write(out)
