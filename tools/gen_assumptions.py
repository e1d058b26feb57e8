#!/usr/bin/env python3
"""Run Print Assumptions on every theorem named in MANIFEST.json (needs a built /verif/rocq); put the groups into section 5 of DESIGN.md."""
import json,os,re,subprocess,sys,tempfile
root=os.path.join(os.path.dirname(os.path.abspath(__file__)),'..')
th=os.path.join(root,'rocq','theories')
where={}
for f in sorted(os.listdir(th)):
    if f.endswith('.v'):
        for n in re.findall(r'(?m)^Theorem\s+(C\d\d_\w+)',open(os.path.join(th,f)).read()): where[n]=f[:-2]
names=[t for c in json.load(open(os.path.join(root,'MANIFEST.json')))['claims'] for t in c['theorems']]
groups={}
byfile={}
for n in names: byfile.setdefault(where[n],[]).append(n)
for f,ns in byfile.items():
    src='From Verif Require %s.\n'%f+''.join('Goal True. idtac "@@ %s". Abort.\nPrint Assumptions %s.%s.\n'%(n,f,n) for n in ns)
    with tempfile.TemporaryDirectory() as d:
        open(os.path.join(d,'A.v'),'w').write(src)
        p=subprocess.run(['coqc','-Q',th,'Verif','-w','none',os.path.join(d,'A.v')],capture_output=True,text=True,cwd=d)
        if p.returncode: sys.exit(p.stderr)
    for b in p.stdout.split('@@ ')[1:]:
        n=b.split()[0]; ax=tuple(sorted(set(re.findall(r'(?m)^([A-Za-z_][\w\.\']*)\s*(?::|$)',b.split('Axioms:')[1])))) if 'Axioms:' in b else ()
        groups.setdefault(ax,[]).append(n)
text=''
for ax,ns in sorted(groups.items(),key=lambda x:len(x[0])):
    text+='* '+('**No axioms** ("Closed under the global context")' if not ax else '**'+', '.join(ax)+'**')+' (%d theorems): '%len(ns)+', '.join(sorted(ns))+'.\n'
d=os.path.join(root,'DESIGN.md'); s=open(d).read()
a,b=s.index('<!-- assumptions -->'),s.index('<!-- end -->')
open(d,'w').write(s[:a]+'<!-- assumptions -->\n'+text+s[b:])
