import json,re,glob,os
m=json.load(open('/verif/MANIFEST.json'))
names=[]
for c in m['claims']:
    for t in c['theorems']:
        if t not in names: names.append(t)
where={}
for f in glob.glob('/verif/rocq/theories/*.v'):
    for x in re.findall(r'^\s*(?:Theorem|Lemma|Corollary|Example|Fact)\s+(\w+)',open(f).read(),re.M): where.setdefault(x,os.path.basename(f)[:-2])
fs=sorted({where[n] for n in names})
o='(** Audit.v -- generated by tools/audit.py: what each claimed theorem rests on.  Every line\n    of the output must read "Closed under the global context", or name axioms of the\n    standard library. *)\n'
o+='From Verif Require '+' '.join(fs)+'.\n\n'
for n in names: o+='Print Assumptions %s.%s.\n'%(where[n],n)
open('/verif/rocq/theories/Audit.v','w').write(o)
