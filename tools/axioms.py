#!/usr/bin/env python3
"""Compile every T*.v (dependencies must be built) and rewrite the per-theorem
list of axioms in DESIGN.md between the two AXIOMS markers."""
import re,subprocess,glob,os
from concurrent.futures import ThreadPoolExecutor
TH='/verif/rocq/theories'
short={'ClassicalDedekindReals.sig_not_dec':'N','ClassicalDedekindReals.sig_forall_dec':'F','functional_extensionality_dep':'E','FunctionalExtensionality.functional_extensionality_dep':'E','Classical_Prop.classic':'C','classic':'C','sig_not_dec':'N','sig_forall_dec':'F',
 'Description.constructive_definite_description':'D','constructive_definite_description':'D'}
groups={}
files=sorted(glob.glob(TH+'/T*.v'))
def comp(f):
    # run without writing a .vo: the compiled files stay as they are
    b=os.path.basename(f)
    return subprocess.run(['coqtop','-w','none','-q','-Q','.','Verif','-batch','-l',b],cwd=TH,capture_output=True,text=True)
with ThreadPoolExecutor(3) as ex: results=list(ex.map(comp,files))
for f,r in zip(files,results):
    b=os.path.basename(f)
    assert r.returncode==0,r.stderr
    names=re.findall(r'^Print Assumptions ([A-Za-z_0-9\']+)\.',open(f).read(),re.M)
    blocks=re.split(r'^(?=Axioms:|Closed under the global context)',r.stdout,flags=re.M)[1:]
    assert len(names)==len(blocks),(b,len(names),len(blocks))
    for n,x in zip(names,blocks):
        ax=[a for a in re.findall(r'^([A-Za-z_0-9\'.]+)\s*(?::|$)',x,re.M) if a!='Axioms']
        k=''.join(sorted({short[a] for a in ax}))
        groups.setdefault(k,[]).append(n)
out=['<!-- AXIOMS -->','### Print Assumptions, theorem by theorem','',
 'N = `ClassicalDedekindReals.sig_not_dec`, F = `ClassicalDedekindReals.sig_forall_dec`, E = `FunctionalExtensionality.functional_extensionality_dep`, C = `Classical_Prop.classic`; all four are declared in Coq\'s standard library.','']
for k in sorted(groups):
    out.append('* **%s** (%d): '%(' '.join(k) if k else 'closed under the global context',len(groups[k]))+', '.join(sorted(groups[k]))+'.')
out.append('<!-- /AXIOMS -->')
p='/verif/DESIGN.md'; s=open(p).read(); t='\n'.join(out)
s=re.sub(r'<!-- AXIOMS -->.*<!-- /AXIOMS -->',lambda m:t,s,flags=re.S) if '<!-- AXIOMS -->' in s else s.rstrip('\n')+'\n\n'+t+'\n'
open(p,'w').write(s)
print({k:len(v) for k,v in groups.items()})
