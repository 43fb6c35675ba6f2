import ast,re
from fractions import Fraction as Fr
src=open('/repo/bicycleparameters/parameter_dicts.py').read()
# replace numeric literals by Fractions of their decimal text
dicts={}
tree=ast.parse(src)
lines=src.split('\n')
pos={}
for node in tree.body:
    if isinstance(node,ast.Assign):
        d={}
        for k,v in zip(node.value.keys,node.value.values):
            txt=ast.get_source_segment(src,v)
            ftxt=re.sub(r'\d+\.\d+(e-?\d+)?',lambda m:"Fr('%s')"%m.group(0),txt)
            d[k.value]=(eval(ftxt),txt)
        n=node.targets[0].id
        dicts[n]=d; pos[n]=(node.lineno,node.end_lineno)
def q(x):
    x=Fr(x)
    if x.denominator==1: return str(x.numerator) if x>=0 else '(%d)'%x.numerator
    return '%d / %d'%(x.numerator,x.denominator)
if __name__=='__main__':
    o=["(* MDicts.v -- the dictionaries of parameter_dicts.py.  A decimal literal is the number it",
    "   denotes (Python stores the nearest double). *)",
    "From Verif Require Import Base.","Local Open Scope string_scope.","Local Open Scope R_scope.",""]
    for n,d in dicts.items():
        o.append("(* [parameter_dicts.py:%d-%d] *)"%pos[n])
        items=["(\"%s\", %s)"%(k,q(v[0])) for k,v in d.items()]
        body="";line="  ["
        for i,it in enumerate(items):
            t=it+("; " if i<len(items)-1 else "]")
            if len(line)+len(t)>110: body+=line.rstrip()+"\n"; line="   "
            line+=t
        o.append("Definition %s : dict R :=\n%s%s."%(n,body,line)); o.append("")
    open('/verif/rocq/theories/MDicts.v','w').write('\n'.join(o))
