#!/usr/bin/env python3
"""Translate the statements of /repo/bicycleparameters/_mooreriderlean2012.py (read as
text) into rocq/theories/MLeanProg.v, one Coq statement per Python statement, in order."""
import ast
from fractions import Fraction
SRC='/repo/bicycleparameters/_mooreriderlean2012.py'
OUT='/verif/rocq/theories/MLeanProg.v'
f=[x for x in ast.parse(open(SRC).read()).body if isinstance(x,ast.FunctionDef)][0]
Q=['q%d'%i for i in range(1,10)]; U=['u4','u6','u7','u9']; T=['T4','T6','T7','T9']
def unpack(st):
    """the statements of lines 10-71: array creation and name = arg[k]"""
    t=st.targets[0]
    return isinstance(t,ast.Name) and (isinstance(st.value,ast.Call) and st.value.func.id=='empty' or
           isinstance(st.value,ast.Subscript) and st.value.value.id in 'qurp' )
def num(v):
    if v==int(v): return 'Lit (%d) 1'%int(v) if v<0 else 'Lit %d 1'%int(v)
    fr=Fraction(repr(v)); return 'Lit %d %d'%(fr.numerator,fr.denominator)
def ex(n):
    if isinstance(n,ast.Constant): return '('+num(n.value)+')'
    if isinstance(n,ast.Name): names.add(n.id); return n.id
    if isinstance(n,ast.Subscript):
        assert n.value.id=='z'; return 'z %d'%ast.literal_eval(n.slice)
    if isinstance(n,ast.UnaryOp):
        assert isinstance(n.op,ast.USub); return '(- %s)'%ex(n.operand)
    if isinstance(n,ast.BinOp):
        o={'Add':'+','Sub':'-','Mult':'*','Div':'/'}[type(n.op).__name__]
        l,r=ex(n.left),ex(n.right)
        if o in '*/' and isinstance(n.left,ast.BinOp) and isinstance(n.left.op,(ast.Mult,ast.Div)) : l=l[1:-1]
        if o in '+-' and isinstance(n.left,ast.BinOp): l=l[1:-1]
        if o in '+-' and isinstance(n.right,ast.BinOp) and isinstance(n.right.op,(ast.Mult,ast.Div)): r=r[1:-1]
        return '(%s %s %s)'%(l,o,r)
    if isinstance(n,ast.Call):
        a=ex(n.args[0])
        a=a if a[0]=='(' else '('+a+')'
        if n.func.id=='pow':
            k=ast.literal_eval(n.args[1])
            return '(PowN %s %d)'%(a,k) if k==int(k) else '(PowH %s %d)'%(a,int(k-0.5))
        return '(%s %s)'%({'sin':'Sin','cos':'Cos'}[n.func.id],a)
    raise Exception(ast.dump(n))
names=set(); out=[]
body=[st for st in f.body if not isinstance(st,ast.Return)]
for st in body:
    assert isinstance(st,ast.Assign) and len(st.targets)==1
    if unpack(st): continue
    t=st.targets[0]
    if isinstance(t,ast.Name):
        if t.id=='lam':
            assert ast.unparse(st.value)=='pitch_from_roll_and_steer(q4, q7, rf, rr, d1, d2, d3)' and not out; continue
        v=ex(st.value); v='('+v+')' if isinstance(st.value,ast.Subscript) else v
        out.append((st.lineno,st.end_lineno,'SN "%s" %s'%(t.id,v)))
    else:
        k=ast.literal_eval(t.slice); nm=t.value.id
        v=ex(st.value)
        v='('+v+')' if isinstance(st.value,ast.Subscript) else v
        out.append((st.lineno,st.end_lineno,'SZ %d %s'%(k,v) if nm=='z' else 'SM M%s %d %d %s'%(nm,k[0],k[1],v)))
N=250
with open(OUT,'w') as o:
    o.write('(* MLeanProg.v -- GENERATED by tools/lean_gen.py from\n   /repo/bicycleparameters/_mooreriderlean2012.py:75-11189, one statement per statement, in order.\n'
            '   A local name x stands for Nm "x", z n for z[n]. *)\nFrom Verif Require Import Base MLean.\nFrom Coq Require Import ZArith PArith.\nLocal Open Scope string_scope.\n')
    o.write('Declare Scope lean_scope.\nDelimit Scope lean_scope with lean.\nBind Scope lean_scope with expr.\n'
            'Local Notation "a + b" := (Add a b) : lean_scope.\nLocal Notation "a - b" := (Sub a b) : lean_scope.\nLocal Notation "a * b" := (Mul a b) : lean_scope.\nLocal Notation "a / b" := (Div a b) : lean_scope.\nLocal Notation "- a" := (Neg a) : lean_scope.\nLocal Notation z := Zr.\n')
    for s in sorted(names): o.write('Local Notation %s := (Nm "%s") (only parsing).\n'%(s,s))
    ch=[]
    for i in range(0,len(out),N):
        c=out[i:i+N]; ch.append('chunk%d'%(i//N+1))
        o.write('(* [_mooreriderlean2012.py:%d-%d] *)\nDefinition chunk%d : list stmt := [\n'%(c[0][0],c[-1][1],i//N+1)+';\n'.join('  '+x[2] for x in c)+'].\n')
    o.write('(* [_mooreriderlean2012.py:%d-%d] *)\nDefinition lean_program : list stmt :=\n  ('%(out[0][0],out[-1][1])+' ++ '.join(ch)+')%list.\n')
print(len(out),'statements')
