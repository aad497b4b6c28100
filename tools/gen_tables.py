"""Generate Model/IrradTables.v from the literal tables in /repo/pvlib/irradiance.py."""
import ast
src=open('/repo/pvlib/irradiance.py').read()
tree=ast.parse(src)
fn={n.name:n for n in tree.body if isinstance(n,ast.FunctionDef)}
def lit(node):
    return ast.get_source_segment(src,node).replace(' ','')
def num(node):
    s=lit(node)
    s=s.lstrip('+')
    return '(%s)'%s if s.startswith('-') else s
out=[]
out.append('''(** Coefficient tables of pvlib/irradiance.py, transcribed by tools/gen_tables.py. *)
From Verif Require Import Base.Fl Base.Py.
Open Scope R_scope.
''')
# perez
d=None
for st in fn['_get_perez_coefficients'].body:
    if isinstance(st,ast.Assign) and st.targets[0].id=='coeffdict': d=st.value
out.append('(** irradiance.py:%d-%d coeffdict; a row is (F11, F12, F13, F21, F22, F23) *)'%(d.lineno,d.end_lineno))
out.append('Definition perez_row : Type := (R * R * R * R * R * R)%type.')
out.append('Definition perez_coeffdict : list (string * list perez_row) :=\n  [')
items=[]
for k,v in zip(d.keys,d.values):
    rows=[]
    for r in v.elts:
        rows.append('('+', '.join(num(e) for e in r.elts)+')')
    items.append('  ("%s"%%string,\n    [ %s ])'%(k.value,';\n      '.join(rows)))
out.append(';\n'.join(items)+'\n  ].')
# dirint
tab={}
for st in fn['_get_dirint_coeffs'].body:
    if isinstance(st,ast.Assign) and isinstance(st.targets[0],ast.Subscript):
        idx=[e.value for e in st.targets[0].slice.elts[:2]]
        tab[tuple(idx)]=st.value
lo=fn['_get_dirint_coeffs']
out.append('\n(** irradiance.py:%d-%d _get_dirint_coeffs, after the [1:, 1:, :, :] slice:\n    indices kt_prime bin, zenith bin, delta_kt_prime bin, w bin (all from 0). *)'%(lo.lineno,lo.end_lineno))
out.append('Definition dirint_table : list (list (list (list R))) :=\n  [')
a=[]
for i in range(1,7):
    b=[]
    for j in range(1,7):
        rows=[]
        for r in tab[(i,j)].elts:
            rows.append('['+'; '.join(num(e) for e in r.elts)+']')
        b.append('    [ '+';\n      '.join(rows)+' ]')
    a.append('   [\n'+';\n'.join(b)+'\n   ]')
out.append(';\n'.join(a)+'\n  ].')
open('/verif/rocq/theories/Model/IrradTables.v','w').write('\n'.join(out)+'\n')
print(len(tab))
