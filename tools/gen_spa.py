"""Generate Model/SpaTables.v from the literal tables in /repo/pvlib/spa.py."""
import ast
src=open('/repo/pvlib/spa.py').read()
tree=ast.parse(src)
def num(node):
    s=ast.get_source_segment(src,node).replace(' ','')
    if s.endswith('.0'): s=s[:-2]
    return '(%s)'%s if s.startswith('-') else s
out=['''(** Periodic terms of pvlib/spa.py, transcribed by tools/gen_spa.py. *)
From Verif Require Import Base.Fl.
Open Scope R_scope.
''']
for st in tree.body:
    if not (isinstance(st,ast.Assign) and isinstance(st.value,ast.Call) and isinstance(st.value.args[0],ast.List)): continue
    n=st.targets[0].id
    rows=st.value.args[0].elts
    k=len(rows[0].elts); assert all(len(r.elts)==k for r in rows)
    name={'NUTATION_ABCD_ARRAY':'nutation_abcd','NUTATION_YTERM_ARRAY':'nutation_yterm'}.get(n,n+'_terms')
    out.append('(** spa.py:%d-%d %s *)'%(st.lineno,st.end_lineno,n))
    out.append('Definition %s : list (%s) :=\n  [ %s ].'%(name,' * '.join('R'*k),';\n    '.join('('+', '.join(num(e) for e in r.elts)+')' for r in rows)))
open('/verif/rocq/theories/Model/SpaTables.v','w').write('\n'.join(out)+'\n')
