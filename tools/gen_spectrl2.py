"""Transcribe the SPECTRL2 coefficient table into Coq."""
import ast
src=open('/repo/pvlib/spectrum/spectrl2.py').read()
t=ast.parse(src)
cols={}
for st in t.body:
    if isinstance(st,ast.Assign) and isinstance(st.targets[0],ast.Subscript):
        v=st.value
        cols[st.targets[0].slice.value]=[ast.get_source_segment(src,e) for e in v.elts]
names=['wavelength','spectral_irradiance_et','water_vapor_absorption','ozone_absorption','mixed_absorption']
n=len(cols['wavelength']); assert all(len(cols[k])==n==122 for k in names)
def num(s):
    return s[:-2] if s.endswith('.0') else s
rows=['Sp2 '+' '.join(num(cols[k][i]) for k in names) for i in range(n)]
out='''(** Coefficients of pvlib/spectrum/spectrl2.py, transcribed by tools/gen_spectrl2.py. *)
From Coq Require Import Reals List.
Import ListNotations.
Open Scope R_scope.
(** spectrl2.py:10-17: wavelength [nm], spectral_irradiance_et [W/m2/nm], water_vapor_absorption, ozone_absorption, mixed_absorption *)
Record sp2 := Sp2 { lam : R; et : R; aw : R; ao : R; au : R }.
(** spectrl2.py:18-83 *)
Definition SPECTRL2_COEFFS : list sp2 :=
  [ '''+';\n    '.join(rows)+' ].\n'
open('/verif/rocq/theories/Model/Spectrl2Tables.v','w').write(out)
