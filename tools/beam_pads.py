"""Regenerates rocq/theories/BeamPads.v from /repo (read as text)."""
import re
src=open('/repo/src/attpc_engine/detector/beam_pads.py').read()
body=src[src.index('= [')+3:]
nums=[int(x) for x in re.findall(r'\d+',body[:body.index(']')])]
lines=[]
for i in range(0,len(nums),16): lines.append('   '+'; '.join(map(str,nums[i:i+16])))
open('/verif/rocq/theories/BeamPads.v','w').write('''(** BeamPads.v -- /repo/src/attpc_engine/detector/beam_pads.py 11-134: the beam region pads
    ([BEAM_PADS_ARRAY]), copied verbatim in source order. *)
From Coq Require Import ZArith List.
Import ListNotations.
Local Open Scope Z_scope.

Definition BEAM_PADS : list Z :=
  [
'''+';\n'.join(lines)+'''
  ].
''')
