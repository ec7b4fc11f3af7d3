"""Regenerates rocq/theories/PadGridData.v and PadCentersData.v from the packaged data files."""
import zipfile, struct, array
D='/repo/src/attpc_engine/detector/data/'
z=zipfile.ZipFile(D+'pad_grid.npz')
d=z.read('grid.npy'); hl=struct.unpack('<H',d[8:10])[0]
print(d[10:10+hl])
e=z.read('edges.npy'); el=struct.unpack('<H',e[8:10])[0]; print(e[10:10+el], struct.unpack('<3d',e[10+el:]))
a=array.array('h'); a.frombytes(d[10+hl:])
N=5600
out=['''(** PadGridData.v -- generated by tools/pad_data.py from
    /repo/src/attpc_engine/detector/data/pad_grid.npz (array [grid], 5600 x 5600, int16).
    Every 10th row and column (the only cells [position_to_index] can reach with the packaged
    edges), run-length encoded: a run of [n] equal pads [p] is the number (p + 1) * 1024 + n. *)
From Coq Require Import ZArith List.
Import ListNotations.
Local Open Scope Z_scope.

Definition grid_rows : list (list Z) := [''']
rows=[]
for i in range(0,N,10):
    r=[a[i*N+j] for j in range(0,N,10)]
    runs=[]
    for v in r:
        if runs and runs[-1][0]==v: runs[-1][1]+=1
        else: runs.append([v,1])
    rows.append('['+';'.join(str((v+1)*1024+n) for v,n in runs)+']')
out.append(';\n'.join(rows))
out.append('].\n')
open('/verif/rocq/theories/PadGridData.v','w').write('\n'.join(out))
from decimal import Decimal
L=[l for l in open(D+'padxy.csv').read().split('\n')[1:] if l]
c=[]
for l in L:
    x,y=l.split(',')
    X=Decimal(x)*10**7; Y=Decimal(y)*10**7
    assert X==int(X) and Y==int(Y)
    c.append('(%d,%d)'%(X,Y))
open('/verif/rocq/theories/PadCentersData.v','w').write('''(** PadCentersData.v -- generated by tools/pad_data.py from
    /repo/src/attpc_engine/detector/data/padxy.csv: the 10240 pad centres in file order, in
    units of 1e-7 mm (every entry of the file has at most 7 decimals). *)
From Coq Require Import ZArith List.
Import ListNotations.
Local Open Scope Z_scope.

Definition pad_centers_e7 : list (Z * Z) := [
'''+';\n'.join(';'.join(c[i:i+6]) for i in range(0,len(c),6))+'].\n')
