import json,sys
d=json.load(open(sys.argv[1])); name=sys.argv[2]; cite=sys.argv[3]
print('''(* Certificate for the number of division steps: one polygon per remaining step count.  Entry r is
   (e, corners, offsets).  The corners are linear forms (a, b); a pair (f, g) is in set r when
   |a * f + b * g| < 2 ^ e for every corner.  The offsets tell the checker in Safegcd.v where to start
   each walk round the polygon.  Nothing here is trusted: Safegcd.v checks every entry. *)
Require Import ZArith List.
Import ListNotations.
Local Open Scope Z_scope.
''')
print('(* %s *)'%cite)
print('Definition %s : list (Z * list (Z * Z) * list nat) :=\n ['%name)
L=[]
for e,V,o in zip(d['E'],d['D'],d['O']):
    L.append('  (%d, [%s], [%s]%%nat)'%(e,'; '.join('(%d,%d)'%tuple(v) for v in V),'; '.join(map(str,o))))
print(';\n'.join(L)); print(' ].')
