#!/bin/sh
# Prints the assumptions of every manifest theorem (after a build in ../rocq).
cd "$(dirname "$0")/../rocq/theories" || exit 1
python3 - > /tmp/AllAssumptions.v <<'P'
import json,glob,re
ms=[t for c in json.load(open('/verif/MANIFEST.json'))['claims'] for t in c['theorems']]
mods=sorted(f[:-2] for f in glob.glob('*.v'))
print('From Verif Require Import '+' '.join(mods)+'.')
for t in ms: print('Print Assumptions %s.'%t)
P
coqc -Q . Verif /tmp/AllAssumptions.v | sort | uniq -c
