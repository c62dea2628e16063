#!/bin/sh
# after a build: Print Assumptions for every theorem of MANIFEST.json, summarised
cd "$(dirname "$0")/../rocq/theories" || exit 1
T=$(mktemp -d)
python3 - "$T/A.v" <<'P'
import json,glob,re,sys
ths=[t for c in json.load(open('../../MANIFEST.json'))['claims'] for t in c['theorems']]
mods={}
for f in glob.glob('Prop*.v'):
    for m in re.finditer(r"^[ ]*Theorem (C\d\d_\w+)",open(f).read(),re.M): mods[m.group(1)]=f[:-2]
open(sys.argv[1],'w').write("From Verif Require "+" ".join(sorted(set(mods.values())))+".\n"+"".join("Print Assumptions %s.%s.\n"%(mods[t],t) for t in ths))
P
coqc -Q . Verif "$T/A.v" | sort | uniq -c
