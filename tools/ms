#!/bin/bash
# milestone: ms "message" [new theory files...]; adds to _CoqProject, regenerates, commits, vcheck
cd /verif; m="$1"; shift
for f in "$@"; do grep -q "^theories/$f.v$" rocq/_CoqProject || echo "theories/$f.v" >> rocq/_CoqProject; done
python3 tools/cites.py | tail -3
python3 tools/mkprops.py; python3 tools/mkmanifest.py
git add -A; git commit -qm "$m"; vcheck 2>&1 | tail -15
