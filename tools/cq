#!/bin/bash
# compile the given theories (without .v), stop at the first error
cd /verif/rocq
for f in "$@"; do timeout ${T:-600} coqc -Q theories Verif theories/$f.v 2>&1 | head -c ${N:-2500}; [ ${PIPESTATUS[0]} = 0 ] || { echo "FAIL $f"; exit 1; }; done; echo OK
