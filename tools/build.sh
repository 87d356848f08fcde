#!/bin/bash
# Regenerate P_*.v, _CoqProject's file list and the manifest, then build.
cd "$(dirname "$0")/.." || exit 1
python3 tools/gen_p.py
{ echo "-Q theories Verif"; ls rocq/theories/*.v | sed 's,^rocq/,,' ; } > rocq/_CoqProject
python3 tools/gen_manifest.py
cd rocq && coq_makefile -f _CoqProject -o Makefile && timeout 3000 make -j4 > /tmp/build.log 2>&1; rc=$?
grep -n -A3 'Error' /tmp/build.log | head -40
grep -A1 'Axioms:' /tmp/build.log | head
echo "rc=$rc closed=$(grep -c 'Closed under the global context' /tmp/build.log)"
