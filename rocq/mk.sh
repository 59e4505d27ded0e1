#!/bin/bash
# Regenerates _CoqProject from the theories present, and builds.
cd "$(dirname "$0")"
{ echo "-Q theories Verif"; ls theories/Base/*.v theories/Model/*.v theories/Spec/*.v theories/Proof/*.v theories/Properties/*.v 2>/dev/null; } > _CoqProject
coq_makefile -f _CoqProject -o Makefile >/dev/null
timeout 850 make -j4 COQC=${TC:-coqc} "$@" > /tmp/mk.log 2>&1; rc=$?
grep -v '^COQC\|^COQDEP\|Closed under' /tmp/mk.log
[ $rc = 0 ] && echo BUILD-OK || echo BUILD-FAILED
