#!/bin/bash
# regenerates _CoqProject (fixed flags, then all files) and builds
cd "$(dirname "$0")/../rocq" || exit 1
( echo "-Q theories Verif"; find theories -name '*.v' | LC_ALL=C sort ) > _CoqProject
coq_makefile -f _CoqProject -o Makefile >/dev/null && make -k -j4 2>&1 | grep -v "^COQ\|^Closed\|make\[" | head -${1:-60}
