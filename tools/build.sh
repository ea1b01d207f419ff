#!/bin/sh
# incremental build of everything
"$(dirname "$0")/mkproject.sh"; cd "$(dirname "$0")/../rocq" && coq_makefile -f _CoqProject -o Makefile >/dev/null && timeout 800 make -j4 2>&1 | grep -v "^COQ\|Closed under\|^make\|^CLEAN"; make -q 2>/dev/null
