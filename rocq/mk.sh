#!/bin/sh
# regenerate _CoqProject file list order is irrelevant; coq_makefile sorts dependencies
cd "$(dirname "$0")"
{ echo "-Q theories Verif"; ls theories/*.v | LC_ALL=C sort; } > _CoqProject
coq_makefile -f _CoqProject -o Makefile && timeout 3000 make -j4 "$@"
