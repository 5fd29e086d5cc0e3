#!/bin/sh
# build everything listed in _CoqProject
cd "$(dirname "$0")" && coq_makefile -f _CoqProject -o Makefile && timeout 3000 make -j4 "$@"
