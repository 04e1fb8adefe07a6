#!/bin/sh
# build in /verif/rocq; prints errors only
cd /verif/rocq && coq_makefile -f _CoqProject -o Makefile && make -j4 2>&1 | grep -v "^COQC\|^COQDEP\|Closed under\|make\[" 
