#!/bin/sh
# build everything, snapshot it, then run mutation tests on the snapshot (only if the unmodified model builds)
cd /verif/rocq && coq_makefile -f _CoqProject -o Makefile >/dev/null && make -j4 > /tmp/mrun.log 2>&1 || { grep -E -A20 "Error|^File" /tmp/mrun.log | head -60; exit 1; }
mkdir -p /tmp/mut && rm -rf /tmp/mut/base && cp -a /verif/rocq /tmp/mut/base
cd /verif && MBASE=/tmp/mut/base python3 tools/mutate.py $1
