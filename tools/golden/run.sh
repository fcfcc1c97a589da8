#!/bin/bash
# Compute what the model generates for documents of /repo/sample_openapi and compare it with the
# expected output in /repo/progenitor-impl/tests/output/src.  Usage: run.sh keeper buildomat ...
# (cli-gen, param-collision, param-overrides, propolis-server, nexus); the model must have been built.
here=$(cd "$(dirname "$0")" && pwd)
work=${WORK:-/tmp/golden}
for n in "$@"; do
  mkdir -p "$work/$n"
  (cd "$work/$n" && python3 "$here/gen.py" "/repo/sample_openapi/$n.json" K.v &&
    timeout 1200 coqc -Q "$here/../../rocq/theories" Verif K.v 2>&1 | tail -5)
  (cd "$work" && python3 "$here/cmp.py" "$n" "${n//-/_}" | cut -c1-1200)
done
