#!/bin/sh
# Prints, for every theorem of the built Props*.v files, the axioms it depends on.
cd "$(dirname "$0")/../rocq" || exit 1
t=$(mktemp -d)
{
  for f in theories/Props*.v; do echo "From Verif Require $(basename "$f" .v)."; done
  for f in theories/Props*.v; do
    m=$(basename "$f" .v)
    grep -oE '^ *Theorem +C[0-9]+_[A-Za-z0-9_]+' "$f" | awk '{print $2}' | while read -r x; do
      echo "Goal True. idtac \"@@ $x\". Abort. Print Assumptions $m.$x."
    done
  done
} > "$t/A.v"
coqc -Q theories Verif "$t/A.v" 2>&1 | awk '/^@@/{if(n)print n": "a; n=$2; a=""} /^Closed/{a="closed"} /^[A-Za-z_.]+ *:/||/^[A-Za-z_]+\.[A-Za-z_.]+$/{split($1,q,":"); a=a" "q[1]} END{print n": "a}'
rm -r "$t"
