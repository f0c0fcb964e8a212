#!/bin/sh
# Compiles all test vectors of the project against the model: tools/run_vectors.sh DIR, after building rocq.
set -e
here=$(cd "$(dirname "$0")" && pwd)
mkdir -p "$1"
python3 "$here/mkvectors.py" "$1"
cd "$1"
for f in Vectors*.v; do echo "$f"; coqc -Q "$here/../rocq/theories" Verif "$f"; done
