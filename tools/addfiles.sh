#!/bin/sh
# append theory files (names without extension) to rocq/_CoqProject
cd "$(dirname "$0")/../rocq" || exit 1
for n in "$@"; do grep -q "theories/$n.v" _CoqProject || echo "theories/$n.v" >> _CoqProject; done
