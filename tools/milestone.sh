#!/bin/bash
# regenerate everything, commit, vcheck
cd "$(dirname "$0")/.." && python3 tools/manifest.py && python3 tools/assumptions.py && tools/coqproject.sh && git add -A && git commit -qm "$1" && vcheck | tail -1
