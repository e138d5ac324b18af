#!/bin/bash
# milestone: regenerate, build, commit.  usage: ms.sh "message"
cd /verif
python3 tools/props.py || exit 1
python3 tools/manifest.py || exit 1
cd rocq; coq_makefile -f _CoqProject -o Makefile >/dev/null
if ! make -j4 > /tmp/ms.log 2>&1; then grep -B3 -A6 "^Error\|Error:" /tmp/ms.log | head -40; exit 1; fi
cd ..
python3 tools/assum.py || exit 1
git add -A; git commit -qm "$1"; git log --oneline | head -1
