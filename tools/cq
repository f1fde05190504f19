#!/bin/bash
# cq [-t secs] file.v: compile one file with a time limit, and on timeout print the sentence being run
T=120; if [ "$1" = -t ]; then T=$2; shift 2; fi
cd /verif/rocq
timeout $T coqc -time -Q theories Verif "$1" > /tmp/cq.out 2>/tmp/cq.err; rc=$?
head -c 3500 /tmp/cq.err
if [ $rc -ne 0 ]; then python3 - "$1" <<'PY'
import re,sys
s=open(sys.argv[1],'rb').read(); ls=[l for l in open('/tmp/cq.out').read().split('\n') if l.startswith('Chars')]
if ls:
    e=int(re.match(r'Chars \d+ - (\d+)',ls[-1]).group(1)); print('STOPPED at:',s[e:e+150].decode(errors='replace'))
PY
fi
grep '^Chars' /tmp/cq.out | awk '{for(i=1;i<=NF;i++) if ($i=="secs") if ($(i-1)>1.5) print}' | head -20
echo rc=$rc; exit $rc
