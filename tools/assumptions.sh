#!/bin/sh
# Rebuilds every Prop_*.v and lists the theorems that are not closed under the
# global context.  Run in /verif/rocq after a build.
cd "$(dirname "$0")/../rocq" || exit 1
for f in theories/Prop_*.v; do
  coqc -Q theories Verif "$f" > /tmp/assum.$$ 2>/dev/null
  python3 - "$f" /tmp/assum.$$ <<'PY'
import re, sys
names = re.findall(r'^Print Assumptions (\w+)', open(sys.argv[1]).read(), re.M)
blocks, cur = [], None
for line in open(sys.argv[2]):
    if line.startswith('Closed under'):
        blocks.append([]); cur = None
    elif line.startswith('Axioms:'):
        cur = []; blocks.append(cur)
    elif cur is not None and re.match(r'^[\w.]+(\s*:|$)', line):
        cur.append(re.match(r'^[\w.]+', line).group(0))
assert len(names) == len(blocks), (sys.argv[1], len(names), len(blocks))
for n, b in zip(names, blocks):
    if b: print(n, ' '.join(sorted(set(b))))
PY
done
rm -f /tmp/assum.$$
