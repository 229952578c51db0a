#!/usr/bin/env python3
"""Write to DESIGN.md one line per theorem whose name ends in _refuted, with the comment that stands before it in its file."""
import re, glob, os
root = os.path.join(os.path.dirname(os.path.abspath(__file__)), '..', 'rocq', 'theories')
out = []
for f in sorted(glob.glob(os.path.join(root, '*.v'))):
    s = open(f).read()
    for m in re.finditer(r'^Theorem (C\d\d_\w+_refuted)\b', s, re.M):
        before = s[:m.start()]
        cs = list(re.finditer(r'\(\*\*?(.*?)\*\)', before, re.S))
        txt = ''
        if cs:
            gap = before[cs[-1].end():]
            txt = ' '.join(cs[-1].group(1).split())
            if gap.count('\n\n') > 3: txt = '??' + txt
        out.append((m.group(1), os.path.basename(f), txt))
lines = ['* `%s` (%s): %s' % x for x in sorted(out)]
# The list stands in DESIGN.md between two marker lines.
p = os.path.join(os.path.dirname(os.path.abspath(__file__)), '..', 'DESIGN.md')
d = open(p).read()
a, b = '<!-- refuted: begin -->\n', '<!-- refuted: end -->'
i, j = d.index(a) + len(a), d.index(b)
open(p, 'w').write(d[:i] + '\n'.join(lines) + '\n' + d[j:])
