#!/usr/bin/env python3
# rewrites the list of refuted statements at the end of DESIGN.md from the comments in Prop_*.v
import glob, re
H = '## What is not true of the code\n'
s = open('DESIGN.md').read()
s = s[:s.index(H)] + H + '\nTheorems `..._refuted` exhibit a concrete reachable state or argument for which the property of that number is false.\n\n'
rows = []
for f in sorted(glob.glob('rocq/theories/Prop_*.v')):
    for m in re.finditer(r'\(\*((?:(?!\*\)).)*)\*\)\s*Theorem (\w+_refuted)', open(f).read(), re.S):
        rows.append((m[2], ' '.join(m[1].split())))
for n, c in sorted(rows):
    s += '* `%s`: %s\n' % (n, c)
open('DESIGN.md', 'w').write(s)
