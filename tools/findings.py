#!/usr/bin/env python3
# Lists the refuted properties: name of every theorem C.._refuted of the Prop*.v files and the comment in front of it.
import glob, os, re
ROOT = os.path.dirname(os.path.dirname(os.path.abspath(__file__)))
out = []
for f in sorted(glob.glob(ROOT + '/rocq/theories/Prop*.v')):
    s = open(f).read()
    for m in re.finditer(r'^Theorem (C\d\d_\w*refuted)', s, re.M):
        before = s[:m.start()].rstrip()
        c = ''
        if before.endswith('*)'):
            c = before[before.rindex('(*') + 2:-2]
        else:
            # a definition between comment and theorem
            k = before.rfind('(*')
            if k >= 0 and 'Theorem' not in before[k:]:
                c = before[k + 2:before.index('*)', k)]
        out.append((m.group(1), os.path.basename(f), ' '.join(c.split())))
for n, f, c in sorted(out):
    print('- `%s` (%s): %s' % (n, f, c))
