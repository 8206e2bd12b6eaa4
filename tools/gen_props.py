#!/usr/bin/env python3
"""Write rocq/theories/P_*.v from tools/P/*.in.

A line '@thm NAME LEMMA' becomes a Theorem NAME with the statement of LEMMA
(copied from the L_ file that proves it), closed by 'exact LEMMA', followed by
Print Assumptions. Other lines are copied."""
import glob, os, re, sys
root = os.path.dirname(os.path.dirname(os.path.abspath(__file__)))
th = os.path.join(root, 'rocq', 'theories')
stm = {}
for f in sorted(glob.glob(th + '/L_*.v')):
    s = open(f).read()
    for m in re.finditer(r'^(?:Theorem|Lemma|Corollary) (\w+) (.*?)\.\nProof', s, re.S | re.M):
        head = m[2]
        if head.startswith(':'):
            stm[m[1]] = head[1:].strip()
HDR = '''From Coq Require Import Strings.Byte Strings.String List NArith ZArith Bool Lia.
'''
for f in sorted(glob.glob(root + '/tools/P/*.in')):
    name = os.path.basename(f)[:-3]
    out = []
    for line in open(f).read().split('\n'):
        m = re.match(r'@thm (\w+) (\w+)$', line)
        if m:
            if m[2] not in stm:
                sys.exit('%s: no lemma %s' % (name, m[2]))
            out.append('Theorem %s : %s.\nProof. exact %s. Qed.\nPrint Assumptions %s.' % (m[1], stm[m[2]], m[2], m[1]))
        else:
            out.append(line)
    text = '\n'.join(out)
    dst = os.path.join(th, name + '.v')
    if not os.path.exists(dst) or open(dst).read() != text:
        open(dst, 'w').write(text)
        print('wrote', name)
