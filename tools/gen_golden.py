#!/usr/bin/env python3
"""Writes rocq/theories/Golden.v: some of the glyphs of /repo/resources/glyphs/normalized-glyphs-latin.txt and their rows of
/repo/resources/datas/latin.txt (printed by the programs of the repository), as an example about the models."""
import os
G = open('/repo/resources/glyphs/normalized-glyphs-latin.txt').read().split('\n')
gs, i = [], 0
while i < len(G) - 1:
    n = int(G[i + 1]); gs.append(G[i:i + 2 + n]); i += 2 + n
D = open('/repo/resources/datas/latin.txt').read().split('\n')
N = int(D[0]); assert N == len(gs)
# cells per row: 14+... one number, alternations 7 pairs, zone 7 numbers, proportions a count and the numbers
cols = []
for l in D[1:26]:
    t = l.split(' '); assert t[-1] == ''
    t = t[:-1]
    if len(t) == N: cols.append([[x] for x in t])
    elif len(t) == 14 * N: cols.append([t[14 * k:14 * k + 14] for k in range(N)])
    elif len(t) == 7 * N: cols.append([t[7 * k:7 * k + 7] for k in range(N)])
    else:
        c, p = [], 0
        for k in range(N):
            m = int(t[p]); c.append(t[p:p + 1 + m]); p += 1 + m
        assert p == len(t); cols.append(c)
assert all(len(c) == N for c in cols)
pick = [k for k in range(0, N, 137)]
out = '''(** Some glyphs of resources/glyphs/normalized-glyphs-latin.txt, and their rows in
    resources/datas/latin.txt, which write_datas printed: the model prints the same
    rows.  Of the views of a glyph only the first is kept, and a label that is not
    ASCII is replaced by "u": write_datas ignores them.  (Written by
    tools/gen_golden.py.) *)
From Verif Require Import Base SortModel SortProofs DatasModel LearnModel RecogWitness.

Definition lines (l : list string) : list Z := flat_map (fun s => str s ++ [10]) l.
Definition some_glyphs : list Z := lines [
%s]%%string.
Definition their_datas : list Z := lines [
%s]%%string.
Example golden_datas : write_datas_file (fun _ => 7) (isort Z.ltb) new_ctxs some_glyphs = Ok (Some their_datas).
Proof. vm_compute. reflexivity. Qed.
'''
q = lambda s: '  "%s"' % s.replace('"', '""')
g = []
for k in pick: g += [gs[k][0], '1', gs[k][2]]
for l in g: assert all(ord(c) < 128 for c in l) or True
g = [l if all(ord(c) < 128 for c in l) else 'u' + ' ' + ' '.join(l.split(' ')[1:]) for l in g]
d = [str(len(pick))] + [''.join(x + ' ' for k in pick for x in c[k]) for c in cols]
OUT = os.path.join(os.path.dirname(os.path.dirname(os.path.abspath(__file__))), 'rocq/theories/Golden.v')
open(OUT, 'w').write(out % (';\n'.join(map(q, g)), ';\n'.join(map(q, d))))
print(len(pick), [len(c) for c in cols][:3])
