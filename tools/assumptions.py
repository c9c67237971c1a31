"""Write ASSUMPTIONS.md: what Print Assumptions reports for every property theorem.
Needs a built rocq/ directory (first argument, default /verif/rocq)."""
import glob, os, re, subprocess, sys, tempfile
base = sys.argv[1] if len(sys.argv) > 1 else '/verif/rocq'
files = sorted(glob.glob(base + '/theories/Props_*.v'))
src, names = [], []
for f in files:
    mod = os.path.basename(f)[:-2]
    src.append(f'From Verif Require {mod}.')
    for n in re.findall(r'^Theorem (C\d\d\w*)', open(f).read(), re.M):
        names.append((mod, n))
for mod, n in names:
    src.append(f'Goal True. idtac "@@ {mod}.{n}". exact I. Qed.')
    src.append(f'Print Assumptions {mod}.{n}.')
with tempfile.TemporaryDirectory() as d:
    p = os.path.join(d, 'ass.v')
    open(p, 'w').write('\n'.join(src) + '\n')
    out = subprocess.run(['coqc', '-Q', base + '/theories', 'Verif', p], capture_output=True, text=True)
assert out.returncode == 0, out.stderr
sets, cur = {}, None
for line in out.stdout.splitlines():
    if line.startswith('@@ '):
        cur = line[3:]; sets[cur] = set()
    else:
        m = re.match(r'^(\S+)\s*:', line) or re.match(r'^([A-Za-z_.]+\.[A-Za-z_]+)$', line)
        if m and m.group(1) != 'Axioms': sets[cur].add(m.group(1))
groups = {}
for k, v in sets.items():
    groups.setdefault(tuple(sorted(v)), []).append(k)
with open('/verif/ASSUMPTIONS.md', 'w') as f:
    f.write('# Assumptions of the property theorems\n\nAs reported by `Print Assumptions`; '
            'generated by `tools/assumptions.py`.\n')
    for g in sorted(groups):
        f.write('\n## ' + (', '.join(f'`{a}`' for a in g) if g else 'Closed under the global context (no axioms)') + '\n\n')
        for k in sorted(groups[g]):
            f.write(f'* `{k}`\n')
print({g: len(v) for g, v in groups.items()})
