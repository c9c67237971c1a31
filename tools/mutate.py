#!/usr/bin/env python3
"""Try the theorems against wrong programs.

usage: mutate.py MUTATIONS.json [--log]   (MUTBASE: a built copy of rocq/ to start from)

Each mutation is {"file", "definition", "old", "new", "edit", "claim"}.  For each one the tree is
copied to a scratch directory, the edit applied and everything rebuilt.  A proof that no longer goes
through is replaced by Admitted in the scratch copy and the build continues; the theorems of the
Props files that rest on such a proof are those that failed.  With --log one line per mutation is
appended to seeded/LOG.jsonl."""
import json, os, re, shutil, subprocess, sys
ROOT = os.path.dirname(os.path.dirname(os.path.abspath(__file__)))
SCRATCH = os.environ.get('MUTSCRATCH', '/tmp/mut')

def run(cmd, cwd, timeout=3000):
    p = subprocess.run(cmd, shell=True, cwd=cwd, stdout=subprocess.PIPE, stderr=subprocess.STDOUT, timeout=timeout)
    return p.returncode, p.stdout.decode(errors='replace')

START = re.compile(r'^\s*(?:#\[[^\]]*\]\s*)?(?:Local\s+)?(Lemma|Theorem|Corollary|Example|Fact|Instance)\s+([\w\']+)')

def enclosing(text, line):
    lines = text.split('\n')
    for i in range(min(line, len(lines)) - 1, -1, -1):
        m = START.match(lines[i])
        if m:
            return i, m.group(1), m.group(2)
    return None

def admit(path, line):
    text = open(path).read()
    e = enclosing(text, line)
    if not e:
        return None
    i, kind, name = e
    lines = text.split('\n')
    # proof end
    j = i
    while j < len(lines) and not re.search(r'\b(Qed|Defined|Admitted)\.\s*(\(\*.*\*\)\s*)?$', lines[j]):
        j += 1
    if j >= len(lines) or 'Admitted.' in lines[j]:
        return None
    block = '\n'.join(lines[i:j+1])
    m = re.search(r'\bProof\b[^.]*\.', block)
    if not m:
        return None
    new = block[:m.end()] + ' Admitted.'
    pad = '\n' * (block.count('\n') - new.count('\n'))
    lines[i:j+1] = (new + pad).split('\n')
    open(path, 'w').write('\n'.join(lines))
    return kind, name

def build():
    admitted, stuck = [], []
    for _ in range(400):
        rc, out = run('timeout 2400 make -k -j4 TIMED= 2>&1', SCRATCH)
        if rc == 0:
            break
        errs = re.findall(r'File "\./?(theories/[\w]+\.v)", line (\d+), characters[^\n]*\n(?:Warning)?(Error)?', out)
        seen = set(); progress = False
        for f, l, iserr in errs:
            if not iserr or f in seen:
                continue
            seen.add(f)
            r = admit(os.path.join(SCRATCH, f), int(l))
            if r:
                admitted.append((f, r[0], r[1])); progress = True
            else:
                stuck.append('%s:%s' % (f, l))
        if not progress:
            if not stuck: stuck.append(out[-400:])
            break
    return admitted, stuck

def props(only=None):
    res = {}
    for f in sorted(os.listdir(os.path.join(SCRATCH, 'theories'))):
        if f.startswith('Props_') and f.endswith('.v'):
            t = open(os.path.join(SCRATCH, 'theories', f)).read()
            res[f[:-2]] = re.findall(r'^Theorem\s+([\w\']+)', t, re.M)
    return res

def dependents(admitted):
    names = {n for _, _, n in admitted}
    failed, unknown = [], []
    for mod, ths in props().items():
        # a .vo copied from the base and not rebuilt since says nothing about the edited program
        if run('make -q theories/%s.vo' % mod, SCRATCH)[0] != 0:
            unknown.append(mod); continue
        src = 'From Verif Require %s.\n' % mod
        for t in ths:
            src += 'Goal True. idtac "@@%s". exact I. Qed.\nPrint Assumptions %s.%s.\n' % (t, mod, t)
        open(SCRATCH + '_q.v', 'w').write(src)
        rc, out = run('timeout 600 coqc -Q %s/theories Verif %s_q.v' % (SCRATCH, SCRATCH), '/tmp')
        cur = None
        for line in out.split('\n'):
            if line.startswith('@@'):
                cur = line[2:].strip(); continue
            m = re.match(r'^([\w\.\']+)\s*(:|$)', line)
            if m and cur and m.group(1).split('.')[-1] in names and (m.group(1).split('.')[-1] == cur or True):
                if cur not in failed: failed.append(cur)
        for _, kind, n in admitted:
            if n in ths and n not in failed: failed.append(n)
    return failed, unknown

def main():
    muts = json.load(open(sys.argv[1]))
    log = '--log' in sys.argv
    for m in muts:
        shutil.rmtree(SCRATCH, ignore_errors=True)
        shutil.copytree(os.environ.get('MUTBASE', os.path.join(ROOT, 'rocq')), SCRATCH)
        p = os.path.join(SCRATCH, 'theories', m['file'])
        t = open(p).read()
        if t.count(m['old']) < 1:
            print('NOT FOUND', m['definition'], m['old']); continue
        n = m.get('nth', 0)
        pos = -1
        start = t.find(m['definition'])
        if start < 0: start = 0
        pos = t.find(m['old'], start)
        if pos < 0: print('NOT FOUND after def', m['definition']); continue
        t = t[:pos] + m['new'] + t[pos+len(m['old']):]
        open(p, 'w').write(t)
        run('coq_makefile -f _CoqProject -o Makefile', SCRATCH)
        adm, stuck = build()
        failed, unknown = dependents(adm)
        lem = [n for _, k, n in adm if k not in ('Example',)]
        exs = [n for _, k, n in adm if k == 'Example']
        rec = {'definition': m['definition'], 'edit': m['edit'], 'claim': m['claim'],
               'failed_theorems': failed, 'failed_lemmas': lem, 'failed_examples': exs, 'tightened': m.get('tightened', [])}
        if unknown: rec['not_rebuilt'] = unknown
        if stuck: rec['inconclusive'] = stuck
        print(json.dumps(rec), 'STUCK:', stuck, flush=True)
        if log:
            with open(os.path.join(ROOT, 'seeded', 'LOG.jsonl'), 'a') as f:
                f.write(json.dumps(rec) + '\n')
if __name__ == '__main__':
    main()
