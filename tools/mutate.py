#!/usr/bin/env python3
"""Seeded-bug runner.  usage: mutate.py <mutations.json> [outlog]

Each mutation {id, file, definition, old, new, edit, claim} is applied to a scratch copy
of rocq/ (outside /verif).  The copy is rebuilt; every proof that breaks is
replaced by Admitted and the build continues, so that at the end Print Assumptions
tells which property theorems no longer hold by their proofs.  One JSON line per
mutation is appended to the log."""
import json, os, re, shutil, subprocess, sys, glob
SRC = '/tmp/mutsrc_%d/rocq' % os.getpid()   # sources of the last commit
def sh(cmd, cwd, timeout=1500):
    return subprocess.run(cmd, cwd=cwd, shell=True, capture_output=True, text=True, timeout=timeout)
START = re.compile(r'^\s*(?:Local |Global )?(Lemma|Theorem|Example|Corollary|Fact|Remark)\s+(\w+)', re.M)
def admit(path, line):
    s = open(path).read(); lines = s.split('\n')
    off = sum(len(l) + 1 for l in lines[:line - 1]) + len(lines[line - 1])
    ms = [m for m in START.finditer(s) if m.start() <= off]
    if not ms: return None
    m = ms[-1]
    p = s.find('Proof', m.start()); q = re.compile(r'\b(Qed|Defined)\.').search(s, p)
    if p < 0 or not q: return None
    open(path, 'w').write(s[:p] + 'Admitted.' + s[q.end():])
    return m.group(1) + ' ' + m.group(2)
def uses(work, mod, target, seen=None):
    # does the file require the edited one, directly or not?
    seen = set() if seen is None else seen
    if mod == target: return True
    if mod in seen: return False
    seen.add(mod); f = work + '/theories/' + mod + '.v'
    if not os.path.exists(f): return False
    deps = set(w for m in re.finditer(r'From Verif Require(?: Import| Export)?([^.]*)\.', open(f).read()) for w in m.group(1).split())
    return any(uses(work, d, target, seen) for d in deps)
def run(mut, work):
    if not os.path.exists(work + '/Makefile'):
        shutil.copytree(SRC, work, dirs_exist_ok=True)
        sh('coq_makefile -f _CoqProject -o Makefile', work)
    # refresh sources that differ from the committed ones
    for f in glob.glob(SRC + '/theories/*.v') + [SRC + '/_CoqProject']:
        g = f.replace(SRC, work)
        if not os.path.exists(g) or open(f).read() != open(g).read(): shutil.copy(f, g)
    if mut is None:
        sh('coq_makefile -f _CoqProject -o Makefile', work)
        r = sh('make -j2', work, 3600); assert r.returncode == 0, r.stderr[-2000:]; return
    f = work + '/theories/' + mut['file']; s = open(f).read()
    if s.count(mut['old']) != 1: return dict(error='pattern count %d' % s.count(mut['old']))
    open(f, 'w').write(s.replace(mut['old'], mut['new']))
    failed = []
    for _ in range(400):
        r = sh('make -j2', work, 3600)
        if r.returncode == 0: break
        errs = re.findall(r'File "\./(theories/\w+\.v)", line (\d+), characters', r.stderr + r.stdout)
        done = False
        for (path, line) in sorted(set(errs)):
            got = admit(work + '/' + path, int(line))
            if got: failed.append(got); done = True
        if not done: return dict(error=(r.stderr + r.stdout)[-600:])
    thms = []; mods = []
    for p in sorted(glob.glob(work + '/theories/Props*.v')):
        if ('theories/' + os.path.basename(p)) not in open(work + '/_CoqProject').read(): continue
        if not uses(work, os.path.basename(p)[:-2], mut['file'][:-2]): continue
        mods.append(os.path.basename(p)[:-2])
        thms += [m.group(1) for m in re.finditer(r'^Theorem (\w+)', open(p).read(), re.M)]
    chk = 'From Verif Require Import %s.\n' % ' '.join(mods) + ''.join(
        'Goal True. idtac "@@ %s". exact I. Qed.\nPrint Assumptions %s.\n' % (t, t) for t in thms)
    open(work + '/chk.v', 'w').write(chk)
    out = sh('coqc -Q theories Verif chk.v', work).stdout
    bad = []
    for part in out.split('@@ ')[1:]:
        name, rest = part.split('\n', 1)
        if 'Closed under the global context' not in rest: bad.append(name.strip())
    return dict(failed_theorems=bad, failed_lemmas=[x for x in failed if not x.split()[1] in bad])
if __name__ == '__main__':
    muts = json.load(open(sys.argv[1])); log = sys.argv[2] if len(sys.argv) > 2 else '/verif/seeded/LOG.jsonl'
    work = sys.argv[3] if len(sys.argv) > 3 else '/tmp/mut'
    os.makedirs(os.path.dirname(SRC)); sh('git archive HEAD rocq | tar x -C ' + os.path.dirname(SRC), '/verif')
    run(None, work); base = work + '.base'
    shutil.rmtree(base, ignore_errors=True); sh('cp -a %s %s' % (work, base), '/')
    for m in muts:
        shutil.rmtree(work); sh('cp -a %s %s' % (base, work), '/')   # the built baseline, with its times
        try: r = run(m, work)
        except Exception as e: r = dict(error=repr(e))
        rec = dict(definition=m['definition'], file=m['file'], edit=m['edit'], claim=m['claim'])
        rec.update(r); rec.setdefault('tightened', m.get('tightened', []))
        print(json.dumps(rec), flush=True)
        if 'error' not in r: open(log, 'a').write(json.dumps(rec) + '\n')
