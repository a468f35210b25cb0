#!/usr/bin/env python3
"""Mutation testing of the theorems.

usage: mutate.py MUTANTS.json SCRATCH LOG.jsonl

Every mutant is {"definition", "file", "old", "new", "claim"}: the text [old] of
theories/[file] is replaced by [new] in a scratch copy, which is rebuilt.  A
lemma whose proof fails is admitted in the scratch copy and the build goes on;
at the end the property theorems (Properties_*.v) that depend on an admitted
lemma are reported as failed.

With FAST=1 in the environment the build is run once only: nothing is admitted,
files that depend on a file that failed are not built, and the theorems that use
a failed lemma are found from the references in the .glob files of the original.
The list of failed theorems is then a lower bound."""
import glob, json, os, re, shutil, subprocess, sys
root = os.environ.get('SRC') or os.path.dirname(os.path.dirname(os.path.abspath(__file__)))
LIMIT = int(os.environ.get('LIMIT', '240'))   # seconds per file
muts = json.load(open(sys.argv[1]))
scratch, log = sys.argv[2], sys.argv[3]
JOBS = os.environ.get('J', '2')
HEAD = r'^\s*(?:Local |Global |#\[\w+\]\s*)*(?:Lemma|Theorem|Corollary|Example|Fact|Remark|Proposition)\s+(\w+)'

def build(d):
    r = subprocess.run(['bash', '-c', 'ulimit -v 9000000; make -k -j%s COQC="timeout %d coqc"' % (JOBS, LIMIT)], cwd=d,
                       stdout=subprocess.PIPE, stderr=subprocess.STDOUT, text=True, timeout=3000)
    return r.returncode, r.stdout

def users():
    """lemma -> definitions and lemmas that mention it, from the .glob files"""
    use = {}
    for g in glob.glob(root + '/rocq/theories/*.glob'):
        mod, cur = os.path.basename(g)[:-5], None
        ev = []
        for l in open(g, errors='replace'):
            m = re.match(r'(prf|def|thm|ind|rec|inst|ax|coe|ex) (\d+):\d+ \S+ (\S+)', l)
            if m:
                ev.append((int(m.group(2)), 0, mod + '.' + m.group(3))); continue
            m = re.match(r'R(\d+):\d+ Verif\.(\w+) \S+ (\S+) (\w+)', l)
            if m and m.group(4) not in ('lib', 'var'):
                ev.append((int(m.group(1)), 1, m.group(2) + '.' + m.group(3)))
        for _, k, n in sorted(ev):
            if k == 0:
                cur = n
            elif cur and n != cur:
                use.setdefault(n, set()).add(cur)
    return use

def fast(d, m):
    rc, out = build(d)
    broken, stuck = [], []
    errs = re.findall(r'File "\./?(theories/\w+\.v)", line (\d+), characters [\d-]+:\nError', out)
    for ef, line in errs:
        lines = open(d + '/' + ef).read().split('\n')
        i = int(line) - 1
        while i >= 0 and not re.match(HEAD, lines[i]):
            i -= 1
        if i < 0 or ef == 'theories/' + m['file']:
            stuck.append('%s:%s' % (ef, line))
        if i >= 0:
            broken.append(os.path.basename(ef)[:-2] + '.' + re.match(HEAD, lines[i]).group(1))
    stuck += ['timeout ' + f for f in re.findall(r'(theories/\w+)\.vo\] Error 124', out)]
    use, todo, seen = users(), list(broken), set()
    while todo:
        n = todo.pop()
        if n not in seen:
            seen.add(n); todo += use.get(n, ())
    failed = sorted(n.split('.')[1] for n in seen if n.startswith('Properties_'))
    return {'mode': 'first failures only', 'lemmas_broken': [b.split('.')[1] for b in broken],
            'theorems_failed': failed, 'stuck': stuck}

def run(m):
    d = scratch
    if os.path.exists(d):
        shutil.rmtree(d)
    shutil.copytree(root + '/rocq', d)     # keeps time stamps
    subprocess.run(['coq_makefile', '-f', '_CoqProject', '-o', 'Makefile'], cwd=d, check=True,
                   stdout=subprocess.DEVNULL)
    f = d + '/theories/' + m['file']
    s = open(f).read()
    n = s.count(m['old'])
    if n != 1:
        return {'error': 'old text occurs %d times' % n}
    open(f, 'w').write(s.replace(m['old'], m['new']))
    if os.environ.get('FAST'):
        return fast(d, m)
    admitted, stuck = [], []
    for it in range(60):
        rc, out = build(d)
        errs = re.findall(r'File "\./?(theories/\w+\.v)", line (\d+), characters [\d-]+:\nError', out)
        if rc == 0:
            break
        # a proof that does not terminate counts as failed
        for ef in set(re.findall(r'(theories/\w+)\.vo\] Error 124', out)):
            o = subprocess.run(['timeout', str(LIMIT), 'coqc', '-w', 'none', '-time', '-Q', 'theories', 'Verif',
                                ef + '.v'], cwd=d, stdout=subprocess.PIPE, stderr=subprocess.DEVNULL, text=True).stdout
            ends = re.findall(r'Chars \d+ - (\d+)', o)
            b = open(d + '/' + ef + '.v', 'rb').read()
            k = int(ends[-1]) if ends else 0
            rest = b[k:].decode(errors='replace')
            k += len(rest) - len(rest.lstrip())
            errs.append((ef + '.v', str(b[:k].count(b'\n') + 1)))
        progress = False
        for ef, line in errs:
            lines = open(d + '/' + ef).read().split('\n')
            i = int(line) - 1
            while i >= 0 and not re.match(HEAD, lines[i]):
                i -= 1
            if i < 0:
                stuck.append('%s:%s' % (ef, line)); continue
            name = re.match(HEAD, lines[i]).group(1)
            # find the proof
            j = i
            while j < len(lines) and not re.search(r'(^|\.)\s*Proof\b', lines[j]):
                j += 1
            k = j
            while k < len(lines) and not re.search(r'\b(Qed|Defined)\.\s*$', lines[k]):
                k += 1
            if j >= len(lines) or not (j <= int(line) - 1 <= k) or name in admitted:
                stuck.append('%s:%s' % (ef, line)); continue
            before = re.match(r'(.*?(?:^|\.))\s*Proof\b', lines[j]).group(1)   # statement on the same line
            lines[j:k + 1] = [before + ' Admitted.'] + [''] * (k - j)
            open(d + '/' + ef, 'w').write('\n'.join(lines))
            admitted.append(name); progress = True
        if not progress:
            if not errs:
                stuck.append(out[-600:])
            break
    failed = []
    for pf in sorted(glob.glob(d + '/theories/Properties_*.v')):
        src = open(pf).read()
        ts = re.findall(r'^Theorem\s+(\w+)', src, re.M)
        if not os.path.exists(pf[:-2] + '.vo'):
            failed += [t + ' (not reached)' for t in ts]; continue
        mod = os.path.basename(pf)[:-2]
        orig = root + '/rocq/theories/' + mod + '.vo'
        if os.path.exists(orig) and os.path.getmtime(orig) == os.path.getmtime(pf[:-2] + '.vo'):
            continue                       # not rebuilt
        q = 'From Verif Require Import %s.\n' % mod + ''.join(
            'Print Assumptions %s.\n' % t for t in ts)
        open(d + '/pa_mut.v', 'w').write(q)
        o = subprocess.run(['coqc', '-w', 'none', '-Q', d + '/theories', 'Verif', d + '/pa_mut.v'],
                           stdout=subprocess.PIPE, text=True).stdout
        parts = re.split(r'(?m)^(?=Closed under|Axioms:)', o)[1:]
        assert len(parts) == len(ts), (len(parts), len(ts), mod)
        for t, p in zip(ts, parts):
            if any(re.search(r'(?m)^(\w+\.)*%s( |$)' % a, p) for a in admitted):
                failed.append(t)
    return {'lemmas_broken': admitted, 'theorems_failed': failed, 'stuck': stuck}

done = set()
if os.path.exists(log):
    done = {json.loads(l)['definition'] + json.loads(l)['edit'] for l in open(log)}
for m in muts:
    edit = m.get('edit') or '%s  ==>  %s' % (m['old'], m['new'])
    if m['definition'] + edit in done:
        continue
    try:
        r = run(m)
    except Exception as e:
        r = {'error': repr(e)}
    rec = {'definition': m['definition'], 'file': m['file'], 'edit': edit, 'claim': m['claim']}
    rec.update(r)
    rec['theorems_tightened'] = m.get('tightened', [])
    open(log, 'a').write(json.dumps(rec) + '\n')
    print(m['definition'], '|', m['new'][:60].replace('\n', ' '), '->',
          len(r.get('theorems_failed', [])), r.get('theorems_failed', [])[:6], r.get('lemmas_broken', [])[:4],
          r.get('stuck', ''), r.get('error', ''), flush=True)
