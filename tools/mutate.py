#!/usr/bin/env python3
"""Mutation testing of the theorems.

usage: mutate.py BASE WORK JOBS MUTANTS.json OUT.jsonl [name ...]

BASE is a built copy of rocq/ (all .vo files present), WORK a scratch directory.
Every mutant is an edit of one file of the model.  The edit is applied to a copy
of BASE and everything that depends on the edited file is compiled again.  Where
the proof of a lemma no longer goes through, the lemma is left unproved in the
scratch copy and compilation goes on, so that the lists of assumptions printed at
the end of the Properties files show which theorems are lost.
"""
import json, os, re, shutil, subprocess, sys, time
from concurrent.futures import ThreadPoolExecutor, wait, FIRST_COMPLETED

HEAD = re.compile(r'^(?:#\[[^\]]*\]\s*)?(?:Local |Global )?(Lemma|Theorem|Corollary|Example|Fact|Remark|Definition|Fixpoint|Instance|Goal)\s+([^\s:({]+)')
FILE_TIMEOUT = 900

def deps(th):
    out = subprocess.run(['coqdep', '-Q', th, 'Verif'] + [os.path.join(th, f) for f in sorted(os.listdir(th)) if f.endswith('.v')],
                         capture_output=True, text=True).stdout
    d = {}
    for line in out.splitlines():
        if ':' not in line: continue
        l, r = line.split(':', 1)
        tgt = [x for x in l.split() if x.endswith('.vo')]
        if not tgt: continue
        name = os.path.basename(tgt[0])[:-3]
        d[name] = {os.path.basename(x)[:-3] for x in r.split() if x.endswith('.vo')}
    return d

def admit(path, line):
    """Leave the statement around [line] unproved; returns its kind and name, or None."""
    src = open(path).read().split('\n')
    i = line - 1
    while i >= 0 and not HEAD.match(src[i]): i -= 1
    if i < 0: return None
    m = HEAD.match(src[i])
    j = i
    while j < len(src) and not re.search(r'(Qed|Defined)\.\s*(\(\*.*\*\)\s*)?$', src[j]):
        j += 1
        if j < len(src) and HEAD.match(src[j]): return None
    if j >= len(src) or j < line - 1: return None
    text = '\n'.join(src[i:j+1])
    k = re.search(r'\bProof\b', text)
    if k is None: return None
    src[i:j+1] = [text[:k.start()] + 'Admitted.']
    open(path, 'w').write('\n'.join(src))
    return m.group(1), m.group(2)

def compile_file(th, name, log, stop):
    """Compile with admitting; returns (ok, failures, seconds)."""
    fails, t0 = [], time.time()
    path = os.path.join(th, name + '.v')
    while True:
        try:
            r = subprocess.run(['coqc', '-Q', '.', 'Verif', name + '.v'], cwd=th, capture_output=True, text=True, timeout=FILE_TIMEOUT)
        except subprocess.TimeoutExpired:
            fails.append(('File', name + ' (timeout)')); return False, fails, time.time() - t0, ''
        if r.returncode == 0: return True, fails, time.time() - t0, r.stdout
        m = re.search(r'File "[^"]*", line (\d+), characters', r.stderr)
        ms = re.findall(r'File "[^"]*", line (\d+), characters', r.stderr)
        log.write('--- %s\n%s\n' % (name, r.stderr[-2500:])); log.flush()
        if not ms:
            fails.append(('File', name)); return False, fails, time.time() - t0, ''
        a = admit(path, int(ms[-1]))
        if a is None or a[0] in ('Definition', 'Fixpoint', 'Instance'):
            fails.append(('File', name + ':' + ms[-1])); return False, fails, time.time() - t0, ''
        fails.append((a[0], name + '.' + a[1]))
        if len(fails) > 60: return False, fails, time.time() - t0, ''

def assumptions(src, out):
    """Names given to Print Assumptions, paired with the printed results."""
    names = re.findall(r'Print Assumptions\s+([^\s.]+)\.', src)
    parts = re.split(r'(?m)^(?=Closed under the global context|Axioms:)', out)
    parts = [p for p in parts if p.startswith('Closed') or p.startswith('Axioms:')]
    return {n: p for n, p in zip(names, parts)} if len(parts) == len(names) else {'?': out}

def run(base, work, jobs, mut):
    w = os.path.join(work, 'run')
    shutil.rmtree(w, ignore_errors=True)
    shutil.copytree(base, w)
    th = os.path.join(w, 'theories')
    f = os.path.join(th, mut['file'] + '.v')
    src = open(f).read()
    edits = mut['edits'] if 'edits' in mut else [[mut['old'], mut['new']]]
    for old, new in edits:
        if src.count(old) != 1: return {'error': 'pattern occurs %d times: %s' % (src.count(old), old)}
        src = src.replace(old, new)
    open(f, 'w').write(src)
    for n in os.listdir(th):
        if n.startswith('Properties_') and n.endswith('.v'):
            p = os.path.join(th, n); t = re.sub(r'Print Assumptions\s+[^\s.]+\.', '', open(p).read())
            names = re.findall(r'^Theorem\s+(C\d\d_[^\s:({]+)', t, re.M)
            open(p, 'w').write(t + '\n' + ''.join('Print Assumptions %s.\n' % x for x in names))
    d = deps(th)
    dirty, changed = {mut['file']}, True
    while changed:
        changed = False
        for n, s in d.items():
            if n not in dirty and s & dirty: dirty.add(n); changed = True
    skip = set(mut.get('skip', [])) | {'Tests'}
    todo = [n for n in dirty if n not in skip]
    for n in dirty:
        for e in ('.vo', '.vos', '.vok', '.glob'):
            try: os.remove(os.path.join(th, n + e))
            except FileNotFoundError: pass
    log = open(os.path.join(work, mut['name'] + '.log'), 'w')
    done, bad, running, fails, lost, times = set(d) - dirty, set(), {}, [], {}, {}
    with ThreadPoolExecutor(jobs) as ex:
        while todo or running:
            for n in list(todo):
                if d[n] & (bad | skip): todo.remove(n); bad.add(n); fails.append(('File', n + ' (not built)'))
            for n in sorted(todo):
                if len(running) < jobs and d[n] <= done:
                    todo.remove(n); running[ex.submit(compile_file, th, n, log, None)] = n
            if not running: break
            for fu in wait(running, return_when=FIRST_COMPLETED)[0]:
                n = running.pop(fu)
                ok, fl, t, out = fu.result()
                fails += fl; times[n] = t
                if ok:
                    done.add(n)
                    if n.startswith('Properties'):
                        for k, v in assumptions(open(os.path.join(th, n + '.v')).read(), out).items():
                            if not v.startswith('Closed'): lost[k] = v
                else: bad.add(n)
    log.write(json.dumps(times)); log.close()
    return {'fails': fails, 'lost': lost, 'time': sum(times.values())}

def main():
    base, work, jobs, muts, out = sys.argv[1:6]
    only = set(sys.argv[6:])
    os.makedirs(work, exist_ok=True)
    prev = set()
    if os.path.exists(out):
        prev = {json.loads(l)['name'] for l in open(out)}
    start, limit = time.time(), float(os.environ.get('LIMIT', '1e9'))
    for m in json.load(open(muts)):
        if time.time() - start > limit: break
        if only and m['name'] not in only: continue
        if m['name'] in prev and not only: continue
        t0 = time.time()
        r = run(base, work, int(jobs), m)
        if 'error' in r: print(m['name'], r['error'], flush=True); continue
        rec = {'name': m['name'],
               'lemmas': [n for k, n in r['fails'] if k not in ('Example', 'File')],
               'examples': [n for k, n in r['fails'] if k == 'Example'],
               'files': [n for k, n in r['fails'] if k == 'File'],
               'lost': sorted(r['lost']), 'wall': round(time.time() - t0)}
        open(out, 'a').write(json.dumps(rec, ensure_ascii=False) + '\n')
        print(m['name'], 'lost:', ' '.join(rec['lost']), '| lemmas', len(rec['lemmas']), 'files', rec['files'], rec['wall'], 's', flush=True)
main()
