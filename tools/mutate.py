#!/usr/bin/env python3
"""Mutation testing of the theorems, in a scratch copy outside /verif.

usage: mutate.py mutations.py log.jsonl

mutations.py defines MUTATIONS, a list of (file, definition, old text, new text, property broken, description) and perhaps the
names of the files with the theorems to be tested (otherwise all).
For each one the scratch copy of the project gets the edit and is rebuilt.  A lemma whose proof fails there is replaced by
an admitted one (only in the scratch copy), until everything compiles; the theorems of MANIFEST.json that then depend on
an admitted lemma are the ones the edit breaks.

The directory /tmp/mut/base must hold a built copy of /verif/rocq with its Makefile.  The output of
  coqc -set "Suggest Proof Using"
for a file (used to keep the arity of lemmas in sections) is kept in /tmp/mut/sug."""
import json, os, re, shutil, subprocess, sys, time

BASE, WORK, SUG = '/tmp/mut/base', os.environ.get('WORK', '/tmp/mut/work'), '/tmp/mut/sug'
JOBS = os.environ.get('JOBS', '3')

USE = {}

def using(f, name):
    """The Proof using line for a lemma of the file."""
    if f not in USE:
        os.makedirs(SUG, exist_ok=True)
        out = os.path.join(SUG, f + '.txt')
        if not os.path.exists(out):
            p = subprocess.run(['timeout', '600', 'coqc', '-q', '-Q', 'theories', 'Verif', '-set', 'Suggest Proof Using', '-o', os.path.join(SUG, f[:-2] + '.vo'), 'theories/' + f],
                               cwd=BASE, capture_output=True, text=True)
            open(out, 'w').write(p.stdout + p.stderr)
        USE[f] = {}
        for m in re.finditer(r'The proof of\s+(\S+)\s+should start with one of the following commands:\s*\n\s*(Proof using[^\n]*?)\.\s*\n', open(out).read()):
            USE[f][m.group(1)] = m.group(2).strip()
    return USE[f].get(name)

START = re.compile(r'^\s*(?:Local\s+|Global\s+)?(Lemma|Theorem|Example|Corollary|Fact|Remark)\s+([A-Za-z0-9_\']+)')

def admit(path, line):
    """Replace the proof around the line by Admitted; returns the lemma's name, or None."""
    L = open(path).read().split('\n')
    i = line - 1
    while i >= 0 and not START.match(L[i]):
        i -= 1
    if i < 0:
        return None
    name = START.match(L[i]).group(2)
    # the end
    j = max(i, line - 1)
    while j < len(L) and not re.search(r'\b(Qed|Defined|Admitted)\.', L[j]):
        if j > line - 1 and START.match(L[j]):
            return None
        j += 1
    if j == len(L) or re.search(r'Admitted\.', L[j]):
        return None
    block = '\n'.join(L[i:j + 1])
    m = re.search(r'\bProof\b[^.]*\.', block)
    if not m:
        return None
    offset = block[:m.start()].count('\n') + i
    if line - 1 < offset:
        return None   # the statement itself fails
    u = using(os.path.basename(path), name)
    pf = (u + '.' if u else 'Proof.')
    new = block[:m.start()] + pf + ' Admitted.'
    new += '\n' * (block.count('\n') - new.count('\n'))
    L[i:j + 1] = new.split('\n')
    open(path, 'w').write('\n'.join(L))
    return name

def hang_line(path):
    """The line of the sentence at which coqc hangs."""
    p = subprocess.run(['timeout', '200', 'coqc', '-time', '-Q', 'theories', 'Verif', path], cwd=WORK, capture_output=True, text=True)
    last = 0
    for m in re.finditer(r'^Chars (\d+) - (\d+)', p.stdout, re.M):
        last = int(m.group(2))
    s = open(os.path.join(WORK, path), 'rb').read()
    return s[:last + 2].count(b'\n') + 1

def run(mut, theorems):
    file, dfn, old, new, prop, descr = mut[:6]
    targets = ['theories/%s.vo' % x for x in mut[6]] if len(mut) > 6 else []
    if os.path.exists(WORK):
        shutil.rmtree(WORK)
    subprocess.run(['cp', '-a', BASE, WORK], check=True)
    p = f'{WORK}/theories/{file}'
    s = open(p).read()
    if s.count(old) != 1:
        return {'error': f'{s.count(old)} occurrences of the text'}
    open(p, 'w').write(s.replace(old, new))
    broken = []
    for _ in range(60):
        r = subprocess.run(['timeout', '3000', 'make', '-k', '-j' + JOBS, 'COQC=timeout 200 coqc'] + targets, cwd=WORK, capture_output=True, text=True)
        out = r.stdout + r.stderr
        if r.returncode == 0:
            break
        errs = set(re.findall(r'File "\./(theories/\S+\.v)", line (\d+), characters [\d-]+:\s*\n(?:Error|.*\nError)', out))
        errs = {(f, int(n)) for f, n in errs}
        hung = set(re.findall(r'\[\S*: (theories/\S+)\.vo\] Error 124', out))
        for h in hung:
            errs.add((h + '.v', hang_line(h + '.v')))
        if not errs:
            return {'error': 'no error found', 'out': out[-1500:]}
        for f, n in errs:
            name = admit(f'{WORK}/{f}', n)
            if name is None:
                return {'error': f'not in a proof: {f}:{n}', 'out': out[-1500:], 'broken': broken}
            broken.append(f'{os.path.basename(f)[:-2]}.{name}')
    else:
        return {'error': 'too many rounds', 'broken': broken}
    # which theorems depend on an admitted lemma?
    mods = sorted(os.path.basename(x)[:-2] for x in os.listdir(f'{WORK}/theories') if re.match(r'Prop.*\.v$', x) and (not targets or x[:-2] in mut[6]))
    where = {}
    for m_ in mods:
        for n in re.findall(r'^Theorem\s+([A-Za-z0-9_\']+)', open(f'{WORK}/theories/{m_}.v').read(), re.M):
            where[n] = m_
    failed = []
    q = ['From Verif Require ' + ' '.join(mods) + '.']
    names = [t for t in theorems if t in where]
    for t in names:
        q.append(f'Goal True. idtac "@@ {t}". exact I. Qed. Print Assumptions {where[t]}.{t}.')
    open(f'{WORK}/Q.v', 'w').write('\n'.join(q) + '\n')
    r = subprocess.run(['timeout', '1000', 'coqc', '-Q', 'theories', 'Verif', 'Q.v'], cwd=WORK, capture_output=True, text=True)
    if r.returncode:
        return {'error': 'query', 'out': (r.stdout + r.stderr)[-1500:]}
    for part in r.stdout.split('@@ ')[1:]:
        t = part.split('\n')[0].strip()
        if 'Axioms:' in part:
            failed.append(t)
    return {'lemmas': broken, 'failed': failed, 'missing': [t for t in theorems if t not in where]}

def main():
    ns = {}
    exec(open(sys.argv[1]).read(), ns)
    log = sys.argv[2]
    done = set()
    if os.path.exists(log):
        for l in open(log):
            if l.strip():
                done.add(json.loads(l)['description'])
    man = json.load(open('/verif/MANIFEST.json'))
    theorems = []
    for c in man['claims']:
        for t in c['theorems']:
            if t not in theorems:
                theorems.append(t)
    for mut in ns['MUTATIONS']:
        if mut[5] in done:
            continue
        t0 = time.time()
        r = run(mut, theorems)
        e = {'file': mut[0], 'definition': mut[1], 'edit': {'old': mut[2], 'new': mut[3]}, 'description': mut[5], 'claim': mut[4],
             'theorems_failed': r.get('failed', []), 'first_lemmas': r.get('lemmas', r.get('broken', []))[:12], 'theorems_tightened': []}
        if 'error' in r:
            e['error'] = r['error']
        e['seconds'] = round(time.time() - t0)
        e['caught'] = any(t.startswith(c) for c in mut[4].split(', ') for t in e['theorems_failed'])
        open(log, 'a').write(json.dumps(e, ensure_ascii=False) + '\n')
        print(mut[4], '|', mut[5], '|', 'caught' if e['caught'] else 'MISSED', '|', r.get('error', ''), r.get('failed', [])[:8], '|', e['seconds'], 's', flush=True)
        if 'out' in r:
            print(r['out'], flush=True)

main()
