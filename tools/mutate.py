#!/usr/bin/env python3
"""Try wrong programs: apply each edit of a list to a scratch copy of the model, rebuild
until a lemma fails, and report that lemma and the property theorems that depend on it.

usage: mutate.py edits.json [logfile]
Each edit: {"file": "PduModel", "def": "...", "old": "...", "new": "...", "claim": "..."}
"""
import bisect, glob, json, os, re, shutil, signal, subprocess, sys, time
root = os.path.dirname(os.path.dirname(os.path.abspath(__file__)))
base, scratch = os.environ.get('BASE', '/tmp/mut/base'), os.environ.get('SCRATCH', '/tmp/mut/rocq')
HARD = ('Lemma', 'Theorem', 'Corollary')
HEAD = re.compile(r'^\s*(?:Local\s+|#\[\w+\]\s*)?(Theorem|Lemma|Example|Definition|Fixpoint|Corollary|Inductive|Instance)\s+([\w\']+)', re.M)

def items():
    """(file, name) -> kind of every item of the development, and who mentions whom (from the
    .glob files of the build)"""
    kinds, users = {}, {}
    for f in glob.glob(base + '/theories/*.v'):
        mod = os.path.basename(f)[:-2]
        src = open(f, 'rb').read()
        heads = [(m.start(2), m.group(1).decode(), m.group(2).decode()) for m in re.finditer(HEAD.pattern.encode(), src, re.M)]
        for _, k, n in heads: kinds[mod, n] = k
        starts = [h[0] for h in heads]
        for line in open(f[:-2] + '.glob', errors='replace'):
            m = re.match(r'R(\d+):\d+ Verif\.(\w+) \S+ (\S+) \w+$', line)
            if not m: continue
            i = bisect.bisect_right(starts, int(m.group(1))) - 1
            if i < 0: continue
            users.setdefault((m.group(2), m.group(3)), set()).add((mod, heads[i][2]))
    return kinds, users

def dependents(names, its):
    kinds, users = its
    todo, seen = list(names), set(names)
    while todo:
        for u in users.get(todo.pop(), ()):
            if u not in seen:
                seen.add(u); todo.append(u)
    return seen

def enclosing(f, line):
    s = open(f).read().split('\n')
    for i in range(line - 1, -1, -1):
        m = HEAD.match(s[i])
        if m: return m.group(1), os.path.basename(f)[:-2], m.group(2)
    return '?', '?', '?'

def prepare():
    """an up-to-date build of the development in the base directory"""
    os.makedirs(base + '/theories', exist_ok=True)
    shutil.copy(root + '/rocq/_CoqProject', base + '/_CoqProject')
    for f in glob.glob(root + '/rocq/theories/*.v'):
        g = base + '/theories/' + os.path.basename(f)
        if not os.path.exists(g) or open(f).read() != open(g).read():
            shutil.copy(f, g)
    subprocess.run('coq_makefile -f _CoqProject -o Makefile', shell=True, cwd=base, check=True)
    r = subprocess.run('make -j3 2>&1', shell=True, cwd=base, capture_output=True, text=True)
    assert r.returncode == 0, r.stdout[-2000:]

def build():
    """make -k until the first lemma or theorem fails; the items that failed"""
    p = subprocess.Popen('timeout 2400 make -k -j2 2>&1', shell=True, cwd=scratch, stdout=subprocess.PIPE, text=True, start_new_session=True)
    fails, place = [], None
    for line in p.stdout:
        m = re.match(r'File "\./theories/(\w+)\.v", line (\d+)', line)
        if m: place = m
        elif line.startswith('Error') and place:
            fails.append(enclosing(scratch + '/theories/' + place.group(1) + '.v', int(place.group(2))))
            place = None
            if fails[-1][0] in HARD:
                os.killpg(p.pid, signal.SIGKILL)
                break
    p.stdout.close()
    p.wait()
    return fails

def main():
    edits = json.load(open(sys.argv[1]))
    log = sys.argv[2] if len(sys.argv) > 2 else '/tmp/mut/out.jsonl'
    prepare()
    its = items()
    for e in edits:
        while os.path.exists(scratch):  # processes of a killed build may still write to it
            shutil.rmtree(scratch, ignore_errors=True)
            time.sleep(0.2)
        subprocess.run(['cp', '-a', base, scratch], check=True)
        f = scratch + '/theories/' + e['file'] + '.v'
        src = open(f).read()
        if src.count(e['old']) < 1:
            print('NOT FOUND', e['def'], e['old'], flush=True); continue
        n = e.get('nth', 0)
        parts = src.split(e['old'])
        if len(parts) > 2 and 'nth' not in e:
            print('AMBIGUOUS', e['def'], e['old'], len(parts) - 1, flush=True); continue
        open(f, 'w').write(e['old'].join(parts[:n + 1]) + e['new'] + e['old'].join(parts[n + 1:]))
        fails = build()
        hard = sorted({n for k, _, n in fails if k in HARD})
        other = sorted({n for k, _, n in fails if k not in HARD})
        broken = any(k not in HARD and k != 'Example' for k, _, n in fails)
        props = sorted(n for f, n in dependents([(f, n) for k, f, n in fails if k in HARD], its)
                       if re.match(r'C\d+_', n) and its[0].get((f, n)) == 'Theorem')
        rec = {'definition': e['file'] + '.' + e['def'], 'edit': e['old'] + '  =>  ' + e['new'], 'claim': e['claim'],
               'failed': props, 'first_failing': hard + other, 'tightened': []}
        verdict = 'KILLED' if hard else 'DOES NOT COMPILE' if broken else 'EXAMPLE-ONLY' if other else 'SURVIVED'
        if verdict != 'DOES NOT COMPILE':
            open(log, 'a').write(json.dumps(rec) + '\n')
        print(verdict, e['def'], '|', rec['edit'].replace('\n', ' '), '|', hard, other, '|', props, flush=True)
main()
