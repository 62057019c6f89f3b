#!/usr/bin/env python3
"""Generate edits for mutate.py mechanically: for every definition of the model files, all
places where a constant, a comparison, a connective, a branch or a step can be changed.

usage: mutants.py [per_definition [seed]] > edits.json
"""
import glob, json, os, random, re, sys
root = os.path.dirname(os.path.dirname(os.path.abspath(__file__)))
HEAD = re.compile(r'^(?:Definition|Fixpoint|Inductive)\s+([\w\']+)', re.M)

def blank(s):
    """comments blanked out, same length"""
    out, depth, i = [], 0, 0
    while i < len(s):
        if s.startswith('(*', i) : depth += 1; out.append('  '); i += 2
        elif depth and s.startswith('*)', i): depth -= 1; out.append('  '); i += 2
        else: out.append(s[i] if not depth or s[i] == '\n' else ' '); i += 1
    return ''.join(out)

RULES = [
    (r'(?<![\w%"])(\d+)(?![\w"])', lambda m: str(int(m.group(1)) + 1)),
    (r'lit "([^"]+)"', lambda m: 'lit "' + m.group(1)[:-1] + ('Y' if m.group(1)[-1] == 'X' else 'X') + '"'),
    (r'\btrue\b', lambda m: 'false'), (r'\bfalse\b', lambda m: 'true'),
    (r'<=\?', lambda m: '<?'), (r'<\?', lambda m: '<=?'),
    (r'&&', lambda m: '||'), (r'\|\|', lambda m: '&&'),
    (r'\bif ((?:(?!\bif\b|\bthen\b)[^\n])+?) then', lambda m: 'if negb (' + m.group(1) + ') then'),
    (r'\bnegb \(', lambda m: '('), (r'\bnegb (?=\w)', lambda m: ''),
    (r'\b(?:modify|tell|put)\b(?:(?!;;;)[^\n])*?;;; ', lambda m: ''),
    (r'\+\+ \[[^\]\n]*\]', lambda m: ''),
    (r'(?<= )\+ 1\b', lambda m: ''), (r'(?<= )- 1\b', lambda m: ''),
    (r'\bSome \(?\w+\)?(?= end)', lambda m: 'None'),
    (r'\bfirstn\b', lambda m: 'skipn'), (r'\bskipn\b', lambda m: 'firstn'),
    (r'\brev (?=\w)', lambda m: ''),
    (r'\bErr (\w+)Error\b', lambda m: 'Err ' + ('KeyError' if m.group(1) != 'Key' else 'ValueError')),
    (r'\braise (\w+)Error\b', lambda m: 'raise ' + ('KeyError' if m.group(1) != 'Key' else 'ValueError')),
]
def main():
    per = int(sys.argv[1]) if len(sys.argv) > 1 else 3
    rnd = random.Random(int(sys.argv[2]) if len(sys.argv) > 2 else 1)
    done = set()
    for l in open(root + '/seeded/LOG.jsonl'): r = json.loads(l); done.add((r['definition'], r['edit']))
    edits = []
    for f in sorted(glob.glob(root + '/rocq/theories/*Model.v')) + [root + '/rocq/theories/ModemCore.v']:
        mod, s = os.path.basename(f)[:-2], open(f).read()
        code = blank(s)
        hs = list(HEAD.finditer(code))
        for a, b in zip(hs, hs[1:] + [None]):
            lo, hi = a.end(), b.start() if b else len(code)
            sites = []
            for pat, fn in RULES:
                for m in re.finditer(pat, code[lo:hi]):
                    sites.append((lo + m.start(), lo + m.end(), fn(m)))
            rnd.shuffle(sites)
            for x, y, new in sites[:per]:
                # widen the text until it is unique
                l, r = x, y
                while s.count(s[l:r]) > 1:
                    l, r = max(0, l - 6), min(len(s), r + 6)
                old, nw = s[l:r], s[l:x] + new + s[y:r]
                if old == nw or (mod + '.' + a.group(1), old + '  =>  ' + nw) in done: continue
                edits.append({'file': mod, 'def': a.group(1), 'old': old, 'new': nw, 'claim': 'what the properties say of ' + a.group(1)})
    rnd.shuffle(edits)
    json.dump(edits, sys.stdout, indent=0)
main()
