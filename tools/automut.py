#!/usr/bin/env python3
"""Token-level mutation of a model file: automut.py MODEL COUNT [SEED].
Prints the mutants for which the whole development still builds and logs the others."""
import json, random, re, subprocess, sys, os, time
root = os.path.dirname(os.path.dirname(os.path.abspath(__file__)))
name, count = sys.argv[1], int(sys.argv[2])
seed = int(sys.argv[3]) if len(sys.argv) > 3 else 1
scratch = '/tmp/am_' + name
src = os.environ.get('SRC', root + '/rocq')
subprocess.run('rm -rf %s && cp -a %s %s' % (scratch, src, scratch), shell=True, check=True)
p = '%s/theories/%s.v' % (scratch, name)
subprocess.run('coq_makefile -f _CoqProject -o Makefile && make -j3 > /dev/null', shell=True, cwd=scratch, check=True)
orig = open(p).read()
# blank out comments
code = list(orig)
depth = i = 0
while i < len(orig):
    if orig[i:i+2] == '(*': depth += 1; code[i] = code[i+1] = ' '; i += 2; continue
    if orig[i:i+2] == '*)': depth -= 1; code[i] = code[i+1] = ' '; i += 2; continue
    if depth: code[i] = ' '
    i += 1
code = ''.join(code)
ops = [(r'<\?', ['<=?']), (r'<=\?', ['<?']), (r'&&', ['||']), (r'\|\|', ['&&']), (r'\btrue\b', ['false']), (r'\bfalse\b', ['true']),
       (r'(?<![\w%.])\d+(?![\w.])', None), (r'(?<= )\+(?= )', ['-']), (r'(?<= )-(?= )', ['+']), (r'\bERROR_\w+', ['STATUS_SUCCESS', 'ERROR_GENERAL_BAD_STRIDE' if False else '12345']),
       (r'\bSTATUS_SUCCESS\b', ['12345']), (r'\bnegb\b', ['id']), (r'\bSome (?=[a-z])', None), (r'\bfirstn\b', ['skipn']), (r' \+\+ ', None), (r' :: ', None),
       (r'(?<![<>=])=\?', None), (r'\bif\b', None)]
muts = []
for pat, reps in ops:
    for m in re.finditer(pat, code):
        a, b, t = m.start(), m.end(), m.group(0)
        line = orig[orig.rfind('\n', 0, a)+1: orig.find('\n', a)]
        if re.match(r'\s*(From|Require|Notation|Record|Inductive|\{ |Opaque|Arguments)', line): continue
        if pat.startswith(r'(?<![\w%.])\d'):
            for r in [str(int(t)+1)] + ([str(int(t)-1)] if int(t) > 0 else []): muts.append((a, b, r))
        elif pat == r'\bif\b': muts.append((a, b, 'if negb @@'))
        elif pat == r'(?<![<>=])=\?': muts.append((a, b, '<=?')); muts.append((a, b, '<?'))
        elif reps:
            for r in reps: muts.append((a, b, r))
random.Random(seed).shuffle(muts)
print(name, len(muts), 'candidates'); sys.stdout.flush()
kind = r'(?:Local )?(?:Theorem|Lemma|Definition|Fixpoint|Example|Corollary|Fact|Inductive|Record)'
def enclosing(text, pos):
    l = [m for m in re.finditer(r'^\s*' + kind + r'\s+(\w+)', text, re.M) if m.start() <= pos]
    return l[-1].group(1) if l else '?'
def log(a, b, r, new, out):
    m = re.search(r'File "\./theories/(\w+)\.v", line (\d+)', out)
    if not m: return
    t = open('%s/theories/%s.v' % (scratch, m.group(1))).read()
    pos = sum(len(x) + 1 for x in t.split('\n')[:int(m.group(2))]) - 1
    lines = lambda s: s[s.rfind('\n', 0, a) + 1: s.find('\n', a)].strip()
    d = enclosing(orig, a)
    e = {'definition': d, 'file': 'rocq/theories/%s.v' % name, 'edit': '%s  =>  %s' % (lines(orig), lines(new)),
         'breaks': 'what %s does (edit of one token, made by tools/automut.py)' % d, 'failed': ['%s.%s' % (m.group(1), enclosing(t, pos))], 'tightened': []}
    open(root + '/seeded/LOG.jsonl', 'a').write(json.dumps(e) + '\n')
killed = bad = surv = late = done = 0
for a, b, r in muts:
    if done >= count: break
    if '@@' in r:
        m = re.match(r'if (.*?) then', orig[a:], re.S)
        if not m or 'match' in m.group(1) or '\n' in m.group(1): continue
        if ':=' in m.group(1): continue
        new = orig[:a] + 'if negb (' + m.group(1) + ') then' + orig[a + m.end():]
    else: new = orig[:a] + r + orig[b:]
    open(p, 'w').write(new)
    c = subprocess.run('timeout 900 make -j2 2>&1', shell=True, cwd=scratch, capture_output=True, text=True)
    if c.returncode == 0:
        surv += 1; done += 1
        ln = orig.count('\n', 0, a) + 1
        print('SURVIVED line %d: %s  ==> %r' % (ln, orig[orig.rfind('\n', 0, a)+1: orig.find('\n', a)].strip(), r)); sys.stdout.flush()
    elif '/%s.v"' % name in c.stdout: bad += 1
    elif c.returncode == 124: late += 1; done += 1
    else: killed += 1; done += 1; log(a, b, r, new, c.stdout)
print(name, 'killed', killed, 'ill-typed', bad, 'survived', surv, 'too slow', late)
