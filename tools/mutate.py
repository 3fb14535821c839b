#!/usr/bin/env python3
"""Try wrong programs: python3 tools/mutate.py FILE.json [MODULE...]

FILE.json is a list of {file, def, old, new, claim}.  Each edit is applied to a
scratch copy of the committed model; the copy is rebuilt and one line is added to
seeded/LOG.jsonl saying where the build stopped.  Survivors are printed and not
logged, so that the theorem can be tightened first (add "tightened" to the entry
and run it again).  With modules, only these and what they need are rebuilt."""
import json, os, re, shutil, subprocess, sys
root = os.path.dirname(os.path.dirname(os.path.abspath(__file__)))
scratch = '/tmp/mutants_%d' % os.getpid()
src = root + '/rocq'
def run(cmd):
    return subprocess.run(cmd, shell=True, cwd=scratch, capture_output=True, text=True)
def sync():
    os.makedirs(scratch + '/theories', exist_ok=True)
    subprocess.run(['rsync', '-a', '--delete', src + '/', scratch + '/'], check=True) if shutil.which('rsync') else \
        subprocess.run('rm -rf %s && cp -a %s %s' % (scratch, src, scratch), shell=True, check=True)
def enclosing(path, line):
    name = '?'
    for i, l in enumerate(open(path), 1):
        if i > line: break
        m = re.match(r'\s*(?:Lemma|Theorem|Example|Corollary|Definition|Fixpoint|Fact)\s+(\w+)', l)
        if m: name = m.group(1)
    return name
muts = json.load(open(sys.argv[1]))
sync()
surv = 0
for m in muts:
    p = '%s/theories/%s.v' % (scratch, m['file'])
    orig = open(p).read()
    n = orig.count(m['old'])
    k = m.get('nth')
    if n == 0 or (n > 1 and k is None):
        print('BAD EDIT (%d matches): %s / %s' % (n, m['def'], m['old'])); continue
    if k is None: new = orig.replace(m['old'], m['new'])
    else:
        i = -1
        for _ in range(k): i = orig.index(m['old'], i + 1)
        new = orig[:i] + m['new'] + orig[i + len(m['old']):]
    open(p, 'w').write(new)
    r = run('timeout 1200 make -k -j3 %s 2>&1' % ' '.join('theories/%s.vo' % t for t in sys.argv[2:]))
    errs = re.findall(r'File "\./(theories/(\w+)\.v)", line (\d+)[^\n]*\n(?:(?!File )[^\n]*\n)*?Error', r.stdout)
    failed = ['%s.%s' % (b, enclosing(scratch + '/' + a, int(c))) for a, b, c in errs]
    open(p, 'w').write(orig)
    if r.returncode == 0 or not failed:
        surv += 1
        print('SURVIVED' if r.returncode == 0 else 'UNCLEAR', m['def'], '|', m['old'], '->', m['new'], '' if r.returncode == 0 else r.stdout[-400:])
    elif any(f.startswith(m['file'] + '.') for f in failed):
        print('DOES NOT COMPILE', m['def'], m['new'], r.stdout[-300:])
    else:
        e = {'definition': m['def'], 'file': 'theories/%s.v' % m['file'], 'edit': '%s  ==>  %s' % (m['old'], m['new']),
             'breaks': m['claim'], 'failed': failed, 'tightened': m.get('tightened', [])}
        open(root + '/seeded/LOG.jsonl', 'a').write(json.dumps(e) + '\n')
        print('killed', m['def'], failed)
    sys.stdout.flush()
shutil.rmtree(scratch)
print(surv, 'survivors')
