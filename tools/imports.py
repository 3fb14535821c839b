#!/usr/bin/env python3
"""Write rocq/theories/ImpTable.v from the public headers in /repo: what the import macros declare,
and the prototypes of the library's functions."""
import glob, os, re, sys
root = os.path.dirname(os.path.dirname(os.path.abspath(__file__)))
inc = '/repo/include/rcpr/'

def blank(m): return re.sub(r'[^\n]', ' ', m.group(0))
def clean(t):
    t = re.sub(r'/\*.*?\*/', blank, t, flags=re.S)
    t = re.sub(r'//[^\n]*', blank, t)
    return t.replace('\\\n', ' \n')
def paste(t):
    # RCPR_SYM pastes its first token only: RCPR_SYM(resource*) is RCPR_SYM(resource)*
    t = re.sub(r'RCPR_SYM\(\s*(\w+)\s*\*\s*\)', r'RCPR_SYM(\1)*', t)
    return re.sub(r'RCPR_SYM\(\s*(\w+)\((\w+)\)\s*\)', r'RCPR_SYM(\1)(\2)', t)
def norm(s):
    s = re.sub(r'\s+', ' ', s).strip()
    return re.sub(r' ?([*(),]) ?', r'\1', s)
def split(params):
    depth, cur, ps = 0, '', []
    for c in params:
        depth += (c == '(') - (c == ')')
        if c == ',' and depth == 0: ps.append(cur); cur = ''
        else: cur += c
    ps.append(cur)
    return [re.sub(r'\s+', ' ', p).strip() for p in ps if p.strip() and p.strip() != 'void']
def param(p):
    if p == '...': return ('...', '...')
    m = re.search(r'\(\s*\*\s*(\w+)\s*\)', p) or re.search(r'(\w+)\s*(\[[^\]]*\])?$', p)
    return (norm(p[:m.start(1)] + p[m.end(1):]), m.group(1))
def close(t, i):
    d = 1
    while d: d += (t[i] == '(') - (t[i] == ')'); i += 1
    return i
def ret(s):
    chk = 'FN_DECL_MUST_CHECK' in s
    return norm(s.replace('FN_DECL_MUST_CHECK', '')), chk
S = lambda s: '"%s"' % s
L = lambda l: '[' + '; '.join(l) + ']'
B = lambda b: 'true' if b else 'false'
line = lambda t, i: t.count('\n', 0, i) + 1

tables, protos = [], []
for f in sorted(glob.glob(inc + '*.h')):
    t = clean(open(f).read())
    h = os.path.basename(f)
    at = t.find('#define __INTERNAL_RCPR_IMPORT_')
    if at < 0: continue
    # declarations
    d = re.sub(r'RCPR_MODEL_CONTRACT_\w+_BEGIN\(.*?RCPR_MODEL_CONTRACT_\w+_END\([^\n]*\n', blank, t[:at], flags=re.S)
    for m in re.finditer(r'RCPR_SYM\(\s*(\w+)\s*\)\s*\(', d):
        e = close(d, m.end())
        if not re.match(r'\s*;', d[e:]): continue
        b = max(d.rfind(c, 0, m.start()) for c in ';}#')
        if d[b] == '#': b = d.find('\n', b)
        head = d[b + 1:m.start()]
        if 'typedef' in head or 'return' in head or '=' in head or '{' in head: continue
        r, chk = ret(head)
        ps = [param(p) for p in split(d[m.end():e - 1])]
        protos.append((h, line(d, m.start()), m.group(1), r, chk, [p[0] for p in ps]))
    # import macro
    name = re.match(r'#define __INTERNAL_RCPR_IMPORT_(\w+)_sym\(sym\)', t[at:]).group(1)
    end = t.find('#define RCPR_IMPORT_' + name + '_as', at)
    body = t[at:end]
    rows = []
    for m in re.finditer(r'typedef\s+([^;{}]*?)\s*\bsym\s*##\s*(\w+)\s*;|static inline\s+([^{};#]*?)\bsym\s*##\s*(\w+)\s*\(', body, re.S):
        ln = line(t, at + m.start())
        if m.group(2):
            g = re.fullmatch(r'RCPR_SYM\(\s*(\w+)\s*\)', m.group(1).strip())
            rows.append((ln, 'DType %s %s' % (S(m.group(2)), S(g.group(1)))))
            continue
        e = close(body, m.end())
        ps = [param(p) for p in split(paste(body[m.end():e - 1]))]
        b0 = body.index('{', e); b1 = body.index('}', b0)
        code = re.sub(r'\s+', ' ', paste(body[b0 + 1:b1])).strip()
        r, chk = ret(paste(m.group(3)))
        g = re.fullmatch(r'(return )?\s*RCPR_SYM\(\s*(\w+)\s*\)\s*\(\s*(.*?)\s*\);', code)
        v = re.fullmatch(r'status retval; va_list args; va_start\(args, (\w+)\); retval = RCPR_SYM\((\w+)\)\((.*?), args\); va_end\(args\); return retval;', code)
        if g: b = 'Call %s %s %s' % (B(g.group(1)), S(g.group(2)), L([S(a.strip()) for a in g.group(3).split(',') if a.strip()]))
        elif v:
            b = 'CallV %s %s %s' % (S(v.group(1)), S(v.group(2)), L([S(a.strip()) for a in v.group(3).split(',')]))
        else: b = 'Other'
        rows.append((ln, 'DFun (Wrap %s %s %s %s (%s))' % (S(m.group(4)), S(r), B(chk), L(['(%s, %s)' % (S(a), S(c)) for a, c in ps]), b)))
    tables.append((name, h, line(t, at), line(t, end) + 3, rows))

out = ['(** What the import macros of the public headers declare, and the prototypes of the functions.',
       '    Written by tools/imports.py from the headers; comments give the lines.  In types, white space is',
       '    dropped next to punctuation; the array bounds and the names of parameters of function pointers are kept. *)',
       'From Coq Require Import String List Bool.', 'From Verif Require Import ImpModel.', 'Import ListNotations.',
       'Local Open Scope string_scope.', '']
for n, h, a, b, rows in tables:
    out.append('(** include/rcpr/%s:%d-%d, RCPR_IMPORT_%s *)' % (h, a, b, n))
    out.append('Definition import_%s : list entry := [' % n)
    out.append(';\n'.join('  (* %d *) %s' % r for r in rows))
    out.append('].')
out.append('')
out.append('(** Every header with an import macro. *)')
out.append('Definition headers : list (string * list entry) := [')
out.append(';\n'.join('  (%s, import_%s)' % (S(n), n) for n, h, a, b, rows in tables))
out.append('].')
out.append('')
out.append('(** The functions the same headers declare: name, type of the result, whether it must be checked, types of the parameters. *)')
out.append('Definition prototypes : list proto := [')
out.append(';\n'.join('  (* %s:%d *) Proto %s %s %s %s' % (h, ln, S(n), S(r), B(chk), L([S(p) for p in ps])) for h, ln, n, r, chk, ps in protos))
out.append('].')
defs = []
for f in sorted(glob.glob('/repo/src/**/*.c', recursive=True)):
    t = clean(open(f).read())
    for m in re.finditer(r'RCPR_SYM\(\s*(\w+)\s*\)\s*\(', t):
        if re.match(r'\s*\{', t[close(t, m.end()):]) and m.group(1) in [p[2] for p in protos]:
            defs.append((f[len('/repo/src/'):], line(t, m.start()), m.group(1)))
out.append('')
out.append('(** The functions among these that the sources of the library define; comments give the file under src/. *)')
out.append('Definition defined_functions : list string := [')
out.append(';\n'.join('  (* %s:%d *) %s' % (f, ln, S(n)) for f, ln, n in defs))
out.append('].')
asm = []
for f in sorted(glob.glob('/repo/src/**/*.s', recursive=True)):
    t = open(f).read()
    for m in re.finditer(r'^\.globl (\w+)$', t, re.M): asm.append((f[len('/repo/src/'):], line(t, m.start()), m.group(1)))
out.append('')
out.append('(** The symbols that its assembly sources export (.globl), as written there. *)')
out.append('Definition assembly_symbols : list string := [')
out.append(';\n'.join('  (* %s:%d *) %s' % (f, ln, S(n)) for f, ln, n in asm))
out.append('].')
v = re.search(r'PROJECT\(rcpr VERSION (\d+)\.(\d+)\.', open('/repo/CMakeLists.txt').read())
out.append('')
out.append('(** CMakeLists.txt:3-7 *)')
out.append('Definition version_major : string := %s.' % S(v.group(1)))
out.append('Definition version_minor : string := %s.' % S(v.group(2)))
open(root + '/rocq/theories/ImpTable.v', 'w').write('\n'.join(out) + '\n')
print(sum(len(x[4]) for x in tables), 'entries', len(protos), 'prototypes', len(defs), 'definitions')
