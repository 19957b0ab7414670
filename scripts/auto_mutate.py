#!/usr/bin/env python3
"""Generated mutations: edit one token of a model definition (comparison, constant,
status, connective, +1) in a scratch copy and rebuild up to the first failing proof.
Usage: auto_mutate.py MODEL.v COUNT SRC DIR OUT; SRC is a compiled copy of rocq/ (or of
the closure of some Prop_ files).  One JSON line per mutant; "survived" needs a look: the
edit may not change the program."""
import json, os, random, re, shutil, subprocess, sys
f, count, src, scr, out = sys.argv[1], int(sys.argv[2]), sys.argv[3], sys.argv[4], sys.argv[5]
OPS = [(r'<\?', '<=?'), (r'<=\?', '<?'), (r'=\? 0\b', '=? 1'), (r'\btrue\b', 'false'), (r'\bfalse\b', 'true'), (r' \+ 1\b', ' + 2'), (r' - 1\b', ''), (r'AMQP_STATUS_[A-Z_]+', 'AMQP_STATUS_UNSUPPORTED'),
       (r'negb ', 'id '), (r'&&', '||'), (r'\|\|', '&&'), (r'\b1\b', '2'), (r'\b0\b', '1'), (r'\+', '-'), (r'\bNone\b(?= =>)', None)]
s = open(src + '/theories/' + f).read()
# blank out comments, keep offsets
plain, depth, i = [], 0, 0
while i < len(s):
    if s.startswith('(*', i): depth += 1; plain.append('  '); i += 2
    elif s.startswith('*)', i) and depth: depth -= 1; plain.append('  '); i += 2
    else: plain.append(s[i] if depth == 0 or s[i] == '\n' else ' '); i += 1
plain = ''.join(plain)
sites = []
for m in re.finditer(r'^(Definition|Fixpoint)\s+(\S+)(.*?)\.(?=\s*\n(?:\s*\n|[A-Z(]|\s*$))', plain, re.S | re.M):
    body = m.start() + m.group(0).find(':=')
    if body < m.start(): continue
    for o, n in OPS:
        if n is None: continue
        for x in re.finditer(o, plain[body:m.end()]):
            a, b = body + x.start(), body + x.end()
            if s[a:b] != n and not (o in (r'=\? 0\b',) ): sites.append((m.group(2), a, b, n))
random.seed(f); random.shuffle(sites)
pick, per = [], {}
for t in sites:
    if per.get(t[0], 0) < 3: pick.append(t); per[t[0]] = per.get(t[0], 0) + 1
def enclosing(path, line):
    name, kind = None, None
    for i, l in enumerate(open(path), 1):
        if i > line: break
        m = re.match(r'\s*(?:Local |Global )?(Theorem|Lemma|Example|Corollary|Fact|Remark|Definition|Fixpoint|Inductive)\s+([A-Za-z0-9_\']+)', l)
        if m: kind, name = m.group(1), m.group(2)
    return kind, name
n = 0
for (d, a, b, new) in pick:
    if n >= count: break
    shutil.rmtree(scr, ignore_errors=True); subprocess.run(['cp', '-a', src, scr], check=True)
    open(scr + '/theories/' + f, 'w').write(s[:a] + new + s[b:])
    r = subprocess.run('ulimit -v 6000000; timeout 600 nice make -j1 2>&1', shell=True, cwd=scr, stdout=subprocess.PIPE, text=True)
    m = re.search(r'File "([^"]+)", line (\d+)[^\n]*\nError', r.stdout)
    where = None
    if m:
        q = os.path.join(scr, m.group(1)); k, nm = enclosing(q, int(m.group(2))); where = (os.path.basename(q), k, nm)
        if where[0] == f and k in ('Definition', 'Fixpoint', 'Inductive'): continue   # not a program
    n += 1
    la, lb = s.rfind('\n', 0, a) + 1, s.find('\n', b)
    rec = dict(file=f, definition=d, line=s.count('\n', 0, a) + 1, old=s[la:lb].strip()[:300], edit='%s ==> %s (column %d)' % (s[a:b], new, a - la), survived=r.returncode == 0, where=where)
    open(out, 'a').write(json.dumps(rec) + '\n')
