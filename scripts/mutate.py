#!/usr/bin/env python3
"""Test the theorems against wrong programs.  For each entry of seeded/mutations.py
(id, file, definition, old text, new text, claim broken) edit a scratch copy of
rocq/, rebuild everything that depends on it and report which proofs fail.
Usage: mutate.py [id ...]; results go to /tmp/mut/results.jsonl."""
import json, os, re, shutil, subprocess, sys
sys.path.insert(0, '/verif/seeded')
from mutations import MUTATIONS
os.makedirs('/tmp/mut', exist_ok=True)
SCR = os.environ.get('MUT_DIR', '/tmp/mut/rocq')
want = set(sys.argv[1:])
done = set()
if os.path.exists('/tmp/mut/results.jsonl'):
    done = {json.loads(l)['id'] for l in open('/tmp/mut/results.jsonl')}
def enclosing(path, line):
    name = None
    for i, l in enumerate(open(path), 1):
        if i > line: break
        m = re.match(r'\s*(?:Local |Global )?(?:Theorem|Lemma|Example|Corollary|Fact|Remark|Definition|Fixpoint|Inductive)\s+([A-Za-z0-9_\']+)', l)
        if m: name = m.group(1)
    return name
for (mid, f, d, old, new, claim) in MUTATIONS:
    if (want and mid not in want) or (not want and mid in done): continue
    shutil.rmtree(SCR, ignore_errors=True)
    subprocess.run(['cp', '-a', os.environ.get('MUT_SRC', '/verif/rocq'), SCR], check=True)
    p = SCR + '/theories/' + f
    s = open(p).read()
    assert s.count(old) == 1, (mid, s.count(old))
    open(p, 'w').write(s.replace(old, new))
    subprocess.run('coq_makefile -f _CoqProject -o Makefile', shell=True, cwd=SCR, stdout=subprocess.DEVNULL, stderr=subprocess.DEVNULL)
    r = subprocess.run('ulimit -v 6000000; timeout 2400 nice make -k -j1 2>&1', shell=True, cwd=SCR, stdout=subprocess.PIPE, text=True)
    fails = []
    for m in re.finditer(r'File "([^"]+)", line (\d+)[^\n]*\n(?:Warning|Error)', r.stdout):
        if m.group(0).endswith('Warning'): continue
        q = os.path.join(SCR, m.group(1))
        fails.append('%s (%s)' % (enclosing(q, int(m.group(2))), os.path.basename(q)))
    if r.returncode != 0 and not fails: fails = ['?? ' + r.stdout[-300:]]
    rec = dict(id=mid, file=f, definition=d, edit='%s  ==>  %s' % (old.strip(), new.strip()), claim=claim, failed=fails, rc=r.returncode)
    open('/tmp/mut/results.jsonl', 'a').write(json.dumps(rec) + '\n')
    print(mid, r.returncode, fails, flush=True)
