#!/usr/bin/env python3
"""Translate librabbitmq/amqp_framing.c (generated C code) to Coq data.

The encoder and the decoder are parsed separately, statement by statement; any
statement that does not match one of the C idioms listed here is an error."""
import re, sys
C = '/repo/librabbitmq/amqp_framing.c'
H = '/repo/include/rabbitmq-c/framing.h'
lines = open(C).read().split('\n')
src = '\n'.join(lines)
hdr = open(H).read()

def die(m): sys.exit('gen_framing: ' + m)

# ---- constants -----------------------------------------------------------
hdr1 = re.sub(r'\\\n', ' ', hdr)
method_no = {}
for m in re.finditer(r'#define (AMQP_\w+_METHOD)\s+\(\(amqp_method_number_t\)(0x[0-9A-F]+)\)', hdr1):
    method_no[m.group(1)] = int(m.group(2), 16)
flag_val = {}
for m in re.finditer(r'#define (AMQP_BASIC_\w+_FLAG)\s+\(1 << (\d+)\)', hdr1):
    flag_val[m.group(1)] = int(m.group(2))
const_val = {}
for m in re.finditer(r'#define (AMQP_[A-Z_]+)\s+(\d+)\s*/\*\*<', hdr1):
    const_val[m.group(1)] = int(m.group(2))

# ---- structs ----------------------------------------------------------------
structs = {}
for m in re.finditer(r'typedef struct (amqp_\w+_t)_ \{(.*?)\}', hdr1, re.S):
    body = re.sub(r'/\*.*?\*/', '', m.group(2), flags=re.S)
    fs = []
    for st in body.split(';'):
        st = ' '.join(st.split())
        if not st: continue
        t, f = st.rsplit(' ', 1)
        fs.append((f, t))
    structs[m.group(1)] = fs
ctype = {'uint8_t': 'CInt W8', 'uint16_t': 'CInt W16', 'uint32_t': 'CInt W32', 'uint64_t': 'CInt W64',
         'amqp_bytes_t': 'CBytes', 'amqp_table_t': 'CTable', 'amqp_boolean_t': 'CBool'}

def find_line(pat, start=0):
    for i in range(start, len(lines)):
        if re.search(pat, lines[i]): return i
    die('no ' + pat)

def func_range(start_pat):
    i = find_line(start_pat)
    j = i
    while lines[j] != '}': j += 1
    return i, j

def cases(i, j):
    """(label, first line, last line, text) for each `case X: {` of the switch"""
    out = []
    k = i
    while k <= j:
        m = re.match(r'    case (\w+): \{$', lines[k])
        if m:
            e = k
            while lines[e] != '    }': e += 1
            out.append((m.group(1), k + 1, e + 1, ' '.join(' '.join(lines[k+1:e]).split())))
            k = e
        k += 1
    return out

W = {'8': 'W8', '16': 'W16', '32': 'W32', '64': 'W64'}

def parse_dec(text, v):
    """statements of a decoder body; v is m or p"""
    out = []
    pos = 0
    pats = [
     (r'if \(!amqp_decode_8\(encoded, &offset, &bit_buffer\)\) return AMQP_STATUS_BAD_AMQP_DATA;((?: %s->\w+ = \(bit_buffer & \(1 << \d+\)\) \? 1 : 0;)+)' % v, 'bits'),
     (r'if \(!amqp_decode_(8|16|32|64)\(encoded, &offset, &%s->(\w+)\)\) return AMQP_STATUS_BAD_AMQP_DATA;' % v, 'int'),
     (r'\{ uint(8|32)_t len; if \(!amqp_decode_(8|32)\(encoded, &offset, &len\) \|\| !amqp_decode_bytes\(encoded, &offset, &%s->(\w+), len\)\) return AMQP_STATUS_BAD_AMQP_DATA; \}' % v, 'str'),
     (r'\{ int res = amqp_decode_table\(encoded, pool, &\(%s->(\w+)\), &offset\); if \(res < 0\) return res; \}' % v, 'table'),
    ]
    while pos < len(text):
        if text[pos] == ' ': pos += 1; continue
        for p, k in pats:
            m = re.compile(p).match(text, pos)
            if m: break
        else: die('decoder statement: ' + text[pos:pos+200])
        if k == 'int': out.append('SInt %s "%s"' % (W[m.group(1)], m.group(2)))
        elif k == 'str':
            if m.group(1) != m.group(2): die('len type mismatch')
            out.append('S%s "%s"' % ('Short' if m.group(1) == '8' else 'Long', m.group(3)))
        elif k == 'table': out.append('STable "%s"' % m.group(1))
        else:
            bs = re.findall(r'%s->(\w+) = \(bit_buffer & \(1 << (\d+)\)\) \? 1 : 0;' % v, m.group(1))
            out.append('SBits [%s]' % '; '.join('("%s", %s)' % b for b in bs))
        pos = m.end()
    return out

def parse_enc(text, v):
    out = []
    pos = 0
    pats = [
     (r'bit_buffer = 0;((?: if \(%s->\w+\) bit_buffer \|= \(1 << \d+\);)+) if \(!amqp_encode_8\(encoded, &offset, bit_buffer\)\) return AMQP_STATUS_BAD_AMQP_DATA;' % v, 'bits'),
     (r'if \(!amqp_encode_(8|16|32|64)\(encoded, &offset, %s->(\w+)\)\) return AMQP_STATUS_BAD_AMQP_DATA;' % v, 'int'),
     (r'if \(UINT(8|32)_MAX < %s->(\w+)\.len \|\| !amqp_encode_(8|32)\(encoded, &offset, \(uint(8|32)_t\)%s->(\w+)\.len\) \|\| !amqp_encode_bytes\(encoded, &offset, %s->(\w+)\)\) return AMQP_STATUS_BAD_AMQP_DATA;' % (v, v, v), 'str'),
     (r'\{ int res = amqp_encode_table\(encoded, &\(%s->(\w+)\), &offset\); if \(res < 0\) return res; \}' % v, 'table'),
    ]
    while pos < len(text):
        if text[pos] == ' ': pos += 1; continue
        for p, k in pats:
            m = re.compile(p).match(text, pos)
            if m: break
        else: die('encoder statement: ' + text[pos:pos+200])
        if k == 'int': out.append('SInt %s "%s"' % (W[m.group(1)], m.group(2)))
        elif k == 'str':
            if len({m.group(1), m.group(3), m.group(4)}) != 1 or len({m.group(2), m.group(5), m.group(6)}) != 1: die('str mismatch ' + m.group(0))
            out.append('S%s "%s"' % ('Short' if m.group(1) == '8' else 'Long', m.group(2)))
        elif k == 'table': out.append('STable "%s"' % m.group(1))
        else:
            bs = re.findall(r'if \(%s->(\w+)\) bit_buffer \|= \(1 << (\d+)\);' % v, m.group(1))
            out.append('SBits [%s]' % '; '.join('("%s", %s)' % b for b in bs))
        pos = m.end()
    return out

def strip_alloc(text, v):
    m = re.match(r'(amqp_\w+_t) \*%s = \((amqp_\w+_t) \*\)amqp_pool_alloc\( ?pool, sizeof\((amqp_\w+_t)\)\); if \(%s == NULL\) \{ return AMQP_STATUS_NO_MEMORY; \}' % (v, v), text)
    if not m or len(set(m.groups())) != 1: die('alloc: ' + text[:200])
    tail = '*decoded = %s; return 0;' % v
    if not text.endswith(tail): die('tail ' + text[-80:])
    return m.group(1), text[m.end():len(text)-len(tail)].strip()

def strip_cast(text, v):
    tail = 'return (int)offset;'
    if not text.endswith(tail): die('tail ' + text[-80:])
    text = text[:len(text)-len(tail)].strip()
    m = re.match(r'(amqp_\w+_t) \*%s = \((amqp_\w+_t) \*\)decoded;' % v, text)
    if m:
        if m.group(1) != m.group(2): die('cast')
        return m.group(1), text[m.end():].strip()
    if text: die('no cast: ' + text[:100])
    return None, ''

out = []
def P(s=''): out.append(s)
P('(** GENERATED by scripts/gen_framing.py from librabbitmq/amqp_framing.c and')
P('    include/rabbitmq-c/framing.h.  Do not edit. *)')
P('From Coq Require Import ZArith List String.')
P('From Verif Require Import Base Codec FramingStmt.')
P('Import ListNotations.')
P('Local Open Scope Z_scope.')
P('Local Open Scope string_scope.')
P()

# structs per method
name_of = {}   # struct -> method const
P('(** include/rabbitmq-c/framing.h:148-1040 the method structs: fields with their C types, in')
P('    declaration order ([dummy] of empty structs left out) *)')
P('Definition struct_table : list (Z * list (string * ctype)) := [')
rows = []
for c, n in method_no.items():
    s = c[:-len('_METHOD')].lower() + '_t'
    if s not in structs: die('struct ' + s)
    name_of[s] = c
    fs = [(f, ctype[t]) for f, t in structs[s] if f != 'dummy']
    rows.append('  (0x%08X, [%s]) (* %s *)' % (n, '; '.join('("%s", %s)' % f for f in fs), s))
P(';\n'.join(rows)); P('].'); P()

def emit_table(name, kind, rng, comment):
    i, j = rng
    P('(** amqp_framing.c:%d-%d %s *)' % (i + 1, j + 1, comment))
    P('Definition %s : list (Z * list stmt) := [' % name)
    rows = []
    for lab, a, b, text in cases(i, j):
        if kind == 'dec':
            s, body = strip_alloc(text, 'm'); st = parse_dec(body, 'm')
        else:
            s, body = strip_cast(text, 'm'); st = parse_enc(body, 'm')
        if s is not None and name_of[s] != lab: die('struct/case mismatch %s %s' % (s, lab))
        rows.append('  (* amqp_framing.c:%d-%d %s *)\n  (0x%08X, [%s])' % (a, b, lab, method_no[lab], '; '.join(st)))
    P(';\n'.join(rows)); P('].'); P()
    m = re.search(r'default:\s*return AMQP_STATUS_UNKNOWN_METHOD;', '\n'.join(lines[i:j]))
    if not m: die('default')

emit_table('dec_table', 'dec', func_range(r'^int amqp_decode_method'), 'amqp_decode_method, one case per method')
emit_table('enc_table', 'enc', func_range(r'^int amqp_encode_method'), 'amqp_encode_method, one case per method')

# properties
def props(kind, rng, name, comment):
    i, j = rng
    classes = []
    schema = None
    for lab, a, b, text in cases(i, j):
        if kind == 'dec':
            s, body = strip_alloc(text, 'p')
            if not body.startswith('p->_flags = flags;'): die('flags')
            body = body[len('p->_flags = flags;'):].strip()
        else:
            s, body = strip_cast(text, 'p')
        classes.append(lab)
        if lab == '60':
            schema = []
            while body:
                m = re.match(r'if \(flags & (AMQP_BASIC_\w+_FLAG)\) \{ ', body)
                if not m: die('prop ' + body[:100])
                d = 1; k = m.end()
                while d:
                    if body[k] == '{': d += 1
                    if body[k] == '}': d -= 1
                    k += 1
                inner = body[m.end():k-1].strip()
                st = (parse_dec if kind == 'dec' else parse_enc)(inner, 'p')
                if len(st) != 1: die('prop stmts')
                schema.append((flag_val[m.group(1)], st[0]))
                body = body[k:].strip()
            sa, sb = a, b
        elif body: die('class %s has a body' % lab)
    P('(** amqp_framing.c:%d-%d %s: the classes with a case *)' % (i + 1, j + 1, comment))
    P('Definition %s_classes : list Z := [%s].' % (name, '; '.join(classes)))
    P('(** amqp_framing.c:%d-%d case 60: flag bit number and statement guarded by it *)' % (sa, sb))
    P('Definition %s_basic : list (Z * stmt) := [' % name)
    P(';\n'.join('  (%d, %s)' % x for x in schema)); P('].'); P()
props('dec', func_range(r'^int amqp_decode_properties'), 'dec_props', 'amqp_decode_properties')
props('enc', func_range(r'^int amqp_encode_properties'), 'enc_props', 'amqp_encode_properties')
bp = structs.get('amqp_basic_properties_t') or die('no basic props')
P('(** include/rabbitmq-c/framing.h amqp_basic_properties_t without _flags *)')
P('Definition basic_struct : list (string * ctype) := [%s].' % '; '.join('("%s", %s)' % (f, ctype[t]) for f, t in bp if f != '_flags'))
P()

# simple switches
def simple(name, pat, kind, comment):
    i, j = func_range(pat)
    text = '\n'.join(lines[i:j+1])
    rows = re.findall(r'case (\w+):\s*return ([^;]+);', text)
    if len(rows) != text.count('case '): die('simple ' + name)
    return i + 1, j + 1, rows
a, b, rows = simple('constant_name', r'^char const \*amqp_constant_name', 's', '')
P('(** amqp_framing.c:%d-%d amqp_constant_name *)' % (a, b))
P('Definition constant_name_table : list (Z * string) := [%s].' % ';\n  '.join('(%d, %s)' % (const_val[x], y) for x, y in rows)); P()
a, b, rows = simple('hard', r'^amqp_boolean_t amqp_constant_is_hard_error', 's', '')
assert all(y == '1' for _, y in rows)
P('(** amqp_framing.c:%d-%d amqp_constant_is_hard_error: cases returning 1 *)' % (a, b))
P('Definition hard_error_table : list Z := [%s].' % '; '.join(str(const_val[x]) for x, y in rows)); P()
a, b, rows = simple('mname', r'^char const \*amqp_method_name', 's', '')
P('(** amqp_framing.c:%d-%d amqp_method_name *)' % (a, b))
P('Definition method_name_table : list (Z * string) := [%s].' % ';\n  '.join('(0x%08X, %s)' % (method_no[x], y) for x, y in rows)); P()
a, b, rows = simple('content', r'^amqp_boolean_t amqp_method_has_content', 's', '')
assert all(y == '1' for _, y in rows)
P('(** amqp_framing.c:%d-%d amqp_method_has_content: cases returning 1 *)' % (a, b))
P('Definition has_content_table : list Z := [%s].' % '; '.join('0x%08X' % method_no[x] for x, y in rows)); P()

# rpc wrappers
P('(** amqp_framing.c:2457-2919 the synchronous calls: name, parameters (after state and')
P('    channel), request method, struct assignments, expected reply *)')
P('Definition rpc_table : list rpc_wrapper := [')
rows = []
i = find_line(r'^AMQP_EXPORT')
text_all = '\n'.join(lines)
for m in re.finditer(r'AMQP_EXPORT\n(.*?)\{\n(.*?)\n\}', text_all, re.S):
    sig = ' '.join(m.group(1).split()); body = ' '.join(m.group(2).split())
    ln0 = text_all.count('\n', 0, m.start()) + 1; ln1 = text_all.count('\n', 0, m.end()) + 1
    ms = re.match(r'(amqp_\w+_t) \*AMQP_CALL (\w+)\((.*)\)$', sig)
    if not ms: die('sig ' + sig)
    params = [p.strip().rsplit(' ', 1) for p in ms.group(3).split(',')]
    if [p[1] for p in params[:2]] != ['state', 'channel']: die('params ' + sig)
    mb = re.match(r'(amqp_\w+_t) req; (.*?) ?return amqp_simple_rpc_decoded\(state, channel, (\w+), (\w+), &req\);$', body)
    if not mb: die('body ' + body)
    if name_of[mb.group(1)] != mb.group(3): die('req struct')
    if name_of[ms.group(1)] != mb.group(4): die('reply struct %s' % sig)
    asg = []
    rest = mb.group(2).strip()
    for st in rest.split(';'):
        st = st.strip()
        if not st: continue
        ma = re.match(r'req\.(\w+) = (\w+)$', st)
        if not ma: die('asg ' + st)
        r = ma.group(2)
        asg.append('("%s", %s)' % (ma.group(1), 'AZero' if r == '0' else 'AEmptyBytes' if r == 'amqp_empty_bytes' else 'AParam "%s"' % r))
    rows.append('  (* amqp_framing.c:%d-%d *)\n  mkRpc "%s" [%s] 0x%08X [%s] 0x%08X' % (ln0, ln1, ms.group(2),
        '; '.join('("%s", %s)' % (p[1], ctype[p[0]]) for p in params[2:]), method_no[mb.group(3)], '; '.join(asg), method_no[mb.group(4)]))
P(';\n'.join(rows)); P('].'); P()
# named constants used elsewhere in the model
P('(** include/rabbitmq-c/framing.h method numbers *)')
for c, n in method_no.items(): P('Definition %s : Z := 0x%08X.' % (c, n))
P()
P('(** include/rabbitmq-c/framing.h constants *)')
for c, n in const_val.items(): P('Definition %s : Z := %d.' % (c, n))
P()
P('(** include/rabbitmq-c/framing.h basic property flags *)')
for c, n in flag_val.items(): P('Definition %s : Z := 2 ^ %d.' % (c, n))
open('/verif/rocq/theories/FramingGen.v', 'w').write('\n'.join(out) + '\n')
print(len(method_no), 'methods', len(flag_val), 'flags', len(const_val), 'consts', len(rows), 'rpcs')
