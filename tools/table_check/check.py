#!/usr/bin/env python3
"""Compare MessageTable.v with the declarations in the Rust sources.

For every struct with #[midi2_proc::generate_message(.., FixedSize, ..)] in
/repo/midi2/src: its name, line numbers, minimum sizes, and its fields in order
with their property types, masks, statuses and field types.  Prints what
differs; exits with 1 if anything does.

usage: check.py [/repo/midi2/src] [rocq/theories/MessageTable.v]
"""
import re, sys, glob, os
SRC = sys.argv[1] if len(sys.argv) > 1 else '/repo/midi2/src'
TAB = sys.argv[2] if len(sys.argv) > 2 else os.path.join(os.path.dirname(__file__), '../../rocq/theories/MessageTable.v')

def num(s):
    s = s.replace('_', '').strip()
    return int(s, 0)

def balanced(s, i):
    """s[i] is an opening bracket; the index behind its partner."""
    d = 0
    for j in range(i, len(s)):
        if s[j] in '([{<': d += 1
        if s[j] in ')]}>': d -= 1
        if d == 0: return j + 1
    raise ValueError

def consts(s):
    return {m.group(1): num(m.group(2)) for m in re.finditer(r'const (\w+): \w+ = (0[xb][0-9A-Fa-f_]+|\d+)(?:u8|u16)?;', s)}

GLOBAL = {f: consts(open(f'{SRC}/{f}.rs').read())
          for f in ['utility', 'system_common', 'channel_voice1', 'channel_voice2', 'flex_data', 'ump_stream']}

def value(expr, local, family):
    e = expr.strip().strip('{}').strip()
    if re.fullmatch(r'(0[xb])?[0-9A-Fa-f_]+', e) and e[0].isdigit(): return num(e)
    if e in local: return local[e]
    return GLOBAL[family][e.split('::')[-1]] if e.split('::')[-1] in GLOBAL[family] else e

SIZE = {'u4': 'SU4', 'u7': 'SU7', 'u9': 'SU9', 'u10': 'SU10', 'u14': 'SU14', 'u25': 'SU25', 'u28': 'SU28', 'u3': 'SU3', 'u5': 'SU5', 'u2': 'SU2', 'u6': 'SU6',
        'u8': 'SU8', 'u16': 'SU16', 'u32': 'SU32', 'bool': 'SBool', 'u20': 'SU20', '[u7; 3]': 'SU7x3', '[u7; 4]': 'SU7x4'}
def size(t):
    return SIZE[t.strip().split('::')[-1]]
def masks(t):
    m = re.search(r'schema::(?:Ump|Bytes)<([^>]*)>', t)
    return tuple(num(x) for x in m.group(1).split(',') if x.strip())

def rust_property(p, local, family, fty):
    """The property type as a tuple like those of [coq_property]."""
    p = re.sub(r'\s+', ' ', p).strip().rstrip(',').strip()
    head = re.split(r'<', p)[0].split('::')[-1].strip()
    args = p[p.index('<') + 1:p.rindex('>')] if '<' in p else ''
    q = p.split('<')[0].strip()
    if head == 'UmpMessageTypeProperty': return ('PUmpType', value(args, local, family))
    if head == 'ChannelVoiceStatusProperty': return ('PCvStatus', value(args, local, family))
    if head == 'SystemCommonStatus': return ('PSysStatus', value(args, local, family))
    if head == 'GroupProperty' : return ('PUmp', 'SU4', (0x0F000000, 0, 0, 0))
    if head == 'ChannelProperty': return ('PHybrid', 'SU4', (0x0F, 0, 0), (0x000F0000, 0, 0, 0))
    if head == 'UmpSchemaProperty':
        return ('PUmp', size(args.split(',')[0]), masks(args))
    if head == 'HybridSchemaProperty':
        b = re.search(r'schema::Bytes<([^>]*)>', args); u = re.search(r'schema::Ump<([^>]*)>', args)
        f = lambda m: tuple(num(x) for x in m.group(1).split(',') if x.strip())
        return ('PHybrid', size(args.split(',')[0]), f(b), f(u))
    if q == 'utility::DataProperty': return ('PTime16',)
    if q == 'DataProperty': return ('PTime20',)
    if q == 'flex_data::FormatProperty': return ('PFlexFormat', value(args, local, family))
    if q == 'flex_data::BankProperty': return ('PFlexBank', value(args, local, family))
    if q == 'flex_data::StatusProperty': return ('PFlexStatus', value(args, local, family))
    if head == 'NoChannelProperty': return ('PNoChannel',)
    if head == 'OptionalChannelProperty': return ('POptChannel',)
    if q == 'ump_stream::StatusProperty': return ('PStreamStatus', value(args, local, family))
    if head == 'ConsistentFormatsProperty': return ('PStreamFormats',)
    if head == 'AttributeProperty': return ('PAttribute',)
    if head == 'ControllerProperty': return ('PController',)
    if head == 'BankProperty' and family == 'channel_voice2': return ('PProgramBank',)
    if head == 'TonicProperty': return ('PTonic', masks(args))
    if head == 'ChordTypeProperty': return ('PChordType', masks(args))
    if head == 'AlterationProperty': return ('PAlteration', masks(args))
    if head == 'SharpsFlatsProperty': return ('PChordSF', masks(args)) if args else ('PKeySF',)
    if head == 'DirectionProperty': return ('PDirection',)
    if head == 'UiHintProperty': return ('PUiHint',)
    if head in ('Midi1PortProperty',): return ('PPort',)
    return ('?', p)

def rust():
    out = []
    for path in sorted(glob.glob(f'{SRC}/**/*.rs', recursive=True)):
        rel = os.path.relpath(path, SRC); s = open(path).read(); family = rel.split('/')[0].replace('.rs', '')
        for m in re.finditer(r'#\[midi2_proc::generate_message\(', s):
            e = balanced(s, m.end() - 1); attrs = s[m.end():e - 1]
            st = re.compile(r'\]\s*(?:#\[[^\]]*\]\s*)*(?:pub(?:\(crate\))? )?struct (\w+) \{').match(s, e)
            if st is None: continue  # quoted in a comment
            name = st.group(1); body_end = balanced(s, st.end() - 1); body = s[st.end():body_end - 1]
            if 'FixedSize' not in attrs: continue
            local = consts(s)
            mod = None
            # a struct inside an inline module has that module's constants in scope
            for mm in re.finditer(r'\bmod (\w+) \{', s):
                if mm.end() - 1 < m.start() < balanced(s, mm.end() - 1):
                    local = {**local, **consts(s[mm.start():balanced(s, mm.end() - 1)])}
            fields = []; i = 0
            while True:
                k = body.find('#[property(', i)
                if k < 0: break
                e2 = balanced(body, k + len('#[property')); prop = body[k + len('#[property('):e2 - 1]
                f = re.compile(r'\]\s*((?:#\[\w+(?:\([^)]*\))?\]\s*)*)(\w+): ').match(body, e2)
                t0 = f.end(); d = 0; j = t0
                while j < len(body) and not (body[j] == ',' and d == 0):
                    if body[j] in '(<[{': d += 1
                    if body[j] in ')>]}': d -= 1
                    j += 1
                fields.append((f.group(2), rust_property(prop, local, family, body[t0:j]))); i = j
            mu = re.search(r'MinSizeUmp\((\d+)\)', attrs); mb = re.search(r'MinSizeBytes\((\d+)\)', attrs)
            l0 = s[:m.start()].count('\n') + 1; l1 = s[:body_end].count('\n') + 1
            out.append((f'{family}::{name}', dict(lines=f'{rel} {l0}-{l1}', ump=int(mu.group(1)),
                        bytes=int(mb.group(1)) if mb else None, fields=fields)))
    return dict(out)

def coq_args(t):
    """Split a Coq application into its arguments; tuples of numbers become tuples."""
    t = t.strip(); out = []; i = 0
    while i < len(t):
        if t[i] == ' ': i += 1; continue
        if t[i] == '(':
            e = balanced(t, i); inner = t[i + 1:e - 1]
            if ',' in inner: out.append(tuple(num(x.replace('%N', '')) for x in inner.split(',')))
            else: out.append(coq_args(inner))
            i = e
        else:
            m = re.compile(r'[^\s(]+').match(t, i); w = m.group(0); i = m.end()
            out.append(num(w) if w[0].isdigit() else w)
    return tuple(out)

def coq():
    s = open(TAB).read(); out = {}
    for m in re.finditer(r'\(\*\*\s*((?:(?!\*\)).)*?)\*\)\s*Definition (\w+) : message := \{\|(.*?)\|\}\.', s, re.S):
        b = re.sub(r'\s+', ' ', m.group(3))
        name = re.search(r'm_name := "([^"]*)"', b).group(1)
        ump = int(re.search(r'm_min_ump := (\d+)', b).group(1)); by = re.search(r'm_min_bytes := (?:Some (\d+)%nat|None)', b).group(1)
        i = b.index('m_fields := [') + len('m_fields := '); body = b[i + 1:balanced(b, i) - 1]; fields = []; j = 0
        while True:
            k = body.find('("', j)
            if k < 0: break
            e = balanced(body, k); item = body[k + 1:e - 1]; j = e
            f, p = item.split(',', 1)
            fields.append((f.strip().strip('"'), coq_args(p)))
        out[name] = dict(lines=re.sub(r'\s+', ' ', m.group(1)).strip(), ump=ump, bytes=int(by) if by else None, fields=fields)
    return out

R, C = rust(), coq(); bad = 0
for n in sorted(set(R) | set(C)):
    if n not in R or n not in C: print('only in', 'Rust' if n in R else 'Coq', n); bad += 1; continue
    for k in ['lines', 'ump', 'bytes']:
        if R[n][k] != C[n][k] and not (k == 'lines' and C[n][k].startswith(R[n][k])): print(n, k, R[n][k], C[n][k]); bad += 1
    for i in range(max(len(R[n]['fields']), len(C[n]['fields']))):
        x = R[n]['fields'][i] if i < len(R[n]['fields']) else None; y = C[n]['fields'][i] if i < len(C[n]['fields']) else None
        if x != y: print(n, x, y); bad += 1
print(f'{len(R)} declarations, {sum(len(r["fields"]) for r in R.values())} fields, {bad} differences')
sys.exit(1 if bad else 0)
