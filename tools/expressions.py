# Compares the evaluator of the model with the text of the source on random expressions.
# The match arms of do_calculate, add, sub, add_to_*, sub_from_*, end_of_* and get_* are read from
# /repo/src/timetype.rs and interpreted; adjust_times_add, adjust_times_sub, get_num_of_days_in_month
# (/repo/src/util.rs) and chrono's check of a date and time are written out by hand below.
# Usage, after the Coq files are built: python3 tools/expressions.py SEED ROWS
# Rows that try a month beyond 12 as an unsigned number are left out: computing them in Coq takes too much memory.
import os, random, re, subprocess, sys, tempfile
R = open('/repo/src/timetype.rs').read()
THEORIES = os.environ.get('THEORIES') or os.path.join(os.path.dirname(os.path.abspath(__file__)), '..', 'rocq', 'theories')
class Panic(Exception): pass
class Fail(Exception): pass

class I64:  # with overflow checks
    def __init__(self, v):
        if not -2**63 <= v < 2**63: raise Panic
        self.v = v
    def of(x): return x if isinstance(x, I64) else I64(x)
    def __add__(a, b): return I64(a.v + I64.of(b).v)
    def __sub__(a, b): return I64(a.v - I64.of(b).v)
    def __mul__(a, b): return I64(a.v * I64.of(b).v)
    def __truediv__(a, b): return I64(tdiv(a.v, I64.of(b).v))
def tdiv(a, b): q = abs(a) // abs(b); return q if (a < 0) == (b < 0) else -q
def trem(a, b): return a - b * tdiv(a, b)
def i32(v): return (v + 2**31) % 2**32 - 2**31
def leap(y): y = i32(y); return trem(y, 4) == 0 and (trem(y, 100) != 0 or trem(y, 400) == 0)
def ndays(y, m): return 31 if m in (1, 3, 5, 7, 8, 10, 12) else (29 if leap(y) else 28) if m == 2 else 30
def adjust_times_add(y, mo, d, h, mi, s):
    mi = I64(mi + tdiv(s - trem(s, 60), 60)).v; s = trem(s, 60)
    h = I64(h + tdiv(mi - trem(mi, 60), 60)).v; mi = trem(mi, 60)
    d = I64(d + tdiv(h - trem(h, 24), 24)).v; h = trem(h, 24)
    while d > ndays(y, mo): d -= ndays(y, mo); mo += 1
    while mo > 12: y += 1; mo -= 12
    return y, mo, d, h, mi, s
def adjust_times_sub(y, mo, d, h, mi, s):
    if s < 0: mi -= abs(s) // 60 + 1; s = 60 - abs(0 - s)
    if mi < 0: h -= abs(mi) // 60 + 1; mi = 60 - abs(0 - mi)
    if h < 0: d -= abs(h) // 24 + 1; h = 24 - abs(0 - h)
    if d < 1: mo -= abs(d) // 32 + 1; d = 31 - abs(0 - d)
    if mo < 1: y -= abs(mo) // 13 + 1; mo = 12 - abs(0 - mo)
    return y, mo, d, h, mi, s
def days_in(y, m): return [31, 29 if y % 4 == 0 and (y % 100 != 0 or y % 400 == 0) else 28, 31, 30, 31, 30, 31, 31, 30, 31, 30, 31][m - 1]
def datetime(Y, M, D, H, I, S): return -262144 <= Y <= 262143 and 1 <= M <= 12 and 1 <= D <= days_in(Y, M) and H < 24 and I < 60 and S < 60

# Reading the source.
def block(src, i):
    j = k = src.index('{', i); d = 0
    while True:
        d += {'{': 1, '}': -1}.get(src[k], 0)
        if d == 0: return src[j + 1:k]
        k += 1
def close(s, i):  # index after the bracket closing the one at i
    d = 0
    for k in range(i, len(s)):
        d += (s[k] in '({[') - (s[k] in ')}]')
        if d == 0: return k + 1
def split(s):  # at commas outside brackets
    out, d, cur = [], 0, ''
    for c in s:
        d += (c in '({[') - (c in ')}]')
        if c == ',' and d == 0: out.append(cur); cur = ''
        else: cur += c
    return [x.strip() for x in out + [cur] if x.strip()]
def arms(name):
    b = re.sub(r'//.*', '', block(R, re.search(r'^( *pub )?fn ' + name + r'\((?!self|&mut)', R, re.M).start()))
    i = b.index('match '); m = block(b, i); subject = b[i + 6:b.index('{', i)].strip(); out = []
    while m.strip():
        j = m.index('=>'); pats = m[:j]; rest = m[j + 2:].lstrip()
        if rest[0] == '{': k = close(rest, 0); body = rest[:k]; m = rest[k:].lstrip().lstrip(',')
        else:
            d = 0
            for k in range(len(rest) + 1):
                if k == len(rest) or rest[k] == ',' and d == 0: break
                d += (rest[k] in '({[') - (rest[k] in ')}]')
            body = rest[:k]; m = rest[k + 1:]
        for p in pats.split('|'): out.append((p.strip(), body.strip()))
    return subject, out
def match(p, v, env):
    q = re.match(r'(\w+) @ (.*)$', p)
    if q: env[q.group(1)] = v; p = q.group(2)
    if p.startswith('('): return all(match(x, y, env) for x, y in zip(split(p[1:-1]), v))
    q = re.match(r'(?:TT|TimeType)::(\w+)\((.*)\)$', p)
    if q: return v[0] == q.group(1) and all(match(x, y, env) for x, y in zip(split(q.group(2)), v[1:]))
    if p != '_': env[p] = v
    return True
FIELDS = ['year', 'month', 'day', 'hour', 'minute', 'second']
def number(s, env):
    s = re.sub(r'\b(m|mom)\.(\w+)\(\)', lambda q: str(env[q.group(1)][FIELDS.index(q.group(2))]), s)
    s = re.sub(r'(\S+) as (i64|i32|u32)', r'\2(\1)', s)
    return eval(s, {'i64': I64, 'i32': lambda x: i32(x.v if isinstance(x, I64) else x), 'u32': lambda x: (x.v if isinstance(x, I64) else x) % 2**32}, env)
def moment(body, env):  # from_ymd_opt(..), and_hms(..) or and_hms_opt(..), OutOfBounds(..)
    def args(f): i = body.index(f + '('); return [number(x, env) for x in split(body[i + len(f) + 1:close(body, i + len(f)) - 1])]
    ymd = args('from_ymd_opt'); hms = args('and_hms_opt' if 'and_hms_opt' in body else 'and_hms'); f = ymd + hms
    if datetime(*f): return ('Moment', tuple(f) + (0,))
    raise Fail(('OutOfBounds',) + tuple(args('OutOfBounds')))
def value(e, env):
    e = e.strip()
    if e.startswith('{'):
        for n, x in re.findall(r'let (\w+)\s*=\s*(.*?);', e, re.S):
            if n == 'last_day': q = re.match(r'get_num_of_days_in_month\((.*)\) as u32$', x); env[n] = ndays(*[number(y, env).v for y in split(q.group(1))])
            elif n != 'tt': env[n] = number(x, env)
        q = re.search(r'let \(y, mo, d, h, mi, s\) = (adjust_times_\w+)\(y, mo, d, h, mi, s\);', e)
        if q: env.update(zip(['y', 'mo', 'd', 'h', 'mi', 's'], map(I64, globals()[q.group(1)](*[env[n].v for n in ['y', 'mo', 'd', 'h', 'mi', 's']]))))
        return moment(e, env)
    if e.startswith('NaiveDate'): return moment(e, env)
    # a chain of .map(Box::new) and .and_then(|x| ..)
    q = re.match(r'[\w:!]+\(', e)
    if q:
        k = close(e, q.end() - 1); rest = e[k:].strip()
        if rest:
            v = value(e[:k], env)
            while rest:
                q = re.match(r'\.(map|and_then)\(', rest); k = close(rest, q.end() - 1); inner = rest[q.end():k - 1]; rest = rest[k:].strip()
                if inner == 'Box::new': continue
                q = re.match(r'\|(\w+)\| (.*)$', inner, re.S); v = value(q.group(2), dict(env, **{q.group(1): v}))
            return v
        f = e[:q.end() - 1]; args = split(e[q.end():k - 1])
        if f in ('Ok', 'Box::new', 'try!'): return value(args[0], env)
        if f == 'Err':
            q = re.match(r'Error::from\(KEK::(\w+)\((.*)\)\)$', args[0], re.S)
            raise Fail((q.group(1),) + tuple(value(x, env) for x in split(q.group(2))))
        if f.startswith('TT::'): return (f[4:],) + tuple(value(x, env) for x in args)
        return call(f, [value(x, env) for x in args])
    if e.startswith('*'): return env[e[1:]]
    if re.match(r'[a-z]\w*$', e): return env[e]
    return number(e, env)
ARMS = {}
def call(f, args):
    if f not in ARMS: ARMS[f] = arms(f)
    subject, table = ARMS[f]
    names = ['a', 'b'] if f in ('add', 'sub') else ['self'] if f.startswith('get_') else ['amount' if not f.endswith('moment') else 'mom', 'tt'][2 - len(args):]
    env = dict(zip(names, args))
    v = [env['a'], env['b']] if subject == '(*a, *b)' else value(subject, env)
    for p, body in table:
        e = dict(env)
        if match(p, v, e): return value(body, e)
    raise Exception('no arm')

# Random expressions.
AMOUNTS = ['Seconds', 'Minutes', 'Hours', 'Days', 'Months', 'Years']
ENDS = ['EndOfYear', 'EndOfMonth', 'EndOfDay', 'EndOfHour', 'EndOfMinute']
r = random
def amount(large):
    u = r.choice(AMOUNTS)
    if large and r.random() < 0.15: return (u, I64(r.choice([2**63 - 1, -2**63, r.randint(-2**62, 2**62), 2**63 // 86400])))
    return (u, I64(r.choice([r.randint(-5, 70), r.randint(0, {'Seconds': 4000000, 'Minutes': 90000, 'Hours': 3000, 'Days': 2000, 'Months': 120, 'Years': 60}[u]), r.randint(-40, 40)])))
def date():
    y = r.choice([r.randint(1, 3000), 2020, 2019, 2100, 2000, 0, -1, -4, 262142, 262143, -262144]); mo = r.choice([1, 2, 12, r.randint(1, 12)])
    return ('Moment', (y, mo, r.choice([1, 28, days_in(y, mo), r.randint(1, days_in(y, mo))]), r.choice([0, 23, r.randint(0, 23)]), r.choice([0, 59, r.randint(0, 59)]), r.choice([0, 59, r.randint(0, 59)]), r.choice([0, 5])))
def tree(d, kind):
    x = r.random()
    if kind == 'amount': return amount(True) if d == 0 or x < .3 else (r.choice(['Addition', 'Subtraction']), tree(d - 1, kind), tree(d - 1, kind))
    if kind == 'moment':
        if d == 0 or x < .2: return date()
        if x < .45: return (r.choice(ENDS), tree(d - 1, kind))
        return (r.choice(['Addition', 'Subtraction']), tree(d - 1, kind), small(d - 1))
    if d == 0 or x < .2: return r.choice([date, lambda: amount(False)])()
    if x < .35: return (r.choice(ENDS), tree(d - 1, kind))
    return (r.choice(['Addition', 'Subtraction']), tree(d - 1, kind), tree(d - 1, kind))
def small(d): return amount(False) if d <= 0 or r.random() < .6 else (r.choice(['Addition', 'Subtraction']), small(d - 1), small(d - 1))
def z(v): v = v.v if isinstance(v, I64) else v; return str(v) if v >= 0 else f'({v})'
def coq(t):
    if t[0] == 'Moment': return '(Moment (mkdt ' + ' '.join(map(z, t[1])) + '))'
    return '(' + t[0] + ' ' + ' '.join(coq(x) if isinstance(x, tuple) else z(x) for x in t[1:]) + ')'
random.seed(int(sys.argv[1])); rows = []; kinds = {}
while len(rows) < int(sys.argv[2]):
    kind = r.choice(['amount', 'moment', 'moment', 'any']); t = tree(r.randint(1, 4), kind)
    if kind == 'amount' and r.random() < .3:
        g = r.choice(['seconds', 'minutes', 'hours', 'days', 'months', 'years']); t = amount(True)
        try: o = f'Ok {z(call("get_" + g, [t]))}'
        except Panic: o = 'Panic PArith'
        rows.append(f'get_{g}{"" if g == "years" else " Checked"} {coq(t)} = ({o} : outcome kek Z)'); kinds['getter'] = kinds.get('getter', 0) + 1; continue
    try: v = call('do_calculate', [t]); o = f'Ok {coq(v)}'; k = 'value'
    except Panic: o = 'Panic PArith'; k = 'overflow'
    except Fail as e:
        v = e.args[0]; k = v[0]; o = f'Err {coq(v)}'
        if k == 'OutOfBounds' and v[2] > 1000: continue
    kinds[k] = kinds.get(k, 0) + 1
    rows.append(f'calculate Checked {coq(t)} = {o}')
D = tempfile.mkdtemp()
open(D + '/T.v', 'w').write('Require Import ZArith. From Verif Require Import Prelude Spec Chrono TimeType.\nLocal Open Scope Z_scope.\n' + '\n'.join(f'Goal {x}. vm_compute; reflexivity. Qed.' for x in rows))
q = subprocess.run(f'cd {D} && ulimit -v 8000000 && timeout 3000 coqc -Q {THEORIES} Verif T.v', shell=True, capture_output=True, text=True)
print(len(rows), 'rows', kinds, 'all agree' if q.returncode == 0 else q.stderr[-1500:])
if q.returncode:
    n = re.search(r'line (\d+)', q.stderr)
    if n: print(rows[int(n.group(1)) - 3])
