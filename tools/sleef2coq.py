#!/usr/bin/env python3
"""Translate the straight-line C of src/sleefsp.c (and src/sleefdp.c) into
Gallina, one let per assignment.  Usage: sleef2coq.py sp|dp > theories/X.v
The result is committed; this script only saves typing and typing errors."""
import re, sys

which = sys.argv[1]
REPO = '/repo/src/'
SRC = REPO + ('sleefsp.c' if which == 'sp' else 'sleefdp.c')
text = open(SRC).read()
# comments blanked, newlines kept so that line numbers stay right
text = re.sub(r'/\*.*?\*/', lambda m: re.sub(r'[^\n]', ' ', m.group(0)), text, flags=re.S)
text = re.sub(r'//[^\n]*', '', text)
text = re.sub(r'#ifndef NDEBUG.*?#endif', lambda m: re.sub(r'[^\n]', ' ', m.group(0)), text, flags=re.S)
misc = open(REPO + 'misc.h').read()
macros = {}
for m in re.finditer(r'^#define\s+(\w+)[ \t]+([^\n/]+)', misc, re.M):
    macros.setdefault(m.group(1), m.group(2).strip())
for k in ('SLEEF_NANf', 'SLEEF_INFINITYf', 'SLEEF_NAN', 'SLEEF_INFINITY', 'M_PIf'):
    macros.pop(k, None)
macros['M_PIf'] = '((float)M_PI)'
macros['M_PI'] = '3.14159265358979323846'      # math.h
macros['M_1_PI'] = '0.318309886183790671538'   # math.h

TOK = re.compile(r'\s*(?:(\d+\.?\d*(?:[eE][+-]?\d+)?f?|\.\d+(?:[eE][+-]?\d+)?f?|0[xX][0-9a-fA-F]+[UL]*)|(\w+)|(<<|>>|<=|>=|==|!=|&&|\|\||[-+*/%]=|\|=|\^=|&=|[-+*/%<>=!&|^~?:;,.(){}\[\]]))')
TOKHEX = re.compile(r'\s*(0[xX][0-9a-fA-F]+)[UL]*')

def tokenize(s, line0=1):
    out, i, line = [], 0, line0
    while i < len(s):
        m = TOKHEX.match(s, i)
        if m:
            line += s[i:m.end()].count('\n'); out.append(('num', m.group(1), line)); i = m.end(); continue
        m = TOK.match(s, i)
        if not m:
            if s[i:].strip() == '': break
            raise SystemExit('lex %r line %d' % (s[i:i+30], line))
        line += s[i:m.end()].count('\n')
        k = 'num' if m.group(1) else 'id' if m.group(2) else 'op'
        out.append((k, m.group(1) or m.group(2) or m.group(3), line))
        i = m.end()
    return out

FL = {'float': 'f', 'double': 'd', 'int': 'i', 'int32_t': 'i', 'int64_t': 'i', 'Sleef_float2': 'F2',
      'Sleef_double2': 'D2', 'fi_t': 'FI', 'dfi_t': 'DFI', 'df2': 'DF2', 'di_t': 'DI', 'ddi_t': 'DDI', 'dd2': 'DD2',
      'uint32_t': 'i', 'uint64_t': 'i', 'long': 'i'}
PAIR = 'F2' if which == 'sp' else 'D2'
HOME = 'f' if which == 'sp' else 'd'
FIELDS = {'F2': [('x', 'f'), ('y', 'f')], 'D2': [('x', 'd'), ('y', 'd')],
          'FI': [('d', 'f'), ('i', 'i')], 'DFI': [('df', 'F2'), ('i', 'i')], 'DF2': [('a', 'F2'), ('b', 'F2')],
          'DI': [('d', 'd'), ('i', 'i')], 'DDI': [('dd', 'D2'), ('i', 'i')], 'DD2': [('a', 'D2'), ('b', 'D2')]}
CTOR = {'F2': 'F2', 'D2': 'F2', 'FI': 'FI', 'DFI': 'DFI', 'DF2': 'DF2', 'DI': 'FI', 'DDI': 'DFI', 'DD2': 'DF2'}
PROJ = {('F2', 'x'): 'fx', ('F2', 'y'): 'fy', ('D2', 'x'): 'fx', ('D2', 'y'): 'fy', ('FI', 'd'): 'fid', ('FI', 'i'): 'fii',
        ('DFI', 'df'): 'dfidf', ('DFI', 'i'): 'dfii', ('DF2', 'a'): 'dfa', ('DF2', 'b'): 'dfb',
        ('DI', 'd'): 'fid', ('DI', 'i'): 'fii', ('DDI', 'dd'): 'dfidf', ('DDI', 'i'): 'dfii', ('DD2', 'a'): 'dfa', ('DD2', 'b'): 'dfb'}

# hand written in SleefBase.v: name -> (parameter types, result type)
def base(f, sfx, k):
    b = {}
    def p(n, a, r): b[n] = (a, r)
    return b
if which == 'sp':
    BASE = {'fabsfk': ('f', 'f'), 'mulsignf': ('ff', 'f'), 'copysignfk': ('ff', 'f'), 'signf': ('f', 'f'), 'mlaf': ('fff', 'f'),
            'rintfk': ('f', 'f'), 'ceilfk': ('f', 'i'), 'fminfk': ('ff', 'f'), 'fmaxfk': ('ff', 'f'), 'xisintf': ('f', 'b'),
            'xisnanf': ('f', 'b'), 'xisinff': ('f', 'b'), 'xisminff': ('f', 'b'), 'xispinff': ('f', 'b'), 'xisnegzerof': ('f', 'b'),
            'xisnumberf': ('f', 'b'), 'ilogbkf': ('f', 'i'), 'ilogb2kf': ('f', 'i'), 'pow2if': ('i', 'f'), 'ldexpkf': ('fi', 'f'),
            'ldexp2kf': ('fi', 'f'), 'ldexp3kf': ('fi', 'f'), 'upperf': ('f', 'f'), 'SQRTF': ('f', 'f'),
            'floatToRawIntBits': ('f', 'i'), 'intBitsToFloat': ('i', 'f')}
else:
    BASE = {'fabsk': ('d', 'd'), 'mulsign': ('dd', 'd'), 'copysignk': ('dd', 'd'), 'sign': ('d', 'd'), 'mla': ('ddd', 'd'),
            'rintk': ('d', 'd'), 'trunck': ('d', 'd'), 'ceilk': ('d', 'i'), 'fmink': ('dd', 'd'), 'fmaxk': ('dd', 'd'), 'xisint': ('d', 'b'),
            'xisnan': ('d', 'b'), 'xisinf': ('d', 'b'), 'xisminf': ('d', 'b'), 'xispinf': ('d', 'b'), 'xisnegzero': ('d', 'b'),
            'xisnumber': ('d', 'b'), 'ilogbk': ('d', 'i'), 'ilogb2k': ('d', 'i'), 'pow2i': ('i', 'd'), 'ldexpk': ('di', 'd'),
            'ldexp2k': ('di', 'd'), 'ldexp3k': ('di', 'd'), 'upper': ('d', 'd'), 'SQRT': ('d', 'd'),
            'doubleToRawLongBits': ('d', 'i'), 'longBitsToDouble': ('i', 'd')}
for n in range(2, 21):
    k = {2: 1, 3: 2, 4: 2, 5: 3, 6: 3, 7: 3, 8: 3}.get(n, 4 if n <= 16 else 5)
    BASE['POLY%d' % n] = (HOME * (k + n), HOME)

class Err(Exception): pass

def conv(e, t, to):
    if t == to: return e
    if to == 'b':
        return '(negb (%s =? 0))' % e if t == 'i' else '(negb (eq%s %s (%s)))' % (t, e, 'fint 0' if t == 'f' else 'dint 0')
    if t == 'b': return conv('(b2z %s)' % e, 'i', to)
    if t == 'i' and to == 'f': return '(fint %s)' % e
    if t == 'i' and to == 'd': return '(dint %s)' % e
    if t == 'f' and to == 'i': return '(toint %s)' % e
    if t == 'd' and to == 'i': return '(dtoint %s)' % e
    if t == 'd' and to == 'f': return '(d2f %s)' % e
    if t == 'f' and to == 'd': return '(f2d %s)' % e
    raise Err('conv %s %s->%s' % (e, t, to))

def join(a, b):
    for t in ('d', 'f', 'i'):
        if t in (a, b): return t
    if a == b: return a
    raise Err('join %s %s' % (a, b))

OPN = {'+': 'add', '-': 'sub', '*': 'mul', '/': 'div'}
CMP = {'<': 'lt', '<=': 'le', '==': 'eq'}

class Parser:
    def __init__(self, toks, env, funs):
        self.t, self.i, self.env, self.funs = toks, 0, env, funs
    def peek(self, k=0): return self.t[self.i + k][1] if self.i + k < len(self.t) else None
    def kind(self): return self.t[self.i][0]
    def eat(self, v=None):
        x = self.t[self.i]
        if v is not None and x[1] != v: raise Err('expected %s got %s line %d' % (v, x[1], x[2]))
        self.i += 1
        return x[1]
    # expressions: return (coq, type)
    def expr(self): return self.tern()
    def tern(self):
        c, t = self.binary(0)
        if self.peek() == '?':
            self.eat('?'); a, ta = self.tern(); self.eat(':'); b, tb = self.tern()
            c = conv(c, t, 'b')
            if ta != tb:
                j = join(ta, tb); a, b, ta = conv(a, ta, j), conv(b, tb, j), j
            return '(if %s then %s else %s)' % (c, a, b), ta
        return c, t
    LEV = [['||'], ['&&'], ['|'], ['^'], ['&'], ['==', '!='], ['<', '>', '<=', '>='], ['<<', '>>'], ['+', '-'], ['*', '/', '%']]
    def binary(self, l):
        if l == len(self.LEV): return self.unary()
        a, ta = self.binary(l + 1)
        while self.peek() in self.LEV[l]:
            op = self.eat(); b, tb = self.binary(l + 1)
            a, ta = self.mk(op, a, ta, b, tb)
        return a, ta
    def mk(self, op, a, ta, b, tb):
        if op in ('||', '&&'): return '(%s %s %s)' % (conv(a, ta, 'b'), op, conv(b, tb, 'b')), 'b'
        if op in ('==', '!=') and ta == tb == 'b':
            e = '(Bool.eqb %s %s)' % (a, b); return (e if op == '==' else '(negb %s)' % e), 'b'
        if op in ('==', '!=', '<', '>', '<=', '>='):
            j = join(ta, tb)
            if j == 'b': j = 'i'
            a, b = conv(a, ta, j), conv(b, tb, j)
            if op in ('>', '>='): a, b, op = b, a, {'>': '<', '>=': '<='}[op]
            neg = op == '!='
            if neg: op = '=='
            if j == 'i': e = '(%s %s %s)' % (a, {'<': '<?', '<=': '<=?', '==': '=?'}[op], b)
            else: e = '(%s%s %s %s)' % (CMP[op], j, a, b)
            return ('(negb %s)' % e if neg else e), 'b'
        if op in ('^',) and ta == tb == 'b': return '(xorb %s %s)' % (a, b), 'b'
        if op in ('&', '|', '^', '<<', '>>', '%'):
            a, b = conv(a, ta, 'i'), conv(b, tb, 'i')
            f = {'&': 'Z.land', '|': 'Z.lor', '^': 'Z.lxor', '<<': 'Z.shiftl', '>>': 'Z.shiftr', '%': 'Z.rem'}[op]
            return '(%s %s %s)' % (f, a, b), 'i'
        j = join(ta, tb)
        if j == 'b': j = 'i'
        a, b = conv(a, ta, j), conv(b, tb, j)
        if j == 'i':
            return ('(Z.quot %s %s)' % (a, b) if op == '/' else '(%s %s %s)' % (a, op, b)), 'i'
        if j not in 'fd': raise Err('arith on %s' % j)
        return '(%s %s%s %s)' % (a, op, '.' if j == HOME else '..', b), j
    def unary(self):
        p = self.peek()
        if p == '-':
            self.eat(); e, t = self.unary()
            if t == 'b': e, t = conv(e, t, 'i'), 'i'
            return ('(- %s)' % e if t == 'i' else '(neg%s %s)' % (t, e)), t
        if p == '+': self.eat(); return self.unary()
        if p == '!':
            self.eat(); e, t = self.unary(); return '(negb %s)' % conv(e, t, 'b'), 'b'
        if p == '~':
            self.eat(); e, t = self.unary(); return '(Z.lnot %s)' % conv(e, t, 'i'), 'i'
        if p == '(' and self.peek(1) in FL and self.peek(2) == ')':
            self.eat('('); t = FL[self.eat()]; self.eat(')'); e, te = self.unary(); return conv(e, te, t), t
        return self.postfix()
    def postfix(self):
        e, t = self.primary()
        while self.peek() == '.':
            self.eat(); f = self.eat()
            e, t = '(%s %s)' % (PROJ[(t, f)], e), dict(FIELDS[t])[f]
        return e, t
    def num(self, s):
        if s.lower().startswith('0x'): return s.lower(), 'i'
        isf = s.endswith('f')
        if isf: s = s[:-1]
        if not isf and re.fullmatch(r'\d+', s): return s, 'i'
        m = re.fullmatch(r'(\d*)\.?(\d*)(?:[eE]([+-]?\d+))?', s)
        ip, fp, ex = m.group(1), m.group(2), int(m.group(3) or 0)
        mant, k = int((ip + fp) or '0'), len(fp) - ex
        while mant % 10 == 0 and mant and k > 0: mant //= 10; k -= 1
        if k < 0: mant, k = mant * 10 ** (-k), 0
        return ('(%s %d %d)' % ('fdec' if isf else 'ddec', mant, k)), ('f' if isf else 'd')
    def args(self):
        self.eat('('); out = []
        if self.peek() != ')':
            out.append(self.expr())
            while self.peek() == ',': self.eat(); out.append(self.expr())
        self.eat(')'); return out
    def primary(self):
        k, v, line = self.t[self.i]
        if k == 'num': self.eat(); return self.num(v)
        if v == '(':
            self.eat(); r = self.expr(); self.eat(')'); return r
        if k == 'id':
            self.eat()
            if v in ('INT64_C', 'UINT64_C'):
                (e, t), = self.args(); return e, 'i'
            if v in ('SLEEF_NANf',): return 'SLEEF_NANf', 'f'
            if v in ('SLEEF_INFINITYf',): return 'SLEEF_INFINITYf', 'f'
            if v in ('SLEEF_NAN', 'SLEEF_INFINITY'): return v, 'd'
            if v == 'FLT_MIN': return 'FLT_MIN', 'f'
            if v == 'DBL_MIN': return 'DBL_MIN', 'd'
            if v in ('Sleef_rempitabsp', 'Sleef_rempitabdp'):
                self.eat('['); e, t = self.expr(); self.eat(']'); return '(rempitab %s)' % e, HOME
            if v in self.env: return v, self.env[v]
            if v in macros and self.peek() != '(':
                p = Parser(tokenize(macros[v]), {}, self.funs); return p.expr()
            if v in ('df', 'dd'):
                (a, ta), (b, tb) = self.args()
                return '(F2 %s %s)' % (conv(a, ta, HOME), conv(b, tb, HOME)), PAIR
            if v in self.funs:
                ps, r = self.funs[v]; a = self.args()
                if len(a) != len(ps): raise Err('arity %s' % v)
                return '(%s %s)' % (v, ' '.join(conv(e, t, p) for (e, t), p in zip(a, ps))), r
            raise Err('unknown %s line %d' % (v, line))
        raise Err('primary %s line %d' % (v, line))
    # statements: list of ('set', var, coq) | ('if', cond, A, B) | ('ret', coq)
    def block(self):
        self.eat('{'); out = []
        while self.peek() != '}': out += self.stmt()
        self.eat('}'); return out
    def body(self): return self.block() if self.peek() == '{' else self.stmt()
    def stmt(self):
        v = self.peek()
        if v == '{': return self.block()
        if v == ';': self.eat(); return []
        if v == 'if':
            self.eat(); self.eat('('); c, t = self.expr(); self.eat(')'); A = self.body(); B = []
            if self.peek() == 'else': self.eat(); B = self.body()
            return [('if', conv(c, t, 'b'), A, B)]
        if v == 'return':
            self.eat(); e, t = self.expr(); self.eat(';'); return [('ret', conv(e, t, self.rett) if t != self.rett else e)]
        if v == 'const': self.eat(); v = self.peek()
        if v in FL:
            t = FL[self.eat()]; out = []
            while True:
                n = self.eat()
                if self.peek() == '=':
                    self.eat()
                    if self.peek() == '{':
                        self.eat('{'); fs = []
                        while True:
                            fs.append(self.expr())
                            if self.peek() == ',': self.eat()
                            else: break
                        self.eat('}')
                        e, te = '(%s %s)' % (CTOR[t], ' '.join(conv(x, tx, ft) for (x, tx), (_, ft) in zip(fs, FIELDS[t]))), t
                    else: e, te = self.expr()
                    if t == 'i' and te == 'b': self.env[n] = 'b'; out.append(('set', n, e))
                    else: self.env[n] = t; out.append(('set', n, conv(e, te, t)))
                    self.inited.add(n)
                else: self.env[n] = t
                if self.peek() == ',': self.eat(); continue
                self.eat(';'); return out
        if v == 'typedef': raise Err('typedef')
        # assignments
        n = self.eat(); path = []
        while self.peek() == '.': self.eat(); path.append(self.eat())
        op = self.eat(); e, te = self.expr(); self.eat(';')
        t = self.env[n]; cur, ct = n, t
        for f in path: cur, ct = '(%s %s)' % (PROJ[(ct, f)], cur), dict(FIELDS[ct])[f]
        if op != '=':
            e, te = self.mk(op[0], cur, ct, e, te)
        if not path and t == 'i' and te == 'b' and op == '=': self.env[n] = 'b'; return [('set', n, e)]
        e = conv(e, te, ct)
        def upd(cur, ct, path):
            if not path: return e
            fs = []
            for f, ft in FIELDS[ct]:
                fs.append(upd('(%s %s)' % (PROJ[(ct, f)], cur), ft, path[1:]) if f == path[0] else ('(%s %s)' % (PROJ[(ct, f)], cur) if (cur, f) and not uninit else 'unset'))
            return '(%s %s)' % (CTOR[ct], ' '.join(fs))
        uninit = n not in self.inited and path
        self.inited.add(n)
        if uninit and ct: return [('set', n, upd(n, t, path))]
        return [('set', n, upd(n, t, path) if path else e)]

def assigned(st):
    out = []
    for s in st:
        if s[0] == 'set': xs = [s[1]]
        elif s[0] == 'if': xs = assigned(s[2]) + assigned(s[3])
        else: xs = []
        for x in xs:
            if x not in out: out.append(x)
    return out

def emit(st, final, ind, live):
    """final: text of the result, or None when st ends in a return"""
    if not st:
        return ind + final + '\n'
    s, rest = st[0], st[1:]
    if s[0] == 'ret': return ind + s[1] + '\n'
    if s[0] == 'set':
        return '%slet %s := %s in\n' % (ind, s[1], s[2]) + emit(rest, final, ind, live | {s[1]})
    vs = [v for v in assigned([s]) if (v in live) or (v in assigned(s[2]) and v in assigned(s[3]))]
    A, B = s[2], s[3]
    if len(vs) == 1 and len(A) == 1 and A[0][0] == 'set' and not B:
        return '%slet %s := if %s then %s else %s in\n' % (ind, vs[0], s[1], A[0][2], vs[0]) + emit(rest, final, ind, live)
    tup = vs[0] if len(vs) == 1 else '(' + ', '.join(vs) + ')'
    pat = vs[0] if len(vs) == 1 else "'" + tup
    return ('%slet %s :=\n%s  if %s then\n' % (ind, pat, ind, s[1]) + emit(A, tup, ind + '    ', live) +
            '%s  else\n' % ind + emit(B, tup, ind + '    ', live) + '%sin\n' % ind + emit(rest, final, ind, live | set(vs)))

def functions():
    for m in re.finditer(r'^(?:EXPORT |static |INLINE |CONST )+(\w+) (\w+)\(([^)]*)\) (\{)', text, re.M):
        i, d = m.end(), 1
        while d:
            d += {'{': 1, '}': -1}.get(text[i], 0); i += 1
        l0 = text.count('\n', 0, m.start()) + 1
        l1 = text.count('\n', 0, i) + 1
        yield m.group(1), m.group(2), m.group(3), text[m.end() - 1:i], l0, l1

WANT = set(sys.argv[2].split(',')) if len(sys.argv) > 2 else None

def main():
    funs = dict(BASE)
    out = []
    src = 'src/' + ('sleefsp.c' if which == 'sp' else 'sleefdp.c')
    skip = set(BASE) | {'df', 'dd', 'xsincosf', 'xsincosf_u1', 'xsincos', 'xsincos_u1', 'xsincospif_u05', 'xsincospif_u35', 'xsincospi_u05',
                        'xsincospi_u35', 'xfastpowf_u3500', 'logk3f', 'expk3f'}
    skip |= set('x' + n + f for f in ('', 'f') for n in ('fabs', 'copysign', 'fmax', 'fmin', 'fdim', 'trunc', 'floor', 'ceil', 'round', 'rint',
                'fma', 'sqrt', 'modf', 'ldexp', 'nextafter', 'frfrexp', 'expfrexp', 'ilogb')) | {'xsqrtf_u05', 'xsqrtf_u35', 'xsqrt_u05', 'xsqrt_u35'}
    for ret, name, params, body, l0, l1 in functions():
        if name in skip or ret not in FL: continue
        try:
            ps = []
            env = {}
            for p in params.split(','):
                ty, n = p.split()
                ps.append(FL[ty]); env[n] = FL[ty]
            P = Parser(tokenize(body, l0), env, funs); P.rett = FL[ret]; P.inited = set(n for n in env)
            # bool-valued C functions stay int
            st = P.block()
            binders = ' '.join('(%s : %s)' % (n, {'f': 'Z', 'd': 'Z', 'i': 'Z', 'F2': 'f2', 'D2': 'f2'}[t]) for n, t in [(p.split()[1], FL[p.split()[0]]) for p in params.split(',')])
            rt = {'f': 'Z', 'd': 'Z', 'i': 'Z', 'F2': 'f2', 'D2': 'f2', 'FI': 'fi', 'DFI': 'dfi', 'DF2': 'df2', 'DI': 'fi', 'DDI': 'dfi', 'DD2': 'df2'}[FL[ret]]
            code = emit(st, None, '  ', set(p.split()[1] for p in params.split(',')))
            funs[name] = (ps, FL[ret])
            if WANT and name not in WANT: continue
            out.append('(** %s:%d-%d *)\nDefinition %s %s : %s :=\n%s' % (src, l0, l1, name, binders, rt, code.rstrip() + '.\n'))
        except (Err, KeyError, ValueError, SystemExit, IndexError, TypeError) as ex:
            sys.stderr.write('SKIP %s (%d): %r\n' % (name, l0, ex))
    # constants, computed once and for all
    body = '\n'.join(out)
    defs = {}
    def named(prefix, fmt):
        def f(m):
            n = prefix + '_'.join(x.replace('- ', 'm') for x in m.groups())
            defs[n] = fmt % m.groups()
            return n
        return f
    body = re.sub(r'\(d2f \(ddec (\d+) (\d+)\)\)', named('DF_', 'd2f (ddec %s %s)'), body)
    body = re.sub(r'\(fdec (\d+) (\d+)\)', named('F_', 'fdec %s %s'), body)
    body = re.sub(r'\(ddec (\d+) (\d+)\)', named('D_', 'ddec %s %s'), body)
    body = re.sub(r'\(fint (\d+)\)', named('I_', 'fint %s'), body)
    body = re.sub(r'\(fint \((- \d+)\)\)', named('I_', 'fint (%s)'), body)
    body = re.sub(r'\(dint (\d+)\)', named('ID_', 'dint %s'), body)
    for n, e in defs.items():
        print('Definition %s : Z := Eval vm_compute in %s.' % (n, e))
    print('(* END OF CONSTANTS *)')
    print(body)
main()
