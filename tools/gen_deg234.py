#!/usr/bin/env python3
"""Translate the C templates of /repo/egg/x86_load_store_deg234.py to Coq.

The repository is only read as text: the Python source is parsed with [ast]
and a small evaluator (class Ev) follows the generator function for one SIMD
extension and one type, which gives the text of the C function; class Tr
translates each C statement to an instruction of X86Shuffle.v.  Anything which
is not understood raises an error, nothing is skipped except declarations.

  python3 gen_deg234.py  > ../rocq/theories/X86Deg234.v
"""
import ast, re, sys

REPO = '/repo/egg/'
SSE, AVX, AVX512 = ['sse2', 'sse42'], ['avx', 'avx2'], ['avx512_knl', 'avx512_skylake']
TYPES = ['i8', 'u8', 'i16', 'u16', 'i32', 'u32', 'i64', 'u64', 'f32', 'f64']
NB = {**{e: 128 for e in SSE}, **{e: 256 for e in AVX}, **{e: 512 for e in AVX512}}


# ----------------------------------------------------------------- evaluator
class Mod:
    def __init__(self, fname, mods):
        self.tree = ast.parse(open(REPO + fname).read())
        self.fname, self.mods, self.funs, self.consts = fname, mods, {}, {}
        for n in self.tree.body:
            if isinstance(n, ast.FunctionDef):
                self.funs[n.name] = n
            elif isinstance(n, ast.Assign) and isinstance(n.targets[0], ast.Name):
                try:
                    self.consts[n.targets[0].id] = ast.literal_eval(n.value)
                except ValueError:
                    pass


class Ev:
    """Evaluate one call; [trace] collects the lines of the return taken."""
    def __init__(self, mod, trace):
        self.mod, self.trace = mod, trace

    def call(self, name, args):
        f = self.mod.funs[name]
        env = dict(zip([a.arg for a in f.args.args], args))
        r = self.block(f.body, env)
        if r is None:
            raise ValueError('no return in ' + name)
        node, val = r
        self.trace.append((self.mod.fname, name, node.lineno, node.end_lineno))
        return val

    def block(self, body, env):
        for s in body:
            if isinstance(s, ast.Return):
                return (s, self.ex(s.value, env))
            elif isinstance(s, ast.Assign):
                t, v = s.targets[0], self.ex(s.value, env)
                if isinstance(t, ast.Name):
                    env[t.id] = v
                elif isinstance(t, ast.Subscript):
                    self.ex(t.value, env)[self.ex(t.slice, env)] = v
                else:
                    raise ValueError(ast.dump(s))
            elif isinstance(s, ast.If):
                r = self.block(s.body if self.ex(s.test, env) else s.orelse, env)
                if r is not None:
                    return r
            else:
                raise ValueError(ast.dump(s))
        return None

    def ex(self, e, env):
        if isinstance(e, ast.Constant):
            return e.value
        if isinstance(e, ast.Name):
            return env[e.id] if e.id in env else self.mod.consts[e.id]
        if isinstance(e, ast.List):
            return [self.ex(x, env) for x in e.elts]
        if isinstance(e, ast.IfExp):
            return self.ex(e.body if self.ex(e.test, env) else e.orelse, env)
        if isinstance(e, ast.BoolOp):
            vs = [self.ex(x, env) for x in e.values]
            return all(vs) if isinstance(e.op, ast.And) else any(vs)
        if isinstance(e, ast.Compare):
            a, b = self.ex(e.left, env), self.ex(e.comparators[0], env)
            if isinstance(e.ops[0], ast.Eq):
                return a == b
            if isinstance(e.ops[0], ast.In):
                return a in b
        if isinstance(e, ast.Subscript):
            return self.ex(e.value, env)[self.ex(e.slice, env)]
        if isinstance(e, ast.BinOp) and isinstance(e.op, ast.Add):
            return self.ex(e.left, env) + self.ex(e.right, env)
        if isinstance(e, ast.Attribute):
            return self.mod.mods[e.value.id].consts[e.attr]
        if isinstance(e, ast.Call):
            f = e.func
            args = [self.ex(a, env) for a in e.args]
            kw = {}
            for k in e.keywords:
                v = self.ex(k.value, env)
                kw.update(v) if k.arg is None else kw.update({k.arg: v})
            if isinstance(f, ast.Attribute) and f.attr == 'format':
                return self.ex(f.value, env).format(*args, **kw)
            if isinstance(f, ast.Attribute) and f.attr == 'copy':
                return dict(self.ex(f.value, env))
            if isinstance(f, ast.Name):
                return Ev(self.mod, []).call(f.id, args) if not kw else None
            if isinstance(f, ast.Attribute):
                return Ev(self.mod.mods[f.value.id], []).call(f.attr, args)
        raise ValueError(ast.dump(e))


COMMON = Mod('common.py', {})
X86 = Mod('platform_x86.py', {'common': COMMON})
LS = Mod('x86_load_store_deg234.py', {'x86': X86, 'common': COMMON})


def native(ext, typ):
    n = NB[ext]
    return {'f32': '__m%d' % n, 'f64': '__m%dd' % n}.get(typ, '__m%di' % n)


def fmtspec(ext, typ):
    n = NB[ext]
    d = {'simd_ext': ext, 'typ': typ, 'styp': native(ext, typ),
         'pre': '_mm%s_' % ('' if n == 128 else n),
         'suf': {'f32': '_ps', 'f64': '_pd'}.get(typ, '_epi' + typ[1:]),
         'sufsi': {'f32': '_ps', 'f64': '_pd'}.get(typ, '_si%d' % n),
         'le': n // int(typ[1:]), 'typnbits': typ[1:], 'nbits': str(n)}
    for i in range(6):
        d['in%d' % i] = 'a%d' % i
    return d


def c_text(kind, deg, ext, typ, align=True):
    """As load_deg234 and store_deg234, platform_x86.py:930-951,971-992."""
    tr = []
    ev = Ev(LS, tr)
    f = fmtspec(ext, typ)
    fam = 'sse' if ext in SSE else 'avx' if ext in AVX else 'avx512'
    if kind == 'load':
        t = ev.call('load%d_%s' % (deg, fam), [ext, typ, align, f])
    elif deg == 2:
        t = ev.call('store2', [ext, typ, align, f])
    elif deg == 4 and fam == 'sse':
        t = ev.call('store4_sse', [typ, align, f])
    else:
        t = ev.call('store%d_%s' % (deg, fam), [ext, typ, align, f])
    if t is None:
        raise ValueError('no code')
    return t, tr


# ---------------------------------------------------------------- C parser
TOK = re.compile(r'\s*(?:(\d+[uUlL]*|0x[0-9a-fA-F]+)|([A-Za-z_]\w*(?:\.\w+)?)|(<<|\+\+|[-+*/|&(),;={}<]))')


def tokens(s):
    out, p = [], 0
    s = s.strip()
    while p < len(s):
        m = TOK.match(s, p)
        if not m:
            raise ValueError('token: ' + s[p:p + 40])
        out.append(m.group(1) or m.group(2) or m.group(3))
        p = m.end()
    return out


CTYPES = {'__m128', '__m128i', '__m128d', '__m256', '__m256i', '__m256d',
          '__m512', '__m512i', '__m512d', 'f32', 'f64', 'i8', 'u8', 'i16',
          'u16', 'i32', 'u32', 'i64', 'u64', 'int'}
TYSIZE = {'__m128': 16, '__m128i': 16, '__m128d': 16, '__m256': 32,
          '__m256i': 32, '__m256d': 32, '__m512': 64, '__m512i': 64,
          '__m512d': 64}


def is_type(t):
    return t in CTYPES or re.fullmatch(r'nsimd_\w+_v[iuf]\d+(x\d)?', t or '')


class Tr:
    def __init__(self, ext, typ, prefix=''):
        self.ext, self.typ, self.prefix = ext, typ, prefix
        self.size = NB[ext] // 8
        self.consts, self.n, self.out = {}, 0, []

    # -- expressions: parsed to trees
    def parse(self, text):
        self.t, self.p = tokens(text), 0

    def peek(self, k=0):
        return self.t[self.p + k] if self.p + k < len(self.t) else None

    def eat(self, x=None):
        v = self.t[self.p]
        if x is not None and v != x:
            raise ValueError('expected %s, got %s in %s' % (x, v, self.t[max(0, self.p-10):self.p+10]))
        self.p += 1
        return v

    def expr(self):
        a = self.shift()
        while self.peek() == '|':
            self.eat()
            a = ('bin', '|', a, self.shift())
        return a

    def shift(self):
        a = self.add()
        while self.peek() == '<<':
            self.eat()
            a = ('bin', '<<', a, self.add())
        return a

    def add(self):
        a = self.mul()
        while self.peek() in ('+', '-'):
            o = self.eat()
            a = ('bin', o, a, self.mul())
        return a

    def mul(self):
        a = self.unary()
        while self.peek() == '*':
            self.eat()
            a = ('bin', '*', a, self.unary())
        return a

    def unary(self):
        if self.peek() == '-':
            self.eat()
            return ('bin', '-', ('num', 0), self.unary())
        if self.peek() == '(' and is_type(self.peek(1)):
            self.eat('(')
            ty = self.eat()
            ptr = False
            if self.peek() == '*':
                self.eat()
                ptr = True
            self.eat(')')
            return ('cast', ty, ptr, self.unary())
        if self.peek() == '(':
            self.eat('(')
            a = self.expr()
            self.eat(')')
            return a
        v = self.eat()
        if re.match(r'\d', v):
            octal = re.fullmatch(r'0[0-7]+', v)
            return ('num', int(v, 8) if octal else int(v, 0))
        if self.peek() == '(':
            self.eat('(')
            args = []
            while self.peek() != ')':
                args.append(self.expr())
                if self.peek() == ',':
                    self.eat()
            self.eat(')')
            return ('call', v, args)
        return ('var', v)

    # -- integers and addresses
    def num(self, e):
        if e[0] == 'num':
            return e[1]
        if e[0] == 'bin':
            a, b = self.num(e[2]), self.num(e[3])
            return {'|': a | b, '<<': a << b, '+': a + b, '-': a - b, '*': a * b}[e[1]]
        if e[0] == 'call' and e[1] == '_MM_SHUFFLE':
            z, y, x, w = [self.num(a) for a in e[2]]
            return (z << 6) | (y << 4) | (x << 2) | w
        if e[0] == 'call' and e[1] == '_MM_SHUFFLE2':
            x, y = [self.num(a) for a in e[2]]
            return (x << 1) | y
        if e[0] == 'cast' and not e[2] and e[1] in ('i8', 'int', 'i32'):
            return self.num(e[3])
        raise ValueError('num %r' % (e,))

    def addr(self, e):
        """byte offset and element size"""
        if e == ('var', 'a0'):
            return 0, int(self.typ[1:]) // 8
        if e[0] == 'cast' and e[2]:
            o, _ = self.addr(e[3])
            return o, TYSIZE.get(e[1]) or int(e[1][1:]) // 8
        if e[0] == 'bin' and e[1] == '+':
            o, s = self.addr(e[2])
            return o + s * self.num(e[3]), s
        raise ValueError('addr %r' % (e,))

    # -- registers
    def name(self, v):
        return self.prefix + v

    def tmp(self):
        self.n += 1
        return self.prefix + 't%d' % self.n

    def emit(self, x, op, args):
        self.out.append(('Let', x, op, args))
        return x

    def const(self, e):
        """constant vector in memory order, or None"""
        if e[0] == 'var':
            return self.consts.get(e[1])
        if e[0] == 'call':
            m = re.fullmatch(r'_mm(256|512)?_(setr?)_epi(8|16|32|64)', e[1])
            if m:
                l = [self.num(a) for a in e[2]]
                if len(l) * int(m.group(3)) != int(m.group(1) or 128):
                    raise ValueError('bad set %r' % (e,))
                return l if m.group(2) == 'setr' else l[::-1]
        if e[0] == 'call' and re.fullmatch(r'_mm(256|512)?_cast\w+', e[1]):
            return self.const(e[2][0])
        return None

    def z(self, l):
        return '[%s]%%Z' % '; '.join(('(%d)' % v) if v < 0 else str(v) for v in l)

    def reg(self, e, dst=None):
        """emit code for e, return the variable holding it"""
        if e[0] == 'var':
            if dst is None:
                return self.name(e[1])
            return self.emit(dst, 'Mov', [self.name(e[1])])
        if e[0] == 'cast' and e[1] in TYSIZE and not e[2]:
            return self.reg(e[3], dst)
        if e[0] != 'call':
            raise ValueError('reg %r' % (e,))
        f, args = e[1], e[2]
        m = re.fullmatch(r'_mm(256|512)?_(\w+)', f)
        if not m:
            raise ValueError('call ' + f)
        size, g = int(m.group(1) or 128) // 8, m.group(2)
        d = dst or None

        def go(op, *regs):
            rs = [self.reg(r) for r in regs]
            return self.emit(dst or self.tmp(), op, rs)
        w = {'epi8': 1, 'epi16': 2, 'epi32': 4, 'epi64': 8, 'ps': 4, 'pd': 8}
        if re.fullmatch(r'loadu?_(ps|pd|si\d+)', g):
            o, _ = self.addr(args[0])
            x = dst or self.tmp()
            self.out.append(('Load', x, o, size))
            return x
        if re.fullmatch(r'insert(f128_(ps|pd|si256)|[fi]64x4)', g):
            inner = args[0]
            while not re.fullmatch(r'_mm(256|512)_cast(ps|pd|si)(128|256)_(ps|pd|si)(256|512)', inner[1]):
                if not re.fullmatch(r'_mm(256|512)_cast\w+', inner[1]):
                    raise ValueError('insert %r' % (inner,))
                inner = inner[2][0]
            assert self.num(args[2]) == 1
            return go('Concat', inner[2][0], args[1])
        if re.fullmatch(r'(extract(f128_(ps|pd|si256)|[if]64x4_(epi64|pd)))', g):
            return go('HighHalf' if self.num(args[1]) == 1 else 'LowHalf', args[0])
        mm = re.fullmatch(r'cast(ps|pd|si)(\d*)_(ps|pd|si)(\d*)', g)
        if mm:
            n1 = int(mm.group(2) or size * 8)
            n2 = int(mm.group(4) or size * 8)
            if n1 == n2:
                if dst is None:
                    return self.reg(args[0])
                return go('Mov', args[0])
            if n1 == 2 * n2:
                return go('LowHalf', args[0])
            raise ValueError('cast ' + f)
        mm = re.fullmatch(r'unpack(lo|hi)_(\w+)', g)
        if mm:
            return go('(Unpack%s %d)' % (mm.group(1).capitalize(), w[mm.group(2)]), *args)
        if g == 'shuffle_epi8':
            return go('(ShufEpi8 %s)' % self.z(self.need(args[1], size)), args[0])
        if g == 'shuffle_ps':
            return go('(ShufPs %d)' % self.num(args[2]), *args[:2])
        if g == 'shuffle_pd':
            return go('(ShufPd %d)' % self.num(args[2]), *args[:2])
        if g == 'shufflelo_epi16':
            return go('(ShufLo16 %d)' % self.num(args[1]), args[0])
        if g == 'shufflehi_epi16':
            return go('(ShufHi16 %d)' % self.num(args[1]), args[0])
        if g == 'permute_pd':
            return go('(PermutePd %d)' % self.num(args[1]), args[0])
        if g == 'permutevar_ps':
            return go('(PermuteVarPs %s)' % self.z(self.need(args[1], size // 4)), args[0])
        if re.fullmatch('permutevar8x32_(epi32|ps)', g):
            return go('(PermuteXVar 4 %s)' % self.z(self.need(args[1], 8)), args[0])
        mm = re.fullmatch('permutex2var_(epi32|ps|epi64|pd)', g)
        if mm:
            k = w[mm.group(1)]
            return go('(PermuteX2Var %d %s)' % (k, self.z(self.need(args[1], size // k))),
                      args[0], args[2])
        if re.fullmatch('permute4x64_(epi64|pd)', g):
            return go('(Permute4x64 %d)' % self.num(args[1]), args[0])
        if re.fullmatch('permute2(f128_(ps|pd|si256)|x128_si256)', g):
            return go('(Permute2x128 %d)' % self.num(args[2]), *args[:2])
        mm = re.fullmatch('blend_(ps|pd|epi32)', g)
        if mm:
            return go('(Blend %d %d)' % (w[mm.group(1)], self.num(args[2])), *args[:2])
        if re.fullmatch(r'or_si\d+', g):
            return go('Or', *args)
        raise ValueError('intrinsic ' + f)

    def need(self, e, n):
        c = self.const(e)
        if c is None or len(c) != n:
            raise ValueError('constant %r' % (e,))
        return c

    # -- statements
    def stmts(self, text):
        self.parse(text)
        self.block(in_loop=False)
        return self.out

    def block(self, in_loop):
        while self.peek() is not None and self.peek() != '}':
            self.stmt(in_loop)

    def stmt(self, in_loop):
        if self.peek() == ';':                     # empty statement
            self.eat()
            return
        if self.peek() == 'for':
            assert not in_loop
            self.eat()
            self.eat('(')
            k = self.eat()
            self.eat('='), self.eat('0'), self.eat(';'), self.eat(k), self.eat('<')
            n = int(self.eat())
            self.eat(';'), self.eat('++'), self.eat(k), self.eat(')'), self.eat('{')
            save, self.out = self.out, []
            self.block(True)
            self.eat('}')
            body, self.out = self.out, save
            self.out.append(('Loop', n, body))
            return
        if self.peek() == 'return':
            self.eat()
            v = self.eat()
            self.eat(';')
            self.ret = v
            return
        ty = None
        if is_type(self.peek()):
            ty = self.eat()
            if self.peek(1) in (',', ';'):        # declarations only
                while self.eat() != ';':
                    pass
                return
        if self.peek(1) == '=':
            x = self.eat()
            self.eat('=')
            e = self.expr()
            self.eat(';')
            c = self.const(e)
            if c is not None:
                if in_loop or x in self.consts:
                    raise ValueError('constant reassigned ' + x)
                self.consts[x] = c
                return
            if x in self.consts:
                raise ValueError('constant overwritten ' + x)
            if e[0] == 'call' and e[1].startswith('nsimd_load'):
                self.inline(x, e)
                return
            self.reg(e, self.name(x))
            return
        e = self.expr()
        self.eat(';')
        if e[0] == 'call' and re.fullmatch(r'_mm(256|512)?_storeu?_(ps|pd|si\d+)', e[1]):
            o, _ = self.addr(e[2][0])
            self.out.append(('Store', o, self.reg(e[2][1])))
            return
        if e[0] == 'call' and e[1].startswith('nsimd_store'):
            self.inline(None, e)
            return
        raise ValueError('stmt %r' % (e,))

    def inline(self, x, e):
        m = re.fullmatch(r'nsimd_(load|store)([234])([au])_(\w+)_([iuf]\d+)', e[1])
        kind, deg, _, ext, typ = m.groups()
        o, _ = self.addr(e[2][0])
        assert o == 0 and ext == self.ext
        text, tr = c_text(kind, int(deg), ext, typ)
        sub = Tr(ext, typ, self.prefix + 'f.')
        if kind == 'store':
            for i, a in enumerate(e[2][1:]):
                self.reg(a, sub.name('a%d' % (i + 1)))
        code = sub.stmts(text)
        self.out += code
        self.trace = getattr(self, 'trace', []) + tr + getattr(sub, 'trace', [])
        if kind == 'load':
            for i in range(int(deg)):
                self.emit(self.name('%s.v%d' % (x, i)), 'Mov', [sub.name('ret.v%d' % i)])


def translate(kind, deg, ext, typ):
    out = []
    for align in (True, False):
        text, tr = c_text(kind, deg, ext, typ, align)
        t = Tr(ext, typ)
        code = t.stmts(text)
        out.append((code, tr + getattr(t, 'trace', [])))
    assert out[0][0] == out[1][0], 'aligned and unaligned versions differ'
    return out[0]


def coq_instr(i):
    if i[0] == 'Let':
        return 'Let "%s" %s [%s]' % (i[1], i[2], '; '.join('"%s"' % a for a in i[3]))
    if i[0] == 'Load':
        return 'Load "%s" %d %d' % (i[1], i[2], i[3])
    return 'Store %d "%s"' % (i[1], i[2])


def coq_prog(code):
    ls = []
    for i in code:
        if i[0] == 'Loop':
            ls.append('Loop %d [\n      %s]' % (i[1], ';\n      '.join(coq_instr(j) for j in i[2])))
        else:
            ls.append('I (%s)' % coq_instr(i))
    return '  [' + ';\n   '.join(ls) + '].'


def wrap(s):
    """break long constant lists"""
    out = []
    for l in s.split('\n'):
        while len(l) > 79:
            k = l.rfind(' ', 0, 79)
            if k <= 8:
                break
            out.append(l[:k])
            l = '       ' + l[k:]
        out.append(l)
    return '\n'.join(out)


EXTS = ['sse2', 'sse42', 'avx', 'avx2', 'avx512_knl', 'avx512_skylake']


def main():
    progs, table, errors = {}, {}, []
    for kind in ('load', 'store'):
        for deg in (2, 3, 4):
            for ext in EXTS:
                for typ in TYPES:
                    try:
                        code, tr = translate(kind, deg, ext, typ)
                    except Exception as ex:
                        errors.append((kind, deg, ext, typ, repr(ex)[:300]))
                        continue
                    key = (kind, deg, repr(code))
                    if key not in progs:
                        progs[key] = ['%s%d_%s_%s' % (kind, deg, ext, typ), code, [], []]
                    progs[key][2].append('%s %s' % (ext, typ))
                    for t in tr:
                        if t not in progs[key][3]:
                            progs[key][3].append(t)
                    table[(kind, deg, ext, typ)] = progs[key][0]
    for e in errors:
        print('ERROR', e, file=sys.stderr)
    w = sys.stdout.write
    w('''(** The structure loads and stores of the x86 extensions, as emitted by
    egg/x86_load_store_deg234.py (dispatched by load_deg234 and store_deg234,
    egg/platform_x86.py:916-992).

    Generated by tools/gen_deg234.py, which translates the C templates
    statement by statement: variables keep their C names, a nested call gets a
    temporary (t1, t2, ...), a call to the f32 or f64 version of the same
    function is expanded in place with its variables prefixed by "f.", and
    vectors of constants become immediates.  Identical programs are emitted
    once.  The aligned and unaligned versions only differ by the alignment
    they require and translate to the same program. *)

From Coq Require Import ZArith List String.
From Verif Require Import X86Shuffle.
Import ListNotations.
Local Open Scope string_scope.

''')
    for key, (name, code, users, tr) in progs.items():
        cite = '; '.join('%s %s:%d-%d' % (fn, f, a, b) for f, fn, a, b in tr)
        w(wrap('(** %s%s for %s.\n    %s *)\n' % (key[0], key[1], ', '.join(users), cite)))
        w(wrap('Definition %s : program :=\n%s\n\n' % (name, coq_prog(code))))
    w('Inductive ext : Type := Sse2 | Sse42 | Avx | Avx2 | Avx512Knl | Avx512Skylake.\n')
    w('Inductive etyp : Type := I8 | U8 | I16 | U16 | I32 | U32 | I64 | U64 | F32 | F64.\n\n')
    cn = {'sse2': 'Sse2', 'sse42': 'Sse42', 'avx': 'Avx', 'avx2': 'Avx2',
          'avx512_knl': 'Avx512Knl', 'avx512_skylake': 'Avx512Skylake'}
    for kind in ('load', 'store'):
        for deg in (2, 3, 4):
            w('(** egg/platform_x86.py:%s *)\n' % ('930-951' if kind == 'load' else '971-992'))
            w('Definition %s%d (e : ext) (t : etyp) : program :=\n  match e, t with\n' % (kind, deg))
            for ext in EXTS:
                by = {}
                for typ in TYPES:
                    by.setdefault(table.get((kind, deg, ext, typ), '[]'), []).append(typ.upper())
                for n, ts in by.items():
                    w('  %s => %s\n' % (' '.join('| %s, %s' % (cn[ext], t) for t in ts), n))
            w('  end.\n\n')
    print(len(progs), 'programs', file=sys.stderr)


if __name__ == '__main__':
    main()
