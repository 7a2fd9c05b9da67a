"""Tokeniser, mini preprocessor and parser for the C subset used by lib/converters/*.h."""
import re, os

TOK = re.compile(r'''
  (?P<ws>\s+)
 |(?P<num>0[xX][0-9a-fA-F]+[uUlL]*|\d+[uUlL]*)
 |(?P<id>[A-Za-z_]\w*)
 |(?P<chr>'(?:\\.|[^'\\])')
 |(?P<str>"(?:\\.|[^"\\])*")
 |(?P<op><<=|>>=|\+\+|--|->|<<|>>|<=|>=|==|!=|&&|\|\||\+=|-=|\*=|/=|%=|&=|\|=|\^=|[-+*/%&|^~!<>=?:;,.(){}\[\]])
''', re.X)

class Tok:
    __slots__ = ('k', 't', 'f', 'l')
    def __init__(self, k, t, f, l): self.k, self.t, self.f, self.l = k, t, f, l
    def __repr__(self): return '%s@%s:%d' % (self.t, self.f, self.l)

def strip_comments(t):
    def rep(m):
        return re.sub(r'[^\n]', ' ', m.group(0)) if m.group(0)[0] == '/' else m.group(0)
    return re.sub(r'/\*.*?\*/|//[^\n]*|"(?:\\.|[^"\\])*"|\'(?:\\.|[^\'\\])\'', rep, t, flags=re.S)

def tokenize(text, f, line):
    out = []; i = 0
    while i < len(text):
        m = TOK.match(text, i)
        if not m: raise SyntaxError('%s:%d: %r' % (f, line, text[i:i+20]))
        k = m.lastgroup
        if k != 'ws': out.append(Tok(k, m.group(0), f, line))
        line += m.group(0).count('\n'); i = m.end()
    return out

class PP:
    def __init__(self, root):
        self.root = root; self.macros = {}; self.out = []
    def cond(self, e):
        e = re.sub(r'defined\s*\(?\s*(\w+)\s*\)?', lambda m: str(int(m.group(1) in self.macros)), e)
        def idv(m):
            n = m.group(0)
            if n in self.macros and self.macros[n][0] is None:
                return ''.join(t.t for t in self.macros[n][1]) or '0'
            return '0'
        e = re.sub(r'[A-Za-z_]\w*', idv, e).replace('&&', ' and ').replace('||', ' or ').replace('!', ' not ')
        return bool(eval(e))
    def file(self, rel):
        path = os.path.join(self.root, rel)
        text = strip_comments(open(path, encoding='utf-8', errors='replace').read())
        lines = text.split('\n'); stack = []; buf = []; i = 0
        def flush():
            for t in self.expand(buf): self.out.append(t)
            buf.clear()
        while i < len(lines):
            ln = lines[i]; no = i + 1
            if re.match(r'\s*#', ln):
                while ln.rstrip().endswith('\\'):
                    i += 1; ln = ln.rstrip()[:-1] + ' ' + lines[i]
                m = re.match(r'\s*#\s*(\w+)\s*(.*)', ln); d = m.group(1); a = m.group(2).strip()
                live = all(s[0] for s in stack)
                if d in ('ifdef', 'ifndef', 'if'):
                    if live:
                        v = (a.split()[0] in self.macros) if d == 'ifdef' else (a.split()[0] not in self.macros) if d == 'ifndef' else self.cond(a)
                    else: v = False
                    stack.append([v, v or not live])
                elif d == 'else':
                    stack[-1][0] = not stack[-1][1]; stack[-1][1] = True
                elif d == 'elif':
                    v = not stack[-1][1] and self.cond(a); stack[-1][0] = v; stack[-1][1] |= v
                elif d == 'endif': stack.pop()
                elif live and d == 'define':
                    flush()
                    m = re.match(r'(\w+)(\(([^)]*)\))?\s*(.*)', a, re.S)
                    ps = None
                    if m.group(2) is not None: ps = [x.strip() for x in m.group(3).split(',')] if m.group(3).strip() else []
                    self.macros[m.group(1)] = (ps, tokenize(m.group(4), rel, no))
                elif live and d == 'undef': flush(); self.macros.pop(a.split()[0], None)
                elif live and d == 'include':
                    flush()
                    m = re.match(r'"(.*?)"', a)
                    if m:
                        inc = m.group(1)
                        for c in (inc, os.path.join(os.path.dirname(rel), inc)):
                            if os.path.exists(os.path.join(self.root, c)):
                                self.file(c); break
            elif all(s[0] for s in stack):
                buf += tokenize(ln, rel, no)
            i += 1
        flush()
    def expand(self, toks, hide=frozenset()):
        out = []; i = 0
        while i < len(toks):
            t = toks[i]
            if t.k == 'id' and t.t in self.macros and t.t not in hide:
                ps, body = self.macros[t.t]
                if ps is None:
                    out += self.expand([Tok(b.k, b.t, t.f, t.l) for b in body], hide | {t.t}); i += 1; continue
                if i + 1 < len(toks) and toks[i+1].t == '(':
                    j = i + 2; d = 1; args = [[]]
                    while True:
                        x = toks[j]
                        if x.t == '(': d += 1
                        if x.t == ')':
                            d -= 1
                            if d == 0: break
                        if x.t == ',' and d == 1: args.append([])
                        else: args[-1].append(x)
                        j += 1
                    args = [self.expand(a, hide) for a in args]
                    res = []
                    for b in body:
                        if b.k == 'id' and b.t in ps: res += args[ps.index(b.t)]
                        else: res.append(Tok(b.k, b.t, t.f, t.l))
                    out += self.expand(res, hide | {t.t}); i = j + 1; continue
            out.append(t); i += 1
        return out

BASE = {'char', 'short', 'int', 'unsigned', 'signed', 'ucs4_t', 'state_t', 'size_t', 'conv_t', 'Summary16', 'const', 'static', 'struct', 'void', 'enum', '__inline', 'inline', 'long'}

class Node(tuple):
    pass

class Parser:
    def __init__(self, toks):
        self.t = toks; self.i = 0
        self.structs = {'Summary16': [('indx', 'u16', 1), ('used', 'u16', 1)]}
        self.tables = []      # (name, elemtype|structname, dims, initlist, file, l1, l2)
        self.funcs = []       # dict
        self.enums = {}
        self.anon = 0
    def pk(self, d=0):
        return self.t[self.i+d].t if self.i + d < len(self.t) else None
    def nx(self):
        x = self.t[self.i]; self.i += 1; return x
    def eat(self, s):
        x = self.nx()
        if x.t != s: raise SyntaxError('expected %r got %r' % (s, x))
        return x
    def acc(self, s):
        if self.pk() == s: self.i += 1; return True
        return False
    # types
    def istype(self): return self.pk() in BASE
    def typ(self):
        ws = []; base = None
        while self.pk() in BASE:
            w = self.nx().t
            if w == 'struct':
                name = None
                if self.t[self.i].k == 'id': name = self.nx().t
                if self.pk() == '{':
                    if name is None: self.anon += 1; name = 'anon%d' % self.anon
                    self.structbody(name)
                base = ('struct', name)
            elif w == 'enum':
                if self.t[self.i].k == 'id': self.nx()
                if self.acc('{'):
                    v = 0
                    while not self.acc('}'):
                        nm = self.nx().t
                        if self.acc('='): v = self.constexpr(self.cond())
                        self.enums[nm] = v; v += 1
                        self.acc(',')
                base = 'enum'
            else: ws.append(w)
        ws = [w for w in ws if w not in ('static', 'const', '__inline', 'inline')]
        if base is None:
            s = ' '.join(sorted(ws))
            base = {'char unsigned': 'u8', 'short unsigned': 'u16', 'int unsigned': 'u32', 'unsigned': 'u32', 'int': 'i32',
                    'ucs4_t': 'u32', 'state_t': 'u32', 'size_t': 'size', 'conv_t': 'conv', 'Summary16': ('struct', 'Summary16'),
                    'short': 'i16', 'char signed': 'i8', 'char': 'i8', 'int signed': 'i32', 'void': 'void'}[s]
        return base
    def structbody(self, name):
        self.eat('{'); fs = []
        while not self.acc('}'):
            ty = self.typ()
            while True:
                fn = self.nx().t; cnt = 1
                if self.acc('['): cnt = self.constexpr(self.cond()); self.eat(']')
                fty = ty
                if self.acc(':'):
                    bits = self.constexpr(self.cond())
                    fty = ty[0] + str(bits)
                fs.append((fn, fty, cnt))
                if not self.acc(','): break
            self.eat(';')
        self.structs[name] = fs
    # expressions
    def expr(self):
        e = self.assign()
        while self.pk() == ',':
            self.nx(); e = ('comma', e, self.assign())
        return e
    def assign(self):
        l = self.cond()
        op = self.pk()
        if op in ('=', '+=', '-=', '*=', '/=', '%=', '&=', '|=', '^=', '<<=', '>>='):
            self.nx(); r = self.assign()
            return ('assign', op, l, r)
        return l
    def cond(self):
        c = self.bin(0)
        if self.acc('?'):
            a = self.expr(); self.eat(':'); b = self.cond()
            return ('cond', c, a, b)
        return c
    PREC = [['||'], ['&&'], ['|'], ['^'], ['&'], ['==', '!='], ['<', '>', '<=', '>='], ['<<', '>>'], ['+', '-'], ['*', '/', '%']]
    def bin(self, lv):
        if lv == len(self.PREC): return self.unary()
        l = self.bin(lv + 1)
        while self.pk() in self.PREC[lv]:
            op = self.nx().t; r = self.bin(lv + 1); l = ('bin', op, l, r)
        return l
    def unary(self):
        p = self.pk()
        if p in ('-', '+', '!', '~', '*', '&'):
            self.nx(); return ('un', p, self.unary())
        if p in ('++', '--'):
            self.nx(); return ('preinc', p, self.unary())
        if p == 'sizeof':
            self.nx(); self.eat('(')
            if self.istype():
                ty = self.typ(); self.eat(')'); return ('sizeoft', ty)
            e = self.expr(); self.eat(')'); return ('sizeof', e)
        if p == '(' and self.pk(1) in BASE:
            self.nx(); ty = self.typ(); ptr = 0
            while self.acc('*'): ptr += 1
            self.eat(')')
            return ('cast', ty if not ptr else ('ptr', ty), self.unary())
        return self.postfix()
    def postfix(self):
        t = self.nx()
        if t.k == 'num':
            s = t.t.rstrip('uUlL'); u = 'u' in t.t.lower().replace('0x', '')
            v = int(s, 16) if s[:2].lower() == '0x' else int(s)
            e = ('num', v, 'u32' if (u or v > 0x7fffffff) else 'i32')
        elif t.k == 'chr':
            s = t.t[1:-1]
            v = {'\\\\': 92, "\\'": 39, '\\n': 10, '\\r': 13, '\\0': 0}.get(s) if s[0] == '\\' else ord(s)
            e = ('num', v, 'i32')
        elif t.t == '(':
            e = self.expr(); self.eat(')')
        elif t.k == 'id':
            e = ('id', t.t)
        else: raise SyntaxError(repr(t))
        while True:
            p = self.pk()
            if p == '[': self.nx(); i = self.expr(); self.eat(']'); e = ('idx', e, i)
            elif p == '->': self.nx(); e = ('arrow', e, self.nx().t)
            elif p == '.': self.nx(); e = ('dot', e, self.nx().t)
            elif p == '(':
                self.nx(); args = []
                while not self.acc(')'):
                    args.append(self.assign()); self.acc(',')
                e = ('call', e, args)
            elif p in ('++', '--'): self.nx(); e = ('postinc', p, e)
            else: return e
    def constexpr(self, e):
        k = e[0]
        if k == 'num': return e[1]
        if k == 'id': return self.enums[e[1]]
        if k == 'un':
            v = self.constexpr(e[2]); return {'-': -v, '+': v, '~': ~v, '!': int(not v)}[e[1]]
        if k == 'bin':
            a, b = self.constexpr(e[2]), self.constexpr(e[3])
            return {'+': a+b, '-': a-b, '*': a*b, '/': a//b if b else 0, '<<': a << b if b >= 0 else 0, '>>': a >> b if b >= 0 else 0, '|': a | b, '&': a & b, '%': a % b if b else 0}[e[1]]
        if k == 'cast': return self.constexpr(e[2])
        if k == 'sizeoft': return {'u32': 4, 'i32': 4, 'u16': 2, 'u8': 1}[e[1]]
        raise ValueError(e)
    # statements: tuples ('kind', line, ...)
    def block(self):
        self.eat('{'); ss = []
        while not self.acc('}'): ss.append(self.stmt())
        return ('block', 0, ss)
    def stmt(self):
        t = self.t[self.i]; p = t.t; l = t.l
        if p == '{': return self.block()
        if p == ';': self.nx(); return ('block', l, [])
        if p == 'if':
            self.nx(); self.eat('('); c = self.expr(); self.eat(')')
            a = self.stmt(); b = None
            if self.acc('else'): b = self.stmt()
            return ('if', l, c, a, b)
        if p == 'for':
            self.nx(); self.eat('(')
            init = None if self.pk() == ';' else self.expr(); self.eat(';')
            c = None if self.pk() == ';' else self.expr(); self.eat(';')
            st = None if self.pk() == ')' else self.expr(); self.eat(')')
            return ('for', l, init, c, st, self.stmt())
        if p == 'while':
            self.nx(); self.eat('('); c = self.expr(); self.eat(')')
            return ('while', l, c, self.stmt())
        if p == 'do':
            self.nx(); b = self.stmt(); self.eat('while'); self.eat('('); c = self.expr(); self.eat(')'); self.eat(';')
            return ('do', l, b, c)
        if p == 'switch':
            self.nx(); self.eat('('); c = self.expr(); self.eat(')')
            return ('switch', l, c, self.block())
        if p == 'case':
            self.nx(); e = self.constexpr(self.cond()); self.eat(':'); return ('case', l, e)
        if p == 'default' : self.nx(); self.eat(':'); return ('default', l)
        if p == 'break': self.nx(); self.eat(';'); return ('break', l)
        if p == 'continue': self.nx(); self.eat(';'); return ('continue', l)
        if p == 'goto': self.nx(); n = self.nx().t; self.eat(';'); return ('goto', l, n)
        if p == 'return':
            self.nx(); e = None if self.pk() == ';' else self.expr(); self.eat(';'); return ('return', l, e)
        if t.k == 'id' and self.pk(1) == ':' and p not in ('default',):
            self.nx(); self.nx(); return ('label', l, p)
        if self.istype():
            st = self.i; static = p == 'static'
            ty = self.typ()
            if self.acc(';'): return ('block', l, [])
            ds = []
            while True:
                ptr = 0
                while self.acc('*'): ptr += 1
                nm = self.nx().t; dims = []
                while self.acc('['):
                    dims.append(None if self.pk() == ']' else self.constexpr(self.cond())); self.eat(']')
                init = None
                if self.acc('='):
                    init = self.init() if self.pk() == '{' else self.assign()
                if static: self.tables.append((nm, ty, dims, init, t.f, l, self.t[self.i].l))
                else: ds.append((nm, ('ptr', ty) if ptr else ty, dims, init))
                if not self.acc(','): break
            self.eat(';')
            return ('decl', l, ds)
        e = self.expr(); self.eat(';')
        return ('expr', l, e)
    def init(self):
        self.eat('{'); r = []
        while not self.acc('}'):
            if self.pk() == '{': r.append(self.init())
            else: r.append(self.constexpr(self.cond()))
            self.acc(',')
        return r
    def top(self):
        while self.i < len(self.t):
            t = self.t[self.i]
            if t.t == ';': self.nx(); continue
            st = self.i
            ty = self.typ()
            if self.acc(';'): continue
            ptr = 0
            while self.acc('*'): ptr += 1
            nm = self.nx().t
            if self.pk() == '(':
                self.nx(); ps = []
                while not self.acc(')'):
                    pt = self.typ(); pp = 0
                    while self.acc('*'): pp += 1
                    ps.append((self.nx().t if self.t[self.i].k == 'id' else None, ('ptr', pt) if pp else pt)); self.acc(',')
                if self.acc(';'): continue
                b = self.block()
                self.funcs.append(dict(name=nm, ret=ty, params=ps, body=b, file=t.f, l1=t.l, l2=self.t[self.i-1].l, enums=dict(self.enums)))
            else:
                dims = []
                while self.acc('['):
                    dims.append(None if self.pk() == ']' else self.constexpr(self.cond())); self.eat(']')
                init = None
                if self.acc('='): init = self.init()
                l2 = self.t[self.i].l
                self.eat(';')
                self.tables.append((nm, ty, dims, init, t.f, t.l, l2))

def load(root='/repo/lib', main='converters.h'):
    pp = PP(root)
    pp.macros['INT_MAX'] = (None, tokenize('2147483647', 'limits.h', 0))
    pp.macros['NULL'] = (None, tokenize('0', 'stddef.h', 0))
    pp.file(main)
    # drop everything up to the end of reiconv_defines.h structures
    toks = [t for t in pp.out if t.f.startswith('converters/')]
    p = Parser(toks)
    p.top()
    return pp, p

if __name__ == '__main__':
    pp, p = load()
    print(len(p.tables), len(p.funcs))
