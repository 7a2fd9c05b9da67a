"""Translate the converter functions of lib/converters/*.h into Gallina.

Pipeline: C subset AST (cfront.py) -> control-flow graph -> interval / definite-assignment / liveness analysis
-> Gallina.  Every join point that is not tiny becomes its own definition; cycles become fuelled fixpoints.
Nothing is simplified: out-of-range table or input reads, uninitialised reads and signed overflow become UB,
abort() becomes Abort, unsigned arithmetic wraps (the wrap is omitted only when the interval analysis shows
that the value is in range)."""
import sys, re, os
from cfront import load
sys.setrecursionlimit(10000)

TR = {}
for b in range(1, 33):
    TR['u%d' % b] = (0, 2**b - 1); TR['i%d' % b] = (-2**(b-1), 2**(b-1) - 1)
TR['size'] = (0, 2**64 - 1)

class Unsupported(Exception): pass

FIELDS = {'istate': 'ist', 'ibyteorder': 'ibo', 'ostate': 'ost'}

def promote(t):
    if t == 'bool': return 'i32'
    if t in ('u32', 'size', 'i32'): return t
    return 'i32'
def usual(a, b):
    a, b = promote(a), promote(b)
    if 'size' in (a, b): return 'size'
    if 'u32' in (a, b): return 'u32'
    return 'i32'

class Block:
    def __init__(self, i): self.id = i; self.ins = []; self.term = None; self.label = None

class Fn:
    """One C function being lowered."""
    def __init__(self, tr, f):
        self.tr = tr; self.f = f; self.name = f['name']
        self.forced_opt = set()
    # ---------- set-up
    def classify(self):
        ps = self.f['params']; names = [p[0] for p in ps]
        self.usesconv = self.tr.usesconv(self.name)
        t = [p[1] for p in ps]
        if len(ps) == 4 and t[1] == ('ptr', 'u32') and t[2] == ('ptr', 'u8'): self.kind = 'mb'
        elif len(ps) == 4 and t[1] == ('ptr', 'u8') and t[2] == 'u32': self.kind = 'wc'
        elif len(ps) == 2 and t[1] == ('ptr', 'u32'): self.kind = 'flush'
        elif len(ps) == 3 and t[1] == ('ptr', 'u8') and t[2] == 'size': self.kind = 'reset'
        elif len(ps) == 3 and t[1] == ('ptr', 'u32') and t[2] == 'u32': self.kind = 'decomp'
        else: self.kind = 'fn'
    def run(self):
        self.classify()
        while True:
            try:
                self.lower(); self.cse(); self.analyse(); break
            except Retry as r:
                if r.var in self.forced_opt: raise Unsupported('uninit %s' % r.var)
                self.forced_opt.add(r.var)
        return self.emit()
    def newblock(self):
        b = Block(len(self.blocks)); self.blocks.append(b); return b
    def declare(self, cname, kind):
        # choose a Gallina name for the C variable in the current scope
        inscope = {v for sc in self.scopes for v in sc.values()}
        nm = RENAME.get(cname, cname); k = 1; base = nm
        while nm in inscope or (nm in self.vars and self.vars[nm] != kind):
            k += 1; nm = '%s%s%d' % (base, '_', k)
        self.scopes[-1][cname] = nm
        if nm in self.forced_opt and kind[0] == 'int': kind = ('opt', kind[1])
        self.vars[nm] = kind
        return nm
    def look(self, cname):
        for sc in reversed(self.scopes):
            if cname in sc: return sc[cname]
        return None
    def tmp(self, ty):
        self.ntmp += 1; nm = 'x%d' % self.ntmp
        self.vars[nm] = ('int', ty); return nm
    def addr_taken(self, body):
        """C variables whose address is passed to a callee."""
        res = set()
        def walk(x):
            if isinstance(x, (tuple, list)):
                if len(x) == 3 and x[0] == 'call' and isinstance(x[2], list):
                    for i, a in enumerate(x[2]):
                        if isinstance(a, tuple) and a[:2] == ('un', '&') and a[2][0] == 'id':
                            fn = x[1][1]
                            res.add((a[2][1], 'pwc' if fn.endswith('mbtowc') and i == 1 else 'r' if fn.endswith('wctomb') and i == 1 else 's'))
                for y in x: walk(y)
        walk(body)
        return res
    def lower(self):
        self.blocks = []; self.vars = {}; self.scopes = [{}]; self.ntmp = 0
        self.labels = {}; self.brk = []; self.cont = []
        self.addr = self.addr_taken(self.f['body'])
        self.cur = self.newblock(); self.entry = self.cur
        k = self.kind
        ps = self.f['params']
        self.radv = False
        if k == 'mb':
            self.vars['pwc'] = ('opt', 'u32'); self.vars['s'] = ('list',); self.vars['n'] = ('nat',)
            self.scopes[-1].update({ps[1][0]: 'pwc', ps[2][0]: 's', ps[3][0]: 'n'})
            self.cparams = ['s', 'n']; self.results = ['pwc']
            if self.usesconv: self.cparams += ['ist', 'ibo']; self.results += ['ist', 'ibo']
            self.cur.ins.append(('none', 'pwc'))
        elif k == 'wc':
            self.vars['r'] = ('log', 'u8', None); self.vars['n'] = ('nat',)
            self.scopes[-1].update({ps[1][0]: 'r', ps[3][0]: 'n'})
            w = self.declare(ps[2][0], ('int', 'u32'))
            self.cparams = [w, 'n']; self.results = ['r']
            if self.usesconv: self.cparams += ['ost']; self.results += ['ost']
            self.cur.ins.append(('newlog', 'r'))
        elif k == 'flush':
            self.vars['pwc'] = ('opt', 'u32'); self.scopes[-1].update({ps[1][0]: 'pwc'})
            self.cparams = ['ist']; self.results = ['pwc', 'ist']; self.cur.ins.append(('none', 'pwc'))
        elif k == 'reset':
            self.vars['r'] = ('log', 'u8', None); self.vars['n'] = ('nat',)
            self.scopes[-1].update({ps[1][0]: 'r', ps[2][0]: 'n'})
            self.cparams = ['n', 'ost']; self.results = ['r', 'ost']; self.cur.ins.append(('newlog', 'r'))
        elif k == 'decomp':
            self.vars['r'] = ('log', 'u32', None); self.scopes[-1].update({ps[1][0]: 'r'})
            w = self.declare(ps[2][0], ('int', 'u32'))
            self.cparams = [w]; self.results = ['r']; self.cur.ins.append(('newlog', 'r'))
        else:
            self.cparams = [self.declare(p[0], ('int', p[1])) for p in ps]; self.results = []
        for v in ('ist', 'ibo', 'ost'): self.vars[v] = ('int', 'u32')
        # does the code move r?
        def moves(x):
            if isinstance(x, (tuple, list)):
                if len(x) >= 3 and x[0] in ('postinc', 'preinc') and x[2] in (('id', 'r'), ('id', 'p')): return True
                if len(x) >= 4 and x[0] == 'assign' and x[2] == ('id', 'r'): return True
                return any(moves(y) for y in x)
            return False
        self.radv = moves(self.f['body'])
        if self.radv:
            self.vars['ro'] = ('nat',); self.cur.ins.append(('setnat', 'ro', ('nc', 0)))
        self.stmt(self.f['body'])
        if self.cur is not None and self.cur.term is None:
            self.cur.term = ('noreturn',)
    # ---------- statements
    def jmp(self, b):
        if self.cur is not None and self.cur.term is None: self.cur.term = ('jmp', b)
    def start(self, b): self.cur = b
    def dead(self): return self.cur is None or self.cur.term is not None
    def label(self, n):
        if n not in self.labels:
            b = self.newblock(); b.label = n; self.labels[n] = b
        return self.labels[n]
    def stmt(self, s):
        k = s[0]
        if self.dead() and k not in ('label', 'case', 'default', 'block', 'decl'):
            # unreachable code: skip unless it contains labels
            if not self.haslabel(s): return
            self.cur = self.newblock()
        if k == 'block':
            self.scopes.append({})
            for x in s[2]: self.stmt(x)
            self.scopes.pop()
        elif k == 'decl':
            if self.dead(): self.cur = self.newblock()
            for nm, ty, dims, init in s[2]: self.decl(nm, ty, dims, init)
        elif k == 'expr': self.effect(s[2])
        elif k == 'if':
            bt = self.newblock(); bf = self.newblock(); self.lowcond(s[2], bt, bf)
            be = None
            self.start(bt); self.stmt(s[3])
            live1 = not self.dead(); c1 = self.cur
            self.start(bf)
            if s[4] is not None: self.stmt(s[4])
            live2 = not self.dead(); c2 = self.cur
            if live1 and live2:
                be = self.newblock(); c1.term = ('jmp', be); c2.term = ('jmp', be); self.cur = be
            elif live1: self.cur = c1
            elif live2: self.cur = c2
            else: self.cur = c2
        elif k in ('for', 'while'):
            self.scopes.append({})
            if k == 'for': init, c, st, body = s[2:6]
            else: init, c, st, body = None, s[2], None, s[3]
            if init is not None: self.effect(init)
            bh = self.newblock(); bx = self.newblock(); bs = self.newblock() if st is not None else bh
            self.jmp(bh); self.start(bh)
            bh.label = 'loop'
            if c is not None:
                bb = self.newblock(); self.lowcond(c, bb, bx); self.start(bb)
            self.brk.append(bx); self.cont.append(bs)
            self.stmt(body)
            self.brk.pop(); self.cont.pop()
            self.jmp(bs)
            if st is not None:
                self.start(bs); self.effect(st); self.jmp(bh)
            self.start(bx); self.scopes.pop()
        elif k == 'do':
            bh = self.newblock(); bx = self.newblock(); bc = self.newblock(); bh.label = 'loop'
            self.jmp(bh); self.start(bh)
            self.brk.append(bx); self.cont.append(bc)
            self.stmt(s[2]); self.jmp(bc)
            self.brk.pop(); self.cont.pop()
            self.start(bc); self.lowcond(s[3], bh, bx)
            self.start(bx)
        elif k == 'switch':
            e = self.low(s[2])
            # collect cases
            body = s[3][2]
            e = self.castto(e, promote(self.ty(e)))
            bx = self.newblock()
            blocks = {}; order = []
            default = None
            for x in body:
                if x[0] == 'case': blocks[x[2]] = self.newblock(); order.append(x[2])
                elif x[0] == 'default': default = self.newblock()
            ev = e
            if e[0] != 'v':
                t = self.tmp(self.ty(e)); self.cur.ins.append(('set', t, e)); ev = ('v', t)
            for v in order:
                nb = self.newblock()
                self.cur.term = ('br', ('cmp', '==', ev, ('c', v, self.ty(ev))), blocks[v], nb)
                self.cur = nb
            self.jmp(default if default is not None else bx)
            self.cur = None
            self.brk.append(bx)
            self.scopes.append({})
            for x in body:
                if x[0] == 'case':
                    if not self.dead(): self.jmp(blocks[x[2]])
                    self.start(blocks[x[2]])
                elif x[0] == 'default':
                    if not self.dead(): self.jmp(default)
                    self.start(default)
                else: self.stmt(x)
            self.scopes.pop()
            self.brk.pop()
            self.jmp(bx); self.start(bx)
        elif k == 'break': self.jmp(self.brk[-1])
        elif k == 'continue': self.jmp(self.cont[-1])
        elif k == 'goto': self.jmp(self.label(s[2]))
        elif k == 'label':
            b = self.label(s[2])
            if not self.dead(): self.jmp(b)
            self.start(b)
        elif k == 'return':
            e = s[2]
            if e[0] == 'cond' :
                bt = self.newblock(); bf = self.newblock(); self.lowcond(e[1], bt, bf)
                for b, x in ((bt, e[2]), (bf, e[3])):
                    self.start(b); v = self.castto(self.low(x), self.f['ret']); self.cur.term = ('ret', v)
                return
            if e == ('bin', '-', ('id', 'p'), ('id', 'r')) and self.kind == 'decomp':
                self.cur.term = ('ret', ('ofnat', ('nv', 'ro'))); return
            v = self.castto(self.low(e), self.f['ret'])
            self.cur.term = ('ret', v)
        else: raise Unsupported(k)
    def haslabel(self, s):
        if s[0] == 'label': return True
        return any(isinstance(x, (tuple, list)) and self._hl(x) for x in s)
    def _hl(self, x):
        if isinstance(x, tuple) and x and x[0] == 'label': return True
        return any(isinstance(y, (tuple, list)) and self._hl(y) for y in x)
    def decl(self, nm, ty, dims, init):
        if isinstance(ty, tuple) and ty[0] == 'ptr':
            if ty[1] == ('struct', 'Summary16'):
                v = self.declare(nm, ('sptr',))
                if init is None: raise Unsupported('uninit sptr')
                self.cur.ins.append(('sptr', v, self.sptr(init)))
                return
            if self.kind == 'decomp' and ty == ('ptr', 'u32') and init == ('id', 'r'):
                self.scopes[-1][nm] = 'r'; return
            raise Unsupported('pointer %s' % nm)
        if dims:
            v = self.declare(nm, ('log', ty, dims[0]))
            self.cur.ins.append(('newlog', v)); return
        if (nm, 'pwc') in self.addr:
            v = self.declare(nm, ('opt', ty)); 
            self.cur.ins.append(('none', v))
            if init is not None: self.setvar(v, init)
            return
        if (nm, 'r') in self.addr and ty == 'u8':
            v = self.declare(nm, ('log', ty, 1)); self.cur.ins.append(('newlog', v))
            if init is not None: raise Unsupported('init scalar log')
            return
        v = self.declare(nm, ('int', ty))
        if self.vars[v][0] == 'opt': self.cur.ins.append(('none', v))
        if init is not None: self.setvar(v, init)
        elif self.vars[v][0] == 'int': self.cur.ins.append(('kill', v))
    def sptr(self, e):
        if e[0] == 'num' and e[1] == 0: return None
        if e[0] == 'un' and e[1] == '&':
            e = e[2]
            if e[0] == 'idx' and e[1][0] == 'id': return (self.tr.tabname(e[1][1]), self.low(e[2]))
        raise Unsupported('sptr %r' % (e,))
    def setvar(self, v, rhs):
        kind = self.vars[v]
        if rhs[0] == 'cond' and not self.pure(rhs):
            bt, bf, bx = self.newblock(), self.newblock(), self.newblock()
            self.lowcond(rhs[1], bt, bf)
            for b, x in ((bt, rhs[2]), (bf, rhs[3])):
                self.start(b); self.setvar(v, x); self.jmp(bx)
            self.start(bx); return
        if kind[0] == 'sptr':
            self.cur.ins.append(('sptr', v, self.sptr(rhs))); return
        e = self.low(rhs)
        self.store(v, e)
    def store(self, v, e):
        kind = self.vars[v]
        if kind[0] == 'nat': self.cur.ins.append(('setnat', v, e)); return
        if kind[0] == 'log' and kind[2] == 1:
            self.cur.ins.append(('wr', v, ('nc', 0), self.castto(e, kind[1]))); return
        e = self.castto(e, kind[1])
        # peephole: load directly into v
        if kind[0] == 'int' and e[0] == 'v' and re.match(r'x\d+$', e[1]) and self.cur.ins and self.cur.ins[-1][0] in ('load', 'call') and self.cur.ins[-1][1] == e[1] \
           and TR[self.vars[e[1]][1]][0] >= TR[kind[1]][0] and TR[self.vars[e[1]][1]][1] <= TR[kind[1]][1]:
            i = self.cur.ins.pop(); self.cur.ins.append((i[0], v) + tuple(i[2:])); return
        self.cur.ins.append(('set' if kind[0] == 'int' else 'setopt', v, e))
    # ---------- expressions
    def ty(self, e):
        k = e[0]
        if k == 'v':
            kk = self.vars[e[1]]
            return 'size' if kk[0] == 'nat' else kk[1]
        if k == 'c': return e[2]
        if k == 'op': return e[4]
        if k == 'cast': return e[1]
        if k in ('cmp', 'and', 'or', 'lnot', 'isnull'): return 'bool'
        if k == 'b2z': return 'i32'
        if k == 'ite': return e[4]
        if k == 'ofnat': return 'i32'
        if k in ('nv', 'nc', 'nsub', 'ofint', 'nadd'): return 'size'
        raise Unsupported('ty %r' % (e,))
    def castto(self, e, t):
        if t in ('conv', 'void'): raise Unsupported('cast')
        et = self.ty(e)
        if et == t: return e
        if et == 'bool': e = ('b2z', e); et = 'i32'; return self.castto(e, t)
        if e[0] == 'c':
            lo, hi = TR[t]; v = e[1]
            if not lo <= v <= hi: v = v % (hi - lo + 1); v = v if v <= hi else v - (hi - lo + 1)
            return ('c', v, t)
        if t == 'size': return ('ofint', e)
        if et == 'size': raise Unsupported('size to int')
        return ('cast', t, e)
    def pure(self, e):
        k = e[0]
        if k == 'num': return True
        if k == 'id':
            if e[1] in self.f['enums']and self.look(e[1]) is None: return True
            v = self.look(e[1])
            if v is None: return False
            return self.vars[v][0] in ('int', 'nat', 'sptr')
        if k == 'un': return e[1] in '-+!~' and self.pure(e[2])
        if k == 'bin': return self.pure(e[2]) and self.pure(e[3])
        if k == 'cond': return all(self.pure(x) for x in e[1:])
        if k == 'cast': return not isinstance(e[1], tuple) and self.pure(e[2])
        if k in ('sizeof', 'sizeoft'): return True
        if k == 'arrow': return e[1] == ('id', 'conv')
        return False
    def tobool(self, e):
        if self.ty(e) == 'bool': return e
        if e[0] == 'c': return ('c', int(e[1] != 0), 'bool')
        return ('cmp', '!=', e, ('c', 0, self.ty(e)))
    def lowcond(self, e, bt, bf):
        """Branch on e."""
        k = e[0]
        if k == 'bin' and e[1] in ('&&', '||') and not self.pure(e):
            # pure conjunct prefix stays one test
            m = self.newblock()
            if e[1] == '&&': self.lowcond(e[2], m, bf)
            else: self.lowcond(e[2], bt, m)
            self.start(m); self.lowcond(e[3], bt, bf); return
        if k == 'un' and e[1] == '!' and not self.pure(e): self.lowcond(e[2], bf, bt); return
        if k == 'comma': self.effect(e[1]); self.lowcond(e[2], bt, bf); return
        if k == 'cond' and not self.pure(e):
            if self.pure(e[1]):
                c = self.tobool(self.low(e[1]))
                if c[0] == 'c': self.lowcond(e[2] if c[1] else e[3], bt, bf); return
            m1, m2 = self.newblock(), self.newblock()
            self.lowcond(e[1], m1, m2); self.start(m1); self.lowcond(e[2], bt, bf); self.start(m2); self.lowcond(e[3], bt, bf); return
        if k == 'id' and self.look(e[1]) and self.vars[self.look(e[1])][0] == 'sptr':
            self.cur.term = ('br', ('lnot', ('isnull', self.look(e[1]))), bt, bf); return
        c = self.tobool(self.low(e))
        if c[0] == 'c': self.cur.term = ('jmp', bt if c[1] else bf); return
        self.cur.term = ('br', c, bt, bf)
    def effect(self, e):
        k = e[0]
        if k == 'comma': self.effect(e[1]); self.effect(e[2]); return
        if k == 'assign': self.assign(e); return
        if k in ('postinc', 'preinc'): self.assign(('assign', '+=' if e[1] == '++' else '-=', e[2], ('num', 1, 'i32'))); return
        if k == 'cast' and e[1] == 'void': return
        if k == 'call' and e[1] == ('id', 'abort'): self.cur.term = ('abort',); return
        self.low(e)
    def assign(self, e):
        _, op, l, r = e
        # destination
        if l[0] == 'id':
            v = self.look(l[1])
            kind = self.vars[v]
            if kind[0] == 'list':
                if op != '+=': raise Unsupported('s assign')
                self.cur.ins.append(('skip', v, self.natof(self.low(r)))); return
            if kind[0] == 'log' and kind[2] is None:
                if op != '+=': raise Unsupported('r assign')
                self.cur.ins.append(('setnat', 'ro', ('nadd', ('nv', 'ro'), self.natof(self.low(r))))); return
            if op == '=': self.setvar(v, r); return
            if kind[0] == 'nat':
                if op != '-=': raise Unsupported('n op')
                self.cur.ins.append(('setnat', v, ('nsub', ('nv', v), self.natof(self.low(r))))); return
            cur = self.low(l)
            self.store(v, self.binop(op[:-1], cur, self.low(r))); return
        if l[0] == 'arrow' and l[1] == ('id', 'conv'):
            v = FIELDS[l[2]]
            if op == '=': self.setvar(v, r)
            else: self.store(v, self.binop(op[:-1], ('v', v), self.low(r)))
            return
        # *pwc
        if l == ('un', '*', ('id', 'pwc')):
            if op != '=': raise Unsupported('*pwc op')
            self.setvar('pwc', r); return
        # *(unsigned short* ) r
        if l[0] == 'un' and l[1] == '*' and l[2][0] == 'cast' and isinstance(l[2][1], tuple):
            ty = l[2][1][1]; v = self.look(l[2][2][1])
            e = self.castto(self.low(r), ty)
            t = self.tmp(ty); self.cur.ins.append(('set', t, e))
            for i in range({'u16': 2, 'u32': 4}[ty]):
                x = ('op', '>>', ('v', t), ('c', 8*i, 'i32'), 'u32') if i else ('v', t)
                self.cur.ins.append(('wr', v, ('nc', i), ('cast', 'u8', x)))
            return
        # *r, *r++, r[i], buf[i]
        adv = 0
        if l[0] == 'un' and l[1] == '*':
            p = l[2]
            if p[0] == 'postinc': adv = 1; p = p[2]
            base = p; off = ('num', 0, 'i32')
        elif l[0] == 'idx': base, off = l[1], l[2]
        else: raise Unsupported('lhs %r' % (l,))
        if base[0] != 'id': raise Unsupported('lhs base')
        v = self.look(base[1]); kind = self.vars[v]
        if kind[0] != 'log': raise Unsupported('lhs %s' % v)
        o = self.logoff(v, self.natof(self.low(off)))
        if op == '=':
            if r[0] == 'cond' and not self.pure(r):
                t = self.tmp(kind[1]); self.setvar(t, r); val = ('v', t)
            else: val = self.low(r)
        else:
            t = self.tmp(kind[1]); self.cur.ins.append(('load', t, 'log', v, o))
            val = self.binop(op[:-1], ('v', t), self.low(r))
        self.cur.ins.append(('wr', v, o, self.castto(val, kind[1])))
        if adv: self.cur.ins.append(('setnat', 'ro', ('nadd', ('nv', 'ro'), ('nc', 1))))
    def logoff(self, v, o):
        if self.vars[v][2] is None and self.radv:
            return ('nadd', ('nv', 'ro'), o)
        return o
    def natof(self, e):
        if e[0] == 'c': return ('nc', e[1])
        if e[0] == 'v' and self.vars[e[1]][0] == 'nat': return ('nv', e[1])
        if self.ty(e) == 'size': return e
        return ('ofint', e)
    def binop(self, op, a, b):
        if op in ('<', '>', '<=', '>=', '==', '!='):
            t = usual(self.ty(a), self.ty(b))
            if t == 'size': return ('cmp', op, self.natof(a), self.natof(b))
            return ('cmp', op, self.castto(a, t), self.castto(b, t))
        if op in ('<<', '>>'):
            t = promote(self.ty(a)); return ('op', op, self.castto(a, t), self.castto(b, promote(self.ty(b))), t)
        t = usual(self.ty(a), self.ty(b))
        if t == 'size':
            if op == '-': return ('nsub', self.natof(a), self.natof(b))
            if op == '+': return ('nadd', self.natof(a), self.natof(b))
            raise Unsupported('size op ' + op)
        a, b = self.castto(a, t), self.castto(b, t)
        if a[0] == 'c' and b[0] == 'c':
            v = {'+': a[1]+b[1], '-': a[1]-b[1], '*': a[1]*b[1], '&': a[1] & b[1], '|': a[1] | b[1], '^': a[1] ^ b[1], '/': a[1]//b[1] if b[1] else None, '%': a[1] % b[1] if b[1] else None}[op]
            lo, hi = TR[t]
            if lo <= v <= hi: return ('c', v, t)
        return ('op', op, a, b, t)
    def load(self, *a, ty):
        t = self.tmp(ty); self.cur.ins.append(('load', t) + a); return ('v', t)
    def tabref(self, e):
        """Resolve an lvalue into a constant table: (table, index AST-IR, elemtype) or None."""
        # forms: T[i], T[i].f, T[i].f[j], T[i][j]
        if e[0] == 'idx' and e[1][0] == 'id' and self.tr.istab(e[1][1]) and self.look(e[1][1]) is None:
            t = self.tr.tab(e[1][1])
            return t, self.low(e[2]), t['stride'], 0, t['ty']
        if e[0] == 'idx' and e[1][0] == 'idx':
            r = self.tabref(e[1])
            if r:
                t, i, st, off, ty = r
                j = self.low(e[2])
                if j[0] != 'c': raise Unsupported('2d idx')
                return t, i, st, off + j[1], ty
        if e[0] == 'dot':
            r = self.tabref(e[1])
            if r:
                t, i, st, off, ty = r
                o = 0
                for fn, fty, cnt in self.tr.p.structs[t['struct']]:
                    if fn == e[2]: return t, i, st, off + o, fty
                    o += cnt
        if e[0] == 'idx' and e[1][0] == 'dot':
            r = self.tabref(e[1])
            if r:
                t, i, st, off, ty = r
                j = self.low(e[2])
                return t, i, st, off + j[1], ty
        return None
    def low(self, e):
        k = e[0]
        if k == 'num': return ('c', e[1], e[2])
        if k == 'id':
            v = self.look(e[1])
            if v is None:
                if e[1] in self.f['enums']: return ('c', self.f['enums'][e[1]], 'i32')
                raise Unsupported('unknown %s' % e[1])
            kind = self.vars[v]
            if kind[0] == 'int': return ('v', v)
            if kind[0] == 'opt': return self.load('opt', v, ty=kind[1])
            if kind[0] == 'nat': return ('nv', v)
            if kind[0] == 'log' and kind[2] == 1: return self.load('log', v, ('nc', 0), ty=kind[1])
            raise Unsupported('value of %s' % v)
        if k == 'arrow':
            if e[1] == ('id', 'conv'): return ('v', FIELDS[e[2]])
            v = self.look(e[1][1])
            if self.vars[v][0] == 'sptr': return self.load('sum', v, {'indx': 0, 'used': 1}[e[2]], ty='u16')
        if k == 'cond':
            if self.pure(e[1]):
                c = self.tobool(self.low(e[1]))
                if c[0] == 'c': return self.low(e[2] if c[1] else e[3])
            if self.pure(e):
                c = self.tobool(self.low(e[1])); a, b = self.low(e[2]), self.low(e[3])
                t = usual(self.ty(a), self.ty(b))
                return ('ite', c, self.castto(a, t), self.castto(b, t), t)
            bt, bf, bx = self.newblock(), self.newblock(), self.newblock()
            self.lowcond(e[1], bt, bf)
            t = self.tmp('i32'); tys = []
            for b, x in ((bt, e[2]), (bf, e[3])):
                self.start(b); v = self.low(x); tys.append(self.ty(v))
                v = self.castto(v, promote(self.ty(v)))
                self.cur.ins.append(('set', t, v)); self.jmp(bx)
            self.vars[t] = ('int', usual(tys[0], tys[1]))
            self.start(bx); return ('v', t)
        if k == 'un':
            op = e[1]
            if op == '*':
                p = e[2]
                if p == ('id', 'pwc'): return self.load('opt', 'pwc', ty='u32')
                if p[0] == 'cast' and isinstance(p[1], tuple):
                    ty = p[1][1]; v = self.look(p[2][1]); acc = None
                    for i in range({'u16': 2, 'u32': 4}[ty]):
                        x = self.load('s', v, ('nc', i), ty='u8'); x = ('cast', 'u32', x)
                        if i: x = ('op', '<<', x, ('c', 8*i, 'i32'), 'u32')
                        acc = x if acc is None else ('op', '|', acc, x, 'u32')
                    return ('cast', ty, acc)
                return self.low(('idx', p, ('num', 0, 'i32')))
            a = self.low(e[2])
            if op == '-':
                a = self.castto(a, promote(self.ty(a)))
                if a[0] == 'c': return self.castto(('c', -a[1], 'i32') if self.ty(a) == 'i32' else ('c', -a[1] % 2**32, 'u32'), self.ty(a))
                return ('op', '-', ('c', 0, self.ty(a)), a, self.ty(a))
            if op == '+': return self.castto(a, promote(self.ty(a)))
            if op == '!': return ('lnot', self.tobool(a))
            if op == '~' and a[0] == 'c': return ('c', ~a[1], 'i32') if self.ty(a) == 'i32' else ('c', ~a[1] % 2**32, 'u32')
            raise Unsupported('unary %s' % op)
        if k == 'bin':
            op = e[1]
            if op in ('&&', '||'):
                if self.pure(e):
                    a, b = self.tobool(self.low(e[2])), self.tobool(self.low(e[3]))
                    return ('and' if op == '&&' else 'or', a, b)
                bt, bf, bx = self.newblock(), self.newblock(), self.newblock()
                self.lowcond(e, bt, bf); t = self.tmp('i32')
                for b, x in ((bt, 1), (bf, 0)):
                    self.start(b); self.cur.ins.append(('set', t, ('c', x, 'i32'))); self.jmp(bx)
                self.start(bx); return ('v', t)
            if op == '/' and e[2][0] == 'sizeof': 
                return ('c', self.sizeof(e[2]) // self.sizeof(e[3]), 'u32')
            a = self.low(e[2]); b = self.low(e[3])
            return self.binop(op, a, b)
        if k == 'cast':
            if isinstance(e[1], tuple): raise Unsupported('ptr cast')
            a = self.low(e[2])
            if self.ty(a) == 'bool': a = ('b2z', a)
            return self.castto(a, e[1])
        if k == 'sizeoft': return ('c', {'u32': 4, 'i32': 4, 'u16': 2, 'u8': 1}[e[1]], 'u32')
        if k == 'idx' or k == 'dot':
            r = self.tabref(e)
            if r:
                t, i, st, off, ty = r
                return self.load('tab', t['name'], i, st, off, ty=ty)
            if k == 'idx' and e[1][0] == 'id':
                v = self.look(e[1][1])
                if v is None: raise Unsupported('idx of %s' % e[1][1])
                kind = self.vars[v]
                if kind[0] == 'list': return self.load('s', v, self.natof(self.low(e[2])), ty='u8')
                if kind[0] == 'log': return self.load('log', v, self.logoff(v, self.natof(self.low(e[2]))), ty=kind[1])
            raise Unsupported('idx %r' % (e,))
        if k == 'preinc':
            self.effect(e)
            return self.low(e[2])
        if k == 'assign':
            self.assign(e); return self.low(e[2])
        if k == 'comma':
            self.effect(e[1]); return self.low(e[2])
        if k == 'call': return self.call(e)
        raise Unsupported('low %s' % k)
    def sizeof(self, e):
        x = e[1]
        if x[0] == 'id': t = self.tr.tab(x[1]); return len(t['vals'])
        if x[0] == 'idx': t = self.tr.tab(x[1][1]); return t['stride']
        raise Unsupported('sizeof')
    def call(self, e):
        fn = e[1][1]; args = e[2]
        if fn not in self.tr.fn: raise Unsupported('call %s' % fn)
        g = self.tr.getfn(fn)
        def sarg(a):
            off = ('nc', 0)
            if a[0] == 'bin' and a[1] == '+': off = self.natof(self.low(a[3])); a = a[2]
            if a[0] == 'un' and a[1] == '&': a = a[2]
            v = self.look(a[1]); return v, off
        ret = g.f['ret']
        if g.kind == 'mb':
            pw = args[1]; pv = 'pwc' if pw == ('id', 'pwc') else self.look(pw[2][1])
            sv, so = sarg(args[2]); n = self.natof(self.low(args[3]))
            t = self.tmp(ret)
            self.cur.ins.append(('call', t, 'mb', fn, pv, sv, so, n, g.usesconv)); return ('v', t)
        if g.kind == 'wc':
            rv, ro = sarg(args[1]); wc = self.castto(self.low(args[2]), 'u32'); n = self.natof(self.low(args[3]))
            ro = self.logoff(rv, ro)
            t = self.tmp(ret)
            self.cur.ins.append(('call', t, 'wc', fn, rv, ro, wc, n, g.usesconv)); return ('v', t)
        if g.kind == 'decomp':
            rv, ro = sarg(args[1]); wc = self.castto(self.low(args[2]), 'u32')
            t = self.tmp(ret)
            self.cur.ins.append(('call', t, 'decomp', fn, rv, ro, wc)); return ('v', t)
        if g.kind == 'fn':
            xs = [self.castto(self.low(a), p[1]) for a, p in zip(args, g.f['params'])]
            t = self.tmp(ret)
            self.cur.ins.append(('call', t, 'fn', fn, xs)); return ('v', t)
        raise Unsupported('call kind %s' % g.kind)
    # ---------- analysis
    def iv(self, e, env):
        k = e[0]
        if k == 'v':
            if self.vars[e[1]][0] == 'nat': return TR['size']
            if e[1] not in env: raise Retry(e[1])
            return env[e[1]]
        if k == 'c': return (e[1], e[1])
        if k in ('cmp', 'and', 'or', 'lnot', 'isnull', 'b2z'): 
            self.ivb(e, env); return (0, 1)
        if k == 'cast':
            a = self.iv(e[2], env); lo, hi = TR[e[1]]
            if lo <= a[0] and a[1] <= hi: return a
            return (lo, hi)
        if k == 'ite':
            self.ivb(e[1], env)
            et = self.refine(dict(env), e[1], True); ef = self.refine(dict(env), e[1], False)
            a = self.iv(e[2], et); b = self.iv(e[3], ef); return (min(a[0], b[0]), max(a[1], b[1]))
        if k == 'ofnat': return (0, 2**31 - 1)
        if k in ('nv', 'nc', 'nsub', 'nadd', 'ofint'): return TR['size']
        raw = self.raw(e, env); lo, hi = TR[e[4]]
        if lo <= raw[0] and raw[1] <= hi: return raw
        if e[4] == 'u32': return (lo, hi)
        return (max(lo, raw[0]), min(hi, raw[1]))
    def ivb(self, e, env):
        k = e[0]
        if k in ('and', 'or'):
            self.ivb(e[1], env); self.ivb(e[2], self.refine(dict(env), e[1], k == 'and'))
        elif k in ('lnot', 'b2z'): self.ivb(e[1], env)
        elif k == 'cmp':
            for x in e[2:4]:
                if self.ty(x) != 'size': self.iv(x, env)
                else: self.ivn(x, env)
    def ivn(self, e, env):
        if e[0] == 'ofint': self.iv(e[1], env)
        elif e[0] in ('nsub', 'nadd'): self.ivn(e[1], env); self.ivn(e[2], env)
    def raw(self, e, env):
        op = e[1]; a = self.iv(e[2], env); b = self.iv(e[3], env)
        if op == '+': return (a[0]+b[0], a[1]+b[1])
        if op == '-': return (a[0]-b[1], a[1]-b[0])
        if op == '*':
            c = [x*y for x in a for y in b]; return (min(c), max(c))
        if op == '/':
            if a[0] < 0 or b[0] <= 0: raise Unsupported('div range')
            return (a[0]//b[1], a[1]//b[0])
        if op == '%':
            if a[0] < 0 or b[0] <= 0: raise Unsupported('mod range')
            return (0, min(a[1], b[1]-1))
        if op == '<<':
            if b[0] < 0 or b[1] > 31: b = (max(b[0], 0), min(b[1], 31))
            if a[0] < 0: raise Unsupported('shl range %r %r' % (a, b))
            return (a[0] << b[0], a[1] << b[1])
        if op == '>>':
            if b[0] < 0 or b[1] > 31: b = (max(b[0], 0), min(b[1], 31))
            if a[0] < 0: raise Unsupported('shr range %r %r in %s' % (a, b, e))
            return (a[0] >> b[1], a[1] >> b[0])
        if op == '&':
            if a[0] < 0 and b[0] < 0: raise Unsupported('and range')
            his = [x[1] for x in (a, b) if x[0] >= 0]
            return (0, min(his))
        if a[0] < 0 or b[0] < 0: raise Unsupported('bit op range')
        m = (1 << max(a[1].bit_length(), b[1].bit_length())) - 1
        return (max(a[0], b[0]) if op == '|' else 0, m)
    def refine(self, env, c, val):
        """Refine intervals of variables knowing that condition c evaluates to val (None = contradiction)."""
        k = c[0]
        if k == 'lnot': return self.refine(env, c[1], not val)
        if k == 'and' and val or k == 'or' and not val:
            env = self.refine(env, c[1], val)
            return self.refine(env, c[2], val)
        if k == 'and' or k == 'or':
            e1 = self.refine(dict(env), c[1], val)
            e2 = self.refine(self.refine(dict(env), c[1], not val), c[2], val)
            out = {}
            for v in env: out[v] = (min(e1[v][0], e2[v][0]), max(e1[v][1], e2[v][1]))
            return out
        if k == 'cmp':
            op = c[1]; a, b = c[2], c[3]
            if self.ty(a) == 'size': return env
            if not val: op = {'<': '>=', '>=': '<', '>': '<=', '<=': '>', '==': '!=', '!=': '=='}[op]
            self.ref1(env, a, op, b)
            self.ref1(env, b, {'<': '>', '>': '<', '<=': '>=', '>=': '<=', '==': '==', '!=': '!='}[op], a)
        return env
    def ref1(self, env, a, op, b):
        while a[0] == 'cast':
            i = self.iv(a[2], env); lo, hi = TR[a[1]]
            if lo <= i[0] and i[1] <= hi: a = a[2]
            else: return
        if a[0] != 'v' or a[1] not in env: return
        bi = self.iv(b, env); lo, hi = env[a[1]]
        if op == '<': hi = min(hi, bi[1]-1)
        elif op == '<=': hi = min(hi, bi[1])
        elif op == '>': lo = max(lo, bi[0]+1)
        elif op == '>=': lo = max(lo, bi[0])
        elif op == '==': lo = max(lo, bi[0]); hi = min(hi, bi[1])
        elif op == '!=' and bi[0] == bi[1]:
            if lo == bi[0]: lo += 1
            if hi == bi[0]: hi -= 1
        if lo > hi: return   # contradiction: branch unreachable; keep old
        env[a[1]] = (lo, hi)
    def transfer(self, i, env):
        k = i[0]
        if k == 'set': env[i[1]] = self.iv(i[2], env)
        elif k == 'setopt': self.iv(i[2], env)
        elif k == 'kill': env.pop(i[1], None)
        elif k == 'load':
            d = i[1]
            if i[2] == 'tab':
                t = self.tr.tab(i[3]); self.iv(i[4], env)
                vals = t['vals'][i[6]::i[5]]
                env[d] = (min(vals), max(vals))
            else:
                if i[2] in ('s', 'log'): self.ivn(i[4], env)
                env[d] = TR[{'s': 'u8'}.get(i[2]) or (self.vars[i[3]][1] if i[2] in ('log', 'opt') else 'u16')]
        elif k == 'call':
            env[i[1]] = TR[self.tr.getfn(i[3]).f['ret']]
            if i[2] == 'fn':
                for x in i[4]: self.iv(x, env)
            elif i[2] in ('wc', 'decomp'): self.iv(i[6], env)
            if i[2] in ('mb', 'wc') and i[-1]:
                for v in (('ist', 'ibo') if i[2] == 'mb' else ('ost',)): env[v] = TR['u32']
            if i[2] in ('mb', 'wc'): self.ivn(i[7], env)
        elif k == 'wr': self.iv(i[3], env); self.ivn(i[2], env)
        elif k == 'sptr' and i[2]: self.iv(i[2][1], env)
        elif k in ('skip', 'setnat'): self.ivn(i[2], env)
    def succs(self, b):
        t = b.term
        return [t[1]] if t[0] == 'jmp' else [t[2], t[3]] if t[0] == 'br' else []
    def cse(self):
        """Drop a second read of the same location when nothing changed in between."""
        for b in self.blocks:
            if b.term is None: b.term = ('noreturn',)
        ndef = {}
        for b in self.blocks:
            for i in b.ins:
                for d in self.defuse(i)[0]: ndef[d] = ndef.get(d, 0) + 1
        def key(i):
            if i[0] == 'load' and i[2] in ('s', 'opt', 'log', 'tab'): return i[2:]
        def step(b, av, rewrite):
            out = []
            for i in b.ins:
                k = key(i)
                if k is not None and k in av and rewrite and re.match(r'x\d+$', i[1]) and ndef[i[1]] == 1 and ndef[av[k]] == 1:
                    self.alias[i[1]] = av[k]; continue
                d, _ = self.defuse(i)
                hit = k is not None and k in av
                av = {kk: y for kk, y in av.items() if y not in d and not (self.fv(kk) | {kk[1]}) & d}
                if k is not None and not hit and i[1] not in self.fv(k): av[k] = i[1]
                out.append(i)
            if rewrite: b.ins = out
            return av
        preds = {}; 
        seen = {self.entry.id}; order = [self.entry]
        for b in order:
            for t in self.succs(b):
                preds.setdefault(t.id, []).append(b)
                if t.id not in seen: seen.add(t.id); order.append(t)
        inn = {self.entry.id: {}}; outm = {}
        changed = True
        while changed:
            changed = False
            for b in order:
                if b is self.entry: av = {}
                else:
                    ps = [outm[q.id] for q in preds[b.id] if q.id in outm]
                    av = dict(ps[0]) if ps else {}
                    for q in ps[1:]: av = {k: y for k, y in av.items() if q.get(k) == y}
                inn[b.id] = av
                o = step(b, dict(av), False)
                if outm.get(b.id) != o: outm[b.id] = o; changed = True
        self.alias = {}
        for b in order: step(b, dict(inn[b.id]), True)
        def sub(x):
            if isinstance(x, tuple):
                if len(x) == 2 and x[0] == 'v' and x[1] in self.alias: return ('v', self.alias[x[1]])
                return tuple(y if isinstance(y, (str, int, Block)) or y is None else sub(y) for y in x)
            if isinstance(x, list): return [sub(y) for y in x]
            return x
        for b in order:
            b.ins = [sub(i) for i in b.ins]; b.term = sub(b.term)
    def analyse(self):
        # reachable blocks, thread trivial jumps
        def thread(b, seen=()):
            while not b.ins and b.term and b.term[0] == 'jmp' and b.term[1] is not b and b not in seen:
                seen = seen + (b,); 
                if b.term[1].label is None and b.label: b.term[1].label = b.label
                b = b.term[1]
            return b
        for b in self.blocks:
            if b.term is None: b.term = ('noreturn',)
        for b in self.blocks:
            t = b.term
            if t[0] == 'jmp': b.term = ('jmp', thread(t[1]))
            elif t[0] == 'br':
                b.term = ('br', t[1], thread(t[2]), thread(t[3]))
                if b.term[2] is b.term[3]: b.term = ('jmp', b.term[2])
        self.entry = thread(self.entry)
        env0 = {}
        for p in self.cparams:
            if self.vars[p][0] == 'int': env0[p] = TR[self.vars[p][1]]
        self.inenv = {self.entry.id: env0}; visits = {}
        work = [self.entry]
        while work:
            b = work.pop(0)
            env = dict(self.inenv[b.id])
            for i in b.ins: self.transfer(i, env)
            outs = []
            t = b.term
            if t[0] == 'jmp': outs = [(t[1], env)]
            elif t[0] == 'br':
                self.ivb(t[1], env)
                outs = [(t[2], self.refine(dict(env), t[1], True)), (t[3], self.refine(dict(env), t[1], False))]
            elif t[0] == 'ret': self.iv(t[1], env)
            for s, e in outs:
                if s.id not in self.inenv: self.inenv[s.id] = e; work.append(s)
                else:
                    old = self.inenv[s.id]; new = {}
                    visits[s.id] = visits.get(s.id, 0) + 1
                    for v in old:
                        if v in e:
                            lo, hi = min(old[v][0], e[v][0]), max(old[v][1], e[v][1])
                            if visits[s.id] > 40:
                                tl, th = TR[self.vars[v][1]]
                                if lo < old[v][0]: lo = 0 if lo >= 0 else tl
                                if hi > old[v][1]: hi = th
                            new[v] = (lo, hi)
                    if new != old: self.inenv[s.id] = new; work.append(s)
        self.reach = [b for b in self.blocks if b.id in self.inenv]
        # liveness
        use = {}; 
        self.livein = {b.id: set() for b in self.reach}
        changed = True
        while changed:
            changed = False
            for b in reversed(self.reach):
                l = set()
                for s in self.succs(b): l |= self.livein[s.id]
                if b.term[0] == 'ret': l |= set(self.results) | self.fv(b.term[1])
                elif b.term[0] == 'br': l |= self.fv(b.term[1])
                for i in reversed(b.ins):
                    d, u = self.defuse(i); l = (l - d) | u
                if l != self.livein[b.id]: self.livein[b.id] = l; changed = True
        self.preds = {b.id: 0 for b in self.reach}
        for b in self.reach:
            for s in self.succs(b): self.preds[s.id] += 1
        self.preds[self.entry.id] += 0
        # SCCs
        idx = {}; low = {}; st = []; on = set(); self.scc = {}; comps = []
        def sc(b):
            idx[b.id] = low[b.id] = len(idx); st.append(b); on.add(b.id)
            for s in self.succs(b):
                if s.id not in idx: sc(s); low[b.id] = min(low[b.id], low[s.id])
                elif s.id in on: low[b.id] = min(low[b.id], idx[s.id])
            if low[b.id] == idx[b.id]:
                c = []
                while True:
                    x = st.pop(); on.discard(x.id); c.append(x)
                    if x is b: break
                comps.append(c)
        sc(self.entry)
        self.comps = comps
        for n, c in enumerate(comps):
            cyc = len(c) > 1 or c[0] in self.succs(c[0])
            for b in c: self.scc[b.id] = (n, cyc)
    def fv(self, e):
        if isinstance(e, tuple):
            if len(e) == 2 and e[0] in ('v', 'nv', 'isnull'): return {e[1]}
            r = set()
            for x in e[1:] if e and isinstance(e[0], str) else e: r |= self.fv(x)
            return r
        if isinstance(e, list):
            r = set()
            for x in e: r |= self.fv(x)
            return r
        return set()
    def defuse(self, i):
        k = i[0]
        if k in ('set', 'setopt', 'setnat'): return {i[1]}, self.fv(i[2])
        if k in ('none', 'newlog', 'kill'): return {i[1]}, set()
        if k == 'skip': return {i[1]}, {i[1]} | self.fv(i[2])
        if k == 'wr': return {i[1]}, {i[1]} | self.fv(i[2]) | self.fv(i[3])
        if k == 'sptr': return {i[1]}, (self.fv(i[2][1]) if i[2] else set())
        if k == 'load':
            if i[2] == 'tab': return {i[1]}, self.fv(i[4])
            return {i[1]}, {i[3]} | (self.fv(i[4]) if i[2] in ('s', 'log') else set())
        if k == 'call':
            if i[2] == 'mb':
                d = {i[1], i[4]}; u = {i[4], i[5]} | self.fv(i[6]) | self.fv(i[7])
                if i[8]: d |= {'ist', 'ibo'}; u |= {'ist', 'ibo'}
                return d, u
            if i[2] == 'wc':
                d = {i[1], i[4]}; u = {i[4]} | self.fv(i[5]) | self.fv(i[6]) | self.fv(i[7])
                if i[8]: d |= {'ost'}; u |= {'ost'}
                return d, u
            if i[2] == 'decomp': return {i[1], i[4]}, {i[4]} | self.fv(i[5]) | self.fv(i[6])
            if i[2] == 'fn': return {i[1]}, self.fv(i[4])
        raise Unsupported('defuse %s' % k)
    # ---------- emission
    def E(self, e, env, pre):
        """Gallina text of a pure expression; pre collects binders for signed overflow checks."""
        k = e[0]
        if k == 'v': return e[1]
        if k == 'c':
            if e[2] == 'bool': return 'true' if e[1] else 'false'
            return '(%d)' % e[1] if e[1] < 0 else (hexs(e[1]))
        if k == 'cast':
            a = self.iv(e[2], env); lo, hi = TR[e[1]]; s = self.E(e[2], env, pre)
            if lo <= a[0] and a[1] <= hi: return s
            return '(%s %s)' % ({'u8': 'u8', 'u16': 'u16', 'u32': 'u32', 'i32': 's32'}[e[1]], s)
        if k == 'b2z': return '(b2z %s)' % self.B(e[1], env, pre)
        if k in ('cmp', 'and', 'or', 'lnot', 'isnull'): return self.B(e, env, pre)
        if k == 'ite':
            c = self.B(e[1], env, pre)
            p1 = []; a = self.E(e[2], self.refine(dict(env), e[1], True), p1); b = self.E(e[3], self.refine(dict(env), e[1], False), p1)
            if p1: raise Unsupported('overflow in ite')
            return '(if %s then %s else %s)' % (c, a, b)
        if k == 'ofnat': return '(Z.of_nat %s)' % self.N(e[1], env, pre)
        if k != 'op': raise Unsupported('E %s' % k)
        op = e[1]; a = self.E(e[2], env, pre); b = self.E(e[3], env, pre)
        if op in ('<<', '>>'):
            bi = self.iv(e[3], env)
            if bi[0] < 0 or bi[1] > 31:
                self.nck += 1; t = 'k%d' % self.nck
                pre.append('shck %s (fun %s =>' % (b, t)); b = t
        s = {'+': '(%s + %s)', '-': '(%s - %s)', '*': '(%s * %s)', '/': '(%s / %s)', '%': '(%s mod %s)', '<<': '(Z.shiftl %s %s)', '>>': '(Z.shiftr %s %s)',
             '&': '(Z.land %s %s)', '|': '(Z.lor %s %s)', '^': '(Z.lxor %s %s)'}[op] % (a, b)
        raw = self.raw(e, env); lo, hi = TR[e[4]]
        if lo <= raw[0] and raw[1] <= hi: return s
        if e[4] == 'u32': return '(u32 %s)' % s
        self.nck += 1; t = 'k%d' % self.nck
        pre.append('ck %s (fun %s =>' % (s, t)); return t
    def B(self, e, env, pre):
        k = e[0]
        if k == 'c': return 'true' if e[1] else 'false'
        if k in ('and', 'or'):
            a = self.B(e[1], env, pre)
            p1 = []; b = self.B(e[2], self.refine(dict(env), e[1], k == 'and'), p1)
            if p1: raise Unsupported('overflow in && rhs')
            return '(%s %s %s)' % (a, '&&&' if k == 'and' else '|||', b)
        if k == 'lnot': return '(negb %s)' % self.B(e[1], env, pre)
        if k == 'isnull': return '(isnull %s)' % e[1]
        if k == 'cmp':
            op = e[1]
            if self.ty(e[2]) == 'size':
                a, b = self.N(e[2], env, pre), self.N(e[3], env, pre)
                return {'<': '(Nat.ltb %s %s)' % (a, b), '>': '(Nat.ltb %s %s)' % (b, a), '<=': '(Nat.leb %s %s)' % (a, b), '>=': '(Nat.leb %s %s)' % (b, a),
                        '==': '(Nat.eqb %s %s)' % (a, b), '!=': '(negb (Nat.eqb %s %s))' % (a, b)}[op]
            a, b = self.E(e[2], env, pre), self.E(e[3], env, pre)
            return {'<': '(%s <? %s)', '>': '(%s >? %s)', '<=': '(%s <=? %s)', '>=': '(%s >=? %s)', '==': '(%s =? %s)', '!=': '(negb (%s =? %s))'}[op] % (a, b)
        raise Unsupported('B %s' % k)
    def N(self, e, env, pre):
        k = e[0]
        if k == 'nv': return e[1]
        if k == 'nc': return '%d%%nat' % e[1]
        if k == 'nadd':
            if e[2] == ('nc', 0): return self.N(e[1], env, pre)
            if e[1][0] == 'nc' and e[2][0] == 'nc': return '%d%%nat' % (e[1][1] + e[2][1])
            return '(Nat.add %s %s)' % (self.N(e[1], env, pre), self.N(e[2], env, pre))
        if k == 'nsub':
            a, b = self.N(e[1], env, pre), self.N(e[2], env, pre)
            self.nck += 1; t = 'k%d' % self.nck
            pre.append('nsub %s %s (fun %s =>' % (a, b, t)); return t
        if k == 'ofint':
            if e[1][0] == 'cast' and False: pass
            i = self.iv(e[1], env)
            if i[0] < 0: raise Unsupported('negative size %r' % (e,))
            return '(Z.to_nat %s)' % self.E(e[1], env, pre)
        raise Unsupported('N %s' % k)
    def params(self, b):
        order = ['s', 'n', 'ro', 'r', 'pwc', 'ist', 'ibo', 'ost']
        return sorted(self.livein[b.id], key=lambda v: (order.index(v) if v in order else -1, v))
    def coqty(self, v):
        k = self.vars[v]
        return {'int': 'Z', 'opt': 'option Z', 'log': 'wlog', 'list': 'list Z', 'nat': 'nat', 'sptr': 'option (tab * Z)'}[k[0]]
    def fuel(self):
        if self.name in FUEL: return FUEL[self.name]
        return '(8 + 4 * n)%nat' if self.kind == 'mb' and 'iso2022' in self.name or self.name in ('utf7_mbtowc', 'hz_mbtowc', 'ucs2_mbtowc', 'ucs4_mbtowc', 'utf16_mbtowc', 'utf32_mbtowc') else '64%nat'
    def emit(self):
        self.nck = 0
        self.names = {}
        rt = {'mb': 'Z * option Z', 'wc': 'Z * wlog', 'flush': 'Z * option Z * Z', 'reset': 'Z * wlog * Z', 'decomp': 'Z * wlog', 'fn': 'Z'}[self.kind]
        if self.kind == 'mb' and self.usesconv: rt += ' * Z * Z'
        if self.kind == 'wc' and self.usesconv: rt += ' * Z'
        self.rt = 'res (%s)' % rt
        used = set()
        lifted = []
        # decide which blocks get their own definition
        self.lift = set()
        for b in self.reach:
            if b is self.entry and self.preds[b.id] == 0: continue
            cyc = self.scc[b.id][1]
            if cyc and self.isheader(b): self.lift.add(b.id); continue
            if self.preds[b.id] >= 2 and not self.tiny(b): self.lift.add(b.id)
        for b in self.reach:
            if b.id in self.lift:
                base = self.name + '_' + (b.label or 'j'); nm = base; k = 1
                while nm in used: k += 1; nm = '%s%d' % (base, k)
                used.add(nm); self.names[b.id] = nm
        out = []
        # components come in reverse topological order: callees first
        self.entryname = self.name
        for c in self.comps:
            ls = [b for b in c if b.id in self.lift]
            if not ls: continue
            cyc = self.scc[ls[0].id][1]
            defs = []
            for b in sorted(ls, key=lambda b: b.id):
                ps = self.params(b)
                sig = ' '.join('(%s : %s)' % (p, self.coqty(p)) for p in ps)
                body = self.emitblock(b)
                if cyc:
                    defs.append('%s (fuel : nat) %s {struct fuel} : %s :=\n  match fuel with O => NoFuel | S fuel =>\n%s\n  end' % (self.names[b.id], sig, self.rt, body))
                else:
                    out.append('Definition %s %s : %s :=\n%s.' % (self.names[b.id], sig, self.rt, body))
            if cyc: out.append('Fixpoint ' + '\nwith '.join(defs) + '.')
        sig = ' '.join('(%s : %s)' % (p, self.coqty(p)) for p in self.cparams)
        if self.entry.id in self.lift:
            body = '  ' + self.callblock(self.entry, None)
            pre = ''
            raise Unsupported('entry in loop')
        body = self.emitblock(self.entry)
        hdr = '(* lib/%s:%d-%d %s *)' % (self.f['file'], self.f['l1'], self.f['l2'], self.name)
        out.append('Definition %s %s : %s :=\n%s.' % (self.name, sig, self.rt, body))
        return '\n'.join(hdr + '\n' + o for o in out)
    def isheader(self, b):
        """Lift exactly the loop entries: targets of back edges (DFS) in the component."""
        if not hasattr(self, '_hdr'): self._hdr = {}
        key = id(self.reach)
        if key not in self._hdr:
            hs = set(); state = {}
            def dfs(x):
                state[x.id] = 1
                for s in self.succs(x):
                    if state.get(s.id) == 1: hs.add(s.id)
                    elif s.id not in state: dfs(s)
                state[x.id] = 2
            dfs(self.entry)
            self._hdr[key] = hs
        return b.id in self._hdr[key] or (self.preds[b.id] >= 2)
    def tiny(self, b):
        return b.term[0] in ('ret', 'abort', 'noreturn') and len(b.ins) <= 3 and not any(i[0] == 'call' for i in b.ins)
    def callblock(self, b, frm):
        nm = self.names[b.id]
        args = ' '.join(self.params(b))
        cyc = self.scc[b.id][1]
        if cyc:
            same = frm is not None and self.scc[frm.id][0] == self.scc[b.id][0]
            return '%s %s %s' % (nm, 'fuel' if same else self.fuel(), args)
        return ('%s %s' % (nm, args)).strip()
    def go(self, b, frm, ind):
        if b.id in self.lift: return ' ' * ind + self.callblock(b, frm)
        return self.emitblock(b, ind, frm)
    def emitblock(self, b, ind=2, frm=None):
        # tiny multi-pred blocks are emitted from several places: use their own joined env
        env = dict(self.inenv[b.id]); lines = []; close = 0
        sp = ' ' * ind
        home = b
        def binders(pre):
            nonlocal close
            for p in pre: lines.append(sp + p); close += 1
        for i in b.ins:
            k = i[0]; pre = []
            if k == 'set': t = self.E(i[2], env, pre); binders(pre); lines.append(sp + 'let %s := %s in' % (i[1], t))
            elif k == 'setopt': t = self.E(i[2], env, pre); binders(pre); lines.append(sp + 'let %s := Some %s in' % (i[1], t))
            elif k == 'setnat':
                t = self.N(i[2], env, pre)
                if pre and pre[-1].endswith('(fun %s =>' % t):   # n := n - k
                    pre[-1] = pre[-1].replace('(fun %s =>' % t, '(fun %s =>' % i[1]); binders(pre)
                else: binders(pre); lines.append(sp + 'let %s := %s in' % (i[1], t))
            elif k == 'none': lines.append(sp + 'let %s := (None : option Z) in' % i[1])
            elif k == 'newlog': lines.append(sp + 'let %s := ([] : wlog) in' % i[1])
            elif k == 'kill': pass
            elif k == 'skip': t = self.N(i[2], env, pre); binders(pre); lines.append(sp + 'let %s := skipn %s %s in' % (i[1], t, i[1]))
            elif k == 'wr':
                o = self.N(i[2], env, pre); t = self.E(i[3], env, pre); binders(pre)
                if self.vars[i[1]][2] is None: lines.append(sp + 'let %s := wr %s %s %s in' % (i[1], i[1], o, t))
                else: lines.append(sp + 'wrb %d%%nat %s %s %s (fun %s =>' % (self.vars[i[1]][2], i[1], o, t, i[1])); close += 1
            elif k == 'sptr':
                if i[2] is None: lines.append(sp + 'let %s := (None : option (tab * Z)) in' % i[1])
                else: t = self.E(i[2][1], env, pre); binders(pre); lines.append(sp + 'let %s := Some (%s, %s) in' % (i[1], i[2][0], t))
            elif k == 'load':
                w = i[2]
                if w == 'tab':
                    t = self.E(i[4], env, pre); binders(pre)
                    st, off = i[5], i[6]
                    ix = t if st == 1 and off == 0 else '(%d * %s + %d)' % (st, t, off) if off else '(%d * %s)' % (st, t)
                    lines.append(sp + 'tget %s %s (fun %s =>' % (i[3], ix, i[1])); close += 1
                elif w == 's': t = self.N(i[4], env, pre); binders(pre); lines.append(sp + 'rd %s %s (fun %s =>' % (i[3], t, i[1])); close += 1
                elif w == 'log': t = self.N(i[4], env, pre); binders(pre); lines.append(sp + 'lrd %s %s (fun %s =>' % (i[3], t, i[1])); close += 1
                elif w == 'opt': lines.append(sp + 'oget %s (fun %s =>' % (i[3], i[1])); close += 1
                elif w == 'sum': lines.append(sp + 'sget %s %d (fun %s =>' % (i[3], i[4], i[1])); close += 1
            elif k == 'call':
                if i[2] == 'mb':
                    _, d, _, fn, pv, sv, so, n, uc = i
                    nn = self.N(n, env, pre); oo = self.N(so, env, pre); binders(pre)
                    kind = self.vars[sv]
                    if kind[0] == 'list': src = sv if so == ('nc', 0) else '(skipn %s %s)' % (oo, sv)
                    elif kind[0] == 'log': src = '(lbuf %s %s %d%%nat)' % (sv, oo, kind[2])
                    else: src = '[%s]' % sv
                    if uc: lines.append(sp + "bind (%s %s %s ist ibo) (fun '(%s, o, ist, ibo) =>" % (fn, src, nn, d))
                    else: lines.append(sp + "bind (%s %s %s) (fun '(%s, o) =>" % (fn, src, nn, d))
                    lines.append(sp + 'let %s := oset %s o in' % (pv, pv)); close += 1
                elif i[2] == 'wc':
                    _, d, _, fn, rv, ro, wc, n, uc = i
                    w = self.E(wc, env, pre); nn = self.N(n, env, pre); oo = self.N(ro, env, pre); binders(pre)
                    if uc: lines.append(sp + "bind (%s %s %s ost) (fun '(%s, l, ost) =>" % (fn, w, nn, d))
                    else: lines.append(sp + "bind (%s %s %s) (fun '(%s, l) =>" % (fn, w, nn, d))
                    close += 1
                    if self.vars[rv][2] is None:
                        lines.append(sp + 'let %s := lapp %s %s l in' % (rv, rv, oo))
                    else:
                        lines.append(sp + 'lappb %d%%nat %s %s l (fun %s =>' % (self.vars[rv][2], rv, oo, rv)); close += 1
                elif i[2] == 'decomp':
                    _, d, _, fn, rv, ro, wc = i
                    w = self.E(wc, env, pre); binders(pre)
                    lines.append(sp + "bind (%s %s) (fun '(%s, l) =>" % (fn, w, d)); close += 1
                    lines.append(sp + 'lappb %d%%nat %s 0%%nat l (fun %s =>' % (self.vars[rv][2], rv, rv)); close += 1
                elif i[2] == 'fn':
                    xs = ' '.join(self.E(x, env, pre) for x in i[4]); binders(pre)
                    lines.append(sp + 'bind (%s %s) (fun %s =>' % (i[3], xs, i[1])); close += 1
            self.transfer(i, env)
        t = b.term
        if t[0] == 'ret':
            pre = []; e = self.E(t[1], env, pre); binders(pre)
            if self.results: last = sp + 'Ok (%s, %s)' % (e, ', '.join(self.results))
            else: last = sp + 'Ok %s' % e
        elif t[0] == 'abort': last = sp + 'Abort'
        elif t[0] == 'noreturn': last = sp + 'UB'
        elif t[0] == 'jmp': last = self.go(t[1], b, ind)
        else:
            pre = []; c = self.B(t[1], env, pre); binders(pre)
            last = sp + 'if %s then\n%s\n%selse\n%s' % (c, self.go(t[2], b, ind + 1), sp, self.go(t[3], b, ind + 1))
        return '\n'.join(lines + [last + ')' * close])

class Retry(Exception):
    def __init__(self, v): self.var = v; Exception.__init__(self, v)

RENAME = {'end': 'end_', 'fix': 'fix_', 'in': 'in_', 'state': 'state', 'r': 'r_', 's': 's_', 'n': 'n_', 'fuel': 'fuel_', 'o': 'o_', 'l': 'l_', 'index': 'index_'}
FUEL = {}

def hexs(v): return '0x%x' % v if v > 9 else str(v)

class Tr:
    def __init__(self):
        self.pp, self.p = load()
        self.fn = {f['name']: f for f in self.p.funcs}
        self._fn = {}; self._uc = {}
        self.tabs = {}
        for nm, ty, dims, init, f, l1, l2 in self.p.tables:
            struct = None; stride = 1
            if isinstance(ty, tuple):
                struct = ty[1]; stride = sum(c for _, _, c in self.p.structs[struct])
            flat = []
            def fl(x):
                if isinstance(x, list):
                    for y in x: fl(y)
                else: flat.append(x)
            fl(init)
            if len(dims) == 2: stride = dims[1]
            tot = None
            if dims[0] is not None: tot = dims[0] * stride
            if tot is not None and len(flat) < tot: 
                sys.stderr.write('table %s padded %d -> %d\n' % (nm, len(flat), tot)); flat += [0] * (tot - len(flat))
            assert tot is None or len(flat) == tot, (nm, len(flat), tot)
            # check that the values fit their types
            if struct:
                tys = [t for _, t, c in self.p.structs[struct] for _ in range(c)]
                for i, v in enumerate(flat):
                    lo, hi = TR[tys[i % stride]]; assert lo <= v <= hi, (nm, i, v)
            else:
                lo, hi = TR[ty]
                for i, v in enumerate(flat):
                    if not lo <= v <= hi: flat[i] = ((v - lo) % (hi - lo + 1)) + lo
            self.tabs[nm] = dict(name=nm, ty=ty if not struct else None, struct=struct, stride=stride, vals=flat, file=f, l1=l1, l2=l2)
    def istab(self, n): return n in self.tabs
    def tab(self, n): return self.tabs[n]
    def tabname(self, n): return n
    def usesconv(self, fn):
        if fn in self._uc: return self._uc[fn]
        self._uc[fn] = False
        r = False
        def walk(x):
            nonlocal r
            if isinstance(x, (tuple, list)):
                if len(x) == 3 and x[0] == 'arrow' and x[1] == ('id', 'conv'): r = True
                if len(x) == 3 and x[0] == 'call' and x[1][0] == 'id' and x[1][1] in self.fn and self.usesconv(x[1][1]): r = True
                for y in x: walk(y)
        walk(self.fn[fn]['body'])
        self._uc[fn] = r
        return r
    def getfn(self, n):
        if n not in self._fn:
            g = Fn(self, self.fn[n]); g.classify(); self._fn[n] = g
        return self._fn[n]

if __name__ == '__main__':
    tr = Tr()
    ok = bad = 0
    want = sys.argv[1:]
    for f in tr.p.funcs:
        if want and f['name'] not in want: continue
        try:
            t = Fn(tr, f).run(); ok += 1
            if want: print(t)
        except Unsupported as e:
            bad += 1; print('FAIL', f['name'], f['file'], f['l1'], e)
        except Exception as e:
            bad += 1; print('EXC', f['name'], f['file'], f['l1'], type(e), e)
    print(ok, bad)
