#!/usr/bin/env python3
"""Reads the Rust source of the crate (without src/test) and writes it as a Coq
term of the syntax in RustSyntax.v.  Usage: gen_source.py /repo/src > Source.v

What it does beyond parsing, all of it local:
 * comments and attributes are dropped, `macro_rules!` of src/step.rs are expanded;
 * `Self` is replaced by the name of the impl's type;
 * a path is cut down to its last one or two segments (`std::ops::Range` -> `Range`);
 * `if let` / `while let` become `match`; `Type { .. }`, `Variant(..)` become constructor terms;
 * `.into()` and `Default::default()` are given the type they have to produce: that of the function
   whose result they are, of the parameter they are passed for, of the field or the `let` they initialise.
"""
import re, sys, os

TOK = re.compile(r'''
  (?P<ws>\s+|//[^\n]*|/\*.*?\*/)
 |(?P<life>'[a-z_]\w*(?!'))
 |(?P<char>'(?:\\.|[^'\\])')
 |(?P<num>0x[0-9A-Fa-f_]+|\d[\d_]*)
 |(?P<id>[A-Za-z_]\w*)
 |(?P<str>"(?:\\.|[^"\\])*")
 |(?P<op>\.\.=|\.\.|::|->|=>|==|!=|<=|>=|&&|\|\||\+=|-=|[-+*/%!&|=<>.,;:?@#$(){}\[\]])
''', re.X | re.S)

def lex(s):
    out, i = [], 0
    while i < len(s):
        m = TOK.match(s, i)
        assert m, s[i:i+40]
        i = m.end()
        if m.lastgroup != 'ws': out.append((m.lastgroup, m.group()))
    return out

# ---------------------------------------------------------------- macros (src/step.rs)

def balanced(toks, i):
    """index after the group that opens at i"""
    d = 0
    while True:
        t = toks[i][1]
        if t in '([{': d += 1
        elif t in ')]}':
            d -= 1
            if d == 0: return i + 1
        i += 1

def drop_attrs(toks):
    out, i = [], 0
    while i < len(toks):
        if toks[i][1] == '#':
            j = i + 1
            if toks[j][1] == '!': j += 1
            j2 = balanced(toks, j)
            text = ' '.join(t[1] for t in toks[j:j2])
            if 'target_pointer_width' in text: out.append(('cfg', re.search(r'"(\d+)"', text).group(1)))
            if 'cfg ( test )' in text: out.append(('cfg', 'test'))
            i = j2
        else: out.append(toks[i]); i += 1
    return out

def expand_macros(toks):
    """the two macros of src/step.rs; every pointer width gives one copy of each impl, all alike,
    so the impls are emitted once per kind, parametrised by the width only through `narrower`."""
    toks = list(toks); macros = {}; out = []; i = 0
    while i < len(toks):
        if toks[i][1] == 'macro_rules':
            name = toks[i+2][1]; j = balanced(toks, i+3)
            body = toks[i+4:j-1]
            p = balanced(body, 0); assert body[p][1] == '=>'
            q = balanced(body, p+1)
            macros[name] = (body[1:p-1], body[p+2:q-1]); i = j
        else: out.append(toks[i]); i += 1
    res = []; i = 0
    while i < len(out):
        if out[i][0] == 'id' and out[i][1] in macros and out[i+1][1] == '!':
            name = out[i][1]; j = balanced(out, i+2); args = out[i+3:j-1]
            if out[j:j+1] and out[j][1] == ';': j += 1
            assert name == 'step_integer_impls'
            width = None
            if res and res[-1][0] == 'cfg': width = res.pop()[1]
            # arguments: two lists of [u i] pairs
            txt = ' '.join(t[1] for t in args)
            m = re.fullmatch(r'narrower than or same width as usize : (.*?) ; wider than usize : (.*?) ;', txt)
            pairs = [re.findall(r'\[ (\w+) (\w+) \]', m.group(k)) for k in (1, 2)]
            body = macros[name][1]
            # body = $( A )+ $( B )+
            k = balanced(body, 1); a = body[2:k-1]; assert body[k][1] == '+'
            k2 = balanced(body, k+2); b = body[k+3:k2-1]
            for part, (un, im), ps in ((a, ('u_narrower', 'i_narrower'), pairs[0]), (b, ('u_wider', 'i_wider'), pairs[1])):
                for (u, s) in ps:
                    res.append(('width', width));
                    res += subst(part, {un: u, im: s}, macros)
                    res.append(('width', None))
            i = j
        else: res.append(out[i]); i += 1
    return res

def subst(part, sub, macros):
    out, i = [], 0
    while i < len(part):
        if part[i][1] == '$': out.append(('id', sub[part[i+1][1]])); i += 2
        elif part[i][0] == 'id' and part[i][1] in macros and part[i+1][1] == '!':
            j = balanced(part, i+2); out += macros[part[i][1]][1]
            if part[j][1] == ';': j += 1
            i = j
        else: out.append(part[i]); i += 1
    return out

# ---------------------------------------------------------------- parser

class P:
    def __init__(self, toks, fname): self.t, self.i, self.f = toks, 0, fname
    def pk(self, k=0): return self.t[self.i+k][1] if self.i+k < len(self.t) else None
    def kind(self, k=0): return self.t[self.i+k][0] if self.i+k < len(self.t) else None
    def eat(self, x):
        if self.pk() == x: self.i += 1; return True
        return False
    def need(self, x):
        assert self.eat(x), (self.f, 'expected', x, 'at', ' '.join(t[1] for t in self.t[self.i-5:self.i+10]))
    def ident(self):
        assert self.kind() == 'id', (self.f, self.t[self.i-5:self.i+5])
        self.i += 1; return self.t[self.i-1][1]

    # ---- types: ('ty', name, args)
    def ty(self):
        if self.eat('&'):
            if self.kind() == 'life': self.i += 1
            self.eat('mut'); return self.ty()
        if self.eat('['):
            a = self.ty(); self.need(']'); return ('ty', 'slice', [a])
        if self.eat('('):
            xs = []
            while not self.eat(')'):
                xs.append(self.ty()); self.eat(',')
            return ('ty', 'tuple', xs)
        if self.pk() == 'impl':
            self.i += 1; self.bounds(); return ('ty', 'impl', [])
        name = [self.ident()]; args = []
        while True:
            if self.pk() == '<':
                self.i += 1; args = []
                while not self.eat('>'):
                    if self.kind() == 'id' and self.pk(1) == '=': self.i += 2
                    args.append(self.ty()); self.eat(',')
            elif self.pk() == '::': self.i += 1; (name.append(self.ident()) if self.pk() != '<' else None)
            else: break
        if name[0] == 'Self' and len(name) == 2: return ('ty', 'Self::' + name[1], args)
        return ('ty', name[-1], args)
    def bounds(self):
        """Trait<..> + Trait + FnOnce(..) -> ..; returns [(trait, [(assoc, ty)])]"""
        out = []
        while True:
            if self.kind() == 'life': self.i += 1
            else:
                n = self.ident()
                while self.eat('::'): n = self.ident()
                assoc = []
                if self.eat('('):
                    while not self.eat(')'): self.ty(); self.eat(',')
                    if self.eat('->'): self.ty()
                elif self.eat('<'):
                    while not self.eat('>'):
                        if self.kind() == 'id' and self.pk(1) == '=':
                            a = self.ident(); self.i += 1; assoc.append((a, self.ty()))
                        else: self.ty()
                        self.eat(',')
                out.append((n, assoc))
            if not self.eat('+'): return out
    def generics(self):
        """<T: B, R>; returns names, bounds"""
        names, cons = [], []
        if self.eat('<'):
            while not self.eat('>'):
                n = self.ident(); names.append(n)
                if self.eat(':'): cons += [(n, b) for b in self.bounds()]
                self.eat(',')
        return names, cons
    def where(self):
        cons = []
        if self.eat('where'):
            while self.pk() not in ('{', ';'):
                t = self.ty(); self.need(':')
                cons += [(t[1], b) for b in self.bounds()]; self.eat(',')
        return cons

    # ---- items
    def items(self):
        out = []; width = None
        while self.i < len(self.t):
            if self.kind() == 'width': width = self.t[self.i][1]; self.i += 1; continue
            if self.kind() == 'cfg':
                assert self.pk() == 'test'; self.i += 1; self.need('mod'); self.ident(); self.need(';'); continue
            it = self.item()
            if it: it['width'] = width; out.append(it)
        return out
    def vis(self):
        if self.eat('pub'):
            if self.pk() == '(': self.i = balanced(self.t, self.i)
    def item(self):
        self.vis()
        k = self.pk()
        if k == 'use':
            self.i += 1; names = []
            while not self.eat(';'):
                if self.kind() == 'id': names.append(self.pk())
                self.i += 1
            return dict(kind='use', names=names)
        if k == 'mod': self.i += 2; self.need(';'); return None
        if k == 'struct':
            self.i += 1; name = self.ident(); g, _ = self.generics()
            fields = []
            if self.eat(';'): pass
            elif self.eat('('):
                n = 0
                while not self.eat(')'):
                    self.vis(); fields.append((str(n), self.ty())); n += 1; self.eat(',')
                self.need(';')
            else:
                self.need('{')
                while not self.eat('}'):
                    self.vis(); f = self.ident(); self.need(':'); fields.append((f, self.ty())); self.eat(',')
            return dict(kind='struct', name=name, fields=fields)
        if k == 'enum':
            self.i += 1; name = self.ident(); self.generics(); self.need('{'); vs = []
            while not self.eat('}'):
                v = self.ident(); fs = []
                if self.eat('('):
                    n = 0
                    while not self.eat(')'): fs.append((str(n), self.ty())); n += 1; self.eat(',')
                vs.append((v, fs)); self.eat(',')
            return dict(kind='enum', name=name, variants=vs)
        if k == 'trait':
            self.i += 1; name = self.ident(); g, _ = self.generics()
            if self.eat(':'): self.bounds()
            self.need('{'); fns = [];
            while not self.eat('}'):
                if self.eat('type'): self.ident(); self.need(';')
                else: fns.append(self.fn())
            return dict(kind='trait', name=name, fns=[f for f in fns if f['body'] is not None])
        if k == 'impl':
            self.i += 1; g, cons = self.generics(); a = self.ty(); trait = None
            if self.eat('for'): trait, a = a, self.ty()
            cons += self.where(); self.need('{'); fns, assoc = [], []
            while not self.eat('}'):
                if self.eat('type'):
                    n = self.ident(); self.need('='); assoc.append((n, self.ty())); self.need(';')
                else: fns.append(self.fn())
            return dict(kind='impl', generics=g, trait=trait, self=a, cons=cons, assoc=assoc, fns=fns)
        raise Exception((self.f, 'item', self.t[self.i:self.i+10]))
    def fn(self):
        self.vis(); self.need('fn'); name = self.ident(); g, c = self.generics(); self.need('(')
        params = []; kind = 'none'
        while not self.eat(')'):
            if self.pk() == '&' and self.pk(1) == 'self': self.i += 2; kind = 'ref'
            elif self.pk() == '&' and self.pk(1) == 'mut' and self.pk(2) == 'self': self.i += 3; kind = 'mut'
            elif self.pk() == 'self': self.i += 1; kind = 'val'
            elif self.pk() == 'mut' and self.pk(1) == 'self': self.i += 2; kind = 'val'
            else:
                p = self.pat(); self.need(':'); params.append((p, self.ty()))
            self.eat(',')
        ret = ('ty', 'tuple', [])
        if self.eat('->'): ret = self.ty()
        self.where()
        body = None
        if not self.eat(';'): body = self.block()
        return dict(name=name, selfk=kind, params=params, ret=ret, body=body)

    # ---- patterns
    def pat(self):
        ps = []
        self.eat('|')
        while True:
            ps.append(self.pat1())
            if not self.eat('|'): break
        return ps[0] if len(ps) == 1 else ('por', ps)
    def pat1(self):
        if self.eat('&'): return self.pat1()
        if self.eat('mut'): return ('pbind', self.ident())
        if self.eat('('):
            ps = []
            while not self.eat(')'): ps.append(self.pat()); self.eat(',')
            return ('pcon', 'tuple', [(str(k), p) for k, p in enumerate(ps)])
        if self.kind() == 'num': raise Exception('literal pattern')
        n = [self.ident()]
        while self.eat('::'): n.append(self.ident())
        if n == ['_']: return ('pwild',)
        if self.eat('('):
            ps = []
            while not self.eat(')'): ps.append(self.pat()); self.eat(',')
            return ('pcon', n[-1], [(str(k), p) for k, p in enumerate(ps)])
        if self.eat('{'):
            fs = []
            while not self.eat('}'):
                if self.eat('..'): continue
                f = self.ident()
                fs.append((f, self.pat() if self.eat(':') else ('pbind', f))); self.eat(',')
            return ('pcon', n[-1], fs)
        if len(n) == 1 and (n[0][0].islower() or n[0][0] == '_'): return ('pbind', n[0])
        return ('pcon', n[-1], [])

    # ---- blocks and expressions
    def block(self):
        self.need('{'); ss = []; last = None
        while not self.eat('}'):
            if self.eat('let'):
                p = self.pat(); t = self.ty() if self.eat(':') else None
                self.need('='); e = self.expr(); self.need(';'); ss.append(('let', p, t, e)); continue
            e = self.expr()
            if self.eat(';'): ss.append(('expr', e))
            elif self.pk() == '}': last = e
            else:
                assert e[0] in ('if', 'match', 'while', 'for', 'block'), (self.f, e, self.t[self.i:self.i+5])
                ss.append(('expr', e))
        return ('block', ss, last)
    def expr(self, ns=False): return self.assign(ns)
    def assign(self, ns):
        a = self.range(ns)
        if self.eat('='): return ('assign', a, self.assign(ns))
        if self.pk() in ('+=', '-='):
            op = self.pk()[0]; self.i += 1; return ('opassign', op, a, self.assign(ns))
        return a
    def range(self, ns):
        if self.pk() in ('..', '..='):
            op = self.pk(); self.i += 1
            if self.starts(ns):
                b = self.binary(0, ns); return ('con', 'RangeTo' if op == '..' else 'RangeToInclusive', [('end', b)])
            return ('con', 'RangeFull', [])
        a = self.binary(0, ns)
        if self.pk() in ('..', '..='):
            op = self.pk(); self.i += 1
            if self.starts(ns):
                b = self.binary(0, ns)
                if op == '..': return ('con', 'Range', [('start', a), ('end', b)])
                return ('con', 'RangeInclusive', [('start', a), ('end', b), ('exhausted', ('bool', False))])
            return ('con', 'RangeFrom', [('start', a)])
        return a
    def starts(self, ns):
        return not (self.pk() in (')', ']', '}', ',', ';', '=>', None) or (ns and self.pk() == '{'))
    OPS = [['||'], ['&&'], ['==', '!=', '<', '>', '<=', '>='], ['+', '-'], ['*', '/', '%']]
    def binary(self, lv, ns):
        if lv == len(self.OPS): return self.cast(ns)
        a = self.binary(lv + 1, ns)
        while self.pk() in self.OPS[lv] and self.kind() == 'op':
            op = self.pk(); self.i += 1; a = ('bin', op, a, self.binary(lv + 1, ns))
        return a
    def cast(self, ns):
        a = self.unary(ns)
        while self.eat('as'): a = ('cast', a, self.ty())
        return a
    def unary(self, ns):
        if self.eat('!'): return ('not', self.unary(ns))
        if self.eat('*'): return ('deref', self.unary(ns))
        if self.eat('&'): self.eat('mut'); return ('ref', self.unary(ns))
        return self.postfix(self.atom(ns), ns)
    def args(self):
        self.need('('); xs = []
        while not self.eat(')'): xs.append(self.expr()); self.eat(',')
        return xs
    def postfix(self, e, ns):
        while True:
            if self.eat('?'): e = ('try', e)
            elif self.pk() == '.' :
                self.i += 1
                if self.kind() == 'num': e = ('field', e, self.pk()); self.i += 1
                else:
                    n = self.ident()
                    if self.eat('::'): self.need('<'); self.ty(); self.need('>')
                    e = ('method', e, n, self.args()) if self.pk() == '(' else ('field', e, n)
            elif self.pk() == '(' and e[0] in ('path', 'var'): e = ('call', e, self.args())
            elif self.pk() == '[': self.i += 1; x = self.expr(); self.need(']'); e = ('index', e, x)
            else: return e
    def atom(self, ns):
        k, t = self.kind(), self.pk()
        if k == 'num': self.i += 1; return ('lit', int(t.replace('_', ''), 0))
        if k == 'str': self.i += 1; return ('str', t[1:-1])
        if t in ('true', 'false'): self.i += 1; return ('bool', t == 'true')
        if t == '(':
            self.i += 1; xs = []; comma = False
            while not self.eat(')'):
                xs.append(self.expr()); comma = self.eat(',') or comma
            if len(xs) == 1 and not comma: return xs[0]
            return ('con', 'tuple', [(str(j), x) for j, x in enumerate(xs)])
        if t == '[':
            self.i += 1; xs = []
            while not self.eat(']'): xs.append(self.expr()); self.eat(',')
            return ('array', xs)
        if t == '{': return self.block()
        if t == 'unsafe': self.i += 1; return self.block()
        if t == 'if': return self.if_()
        if t == 'match':
            self.i += 1; s = self.expr(True); self.need('{'); arms = []
            while not self.eat('}'):
                p = self.pat(); self.need('=>'); arms.append((p, self.expr())); self.eat(',')
            return ('match', s, arms)
        if t == 'while':
            self.i += 1
            if self.eat('let'):
                p = self.pat(); self.need('='); s = self.expr(True); b = self.block()
                return ('while', ('bool', True), ('match', s, [(p, b), (('pwild',), ('break',))]))
            c = self.expr(True); return ('while', c, self.block())
        if t == 'for':
            self.i += 1; p = self.pat(); self.need('in'); s = self.expr(True); return ('for', p, s, self.block())
        if t == 'return':
            self.i += 1; return ('return', self.expr() if self.starts(ns) else ('con', 'tuple', []))
        if t == 'break': self.i += 1; return ('break',)
        if t in ('|', '||'):
            ps = []
            if not self.eat('||'):
                self.i += 1
                while not self.eat('|'): ps.append(self.pat1()); self.eat(',')
            return ('clo', ps, self.expr())
        n = [self.ident()]
        while self.eat('::'): n.append(self.ident())
        if self.pk() == '!' and len(n) == 1:
            self.i += 1; return ('macro', n[0], self.args())
        if self.pk() == '{' and not ns and n[-1][0].isupper():
            self.i += 1; fs = []
            while not self.eat('}'):
                f = self.ident(); fs.append((f, self.expr() if self.eat(':') else ('var', f))); self.eat(',')
            return ('con', n[-1], fs, n)
        if len(n) == 1 and n[0][0].islower(): return ('var', n[0])
        return ('path', n)
    def if_(self):
        self.need('if')
        if self.eat('let'):
            p = self.pat(); self.need('='); s = self.expr(True); a = self.block()
            b = self.else_(); return ('match', s, [(p, a), (('pwild',), b)])
        c = self.expr(True); a = self.block(); return ('if', c, a, self.else_())
    def else_(self):
        if not self.eat('else'): return ('con', 'tuple', [])
        return self.if_() if self.pk() == 'if' else self.block()

# ---------------------------------------------------------------- elaboration

STD_CONS = {'Some': 1, 'None': 0, 'Ok': 1, 'Err': 1, 'Less': 0, 'Equal': 0, 'Greater': 0}

class Elab:
    def __init__(self, items):
        self.structs = {i['name']: i['fields'] for i in items if i['kind'] == 'struct'}
        self.cons = {}
        for i in items:
            if i['kind'] == 'struct': self.cons[i['name']] = i['fields']
            if i['kind'] == 'enum':
                for v, fs in i['variants']: self.cons[v] = fs
        self.fns = {}
        for i in items:
            if i['kind'] == 'impl':
                for f in i['fns']: self.fns.setdefault((i['self'][1], f['name']), f)
    def self_name(self, n): return self.me if n == 'Self' else n
    def hty(self, t):
        """head of a type, with Self and Self::X replaced"""
        if t is None: return None
        n = t[1]
        if n.startswith('Self::'): return self.assoc.get(n[6:])
        return self.self_name(n)
    def fn(self, f, me, assoc):
        self.me = me; self.assoc = {k: (me if t[1] == 'Self' else t[1]) for k, t in assoc}
        return self.ex(f['body'], self.hty(f['ret'])) if f['body'] else None
    def is_con(self, n): return n in self.cons or n in STD_CONS
    def pt(self, p):
        if p[0] == 'pcon': return ('pcon', self.self_name(p[1]), [(k, self.pt(q)) for k, q in p[2]])
        if p[0] == 'por': return ('por', [self.pt(q) for q in p[1]])
        return p
    def ex(self, e, t):
        """t: head of the type expected, or None"""
        k = e[0]; ex = self.ex
        if k in ('lit', 'bool', 'str', 'var', 'break'): return e
        if k == 'path':
            n = [self.self_name(x) for x in e[1]]
            if self.is_con(n[-1]) and not (n[-1] in self.fns): return ('con', n[-1], [])
            if n[-1] in ('UnboundedRange', 'RangeFull'): return ('con', n[-1], [])
            return ('pathval', n[-2] if len(n) > 1 else '', n[-1])
        if k == 'con':
            n = self.self_name(e[1]); fs = dict(self.cons.get(n, []))
            return ('con', n, [(f, ex(x, self.hty(fs.get(f)))) for f, x in e[2]])
        if k == 'call':
            c = e[1]
            if c[0] == 'var': return ('app', c[1], [ex(a, None) for a in e[2]])
            n = [self.self_name(x) for x in c[1]]
            if self.is_con(n[-1]):
                fs = dict(self.cons.get(n[-1], []))
                return ('con', n[-1], [(str(j), ex(a, self.hty(fs.get(str(j))))) for j, a in enumerate(e[2])])
            if n == ['Default', 'default']: return ('default', t)
            q, m = (n[-2] if len(n) > 1 else ''), n[-1]
            if m == 'default': return ('default', q)
            f = self.fns.get((q, m)); pts = [p[1] for p in f['params']] if f else []
            if f and f['selfk'] != 'none': pts = [None] + pts
            pts = pts + [None] * len(e[2])
            return ('pathcall', q, m, [ex(a, self.hty(pt)) for a, pt in zip(e[2], pts)])
        if k == 'method':
            if e[2] == 'into' and not e[3]:
                assert t, ('into without a type', e)
                return ('into', ex(e[1], None), t)
            return ('method', ex(e[1], None), e[2], [ex(a, None) for a in e[3]])
        if k == 'field': return ('field', ex(e[1], None), e[2])
        if k == 'index': return ('index', ex(e[1], None), ex(e[2], None))
        if k == 'array': return ('array', [ex(x, None) for x in e[1]])
        if k in ('not', 'deref', 'try'): return (k, ex(e[1], None))
        if k == 'ref': return ('ref', ex(e[1], None))
        if k == 'bin': return ('bin', e[1], ex(e[2], None), ex(e[3], None))
        if k == 'cast': return ('cast', ex(e[1], None), self.hty(e[2]))
        if k == 'assign': return ('assign', ex(e[1], None), ex(e[2], None))
        if k == 'opassign': return ('opassign', e[1], ex(e[2], None), ex(e[3], None))
        if k == 'if': return ('if', ex(e[1], None), ex(e[2], t), ex(e[3], t))
        if k == 'match': return ('match', ex(e[1], None), [(self.pt(p), ex(x, t)) for p, x in e[2]])
        if k == 'while': return ('while', ex(e[1], None), ex(e[2], None))
        if k == 'for': return ('for', self.pt(e[1]), ex(e[2], None), ex(e[3], None))
        if k == 'clo': return ('clo', [self.pt(p) for p in e[1]], ex(e[2], None))
        if k == 'return': return ('return', ex(e[1], None))
        if k == 'macro': return ('macro', e[1], [ex(a, None) for a in e[2]])
        if k == 'block':
            ss = []
            for s in e[1]:
                if s[0] == 'let': ss.append(('let', self.pt(s[1]), ex(s[3], self.hty(s[2]))))
                else: ss.append(('expr', ex(s[1], None)))
            return ('block', ss, ex(e[2], t) if e[2] else ('con', 'tuple', []))
        raise Exception(k)

# ---------------------------------------------------------------- printing

def q(s): return '"%s"' % s
def lst(xs): return '[' + '; '.join(xs) + ']'
def flds(fs, pr): return lst(['(%s, %s)' % (q(k), pr(v)) for k, v in fs])
def ppat(p):
    if p[0] == 'pwild': return 'PWild'
    if p[0] == 'pbind': return '(PBind %s)' % q(p[1])
    if p[0] == 'pcon': return '(PCon %s %s)' % (q(p[1]), flds(p[2], ppat))
    if p[0] == 'por': return '(POr %s)' % lst([ppat(x) for x in p[1]])
    raise Exception(p)
def pe(e):
    k = e[0]
    if k == 'lit': return '(ELit %d)' % e[1]
    if k == 'bool': return '(EBool %s)' % ('true' if e[1] else 'false')
    if k == 'str': return '(EStr)'
    if k == 'var': return '(EVar %s)' % q(e[1])
    if k == 'break': return 'EBreak'
    if k == 'pathval': return '(EPath %s %s)' % (q(e[1]), q(e[2]))
    if k == 'con': return '(ECon %s %s)' % (q(e[1]), flds(e[2], pe))
    if k == 'app': return '(EApp %s %s)' % (q(e[1]), lst([pe(x) for x in e[2]]))
    if k == 'default': return '(EDefault %s)' % q(e[1])
    if k == 'pathcall': return '(ECall %s %s %s)' % (q(e[1]), q(e[2]), lst([pe(x) for x in e[3]]))
    if k == 'into': return '(EInto %s %s)' % (pe(e[1]), q(e[2]))
    if k == 'method': return '(EMethod %s %s %s)' % (pe(e[1]), q(e[2]), lst([pe(x) for x in e[3]]))
    if k == 'field': return '(EField %s %s)' % (pe(e[1]), q(e[2]))
    if k == 'index': return '(EIndex %s %s)' % (pe(e[1]), pe(e[2]))
    if k == 'array': return '(EArray %s)' % lst([pe(x) for x in e[1]])
    if k == 'not': return '(ENot %s)' % pe(e[1])
    if k == 'deref': return '(EDeref %s)' % pe(e[1])
    if k == 'ref': return '(ERef %s)' % pe(e[1])
    if k == 'try': return '(ETry %s)' % pe(e[1])
    if k == 'bin': return '(EBin %s %s %s)' % (q(e[1]), pe(e[2]), pe(e[3]))
    if k == 'cast': return '(ECast %s %s)' % (pe(e[1]), q(e[2]))
    if k == 'assign': return '(EAssign %s %s)' % (pe(e[1]), pe(e[2]))
    if k == 'opassign': return '(EOpAssign %s %s %s)' % (q(e[1]), pe(e[2]), pe(e[3]))
    if k == 'if': return '(EIf %s %s %s)' % (pe(e[1]), pe(e[2]), pe(e[3]))
    if k == 'match': return '(EMatch %s %s)' % (pe(e[1]), lst(['(%s, %s)' % (ppat(p), pe(x)) for p, x in e[2]]))
    if k == 'while': return '(EWhile %s %s)' % (pe(e[1]), pe(e[2]))
    if k == 'for': return '(EFor %s %s %s)' % (ppat(e[1]), pe(e[2]), pe(e[3]))
    if k == 'clo': return '(EClo %s %s)' % (lst([ppat(p) for p in e[1]]), pe(e[2]))
    if k == 'return': return '(EReturn %s)' % pe(e[1])
    if k == 'macro': return '(EMacro %s %s)' % (q(e[1]), lst([pe(x) for x in e[2]]))
    if k == 'block':
        if not e[1]: return pe(e[2])
        ss = ['(SLet %s %s)' % (ppat(s[1]), pe(s[2])) if s[0] == 'let' else '(SExpr %s)' % pe(s[1]) for s in e[1]]
        return '(EBlock %s %s)' % (lst(ss), pe(e[2]))
    raise Exception(e)

HEAD = '''(** The source of the crate, src/**/*.rs without src/test, as a term of RustSyntax.v.
    Written by tools/gen_source.py; not edited. *)
From Coq Require Import String ZArith List.
From Verif Require Import RustSyntax.
Import ListNotations.
Open Scope string_scope. Open Scope Z_scope.
'''

def main(root):
    files = []
    for d, _, fs in os.walk(root):
        if '/test' in d: continue
        for f in fs:
            if f.endswith('.rs'): files.append(os.path.join(d, f))
    files.sort(key=lambda f: (f.count('/'), f))
    parsed = []
    for f in files:
        toks = drop_attrs(lex(open(f).read()))
        if f.endswith('step.rs'): toks = expand_macros(toks)
        parsed.append((os.path.relpath(f, root), P(toks, f).items()))
    allitems = [i for _, its in parsed for i in its]
    el = Elab(allitems)
    out = [HEAD]
    out.append('Definition source_types : list (string * list (string * list string)) := [')
    tys = []
    for i in allitems:
        if i['kind'] == 'struct': tys.append('  (%s, [(%s, %s)])' % (q(i['name']), q(i['name']), lst([q(f) for f, _ in i['fields']])))
        if i['kind'] == 'enum': tys.append('  (%s, %s)' % (q(i['name']), lst(['(%s, %s)' % (q(v), lst([q(f) for f, _ in fs])) for v, fs in i['variants']])))
    out.append(';\n'.join(tys) + '].\n')
    names = []; traits = []; n = 0
    TRAITS = [i['name'] for i in allitems if i['kind'] == 'trait']
    def pf(f, me, assoc):
        body = el.fn(f, me, assoc)
        sk = {'none': 'NoSelf', 'val': 'ByVal', 'ref': 'ByRef', 'mut': 'ByMut'}[f['selfk']]
        # a pattern parameter is bound by a let at the start
        return '    (Fn %s %s %s\n      %s)' % (q(f['name']), sk, lst([ppat(el.pt(p)) for p, _ in f['params']]), pe(body))
    seen = {}
    for f, its in parsed:
        scope = [x for i in its if i['kind'] == 'use' for x in i['names'] if x in TRAITS]
        scope += [i['name'] for i in its if i['kind'] == 'trait']
        lines = []
        for i in its:
            if i['kind'] == 'trait' and i['fns']:
                el.me = 'Self'
                nm = 'trait_' + i['name']; traits.append((i['name'], nm))
                out.append('(** src/%s *)\nDefinition %s : impl := Impl None "" %s [] []\n  [\n%s].\n' %
                           (f, nm, lst([q(s) for s in sorted(set(scope))]), ';\n'.join(pf(x, 'Self', []) for x in i['fns'])))
            if i['kind'] == 'impl':
                me = i['self'][1]
                if not i['fns'] and i['trait'][1] != 'ExactSizeIterator': continue
                gen = i['generics']
                cons = []
                for (v, (tr, assoc)) in i['cons']:
                    for (a, t) in assoc:
                        h = t[1]
                        if h in gen: continue
                        cons.append('(%s, %s)' % (q(a), q(h)))
                tr = 'None'
                if i['trait']:
                    arg = i['trait'][2][0][1] if i['trait'][2] else ''
                    if arg in gen: arg = ''
                    tr = '(Some (%s, %s))' % (q(i['trait'][1]), q(arg))
                assoc = lst(['(%s, %s)' % (q(k), q(me if t[1] == 'Self' else t[1])) for k, t in i['assoc']])
                text = 'impl := Impl %s %s %s %s %s\n  [\n%s].\n' % (
                    tr, q(me), lst([q(s) for s in sorted(set(scope))]), lst(cons), assoc, ';\n'.join(pf(x, me, i['assoc']) for x in i['fns']))
                if i['width']:
                    key = (f, text)
                    seen.setdefault(key, []).append((i['width'], me));
                    if len(seen[key]) > 1: continue
                nm = 'impl_%d' % n; n += 1
                if i['width']: seen[key][0] = (i['width'], me, nm)
                names.append((nm, i['width'], me, key if i['width'] else None))
                out.append('(** src/%s *)\nDefinition %s : %s' % (f, nm, text))
    out.append('Definition source_traits : list (string * impl) := %s.\n' % lst(['(%s, %s)' % (q(a), b) for a, b in traits]))
    out.append('Definition source_impls : list impl := [\n  %s].\n' % ';\n  '.join(a for a, w, _, _ in names if not w))
    for w in ('16', '32', '64'):
        xs = [a for a, _, me, key in names if key and any(s[0] == w for s in seen[key])]
        out.append('Definition source_step_impls_%s : list impl := %s.\n' % (w, lst(xs)))
    print('\n'.join(out))

main(sys.argv[1])
