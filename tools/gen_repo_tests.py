#!/usr/bin/env python3
"""Translate the unit tests and documentation examples of /repo into Coq
programs over the model (rocq/theories/RepoTests.v).

Every `#[test]` function under src/test and every fenced Rust block in the
documentation comments and the README becomes one Example saying that the
test passes in the model.  What cannot be translated is listed on stderr.
"""
import re, sys, glob, os

REPO = sys.argv[1] if len(sys.argv) > 1 else '/repo'

TOK = re.compile(r'''\s+|//[^\n]*|(?P<str>"[^"]*")|(?P<chr>b'.')|(?P<num>(?<![\w.)])-?\d+|\d+)|(?P<id>[A-Za-z_][A-Za-z0-9_]*)
 |(?P<op>\.\.=|\.\.|::|->|[.(){}\[\],;:=!&*<>|+_#?'])''', re.X)

class Bad(Exception):
    pass

def lex(s):
    out, i = [], 0
    while i < len(s):
        m = TOK.match(s, i)
        if not m:
            raise Bad('lex %r' % s[i:i+20])
        i = m.end()
        if m.lastgroup:
            out.append((m.lastgroup, m.group(m.lastgroup)))
    return out

class P:
    def __init__(self, toks):
        self.t, self.i = toks, 0
    def peek(self, k=0):
        return self.t[self.i + k][1] if self.i + k < len(self.t) else None
    def kind(self):
        return self.t[self.i][0] if self.i < len(self.t) else None
    def next(self):
        x = self.t[self.i][1]
        self.i += 1
        return x
    def eat(self, x):
        if self.peek() != x:
            raise Bad('expected %s got %s' % (x, self.t[self.i:self.i+6]))
        self.i += 1
    def expr(self):
        a = self.range()
        if self.peek() == '<':
            self.next()
            return ('lt', a, self.range())
        return a
    def starts(self):
        return self.kind() in ('num', 'id', 'str') or self.peek() in ('(', '&', '*', '!', '[')
    def range(self):
        if self.peek() in ('..', '..='):
            o = self.next()
            if self.starts():
                b = self.unary()
                return ('rto' if o == '..' else 'rtoi', b)
            return ('rfull',)
        a = self.unary()
        if self.peek() in ('..', '..='):
            o = self.next()
            if self.starts():
                b = self.unary()
                return ('range' if o == '..' else 'rangei', a, b)
            return ('rfrom', a)
        return a
    def unary(self):
        if self.peek() == '!':
            self.next()
            return ('not', self.unary())
        if self.peek() in ('&', '*'):
            self.next()
            if self.peek() == 'mut':
                self.next()
            return self.unary()
        e = self.primary()
        while True:
            if self.peek() == '.':
                self.next()
                m = self.next()
                if self.peek() == '::':
                    self.next()
                    self.generic()
                if self.peek() == '(':
                    e = ('call', e, m, self.args('(', ')'))
                else:
                    e = ('field', e, m)
            elif self.peek() == '[':
                self.next()
                x = self.expr()
                self.eat(']')
                e = ('index', e, x)
            else:
                return e
    def generic(self):
        self.eat('<')
        d, s = 1, ''
        while d:
            x = self.next()
            d += (x == '<') - (x == '>')
            if d:
                s += x
        return s
    def args(self, o, c):
        self.eat(o)
        r = []
        while self.peek() != c:
            r.append(self.expr())
            if self.peek() == ',':
                self.next()
        self.eat(c)
        return r
    def primary(self):
        k = self.kind()
        if k == 'num':
            return ('int', int(self.next()))
        if k == 'str':
            return ('str', self.next()[1:-1])
        if self.peek() == '(':
            a = self.args('(', ')')
            return a[0] if len(a) == 1 else ('tuple', a)
        if self.peek() == '[':
            return ('list', self.args('[', ']'))
        if self.peek() == '|':
            self.next(); v = self.next(); self.eat('|')
            a = self.unary(); self.eat('+'); b = self.unary()
            return ('inc', v, a, b)
        if k == 'id':
            path = [self.next()]
            while self.peek() == '::':
                self.next()
                if self.peek() == '<':
                    self.generic()
                else:
                    path.append(self.next())
            if self.peek() == '!' and path == ['vec']:
                self.next()
                return ('list', self.args('[', ']'))
            p = '::'.join(path)
            if self.peek() == '(':
                return ('app', p, self.args('(', ')'))
            if self.peek() == '{' and p[0].isupper():
                self.next()
                f = {}
                while self.peek() != '}':
                    n = self.next(); self.eat(':'); f[n] = self.expr()
                    if self.peek() == ',':
                        self.next()
                self.eat('}')
                return ('struct', p, f)
            return ('path', p)
        raise Bad('primary %s' % self.t[self.i:self.i+5])

class Tr:
    def __init__(self, ty):
        self.ty, self.out, self.n, self.env = ty, [], 0, {}
    def fresh(self, base='x'):
        self.n += 1
        return '%s%d' % (base, self.n)
    def bind(self, t):
        v = self.fresh()
        self.out.append('%s <- %s ;;' % (v, t))
        return v
    def elem(self, e):
        t, k = self.ev(e)
        if k != 'int':
            raise Bad('elem')
        return '(lit %s %s)' % (self.ty, t)
    def val(self, e):
        t, k = self.ev(e)
        if k != 'value':
            raise Bad('value expected, %s' % k)
        return t
    def bnd(self, e):
        t, k = self.ev(e)
        if k not in ('lb', 'ub', 'bound'):
            raise Bad('bound expected')
        return t
    def ev(self, e, want=None):
        o = e[0]
        if o == 'int':
            return ('%d' if e[1] >= 0 else '(%d)') % e[1], 'int'
        if o == 'str':
            return '[%s]' % '; '.join(str(b) for b in e[1].encode()), 'list'
        if o == 'list':
            return '[%s]' % '; '.join(self.ev(x)[0] for x in e[1]), 'list'
        if o == 'tuple':
            a, b = e[1]
            return '(%s, %s)' % (self.ev(a)[0], self.ev(b)[0]), 'hint'
        if o == 'range':
            return '(VRange (mkRange %s %s))' % (self.elem(e[1]), self.elem(e[2])), 'value'
        if o == 'rangei':
            return '(VRangeInclusive (mkRangeInclusive %s %s false))' % (self.elem(e[1]), self.elem(e[2])), 'value'
        if o == 'rfrom':
            return '(VRangeFrom (mkRangeFrom %s))' % self.elem(e[1]), 'value'
        if o == 'rto':
            return '(VRangeTo (mkRangeTo %s))' % self.elem(e[1]), 'value'
        if o == 'rtoi':
            return '(VRangeToInclusive (mkRangeToInclusive %s))' % self.elem(e[1]), 'value'
        if o == 'rfull':
            return '(VRangeFull mkRangeFull : value (mint %s))' % self.ty, 'value'
        if o == 'not':
            return '(negb %s)' % self.boolean(e[1]), 'bool'
        if o == 'lt':
            a, k = self.ev(e[1]); b, _ = self.ev(e[2])
            return '(is_lt (%s_cmp %s %s))' % (k, a, b), 'bool'
        if o == 'path':
            p = e[1]
            if p in self.env:
                return p, self.env[p]
            if p == 'None':
                return 'None', 'opt'
            if p == 'UnboundedRange':
                return '(VUnbR mkUnboundedRange : value (mint %s))' % self.ty, 'value'
            if p == 'UnboundedSet::Full':
                return '(VUS Full : value (mint %s))' % self.ty, 'value'
            if p == 'usize::MAX':
                return '(usize_max (PF := pf64))', 'int'
            raise Bad('path ' + p)
        if o == 'struct':
            p, f = e[1], e[2]
            if p == 'BoundedRange':
                return '(VBR (BR %s %s))' % (self.bnd(f['start']), self.bnd(f['end'])), 'value'
            if p == 'LowerBoundedRange':
                return '(VLBR (LBR %s))' % self.bnd(f['start']), 'value'
            if p == 'UpperBoundedRange':
                return '(VUBR (UBR %s))' % self.bnd(f['end']), 'value'
            if p == 'UnboundedRange':
                return '(VUnbR mkUnboundedRange : value (mint %s))' % self.ty, 'value'
            raise Bad('struct ' + p)
        if o == 'app':
            p, a = e[1], e[2]
            if p == 'Some':
                return '(Some %s)' % self.ev(a[0])[0], 'opt'
            if p == 'BoundedRange::new':
                return '(VBR (br_new %s %s))' % (self.bnd(a[0]), self.bnd(a[1])), 'value'
            if p == 'LowerBoundedRange::new':
                return '(VLBR (lbr_new %s))' % self.bnd(a[0]), 'value'
            if p == 'UpperBoundedRange::new':
                return '(VUBR (ubr_new %s))' % self.bnd(a[0]), 'value'
            if p == 'UnboundedRange::new':
                return '(VUnbR mkUnboundedRange : value (mint %s))' % self.ty, 'value'
            if p == 'EmptyRange::new':
                return '(VEmpty mkEmptyRange : value (mint %s))' % self.ty, 'value'
            if p == 'BoundedSet::empty':
                return '(VBS bs_empty : value (mint %s))' % self.ty, 'value'
            if p == 'UnboundedSet::new':
                return self.bind('unbounded_set_new %s %s' % (self.val(a[0]), self.val(a[1]))), 'value'
            if p in ('LowerBoundedRange::from', 'UpperBoundedRange::from', 'BoundedRange::from'):
                return '(value_of_inner (to_inner %s))' % self.val(a[0]), 'value'
            if p == 'LowerBound::excluded': return '(lb_excluded %s)' % self.elem(a[0]), 'lb'
            if p == 'LowerBound::included': return '(lb_included %s)' % self.elem(a[0]), 'lb'
            if p == 'UpperBound::excluded': return '(ub_excluded %s)' % self.elem(a[0]), 'ub'
            if p == 'UpperBound::included': return '(ub_included %s)' % self.elem(a[0]), 'ub'
            if p == 'Bound::Included': return '(Included %s)' % self.elem(a[0]), 'bound'
            if p == 'Bound::Excluded': return '(Excluded %s)' % self.elem(a[0]), 'bound'
            raise Bad('app ' + p)
        if o == 'field':
            t, k = self.ev(e[1])
            if k == 'value' and e[2] == 'start':
                return self.bind('start_of %s' % t), 'lb'
            if k == 'value' and e[2] == 'end':
                return self.bind('end_of %s' % t), 'ub'
            raise Bad('field')
        if o == 'index':
            t, k = self.ev(e[1]); r = self.val(e[2])
            ix = self.bind('index_of %s' % r)
            if k == 'str':
                return self.bind('str_index Debug %s %s' % (t, ix)), 'list'
            if k == 'cstr':
                return self.bind('cstr_index_value Debug %s %s' % (t, r)), 'list'
            if k == 'list':
                return self.bind('slice_index Debug %s %s' % (t, ix)), 'list'
            raise Bad('index %s' % k)
        if o == 'call':
            return self.call(e, want)
        raise Bad(o)
    def boolean(self, e):
        t, k = self.ev(e)
        if k != 'bool':
            raise Bad('bool expected')
        return t
    def call(self, e, want):
        _, recv, m, a = e
        if m in ('clone', 'to_string', 'as_c_str', 'as_os_str', 'unwrap', 'as_mut_str') and not a:
            return self.ev(recv, want)
        t, k = self.ev(recv)
        if m == 'into' and want == 'std::ffi::OsString':
            return t, 'cstr'
        if k == 'value':
            if m in ('union', 'intersection'):
                return self.bind('%s %s %s' % (m, t, self.val(a[0]))), 'value'
            if m in ('disjoint', 'intersects'):
                return self.bind('%s %s %s' % (m, t, self.val(a[0]))), 'bool'
            if m == 'complement':
                return self.bind('complement %s' % t), 'value'
            if m == 'to_inner':
                return '(value_of_inner (to_inner %s))' % t, 'value'
            if m == 'to_set':
                return '(value_of_set (to_set %s))' % t, 'value'
            if m == 'is_empty':
                return '(is_empty %s)' % t, 'bool'
            if m == 'contains':
                return '(contains %s %s)' % (t, self.elem(a[0])), 'bool'
            if m == 'into_iter':
                return self.bind('into_iter %s' % t), 'iter'
            if m == 'into':
                if want is None:
                    raise Bad('into without a type')
                if want.startswith('std::ops::'):
                    f = {'Range': 'to_std_range', 'RangeInclusive': 'to_std_range_inclusive', 'RangeTo': 'to_std_range_to',
                         'RangeToInclusive': 'to_std_range_to_inclusive', 'RangeFrom': 'to_std_range_from',
                         'RangeFull': 'to_std_range_full'}[re.match(r'std::ops::(\w+)', want).group(1)]
                    return self.bind('%s %s' % (f, t)), 'value'
                return '(value_of_inner (to_inner %s))' % t, 'value'
        if k == 'iter':
            if m in ('next', 'next_back', 'nth', 'nth_back'):
                arg = ' %s' % self.ev(a[0])[0] if a else ''
                p = self.bind('it_%s %s%s' % (m, t, arg))
                if recv[0] == 'path':
                    self.out.append('let %s := snd %s in' % (recv[1], p))
                return '(fst %s)' % p, 'opt'
            if m in ('last', 'min', 'max'):
                return self.bind('it_%s %s' % (m, t)), 'opt'
            if m == 'count':
                return self.bind('it_count %s' % t), 'int'
            if m == 'size_hint':
                return self.bind('it_size_hint %s' % t), 'hint'
            if m == 'take':
                return self.bind('it_take %s %s' % (self.ev(a[0])[0], t)), 'list'
            if m == 'collect':
                return self.bind('it_collect %s' % t), 'list'
        if k == 'list' and m == 'collect':
            return t, 'list'
        if k == 'bound' and m == 'flipped':
            return '(flipped %s)' % t, 'bound'
        if k in ('bound', 'lb', 'ub') and m == 'map':
            _, v, x, y = a[0]
            f = {'bound': 'bound_map', 'lb': 'lb_map', 'ub': 'ub_map'}[k]
            return '(%s (fun n => lit %s (mval n + %d)) %s)' % (f, self.ty, y[1], t), k
        raise Bad('method %s on %s' % (m, k))
    def assert_eq(self, a, b):
        ta, ka = self.ev(a); tb, kb = self.ev(b)
        ks = {ka, kb}
        if ks == {'str', 'list'}: ka = kb = 'list'
        if ks == {'cstr', 'list'}: ka = kb = 'list'
        if ka != kb:
            raise Bad('eq %s %s' % (ka, kb))
        f = {'value': 'value_eqb', 'opt': 'opt_eqb', 'int': 'Z.eqb', 'hint': 'hint_eqb', 'list': 'list_eqb', 'str': 'list_eqb',
             'cstr': 'list_eqb', 'lb': 'lb_eqb', 'ub': 'ub_eqb', 'bound': 'bound_eqb', 'bool': 'Bool.eqb'}[ka]
        return '(%s %s %s)' % (f, ta, tb)

RESERVED = {'end': 'end_', 'match': 'match_'}

def body(text, ty):
    t = Tr(ty)
    text = re.sub(r'unsafe\s*\{\s*let (\w+) = (\w+)\[(\w+)\]\.as_bytes_mut\(\);\s*\1\[(\d+)\] = b\'(.)\';\s*\}',
                  lambda m: 'set_byte!(%s, %s, %s, %d);' % (m.group(2), m.group(3), m.group(4), ord(m.group(5))), text)
    text = re.sub(r'\*\((\w+)\[(\w+)\]\.get_mut\((\d+)\)\.unwrap\(\)\) = (\d+);', r'set_elem!(\1, \2, \3, \4);', text)
    text = re.sub(r'_ = &(\w+)\[(\w+)\]\.make_ascii_uppercase\(\);', r'upper!(\1, \2);', text)
    text = re.sub(r'std::ffi::OsString::from\(("[^"]*")\)', r'\1', text)
    text = re.sub(r'std::ffi::CString::new\(("[^"]*")\)', r'\1', text)
    p = P(lex(text))
    while p.peek() is not None:
        if p.peek() == 'use' or (p.peek() == '#' ):
            while p.next() != ';':
                pass
            continue
        if p.peek() == 'let':
            p.next()
            if p.peek() == 'mut':
                p.next()
            v = p.next()
            want = None
            if p.peek() == ':':
                p.next(); want = ''
                while p.peek() != '=':
                    want += p.next()
            p.eat('=')
            e = p.expr()
            p.eat(';')
            x, k = t.ev(e, want)
            if want in ('String', '&str', '&mutstr') and k == 'list':
                k = 'str'
            if k != 'cstr' and (k == 'str' or e[0] == 'str' or (e[0] == 'call' and e[1][0] == 'str')):
                k = 'str'
            if 'CString' in text_orig[0] and k == 'str':
                k = 'cstr'
            v = RESERVED.get(v, v)
            t.out.append('let %s := %s in' % (v, x))
            t.env[v] = k
        elif p.peek() == 'assert':
            p.next(); p.eat('!'); p.eat('(')
            b = t.boolean(p.expr())
            if p.peek() == ',': p.next()
            p.eat(')'); p.eat(';')
            t.out.append('_ <- assert %s ;;' % b)
        elif p.peek() == 'assert_eq':
            p.next(); p.eat('!'); p.eat('(')
            a = p.expr(); p.eat(','); b = p.expr()
            if p.peek() == ',': p.next()
            p.eat(')'); p.eat(';')
            t.out.append('_ <- assert %s ;;' % t.assert_eq(a, b))
        elif p.peek() in ('set_byte', 'set_elem'):
            f = p.next(); p.eat('!')
            a = p.args('(', ')')
            v = a[0][1]; ix = t.bind('index_of %s' % a[1][1])
            g = 'str_index_mut' if f == 'set_byte' else 'slice_index_mut'
            p.eat(';')
            t.out.append('%s <- %s Debug %s %s (set_nth %s %s) ;;' % (v, g, v, ix, a[2][1], a[3][1]))
        elif p.peek() == 'upper':
            p.next(); p.eat('!')
            a = p.args('(', ')'); p.eat(';')
            t.out.append('%s <- full_index_mut_value %s %s upper ;;' % (a[0][1], a[0][1], a[1][1]))
        else:
            raise Bad('stmt %s' % p.t[p.i:p.i+5])
    return t.out

text_orig = ['']
def emit(name, src, text, ty):
    text_orig[0] = text
    try:
        ls = body(text, ty)
    except (Bad, KeyError, IndexError) as ex:
        sys.stderr.write('untranslated %s (%s): %s\n' % (name, src, ex))
        return 0
    print('(** %s *)' % src)
    print('Example %s : passes (' % name)
    for l in ls:
        print('  ' + l)
    print('  Ret tt).')
    print('Proof. vm_compute. reflexivity. Qed.')
    return 1

def braces(s, i):
    d = 0
    for j in range(i, len(s)):
        if s[j] == '{': d += 1
        if s[j] == '}':
            d -= 1
            if d == 0:
                return j

print(open(os.path.join(os.path.dirname(os.path.abspath(__file__)), 'repo_tests_head.txt')).read())
n = 0
for f in sorted(glob.glob(REPO + '/src/test/**/*.rs', recursive=True)):
    s = open(f).read()
    rel = os.path.relpath(f, REPO)
    stem = rel[len('src/test/'):-3].replace('/', '_')
    for m in re.finditer(r'#\[test\]\s*fn (\w+)\(\) \{', s):
        j = braces(s, m.end() - 1)
        a, b = s.count('\n', 0, m.start()) + 1, s.count('\n', 0, j) + 1
        text = s[m.end():j]
        ty = 'I128' if 'i128' in text else 'Usize' if rel.startswith('src/test/index') else 'I32'
        n += emit('test_%s_%s' % (stem, m.group(1)), '%s:%d-%d' % (rel, a, b), text, ty)
for f in sorted(glob.glob(REPO + '/src/*.rs')) + [REPO + '/README.md']:
    rel = os.path.relpath(f, REPO)
    ls = open(f).read().split('\n')
    k, i = 0, 0
    md = f.endswith('.md')
    while i < len(ls):
        l = ls[i].strip()
        o = re.match(r'```(\w+)$' if md else r'//[/!] ?```(\w*)$', l)
        if o:
            j = i + 1
            while ls[j].strip() != '```' if md else not re.match(r'//[/!] ?```$', ls[j].strip()):
                j += 1
            block = ls[i+1:j] if md else [re.sub(r'^\s*//[/!] ?', '', x) for x in ls[i+1:j]]
            text = '\n'.join(re.sub(r'^# ', '', x) for x in block)
            text = re.sub(r'let (\w+): (Bounded|LowerBounded)(Range|Set)Iter<i32>', r'let \1', text)
            text = '\n'.join(x for x in text.split('\n') if 'Compiler error' not in x)
            if o.group(1) == ('rust' if md else '') and ('assert' in text or 'let' in text):
                k += 1
                n += emit('doc_%s_%d' % (os.path.basename(rel).split('.')[0].lower(), k), '%s:%d-%d' % (rel, i + 1, j + 1), text, 'I32')
            i = j
        i += 1
sys.stderr.write('%d translated\n' % n)
