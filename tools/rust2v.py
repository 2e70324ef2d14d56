#!/usr/bin/env python3
"""Translates the Rust source of the crate into Rocq syntax trees (theories/SourceSyntax.v defines them).

usage: rust2v.py /repo/oct/src OUTDIR            write SourceNames.v and Source<Module>.v
       rust2v.py --check /repo/oct/src OUTDIR    only compare with what is there

Nothing is interpreted here: text becomes a tree. Dropped on the way: comments, attributes, visibility, lifetimes, `unsafe`, `const` and `mut`
markers, `ref` and parentheses. `{ a; b }` becomes a sequence, `let p = e; b` a binding with its scope. The macros that the crate defines with
`macro_rules!` are expanded by their own rules."""
import re, sys, os

# ---------------------------------------------------------------- tokens
TOK = re.compile(r"""
  (?P<ws>\s+|//[^\n]*|/\*.*?\*/)
| (?P<life>'[a-zA-Z_]\w*(?!'))
| (?P<char>b?'(?:\\x[0-9a-fA-F]{2}|\\.|[^\\'])')
| (?P<str>b?"(?:\\.|[^"\\])*")
| (?P<num>0x[0-9a-fA-F_]+(?:[ui](?:8|16|32|64|128|size))?|\d[\d_]*(?:[ui](?:8|16|32|64|128|size))?)
| (?P<id>(?:r\#)?[A-Za-z_]\w*)
| (?P<op>\.\.=|\.\.\.|<<=|>>=|::|->|=>|==|!=|<=|>=|&&|\|\||\+=|-=|\*=|/=|\.\.|[-+*/%^!&|=<>@.,;:\#$?~(){}\[\]])
""", re.X | re.S)

class Tok:
    __slots__ = ('k', 's', 'line')
    def __init__(self, k, s, line): self.k, self.s, self.line = k, s, line
    def __repr__(self): return self.s

def lex(text):
    out, i, line = [], 0, 1
    while i < len(text):
        m = TOK.match(text, i)
        if not m: raise SyntaxError('line %d: %r' % (line, text[i:i+20]))
        if m.lastgroup != 'ws': out.append(Tok(m.lastgroup, m.group()[2:] if m.group().startswith('r#') else m.group(), line))
        line += m.group().count('\n'); i = m.end()
    return out

# ---------------------------------------------------------------- macro_rules
CLOSE = {'(': ')', '[': ']', '{': '}'}
def tree(toks, i):
    """index after the group that opens at i"""
    want = [CLOSE[toks[i].s]]; i += 1
    while want:
        s = toks[i].s if toks[i].k == 'op' else None
        if s in CLOSE: want.append(CLOSE[s])
        elif s == want[-1]: want.pop()
        i += 1
    return i

def parse_matcher(toks):
    """`$x:frag`, `$( .. ) sep op`, tokens"""
    out, i = [], 0
    while i < len(toks):
        if toks[i].s == '$' and toks[i+1].s == '(':
            j = tree(toks, i+1); inner = parse_matcher(toks[i+2:j-1]); sep = None
            if toks[j].s not in '*+?': sep = toks[j].s; j += 1
            out.append(('rep', inner, sep, toks[j].s)); i = j+1
        elif toks[i].s == '$':
            out.append(('var', toks[i+1].s, toks[i+3].s)); i += 4
        else: out.append(('tok', toks[i].s)); i += 1
    return out

def do_match(ms, toks, i):
    """bindings and the index after the match, or None"""
    b = {}
    for n, m in enumerate(ms):
        if m[0] == 'tok':
            if i < len(toks) and toks[i].s == m[1]: i += 1
            else: return None
        elif m[0] == 'var':
            if i >= len(toks): return None
            if m[2] == 'ident' or m[2] == 'literal': j = i+1
            elif m[2] == 'ty':
                p = Parser(toks[i:]); p.ty(); j = i + p.i
            else: raise SyntaxError('fragment ' + m[2])
            b[m[1]] = toks[i:j]; i = j
        else:
            reps, cnt = [], 0
            while True:
                k = i
                if cnt and m[2] is not None:
                    if k < len(toks) and toks[k].s == m[2]: k += 1
                    else: break
                r = do_match(m[1], toks, k) if k < len(toks) else None
                if r is None: break
                reps.append(r[0]); i = r[1]; cnt += 1
                if m[3] == '?': break
            if m[3] == '+' and not cnt: return None
            for v in vars_of(m[1]): b[v] = ('rep', [r[v] for r in reps])
    return b, i

def vars_of(ms):
    out = []
    for m in ms:
        if m[0] == 'var': out.append(m[1])
        elif m[0] == 'rep': out += vars_of(m[1])
    return out

def transcribe(toks, b):
    out, i = [], 0
    while i < len(toks):
        if toks[i].s == '$' and toks[i+1].s == '(':
            j = tree(toks, i+1); inner = toks[i+2:j-1]; sep = None
            if toks[j].s not in '*+?': sep = toks[j]; j += 1
            used = [inner[k+1].s for k in range(len(inner)-1) if inner[k].s == '$' and inner[k+1].s in b]
            n = len(b[used[0]][1])
            for k in range(n):
                if k and sep: out.append(sep)
                out += transcribe(inner, {v: (x[1][k] if isinstance(x, tuple) else x) for v, x in b.items()})
            i = j+1
        elif toks[i].s == '$' and toks[i+1].s in b:
            out += b[toks[i+1].s]; i += 2
        else: out.append(toks[i]); i += 1
    return out

# ---------------------------------------------------------------- `quote!`
templates = []
def template(toks):
    """`#x`, `#( .. )*`, groups and tokens"""
    out, i = [], 0
    while i < len(toks):
        t = toks[i]
        if t.s == '#' and t.k == 'op' and toks[i+1].s == '(':
            j = tree(toks, i+1); assert toks[j].s == '*'; out.append(('QRep', template(toks[i+2:j-1]))); i = j+1
        elif t.s == '#' and t.k == 'op' and toks[i+1].k == 'id': out.append(('QHole', toks[i+1].s)); i += 2
        elif t.k == 'op' and t.s in CLOSE:
            j = tree(toks, i); out.append(('QGroup', t.s, template(toks[i+1:j-1]))); i = j
        else: out.append(('QTok', {'id': 'TId', 'op': 'TPunct', 'num': 'TLit', 'str': 'TLit', 'char': 'TLit', 'life': 'TLife'}[t.k], t.s)); i += 1
    return out

# ---------------------------------------------------------------- parser
INTS = {'u8','u16','u32','u64','u128','i8','i16','i32','i64','i128','usize','isize'}
class Relaxed(str):
    """the name of a parameter with `?Sized`"""

class Parser:
    def __init__(self, toks): self.t, self.i = toks, 0; self.sites = 0; self.assoc = []
    def peek(self, k=0): return self.t[self.i+k].s if self.i+k < len(self.t) else None
    def kind(self, k=0): return self.t[self.i+k].k if self.i+k < len(self.t) else None
    def next(self): x = self.t[self.i]; self.i += 1; return x.s
    def at(self, *ss): return self.kind() in ('op', 'id') and self.peek() in ss
    def eat(self, s):
        if self.kind() in ('op', 'id') and self.peek() == s: self.i += 1; return True
        return False
    def need(self, s):
        if not self.eat(s):
            raise SyntaxError('line %s: wanted %r, got %r' % (self.t[self.i].line if self.i < len(self.t) else '?', s, [x.s for x in self.t[self.i:self.i+8]]))
    def ident(self):
        if self.kind() != 'id': raise SyntaxError('line %d: wanted a name, got %r' % (self.t[self.i].line, self.peek()))
        return self.next()
    def attrs(self):
        """skips attributes; true if one of them is cfg(test)"""
        test = False
        while self.at('#'):
            self.i += 1; self.eat('!'); j = tree(self.t, self.i)
            if [x.s for x in self.t[self.i:j]] == ['[', 'cfg', '(', 'test', ')', ']']: test = True
            self.i = j
        return test
    def vis(self):
        if self.eat('pub') and self.at('('): self.i = tree(self.t, self.i)
    # -- types
    def gargs(self):
        out = []
        self.need('<')
        while not self.at('>'):
            if self.kind() == 'life': self.next()
            elif self.kind() == 'id' and self.peek(1) == '=': n = self.next(); self.next(); out.append(('YAssoc', n, self.ty()))
            elif self.kind() == 'id' and self.peek(1) == ':':
                n = self.next(); self.next(); self.assoc = self.assoc + [(n, self.bounds())]
            elif self.kind() == 'num': out.append(('YLit', self.num()[1]))
            else: out.append(self.ty())
            if not self.eat(','): break
        self.need('>')
        return out
    def path(self, expr=False):
        """[(name, [type args])]; a leading `::` is dropped"""
        self.eat('::'); segs = []
        while True:
            n = self.ident(); args = []
            if expr:
                if self.at('::') and self.peek(1) == '<': self.next(); args = self.gargs()
            elif self.at('<'): args = self.gargs()
            elif self.at('(') and n in ('Fn', 'FnMut', 'FnOnce'):
                self.i = tree(self.t, self.i)
                if self.eat('->'): self.ty()
            segs.append((n, args))
            if self.at('::') and self.kind(1) == 'id': self.next()
            else: return segs
    def ty(self):
        if self.eat('&&'): return ('YRef', False, ('YRef', self.eat('mut'), self.ty()))
        if self.eat('&'):
            if self.kind() == 'life': self.next()
            return ('YRef', self.eat('mut'), self.ty())
        if self.eat('*'):
            m = self.next() == 'mut'; return ('YPtr', m, self.ty())
        if self.eat('('):
            ts = []
            while not self.at(')'):
                ts.append(self.ty())
                if not self.eat(','):
                    self.need(')')
                    return ts[0] if len(ts) == 1 else ('YTup', ts)
            self.need(')'); return ('YTup', ts)
        if self.eat('['):
            t = self.ty()
            if self.eat(';'):
                n = ('YLit', self.num()[1]) if self.kind() == 'num' else self.ty()
                self.need(']'); return ('YArr', t, n)
            self.need(']'); return ('YSlice', t)
        if self.eat('_'): return ('YInfer',)
        if self.eat('dyn'): self.bounds(); return ('YDyn',)
        if self.at('fn'):
            self.next(); self.i = tree(self.t, self.i)
            if self.eat('->'): self.ty()
            return ('YFn',)
        if self.eat('<'):
            s = self.ty(); tr = []
            if self.eat('as'): tr = self.path()
            self.need('>'); self.need('::')
            return ('YQual', s, tr, self.path())
        p = self.path()
        if self.at('!') and self.peek(1) == '[': self.next(); self.i = tree(self.t, self.i)     # `Token![,]`
        return ('YPath', p)
    def bounds(self):
        out = []
        while True:
            if self.kind() == 'life': self.next()
            elif self.eat('?'): self.path(); self.relaxed = True
            elif self.at('(') : self.i = tree(self.t, self.i)
            elif self.kind() == 'id' or self.at('::'): out.append(self.path())
            if not self.eat('+'): return out
    def bounds_of(self, t):
        """`T: Trait<X: B>` is `T: Trait` and `T::X: B`"""
        self.assoc = []
        bs = [(t, b) for b in self.bounds()]
        for n, l in self.assoc:
            p = t[:-1] + (t[-1] + [(n, [])],)
            bs += [(p, b) for b in l]
        return bs
    def generics(self):
        """names of type parameters, of constant parameters, and bounds"""
        tps, cps, bs = [], [], []
        if self.eat('<'):
            while not self.at('>'):
                if self.kind() == 'life':
                    self.next()
                elif self.eat('const'):
                    cps.append(self.ident()); self.need(':'); self.ty()
                else:
                    n = self.ident(); self.relaxed = False
                    if self.eat(':'): bs += self.bounds_of(('YPath', [(n, [])]))
                    tps.append(Relaxed(n) if self.relaxed else n)
                if not self.eat(','): break
            self.need('>')
        return tps, cps, bs
    def where(self, tps=None):
        bs = []
        if self.eat('where'):
            while not self.at('{', ';'):
                t = self.ty(); self.need(':'); self.relaxed = False; bs += self.bounds_of(t)
                if self.relaxed and tps: tps[:] = [Relaxed(p) if t == ('YPath', [(p, [])]) else p for p in tps]
                if not self.eat(','): break
        return bs
    # -- literals
    def num(self):
        s = self.next(); m = re.match(r'(0x[0-9a-fA-F_]+?|[\d_]+?)((?:[ui](?:8|16|32|64|128|size))?)$', s)
        return ('EInt', int(m.group(1).replace('_', ''), 0), m.group(2) or None)
    def char(self):
        s = self.next(); b = s.startswith('b'); s = s[2:-1] if b else s[1:-1]
        v = int(s[2:], 16) if s.startswith('\\x') else ord(s)
        return ('EInt', v, 'u8') if b else ('EChar', v)
    # -- patterns
    def pat(self):
        self.eat('|'); p = self.pat1()
        if not self.at('|'): return p
        ps = [p]
        while self.eat('|'): ps.append(self.pat1())
        return ('POr', ps)
    def pats(self, close):
        ps = []
        while not self.at(close):
            ps.append(self.pat())
            if not self.eat(','): break
        self.need(close); return ps
    def pat1(self):
        if self.eat('_'): return ('PAny',)
        if self.eat('..'): return ('PRest',)
        if self.eat('&'): self.eat('mut'); return self.pat1()
        if self.eat('('):
            j = self.i; ps = self.pats(')')
            if len(ps) == 1 and self.t[self.i-2].s != ',': return ps[0]
            return ('PTup', ps)
        if self.kind() == 'num':
            a = self.num()[1]
            if self.eat('..='): return ('PRange', a, self.num()[1])
            return ('PLit', a)
        if self.kind() == 'id' and self.peek() in ('ref', 'mut'):
            while self.at('ref', 'mut'): self.next()
            return ('PVar', self.ident())
        p = self.path(True)
        if self.eat('('): return ('PCon', p, self.pats(')'))
        if self.eat('{'):
            fs, rest = [], False
            while not self.at('}'):
                if self.eat('..'): rest = True; break
                while self.at('ref', 'mut'): self.next()
                n = self.ident()
                fs.append((n, self.pat() if self.eat(':') else ('PVar', n)))
                if not self.eat(','): break
            self.need('}'); return ('PRec', p, fs)
        if len(p) == 1 and not p[0][0][0].isupper():
            if self.eat('@'): return ('PAt', p[0][0], self.pat1())
            return ('PVar', p[0][0])
        return ('PCon', p, [])
    # -- expressions
    BIN = [['='], ['..', '..='], ['||'], ['&&'], ['==', '!=', '<', '>', '<=', '>='], ['|'], ['^'], ['&'], ['+', '-'], ['*', '/', '%']]
    OPS = {'==': 'OEq', '!=': 'ONe', '<': 'OLt', '>': 'OGt', '<=': 'OLe', '>=': 'OGe', '+': 'OAdd', '-': 'OSub', '*': 'OMul', '/': 'ODiv',
           '%': 'ORem', '&&': 'OAnd', '||': 'OOr'}
    def expr(self, nostruct=False): return self.assign(nostruct)
    def assign(self, ns):
        a = self.range(ns)
        if self.at('='): self.next(); return ('EAssign', None, a, self.assign(ns))
        for o in ('+=', '-=', '*='):
            if self.at(o): self.next(); return ('EAssign', self.OPS[o[0]], a, self.assign(ns))
        return a
    def starts_expr(self, ns):
        return self.i < len(self.t) and not self.at(')', ']', '}', ',', ';', '=>') and not (ns and self.at('{'))
    def range(self, ns):
        if self.at('..', '..='):
            inc = self.next() == '..='
            hi = self.binary(2, ns) if self.starts_expr(ns) else None
            return ('ERange', None, hi, inc)
        a = self.binary(2, ns)
        if self.at('..', '..='):
            inc = self.next() == '..='
            hi = self.binary(2, ns) if self.starts_expr(ns) else None
            return ('ERange', a, hi, inc)
        return a
    def binary(self, lvl, ns):
        if lvl == len(self.BIN): return self.cast(ns)
        a = self.binary(lvl+1, ns)
        while self.kind() == 'op' and self.peek() in self.BIN[lvl]:
            o = self.next(); b = self.binary(lvl+1, ns); a = ('EBin', self.OPS[o], a, b)
        return a
    def cast(self, ns):
        a = self.unary(ns)
        while self.eat('as'): a = ('ECast', a, self.ty())
        return a
    def unary(self, ns):
        if self.eat('!'): return ('ENot', self.unary(ns))
        if self.eat('-'): return ('ENeg', self.unary(ns))
        if self.eat('*'): return ('EDeref', self.unary(ns))
        if self.at('&&'): self.next(); return ('ERef', ('ERef', self.unary(ns)))
        if self.eat('&'):
            if self.at('raw'): self.next(); self.next(); return ('ERaw', self.unary(ns))
            self.eat('mut'); return ('ERef', self.unary(ns))
        return self.postfix(ns)
    def args(self, close=')'):
        out = []
        while not self.at(close):
            out.append(self.expr())
            if not self.eat(','): break
        self.need(close); return out
    def postfix(self, ns):
        e = self.primary(ns)
        while True:
            if self.at('(') and not self.blocky(e): self.next(); e = ('ECall', e, self.args())
            elif self.at('['): self.next(); i = self.expr(); self.need(']'); e = ('EIndex', e, i)
            elif self.at('?'): self.next(); e = ('ETry', e)
            elif self.at('.'):
                self.next()
                if self.kind() == 'num': e = ('EIdx', e, int(self.next())); continue
                n = self.ident(); ta = []
                if self.at('::'): self.next(); ta = self.gargs()
                if self.at('('): self.next(); e = ('EMethod', e, n, ta, self.args())
                else: e = ('EField', e, n)
            else: return e
    def blocky(self, e): return e[0] in ('EIf', 'EIfLet', 'EMatch', 'EFor', 'EWhile')
    def block(self):
        self.need('{'); e = self.stmts(); self.need('}'); return e
    def stmts(self):
        self.attrs()
        if self.at('}'): return ('EUnit',)
        if self.eat(';'): return self.stmts()
        if self.eat('let'):
            p = self.pat(); t = self.ty() if self.eat(':') else None
            e = None; els = None
            if self.eat('='): e = self.expr()
            if self.eat('else'): els = self.block()
            self.need(';'); return ('ELet', p, t, e, els, self.stmts())
        if self.eat('use'):
            p = self.path(); al = p[-1][0]
            if self.eat('as'): al = self.ident()
            self.need(';'); return ('EUse', al, p, self.stmts())
        e = self.expr()
        if self.eat(';'):
            return ('ESeq', e, self.stmts())
        if self.at('}'): return e
        if self.blocky(e) or e[0] in ('EUnit', 'ESeq', 'ELet') or self.t[self.i-1].s == '}': return ('ESeq', e, self.stmts())
        raise SyntaxError('line %d: statement ends at %r' % (self.t[self.i].line, self.peek()))
    def primary(self, ns):
        k, s = self.kind(), self.peek()
        if k == 'num': return self.num()
        if k == 'char': return self.char()
        if k == 'str': self.next(); return ('EStr', s[1:-1])
        if s == '(':
            self.next(); es = []
            if self.eat(')'): return ('ETuple', [])
            while True:
                es.append(self.expr())
                if self.eat(','):
                    if self.eat(')'): return ('ETuple', es)
                else:
                    self.need(')'); return es[0] if len(es) == 1 else ('ETuple', es)
        if s == '[':
            self.next()
            if self.eat(']'): return ('EArray', [])
            e = self.expr()
            if self.eat(';'): n = self.expr(); self.need(']'); return ('ERepeat', e, n)
            es = [e]
            while self.eat(','):
                if self.at(']'): break
                es.append(self.expr())
            self.need(']'); return ('EArray', es)
        if s == '{': return self.block()
        if s == 'unsafe' or s == 'const': self.next(); return self.block()
        if s == '|' or s == '||':
            ps = []
            if self.next() == '|':
                while not self.at('|'):
                    ps.append(self.pat1())
                    if not self.eat(','): break
                self.need('|')
            return ('EClosure', ps, self.expr())
        if s == 'if':
            self.next()
            if self.eat('let'):
                p = self.pat(); self.need('='); e = self.expr(True); a = self.block()
                b = self.els(); return ('EIfLet', p, e, a, b)
            c = self.expr(True); a = self.block(); return ('EIf', c, a, self.els())
        if s == 'match':
            self.next(); e = self.expr(True); self.need('{'); arms = []
            while True:
                self.attrs()
                if self.at('}'): break
                p = self.pat(); self.need('=>'); b = self.expr(); arms.append((p, b)); self.eat(',')
            self.need('}'); return ('EMatch', e, arms)
        if s == 'for':
            self.next(); p = self.pat(); self.need('in'); e = self.expr(True); return ('EFor', p, e, self.block())
        if s == 'while':
            self.next(); c = self.expr(True); return ('EWhile', c, self.block())
        if s == 'return':
            self.next(); return ('EReturn', self.expr() if self.starts_expr(ns) else ('EUnit',))
        if s == 'break': self.next(); return ('EBreak',)
        if s in ('true', 'false'): self.next(); return ('EBool', s == 'true')
        if s == '<':
            self.next(); t = self.ty(); tr = []
            if self.eat('as'): tr = self.path()
            self.need('>'); self.need('::'); return ('EQual', t, tr, self.path(True))
        p = self.path(True)
        if self.at('!') and self.peek(1) in CLOSE and p[-1][0] == 'quote':
            line = self.t[self.i].line; self.next(); j = tree(self.t, self.i); ts = template(self.t[self.i+1:j-1]); self.i = j
            templates.append((line, ts)); return ('EMacro', 'quote', [('EInt', len(templates)-1, None)])
        if self.at('!') and self.peek(1) in CLOSE:
            p = p[-1:]; self.next(); j = tree(self.t, self.i); inner = Parser(self.t[self.i+1:j-1]); self.i = j
            es = []
            while inner.i < len(inner.t):
                es.append(inner.expr())
                if inner.eat(';'): continue
                if not inner.eat(','): break
            if inner.i < len(inner.t): raise SyntaxError('macro ' + p[0][0])
            return ('EMacro', p[0][0], es)
        if self.at('{') and not ns and p[-1][0][0].isupper():
            self.next(); fs = []
            while not self.at('}'):
                n = self.ident(); fs.append((n, self.expr() if self.eat(':') else ('EPath', [(n, [])])))
                if not self.eat(','): break
            self.need('}'); return ('ERec', p, fs)
        if [x[0] for x in p][-2:] == ['Decode', 'decode']:
            self.sites += 1; return ('EHole', self.sites-1, p)
        return ('EPath', p)
    def els(self):
        if not self.eat('else'): return ('EUnit',)
        return self.primary(True) if self.at('if') else self.block()
    # -- items
    def fn(self):
        """after `fn`"""
        line = self.t[self.i-1].line; n = self.ident(); tps, cps, bs = self.generics(); self.need('('); ps = []; self.sites = 0
        while not self.at(')'):
            self.attrs()
            j = self.i; self.eat('&')
            if self.kind() == 'life': self.next()
            self.eat('mut')
            if self.eat('self'): ps.append((('PVar', 'self'), ('YPath', [('Self', [])])))
            else:
                self.i = j; p = self.pat1(); self.need(':'); ps.append((p, self.ty()))
            if not self.eat(','): break
        self.need(')'); ret = self.ty() if self.eat('->') else ('YTup', [])
        bs += self.where()
        if self.eat(';'): return None
        return dict(name=n, line=line, tps=tps, cps=cps, params=ps, ret=ret, body=self.block(), bounds=bs)
    def items(self, macros, out):
        while self.i < len(self.t):
            test = self.attrs()
            if self.i >= len(self.t): break
            self.vis(); s = self.peek()
            if s == 'use' or s == 'extern':
                while not self.eat(';'):
                    if self.at('{'): self.i = tree(self.t, self.i)
                    else: self.next()
            elif s == 'mod':
                self.next(); self.next()
                if not self.eat(';'): self.i = tree(self.t, self.i)
            elif s == 'macro_rules':
                self.next(); self.need('!'); n = self.ident(); j = tree(self.t, self.i); body = self.t[self.i+1:j-1]; self.i = j
                rules, k = [], 0
                while k < len(body):
                    e = tree(body, k); m = parse_matcher(body[k+1:e-1]); k = e+1; e = tree(body, k)
                    rules.append((m, body[k+1:e-1])); k = e
                    if k < len(body) and body[k].s == ';': k += 1
                macros[n] = rules
            elif self.kind() == 'id' and self.peek(1) == '!':
                n = self.next(); self.next(); j = tree(self.t, self.i); arg = self.t[self.i+1:j-1]; line = self.t[self.i].line; self.i = j; self.eat(';')
                if n == 'use_mod': continue
                for m, body in macros[n]:
                    r = do_match(m, arg, 0)
                    if r and r[1] == len(arg):
                        Parser(transcribe(body, r[0])).items(macros, out); break
                else: raise SyntaxError('line %d: no rule of %s!' % (line, n))
            elif s in ('struct', 'union'):
                line = self.t[self.i].line; kind = self.next(); n = self.ident(); tps, cps, bs = self.generics(); bs += self.where(); fs = []
                if self.eat('{'):
                    while not self.at('}'):
                        self.attrs(); self.vis(); f = self.ident(); self.need(':'); fs.append((f, self.ty()))
                        if not self.eat(','): break
                    self.need('}'); out.append(('struct', n, tps, cps, fs, bs, line))
                elif self.eat('('):
                    while not self.at(')'):
                        self.attrs(); self.vis(); fs.append(self.ty())
                        if not self.eat(','): break
                    self.need(')'); self.need(';'); out.append(('tstruct', n, tps, cps, fs, bs, line))
                else: self.need(';'); out.append(('tstruct', n, tps, cps, [], bs, line))
            elif s == 'enum':
                line = self.t[self.i].line; self.next(); n = self.ident(); tps, cps, bs = self.generics(); bs += self.where(); self.need('{'); vs = []
                while not self.at('}'):
                    self.attrs(); v = self.ident(); fs = None
                    if self.eat('('):
                        fs = ('tuple', [])
                        while not self.at(')'):
                            fs[1].append(self.ty())
                            if not self.eat(','): break
                        self.need(')')
                    elif self.eat('{'):
                        fs = ('rec', [])
                        while not self.at('}'):
                            self.attrs(); f = self.ident(); self.need(':'); fs[1].append((f, self.ty()))
                            if not self.eat(','): break
                        self.need('}')
                    vs.append((v, fs))
                    if not self.eat(','): break
                self.need('}'); out.append(('enum', n, tps, cps, vs, bs, line))
            elif s == 'trait':
                while not self.at('{'): self.next()
                self.i = tree(self.t, self.i)
            elif s == 'impl' or (s == 'unsafe' and self.peek(1) == 'impl'):
                self.eat('unsafe'); line = self.t[self.i].line; self.next(); tps, cps, bs = self.generics(); t = self.ty(); tr = None
                if self.eat('for'): tr = t[1]; t = self.ty()
                bs += self.where(tps); self.need('{'); consts, types, fns = [], [], []
                while not self.at('}'):
                    self.attrs(); self.vis()
                    if self.eat('type'): n = self.ident(); self.need('='); types.append((n, self.ty())); self.need(';')
                    elif self.at('const') and self.peek(1) not in ('fn', 'unsafe'):
                        self.next(); n = self.ident(); self.need(':'); ct = self.ty(); self.need('='); consts.append((n, ct, self.expr())); self.need(';')
                    else:
                        while self.at('const', 'unsafe'): self.next()
                        self.need('fn'); fns.append(self.fn())
                self.need('}')
                out.append(('impl', line, tps, cps, bs, tr, t, consts, types, fns))
            elif s in ('const', 'unsafe', 'fn'):
                while self.at('const', 'unsafe'): self.next()
                self.need('fn'); out.append(('fn', self.fn()))
            else: raise SyntaxError('line %d: item %r' % (self.t[self.i].line, s))

# ---------------------------------------------------------------- output
names = set()
def nm(s): names.add(s); return 'id_' + s
def lst(f, l): return '[' + '; '.join(f(x) for x in l) + ']'
def opt(f, x): return 'None' if x is None else '(Some %s)' % f(x)
def seg(p): return '(%s, %s)' % (nm(p[0]), lst(ty, p[1]))
def path(p): return lst(seg, p)
def b(x): return 'true' if x else 'false'
def z(n): return '(%d)%%Z' % n
def ty(t):
    k = t[0]
    if k == 'YPath': return '(YPath %s)' % path(t[1])
    if k == 'YQual': return '(YQual %s %s %s)' % (ty(t[1]), path(t[2]), path(t[3]))
    if k in ('YRef', 'YPtr'): return '(%s %s %s)' % (k, b(t[1]), ty(t[2]))
    if k == 'YSlice': return '(YSlice %s)' % ty(t[1])
    if k == 'YArr': return '(YArr %s %s)' % (ty(t[1]), ty(t[2]))
    if k == 'YTup': return '(YTup %s)' % lst(ty, t[1])
    if k == 'YLit': return '(YLit %s)' % z(t[1])
    if k == 'YAssoc': return '(YAssoc %s %s)' % (nm(t[1]), ty(t[2]))
    if k in ('YInfer', 'YDyn', 'YFn'): return k
    raise Exception(t)
def pat(p):
    k = p[0]
    if k in ('PAny', 'PRest'): return k
    if k == 'PVar': return '(PVar %s)' % nm(p[1])
    if k == 'PAt': return '(PAt %s %s)' % (nm(p[1]), pat(p[2]))
    if k == 'PLit': return '(PLit %s)' % z(p[1])
    if k == 'PRange': return '(PRange %s %s)' % (z(p[1]), z(p[2]))
    if k in ('POr', 'PTup'): return '(%s %s)' % (k, lst(pat, p[1]))
    if k == 'PCon': return '(PCon %s %s)' % (path(p[1]), lst(pat, p[2]))
    if k == 'PRec': return '(PRec %s %s)' % (path(p[1]), lst(lambda f: '(%s, %s)' % (nm(f[0]), pat(f[1])), p[2]))
    raise Exception(p)
def txt(s):
    return '(txt "%s")' % s.replace('\\"', '""').replace('\\\\', '\\')
loops, loop_prefix = [], ''
def loop(e):
    """what a loop repeats becomes a definition of its own"""
    t = ex(e); n = '%s_loop%d' % (loop_prefix, len(loops)); loops.append((n, t)); return n
def ex(e):
    k = e[0]
    if k == 'EPath': return '(EPath %s)' % path(e[1])
    if k == 'EHole': return '(EHole %d %s)' % (e[1], path(e[2]))
    if k == 'EQual': return '(EQual %s %s %s)' % (ty(e[1]), path(e[2]), path(e[3]))
    if k == 'EInt': return '(EInt %s %s)' % (z(e[1]), opt(nm, e[2]))
    if k == 'EChar': return '(EChar %s)' % z(e[1])
    if k == 'EBool': return '(EBool %s)' % b(e[1])
    if k == 'EStr': return '(EStr %s)' % txt(e[1])
    if k == 'ECall': return '(ECall %s %s)' % (ex(e[1]), lst(ex, e[2]))
    if k == 'EMethod': return '(EMethod %s %s %s %s)' % (ex(e[1]), nm(e[2]), lst(ty, e[3]), lst(ex, e[4]))
    if k == 'EField': return '(EField %s %s)' % (ex(e[1]), nm(e[2]))
    if k == 'EIdx': return '(EIdx %s %d)' % (ex(e[1]), e[2])
    if k == 'EWhile': return '(EWhile %s %s)' % (loop(e[1]), loop(e[2]))
    if k in ('EIndex', 'ERepeat', 'ESeq'): return '(%s %s %s)' % (k, ex(e[1]), ex(e[2]))
    if k in ('ENot', 'ENeg', 'EDeref', 'ERef', 'ERaw', 'ETry', 'EReturn'): return '(%s %s)' % (k, ex(e[1]))
    if k in ('EBreak', 'EUnit'): return k
    if k == 'EBin': return '(EBin %s %s %s)' % (e[1], ex(e[2]), ex(e[3]))
    if k == 'ECast': return '(ECast %s %s)' % (ex(e[1]), ty(e[2]))
    if k == 'ERange': return '(ERange %s %s %s)' % (opt(ex, e[1]), opt(ex, e[2]), b(e[3]))
    if k == 'EIf': return '(EIf %s %s %s)' % (ex(e[1]), ex(e[2]), ex(e[3]))
    if k == 'EIfLet': return '(EIfLet %s %s %s %s)' % (pat(e[1]), ex(e[2]), ex(e[3]), ex(e[4]))
    if k == 'EMatch': return '(EMatch %s %s)' % (ex(e[1]), lst(lambda a: '(%s, %s)' % (pat(a[0]), ex(a[1])), e[2]))
    if k == 'EFor': return '(EFor %s %s %s)' % (pat(e[1]), ex(e[2]), loop(e[3]))
    if k in ('ETuple', 'EArray'): return '(%s %s)' % (k, lst(ex, e[1]))
    if k == 'ERec': return '(ERec %s %s)' % (path(e[1]), lst(lambda f: '(%s, %s)' % (nm(f[0]), ex(f[1])), e[2]))
    if k == 'EClosure': return '(EClosure %s %s)' % (lst(pat, e[1]), ex(e[2]))
    if k == 'EMacro': return '(EMacro %s %s)' % (nm(e[1]), lst(ex, e[2]))
    if k == 'EAssign': return '(EAssign %s %s %s)' % (opt(str, e[1]), ex(e[2]), ex(e[3]))
    if k == 'ELet': return '(ELet %s %s %s %s\n      %s)' % (pat(e[1]), opt(ty, e[2]), opt(ex, e[3]), opt(ex, e[4]), ex(e[5]))
    if k == 'EUse': return '(EUse %s %s %s)' % (nm(e[1]), path(e[2]), ex(e[3]))
    raise Exception(e)

def tmpl(t):
    if t[0] == 'QRep': return '(QRep %s)' % lst(tmpl, t[1])
    if t[0] == 'QHole': return '(QHole %s)' % nm(t[1])
    if t[0] == 'QGroup': return '(QGroup %s %s)' % ({'(': 'DParen', '[': 'DBracket', '{': 'DBrace'}[t[1]], lst(tmpl, t[2]))
    return '(QTok (%s (txt "%s")))' % (t[1], t[2].replace('"', '""'))

def slug(t):
    """a readable name for a header"""
    k = t[0]
    if k == 'YPath': return '_'.join([t[1][-1][0]] + [slug(a) for a in t[1][-1][1]])
    if k == 'YRef': return 'ref_mut' if t[1] else 'ref'
    if k == 'YArr': return 'array'
    if k == 'YSlice': return 'slice'
    if k == 'YTup': return 'tuple%d' % len(t[1])
    if k == 'YLit': return str(t[1])
    return 'x'

MODULES = [('Encode', ['encode/encode/mod.rs', 'sized_slice/code.rs', 'sized_str/code.rs'], lambda tr: tr == 'Encode'),
           ('Decode', ['decode/decode/mod.rs', 'sized_slice/code.rs', 'sized_str/code.rs'], lambda tr: tr == 'Decode'),
           ('Sizes', ['encode/sized_encode/mod.rs', 'sized_slice/code.rs', 'sized_str/code.rs'], lambda tr: tr == 'SizedEncode'),
           ('Output', ['encode/output/mod.rs'], lambda tr: True),
           ('Input', ['decode/input/mod.rs'], lambda tr: True),
           ('Slot', ['slot/mod.rs'], lambda tr: True),
           ('SizedSlice', ['sized_slice/mod.rs', 'sized_slice/conv.rs', 'sized_slice/iter.rs', 'sized_slice/cmp.rs'], lambda tr: True),
           ('SizedIter', ['sized_iter/mod.rs'], lambda tr: True),
           ('SizedStr', ['sized_str/mod.rs', 'sized_str/conv.rs', 'sized_str/cmp.rs'], lambda tr: True),
           ('Discriminant', ['primitive_discriminant/mod.rs'], lambda tr: True),
           ('Errors', None, lambda tr: True),
           ('Macros', ['../../oct-macros/src/' + f for f in
                       ('lib.rs', 'impl_derive_macro.rs', 'repr/mod.rs', 'discriminants/mod.rs', 'generic_name/mod.rs', 'impls/encode_struct.rs',
                        'impls/encode_enum.rs', 'impls/decode_struct.rs', 'impls/decode_enum.rs', 'impls/sized_encode_struct.rs',
                        'impls/sized_encode_enum.rs')], lambda tr: True)]

def emit_fn(f):
    return 'Fn %s %s %s %s\n    %s' % (nm(f['name']), lst(nm, f['tps']), lst(lambda p: '(%s, %s)' % (pat(p[0]), ty(p[1])), f['params']), ty(f['ret']), ex(f['body']))

def module(name, root, files, keep):
    out, defs, seen = [], [], {}
    if files is None: files = sorted('error/' + x for x in os.listdir(root + '/error') if x != 'mod.rs')
    cite = lambda f: os.path.normpath('oct/src/' + f)
    fnames = []
    for f in files:
        items = []; first = len(templates)
        Parser(lex(open(os.path.join(root, f)).read())).items({}, items)
        for k in range(first, len(templates)):
            out.append('(* %s:%d *)\nDefinition src_quote_%d : list tmpl :=\n  %s.' % (cite(f), templates[k][0], k, lst(tmpl, templates[k][1])))
        for it in items:
            if it[0] == 'fn' and name == 'Macros':
                out.append('(* %s:%d *)\nDefinition src_fn_%s : fn := %s.' % (cite(f), it[1]['line'], it[1]['name'], emit_fn(it[1]))); fnames.append('src_fn_' + it[1]['name'])
            if it[0] != 'impl': continue
            _, line, tps, cps, bs, tr, t, consts, types, fns = it
            if not keep(tr[-1][0] if tr else None): continue
            s = '%s_%s' % ('_'.join([tr[-1][0]] + [slug(a) for a in tr[-1][1]]) if tr else 'impl', slug(t))
            s = re.sub(r'\W', '_', s)
            seen[s] = seen.get(s, 0) + 1
            if seen[s] > 1: s += '_%d' % seen[s]
            fn_names = []
            body = []
            for fn in fns:
                if fn is None: continue
                n = 'src_%s_%s' % (s, fn['name'])
                global loop_prefix
                loop_prefix = n; del loops[:]; t_fn = emit_fn(fn)
                for ln, lt in loops: body.append('(* %s:%d, a loop in it *)\nDefinition %s : expr :=\n    %s.' % (cite(f), fn['line'], ln, lt))
                body.append('(* %s:%d *)\nDefinition %s : fn := %s.' % (cite(f), fn['line'], n, t_fn))
                fn_names.append(n)
            body.append('(* %s:%d *)\nDefinition src_%s : impl :=\n  Impl %s %s %s %s %s\n    %s %s [%s].' % (
                cite(f), line, s, lst(nm, tps), lst(nm, cps), lst(lambda x: '(%s, %s)' % (ty(x[0]), path(x[1])), bs), opt(path, tr), ty(t),
                lst(lambda c: '(%s, %s)' % (nm(c[0]), ex(c[2])), consts), lst(lambda c: '(%s, %s)' % (nm(c[0]), ty(c[1])), types), '; '.join(fn_names)))
            out += body; defs.append('src_' + s)
    text = '(* Generated by tools/rust2v.py from %s. Do not edit. *)\n' % (', '.join(cite(f) for f in files) if len(files) < 9 else 'oct-macros/src' if name == 'Macros' else 'oct/src/error/*.rs')
    text += 'From Coq Require Import String.\nFrom Verif Require Import Base SourceNames SourceSyntax%s.\nLocal Open Scope list_scope.\n\n' % (' MacroSyntax' if name == 'Macros' else '')
    text += '\n\n'.join(out) + '\n\n(* all of them, in the order of the files *)\nDefinition src_%s : list impl := [%s].\n' % (name.lower() + '_impls', '; '.join(defs))
    if name == 'Macros':
        text += '\n(* the functions that stand by themselves *)\nDefinition src_macros_fns : list fn := [%s].\n' % '; '.join(fnames)
        text += '\n(* each `quote!`, in the order of the files *)\nDefinition src_quotes : list (list tmpl) := [%s].\n' % '; '.join('src_quote_%d' % k for k in range(len(templates)))
    return text

def tydefs(root):
    """the definitions of the types"""
    files = [f for _, fs, _ in MODULES if fs and fs[0][0] != '.' for f in fs] + sorted('error/' + x for x in os.listdir(root + '/error') if x != 'mod.rs')
    out, defs = [], []
    for f in dict.fromkeys(files):
        items = []; Parser(lex(open(os.path.join(root, f)).read())).items({}, items)
        for it in items:
            if it[0] not in ('struct', 'tstruct', 'enum'): continue
            kind, n, tps, cps, fs, bs, line = it
            if kind == 'struct': vs = [(n, [t for _, t in fs])]
            elif kind == 'tstruct': vs = [(n, fs)]
            else: vs = [(v, [] if x is None else x[1] if x[0] == 'tuple' else [t for _, t in x[1]]) for v, x in fs]
            out.append('(* oct/src/%s:%d *)\nDefinition def_%s : tydef :=\n  TyDef %s %s %s %s\n    %s.' % (f, line, n, nm(n), lst(nm, tps), lst(nm, cps),
                lst(lambda x: '(%s, %s)' % (ty(x[0]), path(x[1])), bs), lst(lambda v: '(%s, %s)' % (nm(v[0]), lst(ty, v[1])), vs)))
            defs.append('def_' + n)
    text = '(* Generated by tools/rust2v.py from oct/src. Do not edit. *)\nFrom Verif Require Import Base SourceNames SourceSyntax.\nLocal Open Scope list_scope.\n\n'
    return text + '\n\n'.join(out) + '\n\n(* all of them *)\nDefinition src_types : list tydef := [%s].\n' % '; '.join(defs)

def unsized(root):
    """the parameters with `?Sized`"""
    out = []
    for name, files, keep in MODULES[:3]:
        l = []
        for f in files:
            items = []; Parser(lex(open(os.path.join(root, f)).read())).items({}, items)
            for it in items:
                if it[0] != 'impl' or not keep(it[5][-1][0] if it[5] else None): continue
                ps = [p for p in it[2] if isinstance(p, Relaxed)]
                if ps: l.append('(* oct/src/%s:%d *) (%s, %s)' % (f, it[1], ty(it[6]), lst(nm, ps)))
        out.append('(* %s: the types of the implementations that have parameters with `?Sized`, and these parameters *)\nDefinition src_%s_unsized : list (rty * list name) := [%s].' % (
            ', '.join('oct/src/' + f for f in files), name.lower(), ';\n  '.join([''] + l)[1:]))
    return '(* Generated by tools/rust2v.py from oct/src. Do not edit. *)\nFrom Verif Require Import Base SourceNames SourceSyntax.\nLocal Open Scope list_scope.\n\n' + '\n\n'.join(out) + '\n'

def main():
    check = sys.argv[1] == '--check'
    root, outdir = sys.argv[-2:]
    res = {}
    for name, files, keep in MODULES: res['Source%s.v' % name] = module(name, root, files, keep)
    res['SourceTypes.v'] = tydefs(root)
    res['SourceUnsized.v'] = unsized(root)
    for n in open(os.path.join(os.path.dirname(os.path.abspath(__file__)), 'names.txt')).read().split(): nm(n)
    ns = sorted(names)
    t = '(* Generated by tools/rust2v.py: the names that occur in the source of the crate, and some of the standard library. Do not edit. *)\n'
    t += 'From Coq Require Import NArith.\n\nInductive name :=\n' + '\n'.join('| id_' + n for n in ns) + '.\n\n'
    t += 'Definition name_code (x : name) : N :=\n  match x with\n' + '\n'.join('  | id_%s => %d' % (n, i) for i, n in enumerate(ns)) + '\n  end%N.\n'
    t += 'Definition name_eqb (x y : name) : bool := N.eqb (name_code x) (name_code y).\n'
    res['SourceNames.v'] = t
    bad = 0
    for f, s in res.items():
        p = os.path.join(outdir, f)
        if check:
            if not os.path.exists(p) or open(p).read() != s: print('differs:', f); bad = 1
        else: open(p, 'w').write(s)
    sys.exit(bad)
if __name__ == '__main__': main()
