#!/usr/bin/env python3
"""Translate functions of the repository, read as text, into Gallina.

usage: gen_text.py REPO OUTDIR

Writes OUTDIR/Text*.v.  The operators of the generated text are those of
rocq/theories/Rust.v.  What the translation does:

  * integers keep their type; unsuffixed literals get it from Coq's inference;
  * every operation that may panic is an option, bound with [x <- e ;; f];
  * references are erased; an assignment rebinds its variable; a method with
    [&mut self] returns the new receiver (and its result, if it has one);
  * a branch that assigns variables returns them; a branch that contains
    [return] takes the rest of the block with it;
  * println-like macros and the texts of panics are dropped.

A construct that is not known raises an error; nothing is skipped silently.
"""
import re, sys, os

# ----------------------------------------------------------------- tokens
PUNCT = ['<<=', '..=', '...', '::', '->', '=>', '<<', '<=', '==', '!=', '&&', '||', '+=', '-=',
         '*=', '/=', '%=', '&=', '|=', '^=', '..']
TOK = re.compile(r'''
  (?P<ws>\s+|//[^\n]*|/\*.*?\*/)
 |(?P<num>0x[0-9a-fA-F_]+(?:[ui](?:8|16|32|64|size))?|0b[01_]+(?:[ui](?:8|16|32|64|size))?
         |[0-9][0-9_]*(?:[ui](?:8|16|32|64|128|size))?)
 |(?P<str>b?"(?:\\.|[^"\\])*")
 |(?P<char>b?'(?:\\.|[^'\\])')
 |(?P<life>'[a-zA-Z_]\w*)
 |(?P<id>[A-Za-z_]\w*)
 |(?P<p>''' + '|'.join(re.escape(p) for p in PUNCT) + r'''|[^\s\w])
''', re.X | re.S)

class Tok:
    __slots__ = ('k', 's', 'line')
    def __init__(self, k, s, line): self.k, self.s, self.line = k, s, line
    def __repr__(self): return '%s@%d' % (self.s, self.line)

def tokens(text):
    pos, line, out = 0, 1, []
    while pos < len(text):
        m = TOK.match(text, pos)
        if not m: raise SyntaxError('line %d: %r' % (line, text[pos:pos + 20]))
        if m.lastgroup != 'ws': out.append(Tok(m.lastgroup, m.group(), line))
        line += m.group().count('\n')
        pos = m.end()
    out.append(Tok('eof', '', line))
    return out

INTS = {'u8': 'U8', 'u16': 'U16', 'u32': 'U32', 'u64': 'U64', 'usize': 'USize', 'i32': 'I32', 'i64': 'I64'}

# ----------------------------------------------------------------- parser
class Parser:
    def __init__(self, text, usize='USize'):
        self.t, self.i = tokens(text), 0
        self.ints = dict(INTS, usize=usize)
    def pk(self, n=0): return self.t[min(self.i + n, len(self.t) - 1)].s
    def kind(self, n=0): return self.t[min(self.i + n, len(self.t) - 1)].k
    traits = False      # whether the functions of trait implementations are read
    def line(self): return self.t[self.i].line
    def nx(self):
        self.i += 1
        return self.t[self.i - 1]
    def eat(self, s):
        if self.pk() == s:
            self.i += 1
            return True
        return False
    def ex(self, s):
        if not self.eat(s):
            raise SyntaxError('line %d: expected %r, found %r' % (self.line(), s, self.pk()))
    def ident(self):
        if self.kind() != 'id': raise SyntaxError('line %d: identifier expected, %r' % (self.line(), self.pk()))
        return self.nx().s
    def skip_group(self, a, b):
        """skip a bracketed group starting at [a]"""
        self.ex(a); d = 1
        while d:
            s = self.nx().s
            if s == a: d += 1
            elif s == b: d -= 1
            elif s == '': raise SyntaxError('unbalanced ' + a)
    def attrs(self):
        out = []
        while self.pk() == '#':
            self.nx(); self.eat('!')
            j = self.i
            self.skip_group('[', ']')
            out.append(' '.join(x.s for x in self.t[j + 1:self.i - 1]))
        return out

    # types
    def gt(self):
        """close a generic list: [>] , or split the tokens that begin with it"""
        s = self.pk()
        if s == '>': self.nx()
        elif s.startswith('>'): self.t[self.i] = Tok('p', s[1:], self.line())
        else: raise SyntaxError('line %d: > expected, %r' % (self.line(), s))
    def ty(self):
        if self.eat('&'):
            if self.kind() == 'life': self.nx()
            m = self.eat('mut')
            return ('ref', m, self.ty())
        if self.eat('&&'): return self.ty()
        if self.eat('*'):
            self.nx()
            return ('ptr', self.ty())
        if self.eat('['):
            t = self.ty()
            if self.eat(';'): self.expr()
            self.ex(']')
            return ('list', t)
        if self.eat('('):
            ts = []
            while not self.eat(')'):
                ts.append(self.ty()); self.eat(',')
            return ('tup', ts)
        if self.eat('!'): return ('never',)
        if self.eat('impl') or self.eat('dyn'):
            return self.ty()
        name, args = [], []
        while True:
            name.append(self.ident())
            if self.pk() == '<':
                self.nx()
                while self.pk() != '>' and not self.pk().startswith('>'):
                    if self.kind() == 'life': self.nx()
                    elif self.kind() == 'id' and self.pk(1) == '=':
                        self.nx(); self.nx(); self.ty()
                    else: args.append(self.ty())
                    self.eat(',')
                self.gt()
            if self.pk() == '::': self.nx(); continue
            break
        while self.eat('+'): self.ty()
        n = name[-1]
        if n in self.ints: return ('int', self.ints[n])
        if n == 'bool': return ('bool',)
        if n == 'Vec': return ('list', args[0])
        if n == 'HashMap': return ('map', args[0], args[1])
        if n == 'Option': return ('option', args[0])
        return ('name', n)

    # patterns
    def pat(self):
        if self.eat('&'):
            self.eat('mut')
            return self.pat()
        if self.eat('_'): return ('wild',)
        if self.eat('('):
            ps = []
            while not self.eat(')'):
                ps.append(self.pat()); self.eat(',')
            return ('tup', ps)
        if self.kind() == 'num':
            return ('lit', self.number()[0])
        self.eat('mut')
        segs = [self.ident()]
        if segs == ['_']: return ('wild',)
        while self.eat('::'): segs.append(self.ident())
        if self.eat('('):
            ps = []
            while not self.eat(')'):
                ps.append(self.pat()); self.eat(',')
            return ('con', segs, ps)
        if len(segs) == 1 and (segs[0][0].islower() or segs[0][0] == '_'): return ('var', segs[0])
        return ('con', segs, [])

    def number(self):
        s = self.nx().s
        m = re.match(r'(0x[0-9a-fA-F_]+?|0b[01_]+?|[0-9][0-9_]*?)((?:[ui](?:8|16|32|64|128|size))?)$', s)
        z = int(m.group(1).replace('_', ''), 0) if m.group(1)[:2] in ('0x', '0b') else int(m.group(1).replace('_', ''))
        return z, (self.ints[m.group(2)] if m.group(2) else None)

    # expressions
    BIN = [['||'], ['&&'], ['==', '!=', '<', '>', '<=', '>='], ['|'], ['^'], ['&'], ['<<', '>>'],
           ['+', '-'], ['*', '/', '%']]
    def expr(self, struct=True):
        """assignment and [return]"""
        if self.pk() == 'return':
            self.nx()
            if self.pk() in (';', '}', ','): return ('ret', None)
            return ('ret', self.expr(struct))
        if self.pk() in ('|', '||'):
            ps = []
            if not self.eat('||'):
                self.ex('|')
                while not self.eat('|'):
                    ps.append(self.pat())
                    if self.eat(':'): self.ty()
                    self.eat(',')
            return ('closure', ps, self.expr())
        a = self.rng(struct)
        if self.pk() == '=':
            self.nx()
            return ('assign', a, self.expr(struct))
        if self.pk() in ('+=', '-=', '*=', '/=', '%=', '&=', '|=', '^=', '<<='):
            op = self.nx().s[:-1]
            return ('opassign', op, a, self.expr(struct))
        if self.pk() == '>' and self.pk(1) == '>=':
            self.nx(); self.nx()
            return ('opassign', '>>', a, self.expr(struct))
        return a
    def rng(self, struct):
        a = self.binary(0, struct)
        if self.pk() == '..':
            self.nx()
            b = self.binary(0, struct) if self.pk() not in (']', ')', '{') else None
            return ('range', a, b)
        return a
    def op_at(self, level):
        s = self.pk()
        if s == '>' and self.pk(1) in ('>', '>='):
            # '>' is never joined by the tokenizer; two of them are a shift
            s2 = '>>' if self.pk(1) == '>' else s
            if s2 in self.BIN[level]: return s2, 2
            return None, 0
        if s == '>' and self.pk(1) == '=':
            return ('>=', 2) if '>=' in self.BIN[level] else (None, 0)
        if s in self.BIN[level]: return s, 1
        return None, 0
    def binary(self, level, struct):
        if level == len(self.BIN): return self.cast(struct)
        a = self.binary(level + 1, struct)
        while True:
            op, n = self.op_at(level)
            if not op: return a
            for _ in range(n): self.nx()
            b = self.binary(level + 1, struct)
            a = ('bin', op, a, b)
            if level == 2: return a
    def cast(self, struct):
        a = self.unary(struct)
        while self.eat('as'): a = ('cast', a, self.ty())
        return a
    def unary(self, struct):
        if self.eat('-'): return ('un', '-', self.unary(struct))
        if self.eat('!'): return ('un', '!', self.unary(struct))
        if self.eat('*'): return ('un', '*', self.unary(struct))
        if self.eat('&&'): return self.unary(struct)
        if self.eat('&'):
            m = self.eat('mut')
            return ('un', '&mut' if m else '&', self.unary(struct))
        return self.postfix(self.primary(struct))
    def args(self, close=')'):
        out = []
        while not self.eat(close):
            out.append(self.expr())
            if self.pk() != close: self.ex(',')
        return out
    def postfix(self, a):
        while True:
            if self.eat('.'):
                if self.kind() == 'num':
                    a = ('proj', a, int(self.nx().s))
                    continue
                n = self.ident()
                if self.pk() == '::' and self.pk(1) == '<':
                    self.nx(); self.nx(); self.ty(); self.gt()
                if self.eat('('): a = ('meth', a, n, self.args())
                else: a = ('field', a, n)
            elif self.eat('('): a = ('call', a, self.args())
            elif self.eat('['):
                i = self.expr()
                self.ex(']')
                a = ('index', a, i)
            elif self.pk() == '?': raise SyntaxError('line %d: ?' % self.line())
            else: return a
    def macro(self, name):
        close = {'(': ')', '[': ']', '{': '}'}[self.nx().s]
        if name in ('panic', 'unimplemented', 'todo', 'unreachable') or name.endswith('println') or name.endswith('print'):
            d = 1; op = {')': '(', ']': '[', '}': '{'}[close]
            while d:
                s = self.nx().s
                d += (s == op) - (s == close)
            return ('macro', name, [])
        if name == 'vec':
            e = self.expr()
            if self.eat(';'):
                n = self.expr(); self.ex(close)
                return ('repeat', e, n)
            es = [e]
            while self.eat(','):
                if self.pk() != close: es.append(self.expr())
            self.ex(close)
            return ('arr', es)
        if name in ('assert', 'assert_eq', 'assert_ne'):
            return ('macro', name, self.args(close))
        raise SyntaxError('line %d: macro %s' % (self.line(), name))
    def primary(self, struct):
        k, s = self.kind(), self.pk()
        if k == 'num':
            z, suf = self.number()
            return ('lit', z, suf)
        if k == 'str':
            self.nx()
            return ('str', s)
        if s in ('true', 'false'):
            self.nx()
            return ('bool', s)
        if s == '(':
            self.nx()
            if self.eat(')'): return ('tup', [])
            e = self.expr()
            if self.eat(')'): return e
            es = [e]
            while self.eat(','):
                if self.pk() == ')': break
                es.append(self.expr())
            self.ex(')')
            return ('tup', es)
        if s == '[':
            self.nx()
            if self.eat(']'): return ('arr', [])
            e = self.expr()
            if self.eat(';'):
                n = self.expr(); self.ex(']')
                return ('repeat', e, n)
            es = [e]
            while self.eat(','):
                if self.pk() == ']': break
                es.append(self.expr())
            self.ex(']')
            return ('arr', es)
        if s == '{': return self.block()
        if s == 'unsafe':
            self.nx()
            return self.block()
        if s == 'if':
            self.nx()
            c = self.expr(struct=False)
            a = self.block()
            b = None
            if self.eat('else'):
                b = self.primary(True) if self.pk() == 'if' else self.block()
            return ('if', c, a, b)
        if s == 'match':
            self.nx()
            c = self.expr(struct=False)
            self.ex('{')
            arms = []
            while not self.eat('}'):
                self.attrs()
                self.eat('|')
                ps = [self.pat()]
                while self.eat('|'): ps.append(self.pat())
                if self.pk() == 'if': raise SyntaxError('line %d: guard' % self.line())
                self.ex('=>')
                e = self.statement() if self.pk() == '{' else self.expr()
                self.eat(',')
                arms.append((ps, e))
            return ('match', c, arms)
        if s == 'while':
            self.nx()
            c = self.expr(struct=False)
            return ('while', c, self.block())
        if s == 'loop':
            self.nx()
            return ('loop', self.block())
        if s == 'for':
            self.nx()
            p = self.pat()
            self.ex('in')
            e = self.expr(struct=False)
            return ('for', p, e, self.block())
        if k == 'id':
            segs = [self.nx().s]
            while self.pk() == '::':
                self.nx()
                if self.pk() == '<':
                    self.nx()
                    t = self.ty(); self.gt()
                    segs.append(('generic', t))
                else: segs.append(self.ident())
            if self.pk() == '!' and self.pk(1) in ('(', '[', '{') and self.pk(1) != '=':
                self.nx()
                return self.macro(segs[-1])
            if struct and self.pk() == '{' and segs[-1][0].isupper():
                self.nx()
                fs = []
                while not self.eat('}'):
                    f = self.ident()
                    fs.append((f, self.expr() if self.eat(':') else ('path', [f])))
                    self.eat(',')
                return ('struct', segs, fs)
            return ('path', segs)
        raise SyntaxError('line %d: unexpected %r' % (self.line(), s))
    def statement(self):
        """an expression with a block at its head ends with the block"""
        if self.pk() in ('if', 'match', '{', 'unsafe', 'while', 'loop', 'for'):
            e = self.primary(True)
            return self.postfix(e) if self.pk() == '.' else e
        return self.expr()
    def block(self):
        self.ex('{')
        stmts, tail = [], None
        while not self.eat('}'):
            at = self.attrs()
            if self.eat(';'): continue
            if self.pk() == 'extern':
                while self.pk() != '{': self.nx()
                self.skip_group('{', '}')
                continue
            if self.pk() == 'static':
                self.nx(); self.eat('mut')
                n = self.ident(); self.ex(':'); t = self.ty(); self.ex('='); self.expr(); self.ex(';')
                continue
            if self.pk() == 'const':
                self.nx(); n = self.ident(); self.ex(':'); t = self.ty(); self.ex('=')
                stmts.append(('let', ('var', n), t, self.expr())); self.ex(';')
                continue
            if self.pk() == 'let':
                self.nx()
                p = self.pat()
                t = self.ty() if self.eat(':') else None
                e = self.expr() if self.eat('=') else None
                self.ex(';')
                stmts.append(('let', p, t, e))
                continue
            e = self.statement()
            if at:
                if any('cfg' in a for a in at):
                    if at != ['cfg ( debug_assertions )']: raise SyntaxError('cfg %r' % at)
                    stmts.append(('cfg', e))
                    self.eat(';')
                    continue
            if self.eat(';'): stmts.append(('expr', e))
            elif self.pk() == '}': tail = e
            elif e[0] in ('if', 'iflet', 'match', 'block', 'while', 'for', 'loop', 'macro'): stmts.append(('expr', e))
            else: raise SyntaxError('line %d: statement %r' % (self.line(), e[0]))
        return ('block', stmts, tail)

    # items
    def items(self, out, mod, owner=None):
        while self.kind() != 'eof' and self.pk() != '}':
            at = self.attrs()
            test = any(a.replace(' ', '') == 'cfg(test)' or a == 'test' for a in at)
            start = self.line()
            if self.eat('pub'):
                if self.pk() == '(': self.skip_group('(', ')')
            if self.pk() == 'const' and self.pk(1) == 'fn': self.nx()
            if self.pk() == 'unsafe': self.nx()
            if self.pk() == 'extern' and self.kind(1) == 'str': self.nx(); self.nx()
            s = self.pk()
            if s in ('use', 'type', 'extern'):
                while not self.eat(';'): self.nx()
            elif s == 'mod':
                self.nx(); n = self.ident()
                if self.eat(';'): continue
                if test: self.skip_group('{', '}')
                else:
                    self.ex('{')
                    self.items(out, n)
                    self.ex('}')
            elif s in ('const', 'static'):
                self.nx(); self.eat('mut')
                n = self.ident(); self.ex(':')
                t = self.ty(); self.ex('=')
                e = self.expr(); self.ex(';')
                out.append(('const', mod, n, t, e, start, self.t[self.i - 1].line))
            elif s == 'enum':
                self.nx(); n = self.ident()
                self.ex('{')
                vs = []
                while not self.eat('}'):
                    self.attrs()
                    v = self.ident(); ts = []; d = None
                    if self.eat('('):
                        while not self.eat(')'):
                            ts.append(self.ty()); self.eat(',')
                    if self.eat('='): d = self.expr()
                    self.eat(',')
                    vs.append((v, ts, d))
                out.append(('enum', mod, n, vs, start, self.t[self.i - 1].line))
            elif s == 'struct':
                self.nx(); n = self.ident()
                if self.pk() == '<': self.generics()
                if self.eat('('):
                    ts = []
                    while not self.eat(')'):
                        if self.eat('pub'): pass
                        ts.append(self.ty()); self.eat(',')
                    self.ex(';')
                    out.append(('tstruct', mod, n, ts, start, self.t[self.i - 1].line))
                else:
                    self.ex('{')
                    fs = []
                    while not self.eat('}'):
                        self.attrs()
                        if self.eat('pub') and self.pk() == '(': self.skip_group('(', ')')
                        f = self.ident(); self.ex(':')
                        fs.append((f, self.ty())); self.eat(',')
                    out.append(('struct', mod, n, fs, start, self.t[self.i - 1].line))
            elif s == 'impl':
                self.nx()
                if self.pk() == '<': self.generics()
                t = self.ty()
                trait = None
                if self.eat('for'):
                    trait = t; t = self.ty()
                while self.pk() != '{': self.nx()
                if trait is not None and not self.traits: self.skip_group('{', '}')
                else:
                    self.ex('{')
                    self.items(out, mod, t[1] if t[0] == 'name' else str(t))
                    self.ex('}')
            elif s == 'fn':
                self.fn(out, mod, owner, start)
            elif s == 'macro_rules':
                self.nx(); self.ex('!'); self.ident(); self.skip_group('{', '}')
            elif s == 'trait':
                while self.pk() != '{': self.nx()
                self.skip_group('{', '}')
            elif self.kind() == 'id' and self.pk(1) == '!':
                self.nx(); self.nx(); self.skip_group(self.pk(), {'(': ')', '{': '}', '[': ']'}[self.pk()]); self.eat(';')
            else: raise SyntaxError('line %d: item %r' % (self.line(), s))
    def generics(self):
        self.ex('<'); d = 1
        while d:
            s = self.nx().s
            d += (s == '<') - (s == '>')
    def fn(self, out, mod, owner, start):
        """signature now; the body is parsed on demand"""
        self.ex('fn'); n = self.ident()
        if self.pk() == '<': self.generics()
        self.ex('(')
        mode, params = None, []
        while not self.eat(')'):
            self.attrs()
            if self.pk() == '&' and (self.pk(1) == 'self' or self.pk(1) == 'mut' and self.pk(2) == 'self'):
                self.nx(); mode = 'mut' if self.eat('mut') else 'ref'; self.ex('self')
            elif self.pk() == 'self' or self.pk() == 'mut' and self.pk(1) == 'self':
                self.eat('mut'); self.ex('self'); mode = 'val'
            else:
                p = self.pat(); self.ex(':')
                params.append((p, self.ty()))
            self.eat(',')
        ret = self.ty() if self.eat('->') else ('tup', [])
        while self.pk() not in ('{', ';'): self.nx()
        b = self.i
        if self.eat(';'): return
        self.skip_group('{', '}')
        out.append(('fn', mod, owner, n, mode, params, ret, b, start, self.t[self.i - 1].line, self))

# ----------------------------------------------------------------- translation
KEYWORDS = {'in', 'end', 'at', 'fun', 'let', 'match', 'with', 'as', 'using', 'where', 'for', 'if', 'then', 'else',
            'return', 'Type', 'Set', 'Prop', 'forall', 'exists', 'fix', 'cofix', 'p', 'list', 'option', 'Some', 'None'}
def name(x): return x + '_' if x in KEYWORDS else x

MUTATORS = {'push', 'insert', 'copy_from_slice', 'clone_from_slice'}
BINOPS = {'+': 'add', '-': 'sub', '*': 'mul', '<<': 'shl', '>>': 'shr', '/': 'div', '%': 'rem',
          '&': 'band', '|': 'bor', '^': 'bxor', '==': 'eq', '!=': 'ne', '<': 'lt', '<=': 'le', '>': 'gt', '>=': 'ge'}

class Err(Exception): pass

class World:
    """the items of all files read so far"""
    def __init__(self):
        self.consts, self.enums, self.structs, self.tstructs, self.fns = {}, {}, {}, {}, {}
        self.variants = {}

    def strip(self, t):
        while t and t[0] == 'ref': t = t[2]
        return t

    def coq_ty(self, t):
        t = self.strip(t)
        if t[0] == 'int': return {'U8': 'u8', 'U16': 'u16', 'U32': 'u32', 'U64': 'u64', 'USize': 'usize', 'I32': 'i32', 'I64': 'i64'}[t[1]]
        if t[0] == 'bool': return 'bool'
        if t[0] == 'list': return '(list %s)' % self.coq_ty(t[1])
        if t[0] == 'map': return '(list (%s * %s))' % (self.coq_ty(t[1]), self.coq_ty(t[2]))
        if t[0] == 'option': return '(option %s)' % self.coq_ty(t[1])
        if t[0] == 'tup': return 'unit' if not t[1] else '(' + ' * '.join(self.coq_ty(x) for x in t[1]) + ')'
        if t[0] == 'name': return name(t[1])
        raise Err('type %r' % (t,))

class Fn:
    """translation of one function"""
    def __init__(self, w, item):
        self.w = w
        (_, self.mod, self.owner, self.n, self.mode, self.params, self.ret, b, self.l0, self.l1, ps) = item
        self.ps, self.b = ps, b
        self.fresh = 0
        self.fuel = False
        self.deps = []
        self.ret = self.self_ty(self.ret)
        self.params = [(p, self.self_ty(t)) for p, t in self.params]
    def self_ty(self, t):
        if t == ('name', 'Self'): return ('name', self.owner)
        if t[0] == 'ref': return ('ref', t[1], self.self_ty(t[2]))
        if t[0] == 'tup': return ('tup', [self.self_ty(x) for x in t[1]])
        return t
    def body(self):
        self.ps.i = self.b
        return self.ps.block()
    def coq_name(self):
        return '%s_%s' % (self.owner or self.mod, self.n)
    def tmp(self):
        self.fresh += 1
        return 't%d' % self.fresh

    # -- names
    def resolve(self, segs):
        segs = [self.owner if s == 'Self' else s for s in segs]
        segs = [s for s in segs if s not in ('crate', 'super', 'self') or len(segs) == 1]
        return segs
    def lookup_const(self, n, mod=None):
        if mod: return self.w.consts.get((mod, n))
        c = self.w.consts.get((self.mod, n))
        if c: return c
        cs = [v for (m, k), v in self.w.consts.items() if k == n]
        return cs[0] if len(cs) == 1 else None
    def lookup_fn(self, segs):
        if len(segs) == 1:
            f = self.w.fns.get((self.mod, None, segs[0]))
            if f: return f
            fs = [v for (m, o, k), v in self.w.fns.items() if o is None and k == segs[0]]
            return fs[0] if len(fs) == 1 else None
        o, n = segs[-2], segs[-1]
        for (m, ow, k), v in self.w.fns.items():
            if k == n and (ow == o or ow is None and m == o): return v
        return None
    def method(self, t, n):
        t = self.w.strip(t)
        if not t or t[0] != 'name': return None
        for (m, ow, k), v in self.w.fns.items():
            if k == n and ow == t[1]: return v
        return None

    # -- analysis
    def has_return(self, e):
        if isinstance(e, tuple):
            if e and e[0] == 'ret': return True
            if e and e[0] == 'closure': return False
            return any(self.has_return(x) for x in e)
        if isinstance(e, list): return any(self.has_return(x) for x in e)
        return False
    def root(self, e):
        while True:
            if e[0] == 'path' and len(e[1]) == 1: return e[1][0]
            if e[0] in ('field', 'proj', 'index', 'meth'): e = e[1]
            elif e[0] == 'un': e = e[2]
            else: return None
    def assigned(self, e, env, acc=None):
        acc = [] if acc is None else acc
        def put(x):
            if x in env and x not in acc: acc.append(x)
        if isinstance(e, tuple) and e:
            if e[0] == 'assign': put(self.root(e[1]))
            if e[0] == 'opassign': put(self.root(e[2]))
            if e[0] == 'meth':
                r = self.root(e[1])
                if e[2] in MUTATORS: put(r)
                else:
                    for (m, ow, k), v in self.w.fns.items():
                        if k == e[2] and v.mode == 'mut' and r in env:
                            t = self.type_of(e[1], env)
                            if t is None or self.w.strip(t) == ('name', ow): put(r)
            for x in e: self.assigned(x, env, acc)
        elif isinstance(e, list):
            for x in e: self.assigned(x, env, acc)
        return acc
    def type_of(self, e, env):
        """the type of a place, when it is known"""
        w = self.w
        if e[0] == 'path' and len(e[1]) == 1: return env.get(e[1][0])
        if e[0] == 'un': return self.type_of(e[2], env)
        if e[0] == 'field':
            t = w.strip(self.type_of(e[1], env))
            if t and t[0] == 'name' and t[1] in w.structs: return dict(w.structs[t[1]]).get(e[2])
        if e[0] == 'index':
            t = w.strip(self.type_of(e[1], env))
            if t and t[0] == 'list': return t[1]
        return None

    # -- expressions: (lines, term, type)
    def tr(self, e, env):
        w, k = self.w, e[0]
        if k == 'lit':
            if e[2]: return [], '(Rust.lit (t := Rust.%s) %d)' % (e[2], e[1]), ('int', e[2])
            return [], '(Rust.lit %d)' % e[1], None
        if k == 'bool': return [], e[1], ('bool',)
        if k == 'path': return self.tr_path(e[1], env)
        if k == 'un':
            if e[1] in ('&', '&mut', '*'): return self.tr(e[2], env)
            b, t, ty = self.tr(e[2], env)
            if e[1] == '!':
                if ty == ('bool',): return b, '(negb %s)' % t, ty
                return b, '(Rust.bnot %s)' % t, ty
            if e[2][0] == 'lit': return b, '(Rust.lit (%d))' % -e[2][1], ty
            x = self.tmp()
            return b + ['%s <- Rust.neg p %s ;;' % (x, t)], x, ty
        if k == 'bin': return self.tr_bin(e, env)
        if k == 'cast':
            b, t, ty = self.tr(e[1], env)
            to = w.strip(e[2])
            if to[0] != 'int': raise Err('cast to %r' % (to,))
            s = w.strip(ty)
            if s == ('bool',): return b, '(Rust.cast_bool Rust.%s %s)' % (to[1], t), to
            if s and s[0] == 'name':
                if s[1] not in w.enums: raise Err('cast of %r' % (s,))
                return b, '(Rust.cast Rust.%s (%s_discriminant %s))' % (to[1], s[1], t), to
            return b, '(Rust.cast Rust.%s %s)' % (to[1], t), to
        if k == 'field':
            b, t, ty = self.tr(e[1], env)
            s = w.strip(ty)
            if not s or s[0] != 'name' or s[1] not in w.structs: raise Err('field %s of %r' % (e[2], ty))
            return b, '(%s_%s %s)' % (s[1], e[2], t), dict(w.structs[s[1]])[e[2]]
        if k == 'proj':
            b, t, ty = self.tr(e[1], env)
            s = w.strip(ty)
            if s and s[0] == 'name' and s[1] in w.tstructs:
                return b, '(%s_%d %s)' % (s[1], e[2], t), w.tstructs[s[1]][e[2]]
            raise Err('projection of %r' % (ty,))
        if k == 'index':
            b, t, ty = self.tr(e[1], env)
            if e[2][0] == 'range': raise Err('slice as a value')
            b2, i, _ = self.tr(e[2], env)
            x = self.tmp()
            s = w.strip(ty)
            return b + b2 + ['%s <- Rust.index %s %s ;;' % (x, t, i)], x, s[1] if s and s[0] == 'list' else None
        if k == 'tup':
            bs, ts, tys = [], [], []
            for x in e[1]:
                b, t, ty = self.tr(x, env)
                bs += b; ts.append(t); tys.append(ty)
            if not ts: return [], 'tt', ('tup', [])
            return bs, '(' + ', '.join(ts) + ')', ('tup', tys)
        if k == 'arr':
            bs, ts, ty = [], [], None
            for x in e[1]:
                b, t, ty0 = self.tr(x, env)
                ty = ty or ty0
                bs += b; ts.append(t)
            return bs, '[' + '; '.join(ts) + ']', ('list', ty)
        if k == 'repeat':
            b, t, ty = self.tr(e[1], env)
            b2, n, _ = self.tr(e[2], env)
            return b + b2, '(Rust.filled %s %s)' % (t, n), ('list', ty)
        if k == 'struct':
            segs = self.resolve(e[1])
            n = segs[-1]
            if n not in w.structs: raise Err('struct %s' % n)
            d = dict(e[2]); bs, ts = [], []
            tr = {}
            for f, x in e[2]:
                b, t, _ = self.tr(x, env)
                bs += b; tr[f] = t
            for f, _ in w.structs[n]: ts.append(tr.pop(f))
            if tr: raise Err('fields %r' % tr)
            return bs, '(mk_%s %s)' % (n, ' '.join(ts)), ('name', n)
        if k == 'call': return self.tr_call(e, env)
        if k == 'meth': return self.tr_meth(e, env)
        if k in ('if', 'match', 'block'):
            if self.has_return(e): raise Err('return inside an expression')
            if self.assigned(e, env): raise Err('assignment inside an expression')
            x = self.tmp()
            tys = []
            def fin(t, ty, env2):
                tys.append(ty)
                return 'Some %s' % t
            txt = self.tail(e, env, fin)
            ty = next((t for t in tys if t), None)
            return ['%s <- (%s) ;;' % (x, txt)], x, ty
        raise Err('expression %s' % k)
    def tr_path(self, segs, env):
        w = self.w
        segs = self.resolve(segs)
        if len(segs) == 1:
            x = segs[0]
            if x in env: return [], name(x), env[x]
            c = self.lookup_const(x)
            if c:
                self.deps.append(c['coq'])
                return [], c['coq'], c['ty']
            raise Err('name %s' % x)
        o, n = segs[-2], segs[-1]
        if o in INTS and n in ('MAX', 'MIN', 'BITS'):
            ty = INTS[o]
            return [], '(Rust.%s Rust.%s)' % ({'MAX': 'max_of', 'MIN': 'min_of', 'BITS': 'bits_of'}[n], ty), \
                ('int', 'U32') if n == 'BITS' else ('int', ty)
        if (o, n) in w.variants: return [], '%s_%s' % (o, n), ('name', o)
        c = self.lookup_const(n, o)
        if c:
            self.deps.append(c['coq'])
            return [], c['coq'], c['ty']
        raise Err('path %r' % (segs,))
    def tr_bin(self, e, env):
        op = e[1]
        if op in ('&&', '||'):
            b, t, _ = self.tr(e[2], env)
            b2, t2, _ = self.tr(e[3], env)
            if not b2: return b, '(%s %s %s)' % (t, op, t2), ('bool',)
            x = self.tmp()
            rest = ' '.join(b2) + ' Some %s' % t2
            if op == '&&': return b + ['%s <- (if %s then %s else Some false) ;;' % (x, t, rest)], x, ('bool',)
            return b + ['%s <- (if %s then Some true else %s) ;;' % (x, t, rest)], x, ('bool',)
        b, t, ty = self.tr(e[2], env)
        b2, t2, ty2 = self.tr(e[3], env)
        f = BINOPS[op]
        s1, s2 = self.w.strip(ty), self.w.strip(ty2)
        if op in ('==', '!=') and (s1 == ('bool',) or s2 == ('bool',)):
            r = '(Bool.eqb %s %s)' % (t, t2)
            return b + b2, r if op == '==' else '(negb %s)' % r, ('bool',)
        if op in ('==', '!=', '<', '<=', '>', '>='): return b + b2, '(Rust.%s %s %s)' % (f, t, t2), ('bool',)
        if op in ('<<', '>>'):
            if e[3][0] == 'lit' and not e[3][2]: t2 = '(Rust.lit (t := Rust.I32) %d)' % e[3][1]
            x = self.tmp()
            return b + b2 + ['%s <- Rust.%s p %s %s ;;' % (x, f, t, t2)], x, ty
        if op in ('&', '|', '^'): return b + b2, '(Rust.%s %s %s)' % (f, t, t2), ty or ty2
        x = self.tmp()
        pr = '' if op in ('/', '%') else 'p '
        return b + b2 + ['%s <- Rust.%s %s%s %s ;;' % (x, f, pr, t, t2)], x, ty or ty2
    def tr_args(self, args, env):
        bs, ts, tys = [], [], []
        for a in args:
            b, t, ty = self.tr(a, env)
            bs += b; ts.append(t); tys.append(ty)
        return bs, ts, tys
    def tr_call(self, e, env):
        w = self.w
        if e[1][0] != 'path': raise Err('call of %r' % (e[1][0],))
        segs = self.resolve(e[1][1])
        if segs[-2:] == ['Vec', 'new']: return [], '[]', ('list', None)
        if segs[-2:] == ['HashMap', 'new']: return [], 'Rust.map_new', ('map', None, None)
        if segs[-2:] == ['Vec', 'with_capacity']:
            b, _, _ = self.tr(e[2][0], env)
            return b, '[]', ('list', None)
        bs, ts, _ = self.tr_args(e[2], env)
        if len(segs) >= 2 and (segs[-2], segs[-1]) in w.variants:
            return bs, '(%s_%s %s)' % (segs[-2], segs[-1], ' '.join(ts)), ('name', segs[-2])
        if segs[-1] in w.tstructs:
            return bs, '(mk_%s %s)' % (segs[-1], ' '.join(ts)), ('name', segs[-1])
        f = self.lookup_fn(segs)
        if not f: raise Err('function %r' % (segs,))
        return self.apply(f, bs, ts)
    def apply(self, f, bs, ts):
        self.deps.append(f.coq_name())
        x = self.tmp()
        return bs + ['%s <- %s p %s ;;' % (x, f.coq_name(), ' '.join(ts))], x, f.ret
    def tr_meth(self, e, env):
        w = self.w
        _, r, n, args = e
        rt = self.type_of(r, env)
        f = self.method(rt, n)
        if f is not None and f.mode == 'mut':
            b0, t0, _ = self.tr(r, env)
            bs, ts, _ = self.tr_args(args, env)
            self.deps.append(f.coq_name())
            x = self.tmp()
            unit = w.strip(f.ret) == ('tup', [])
            if unit:
                call = '%s <- %s p %s %s ;;' % (x, f.coq_name(), t0, ' '.join(ts))
                return b0 + bs + [call] + self.write(r, x, env), 'tt', ('tup', [])
            y = self.tmp()
            call = "'(%s, %s) <- %s p %s %s ;;" % (x, y, f.coq_name(), t0, ' '.join(ts))
            return b0 + bs + [call] + self.write(r, x, env), y, f.ret
        if n in MUTATORS and (rt is None or w.strip(rt)[0] in ('list', 'map') or r[0] == 'index'):
            bs, ts, tys = self.tr_args(args, env)
            if n in ('copy_from_slice', 'clone_from_slice'):
                x = self.tmp()
                if r[0] == 'index' and r[2][0] == 'range':
                    b0, t0, _ = self.tr(r[1], env)
                    ba, ta, _ = self.tr(r[2][1], env)
                    bb, tb, _ = self.tr(r[2][2], env)
                    return b0 + ba + bb + bs + ['%s <- Rust.copy_range %s %s %s %s ;;' % (x, t0, ta, tb, ts[0])] \
                        + self.write(r[1], x, env), 'tt', ('tup', [])
                b0, t0, _ = self.tr(r, env)
                return b0 + bs + ['%s <- Rust.copy_from_slice %s %s ;;' % (x, t0, ts[0])] + self.write(r, x, env), 'tt', ('tup', [])
            b0, t0, _ = self.tr(r, env)
            return bs + b0 + self.write(r, '(Rust.%s %s %s)' % (n, t0, ' '.join(ts)), env), 'tt', ('tup', [])
        b, t, ty = self.tr(r, env)
        s = w.strip(ty)
        f = self.method(ty, n)
        if f is not None:
            bs, ts, _ = self.tr_args(args, env)
            return self.apply(f, b + bs, [t] + ts)
        if n in ('clone', 'iter', 'to_vec', 'as_slice') and not args: return b, t, ty
        if n == 'len': return b, '(Rust.len %s)' % t, ('int', 'USize')
        if n == 'is_empty': return b, '(Rust.eq (Rust.len %s) (Rust.lit 0))' % t, ('bool',)
        bs, ts, _ = self.tr_args(args, env)
        if n in ('wrapping_add', 'wrapping_sub', 'wrapping_mul', 'wrapping_shl', 'wrapping_shr'):
            return b + bs, '(Rust.%s %s %s)' % (n, t, ts[0]), ty
        if n == 'div':
            x = self.tmp()
            return b + bs + ['%s <- Rust.div %s %s ;;' % (x, t, ts[0])], x, ty
        if n == 'checked_add': return b + bs, '(Rust.checked_add %s %s)' % (t, ts[0]), ('option', ty)
        if n == 'get' and s and s[0] == 'map':
            return b + bs, '(Rust.find %s %s)' % (t, ts[0]), ('option', s[2])
        if n in ('unwrap', 'expect') and s and s[0] == 'option':
            x = self.tmp()
            return b + ['%s <- %s ;;' % (x, t)], x, s[1]
        raise Err('method %s of %r' % (n, ty))

    # -- assignment: lines that make the place hold the term
    def write(self, place, t, env):
        w = self.w
        if place[0] == 'path' and len(place[1]) == 1: return ['let %s := %s in' % (name(place[1][0]), t)]
        if place[0] == 'un' and place[1] in ('*', '&mut'):
            q = place[2]
            if q[0] == 'meth':
                f = self.method(self.type_of(q[1], env), q[2])
                body = f.body()
                if body[1] or body[2][0] != 'un' or body[2][1] != '&mut': raise Err('place function %s' % q[2])
                lines, sub = [], {'self': q[1]}
                for (p, _), a in zip(f.params, q[3]):
                    b, ta, tya = self.tr(a, env)
                    x = self.tmp()
                    lines += b + ['let %s := %s in' % (x, ta)]
                    env[x] = tya
                    sub[p[1]] = ('path', [x])
                def subst(e):
                    if isinstance(e, tuple):
                        if e[:1] == ('path',) and len(e[1]) == 1 and e[1][0] in sub: return sub[e[1][0]]
                        return tuple(subst(x) for x in e)
                    if isinstance(e, list): return [subst(x) for x in e]
                    return e
                return lines + self.write(subst(body[2][2]), t, env)
            return self.write(q, t, env)
        if place[0] == 'field':
            b, o, ty = self.tr(place[1], env)
            s = w.strip(ty)
            return b + self.write(place[1], '(set_%s_%s %s %s)' % (s[1], place[2], o, t), env)
        if place[0] == 'proj':
            b, o, ty = self.tr(place[1], env)
            s = w.strip(ty)
            if len(w.tstructs[s[1]]) != 1: raise Err('tuple struct')
            return b + self.write(place[1], '(mk_%s %s)' % (s[1], t), env)
        if place[0] == 'index':
            b, o, ty = self.tr(place[1], env)
            b2, i, _ = self.tr(place[2], env)
            x = self.tmp()
            return b + b2 + ['%s <- Rust.store %s %s %s ;;' % (x, o, i, t)] + self.write(place[1], x, env)
        raise Err('place %s' % place[0])

    # -- statements and tails
    def retk(self, t):
        if self.mode == 'mut':
            if self.w.strip(self.ret) == ('tup', []): return 'Some self'
            return 'Some (self, %s)' % t
        return 'Some %s' % t
    def tail(self, e, env, k):
        """translate [e] whose value goes to [k]; [k] may be used several times"""
        if e is None: return k('tt', ('tup', []), env)
        c = e[0]
        if c == 'block': return self.stmts(e[1], e[2], dict(env), k)
        if c == 'ret':
            if e[1] is None: return self.retk('tt')
            return self.tail(e[1], env, lambda t, ty, env2: self.retk(t))
        if c == 'macro':
            if e[1] in ('panic', 'unimplemented', 'todo', 'unreachable'): return 'None'
            if e[1] == 'assert':
                b, t, _ = self.tr(e[2][0], env)
                return self.join(b, 'if %s then %s else None' % (t, k('tt', ('tup', []), env)))
            if e[1] in ('assert_eq', 'assert_ne'):
                b, t, ty = self.tr(('bin', '==' if e[1] == 'assert_eq' else '!=', e[2][0], e[2][1]), env)
                return self.join(b, 'if %s then %s else None' % (t, k('tt', ('tup', []), env)))
            return k('tt', ('tup', []), env)          # printing
        if c == 'if':
            b, t, _ = self.tr(e[1], env)
            return self.join(b, 'if %s\nthen (%s)\nelse (%s)' % (t, self.tail(e[2], env, k), self.tail(e[3], env, k)))
        if c == 'match': return self.tr_match(e, env, k)
        if c in ('assign', 'opassign', 'for', 'while', 'loop'):
            return self.stmts([('expr', e)], None, env, k)
        b, t, ty = self.tr(e, env)
        return self.join(b, k(t, ty, env))
    def join(self, lines, rest): return '\n'.join(lines + [rest])
    def bind_pat(self, p, ty, env):
        """(Coq pattern, environment)"""
        env = dict(env)
        ty = self.w.strip(ty) if ty else ty
        def go(p, ty):
            if p[0] == 'wild': return '_'
            if p[0] == 'var':
                env[p[1]] = ty
                return name(p[1])
            if p[0] == 'tup':
                tys = ty[1] if ty and ty[0] == 'tup' else [None] * len(p[1])
                return '(' + ', '.join(go(q, t) for q, t in zip(p[1], tys)) + ')'
            raise Err('pattern %r' % (p,))
        return go(p, ty), env
    def tr_match(self, e, env, k):
        w = self.w
        scr, arms = e[1], e[2]
        if scr[0] == 'tup': comps = scr[1]
        else: comps = [scr]
        bs, ts, tys = [], [], []
        for x in comps:
            b, t, ty = self.tr(x, env)
            bs += b
            if not re.match(r'^\w+$', t):
                y = self.tmp()
                bs.append('let %s := %s in' % (y, t)); t = y
            ts.append(t); tys.append(self.w.strip(ty))
        if len(comps) == 1 and tys[0] and tys[0][0] == 'name' and tys[0][1] in w.enums:
            en = tys[0][1]
            out = 'match %s with\n' % ts[0]
            for ps, body in arms:
                env2 = dict(env)
                pats = []
                for p in ps:
                    if p[0] == 'wild': pats.append('_')
                    elif p[0] == 'con':
                        segs = self.resolve(p[1])
                        vt = dict((v, a) for v, a, _ in w.enums[en])[segs[-1]]
                        names = []
                        for q, qt in zip(p[2], vt):
                            if q[0] == 'wild': names.append('_')
                            elif q[0] == 'var':
                                env2[q[1]] = qt; names.append(name(q[1]))
                            else: raise Err('nested pattern')
                        pats.append('%s_%s%s' % (en, segs[-1], ''.join(' ' + n for n in names)))
                    else: raise Err('pattern %r' % (p,))
                out += '| %s => %s\n' % (' | '.join(pats), self.tail(body, env2, k))
            return self.join(bs, out + 'end')
        txt, close = '', 0
        for n, (ps, body) in enumerate(arms):
            alts, irref = [], False
            env2 = dict(env)
            for p in ps:
                qs = p[1] if p[0] == 'tup' else [p]
                if p[0] == 'wild': irref = True; continue
                cs = []
                for q, t in zip(qs, ts):
                    if q[0] == 'lit': cs.append('Rust.eq %s (Rust.lit %d)' % (t, q[1]))
                    elif q[0] == 'wild': pass
                    else: raise Err('integer pattern %r' % (q,))
                alts.append(' && '.join('(%s)' % c for c in cs))
            if irref:
                if n != len(arms) - 1: raise Err('unreachable arms')
                txt += '(%s)' % self.tail(body, env2, k)
                break
            cond = ' || '.join('(%s)' % a for a in alts)
            txt += 'if %s then (%s)\nelse ' % (cond, self.tail(body, env2, k))
        else: raise Err('no default arm')
        return self.join(bs, txt)
    def tuple_of(self, vs): return 'tt' if not vs else (name(vs[0]) if len(vs) == 1 else '(' + ', '.join(name(v) for v in vs) + ')')
    def pat_of(self, vs): return '_' if not vs else (name(vs[0]) if len(vs) == 1 else "'(" + ', '.join(name(v) for v in vs) + ')')
    def stmts(self, ss, tail, env, k):
        w = self.w
        if not ss: return self.tail(tail, env, k)
        s, rest = ss[0], ss[1:]
        go = lambda env2: self.stmts(rest, tail, env2, k)
        if s[0] == 'let':
            _, p, ty, init = s
            if init is None: raise Err('let without a value')
            if ty: ty = self.self_ty(ty)
            if init[0] in ('if', 'match', 'block') and self.has_return(init):
                def k2(t, ty2, env2):
                    pp, env3 = self.bind_pat(p, ty or ty2, env2)
                    return "let %s%s := %s in\n%s" % ("'" if p[0] == 'tup' else '', pp, t, self.stmts(rest, tail, env3, k))
                return self.tail(init, env, k2)
            b, t, ty2 = self.tr(init, env)
            pp, env2 = self.bind_pat(p, ty or ty2, env)
            tick = "'" if p[0] == 'tup' else ''
            ann = ' : ' + w.coq_ty(ty) if ty and p[0] == 'var' else ''
            return self.join(b, 'let %s%s%s := %s in\n%s' % (tick, pp, ann, t, go(env2)))
        if s[0] == 'cfg':
            if self.has_return(s[1]) or self.assigned(s[1], env): raise Err('cfg block')
            return '_ <- (if Rust.debug_assertions p then (%s) else Some tt) ;;\n%s' % (
                self.tail(s[1], env, lambda t, ty, env2: 'Some tt'), go(env))
        e = s[1]
        c = e[0]
        if c == 'assign':
            b, t, ty = self.tr(e[2], env)
            pt = self.type_of(e[1], env)
            if not re.match(r'^\w+$', t):
                x = self.tmp()
                b = b + ['let %s%s := %s in' % (x, ' : ' + w.coq_ty(pt) if pt else '', t)]; t = x
            return self.join(b + self.write(e[1], t, env), go(env))
        if c == 'opassign':
            b, t, ty = self.tr_bin(('bin', e[1], e[2], e[3]), env)
            return self.join(b + self.write(e[2], t, env), go(env))
        if c in ('if', 'match', 'block'):
            if self.has_return(e): return self.tail(e, env, lambda t, ty, env2: self.stmts(rest, tail, env, k))
            vs = self.assigned(e, env)
            if not rest and tail is None: return self.tail(e, env, k)
            body = self.tail(e, env, lambda t, ty, env2: 'Some %s' % self.tuple_of(vs))
            return '%s <- (%s) ;;\n%s' % (self.pat_of(vs), body, go(env))
        if c == 'macro': return self.tail(e, env, lambda t, ty, env2: go(env))
        if c == 'ret': return self.tail(e, env, k)
        if c == 'for':
            _, p, it, body = e
            if self.has_return(body): raise Err('return in a loop')
            vs = self.assigned(body, env)
            acc = self.pat_of(vs) if vs else '_'
            if it[0] == 'range':
                b1, a, _ = self.tr(it[1], env)
                b2, z, zt = self.tr(it[2], env)
                b, head, ety = b1 + b2, 'Rust.for_range %s %s' % (a, z), zt
            else:
                b, l, lty = self.tr(it, env)
                lty = w.strip(lty)
                head, ety = 'Rust.for_each %s' % l, lty[1] if lty and lty[0] == 'list' else None
            pp, env2 = self.bind_pat(p, ety, env)
            txt = self.tail(body, env2, lambda t, ty, env3: 'Some %s' % self.tuple_of(vs))
            tick = "'" if p[0] == 'tup' else ''
            return self.join(b, '%s <- %s (fun %s%s %s => %s) %s ;;\n%s' % (
                self.pat_of(vs), head, tick, pp, acc, txt, self.tuple_of(vs), go(env)))
        if c == 'while':
            _, cond, body = e
            if self.has_return(body): raise Err('return in a loop')
            vs = self.assigned(body, env)
            self.fuel = True
            b, t, _ = self.tr(cond, env)
            acc = self.pat_of(vs)
            txt = self.tail(body, env, lambda t, ty, env3: 'Some %s' % self.tuple_of(vs))
            return '%s <- Rust.while fuel (fun %s => %s) (fun %s => %s) %s ;;\n%s' % (
                acc, acc, self.join(b, 'Some %s' % t), acc, txt, self.tuple_of(vs), go(env))
        if c == 'loop': raise Err('loop')
        b, t, ty = self.tr(e, env)
        return self.join(b, go(env))

    def define(self):
        env, ps = {}, []
        if self.mode:
            env['self'] = ('name', self.owner)
            ps.append('(self : %s)' % self.owner)
        for pt, ty in self.params:
            if pt[0] != 'var': raise Err('parameter pattern')
            env[pt[1]] = self.w.strip(ty)
            ps.append('(%s : %s)' % (name(pt[1]), self.w.coq_ty(ty)))
        r = self.w.coq_ty(self.ret)
        if self.mode == 'mut':
            r = self.owner if r == 'unit' else '(%s * %s)' % (self.owner, r)
        body = self.tail(self.body(), env, lambda t, ty, env2: self.retk(t))
        fuel = '(fuel : nat) ' if self.fuel else ''
        return 'Definition %s (p : Rust.profile) %s%s : option %s :=\n%s.' % (
            self.coq_name(), fuel, ' '.join(ps), r, body)

def const_value(e):
    """an integer constant expression"""
    if e[0] == 'lit': return e[1]
    if e[0] == 'bin':
        a, b = const_value(e[2]), const_value(e[3])
        return {'*': a * b, '+': a + b, '-': a - b, '<<': a << b}[e[1]]
    raise Err('constant')

def indent(txt):
    out, d = [], 1
    for line in txt.split('\n'):
        if out and line: out.append('  ' * max(1, 1 + line_depth[0]) + line)
        else: out.append(line)
        line_depth[0] += line.count('(') - line.count(')')
    return '\n'.join(out)
line_depth = [0]

HEADER = '''(** * %s, translated

    Generated by tools/gen_text.py from %s.
    Do not edit.  The operators are those of Rust.v. *)
Require Import ZArith List Bool.
From Verif Require Import Rust.
%sImport ListNotations.
Open Scope Z_scope.
Local Notation u8 := (Rust.int Rust.U8).
Local Notation u16 := (Rust.int Rust.U16).
Local Notation u32 := (Rust.int Rust.U32).
Local Notation u64 := (Rust.int Rust.U64).
Local Notation usize := (Rust.int Rust.USize).
Local Notation i32 := (Rust.int Rust.I32).
Local Notation i64 := (Rust.int Rust.I64).
'''

def generate(w, repo, outdir, coqfile, title, sources, want, imports, usize='USize'):
    """[want]: for each source, the names of items to emit, in the order of the
    text; functions are emitted after the functions they use"""
    out = [HEADER % (title, ', '.join(s for s, _ in sources),
                     ''.join('From Verif Require Import %s.\n' % i for i in imports))]
    new_fns, types = [], []
    for src, mod in sources:
        ps = Parser(open(os.path.join(repo, src)).read(), usize)
        items = []
        ps.items(items, mod)
        base = src.split('/')[-1]
        for it in items:
            kind, n = it[0], it[2]
            if kind == 'fn':
                f = Fn(w, it)
                q = '%s::%s' % (f.owner or f.mod, f.n)
                if q not in want: continue
                want[q] = True
                f.cite = '(** %s:%d-%d *)\n' % (src, f.l0, f.l1)
                w.fns[(f.mod, f.owner, f.n)] = f
                new_fns.append(f)
                continue
            q = '%s::%s' % (it[1], n)
            if q not in want: continue
            want[q] = True
            types.append((src, ps, it))
    # types before the types and constants that mention them
    known = set(w.enums) | set(w.structs) | set(w.tstructs)
    def mentions(x):
        if isinstance(x, tuple) and x[:1] == ('name',) and len(x) == 2: return {x[1]}
        if isinstance(x, (tuple, list)): return set().union(*[mentions(y) for y in x]) if x else set()
        return set()
    todo, ordered = types, []
    while todo:
        rest = []
        for t in todo:
            it = t[2]
            need = mentions(it[3]) if it[0] != 'const' else set()
            if it[0] != 'const' and need <= known:
                known.add(it[2]); ordered.append(t)
            else: rest.append(t)
        if len(rest) == len(todo):
            if any(t[2][0] != 'const' for t in rest): raise Err('types %r' % [t[2][2] for t in rest])
            ordered += rest
            break
        todo = rest
    for src, ps, it in ordered:
            kind, n = it[0], it[2]
            cite = '(** %s:%d-%d *)\n' % (src, it[-2], it[-1])
            if kind == 'enum':
                vs = it[3]
                w.enums[n] = vs
                for v, _, _ in vs: w.variants[(n, v)] = True
                out.append(cite + 'Inductive %s :=\n%s.' % (name(n), '\n'.join(
                    '| %s_%s%s' % (n, v, ''.join(' (x%d : %s)' % (i, w.coq_ty(t)) for i, t in enumerate(ts))) for v, ts, _ in vs)))
                if all(not ts for _, ts, _ in vs):
                    ds, cur = [], 0
                    for v, _, d in vs:
                        if d is not None: cur = const_value(d)
                        ds.append((v, cur)); cur += 1
                    out.append('Definition %s_discriminant (x : %s) : i64 :=\n  match x with\n%s\n  end.' % (
                        n, name(n), '\n'.join('  | %s_%s => Rust.lit %d' % (n, v, d) for v, d in ds)))
            elif kind == 'struct':
                fs = it[3]
                w.structs[n] = fs
                out.append(cite + 'Record %s := mk_%s {\n  %s }.' % (n, n, ';\n  '.join('%s_%s : %s' % (n, f, w.coq_ty(t)) for f, t in fs)))
                for f, t in fs:
                    out.append('Definition set_%s_%s (s : %s) (x : %s) : %s :=\n  mk_%s %s.' % (
                        n, f, n, w.coq_ty(t), n, n, ' '.join('x' if g == f else '(%s_%s s)' % (n, g) for g, _ in fs)))
            elif kind == 'tstruct':
                w.tstructs[n] = it[3]
                if len(it[3]) != 1: raise Err('tuple struct %s' % n)
                out.append(cite + 'Record %s := mk_%s { %s_0 : %s }.' % (n, n, n, w.coq_ty(it[3][0])))
            elif kind == 'const':
                coq = '%s_%s' % (it[1], n)
                w.consts[(it[1], n)] = {'coq': coq, 'ty': w.strip(it[3])}
                t = w.strip(it[3])
                if t[0] == 'int': val = 'Rust.lit %d' % const_value(it[4])
                else:
                    fake = Fn(w, ('fn', it[1], None, n, None, [], t, 0, 0, 0, ps))
                    b, val, _ = fake.tr(it[4], {})
                    if b: raise Err('constant %s' % n)
                out.append(cite + 'Definition %s : %s := %s.' % (coq, w.coq_ty(t), val))
    for q, seen in want.items():
        if not seen: raise Err('%s not found' % q)
    done, texts = set(), {}
    for f in new_fns:
        try: texts[f.coq_name()] = (f, f.define())
        except Err as x: raise Err('%s: %s' % (f.coq_name(), x))
    def emit(f):
        if f.coq_name() in done: return
        done.add(f.coq_name())
        for d in f.deps:
            if d in texts: emit(texts[d][0])
        line_depth[0] = 0
        out.append(f.cite + indent(texts[f.coq_name()][1]))
    for f in new_fns: emit(f)
    if outdir != os.devnull: open(os.path.join(outdir, coqfile), 'w').write('\n\n'.join(out) + '\n')

def names(s): return {x: False for x in s.split()}

def read_machine(w, repo, outdir):
    I = 'fhevm/src/instructions/'
    generate(w, repo, outdir, 'TextInstr.v', 'The instruction codec and the plain evaluation of operations',
        [(I + 'b_type.rs', 'b_type'), (I + 'i_type.rs', 'i_type'), (I + 'j_type.rs', 'j_type'),
         (I + 's_type.rs', 's_type'), (I + 'u_type.rs', 'u_type'), (I + 'mod.rs', 'instructions')],
        names('''
          instructions::RV32I RV32I::new instructions::sext
          instructions::RAM_UPDATE RAM_UPDATE::id RAM_UPDATE::eval_plain instructions::RAM_UPDATE_OP_LIST
          instructions::PC_UPDATE PC_UPDATE::id PC_UPDATE::eval_plain instructions::PC_UPDATE_OP_LIST
          instructions::RD_UPDATE RD_UPDATE::id RD_UPDATE::eval_plain
          instructions::RD_UPDATE_RV32M_OP_LIST instructions::RD_UPDATE_RV32I_OP_LIST
          instructions::InstructionsParser InstructionsParser::new InstructionsParser::add
          InstructionsParser::assert_size InstructionsParser::get_raw InstructionsParser::get
          InstructionsParser::assert_instruction
          instructions::Instruction instructions::RS1MASK instructions::RS2MASK instructions::FUNCT3MASK
          instructions::FUNCT7MASK instructions::SHAMTMASK instructions::RDMASK instructions::OPCODEMASK
          instructions::RS1SHIFT instructions::RS2SHIFT instructions::FUNCT3SHIFT instructions::FUNCT7SHIFT
          instructions::SHAMTSHIFT instructions::RDSHIFT instructions::OPCODESHIFT instructions::Type
          Instruction::new Instruction::get_type Instruction::get_funct3 Instruction::set_funct3
          Instruction::get_funct7 Instruction::set_funct7 Instruction::get_rs1 Instruction::set_rs1
          Instruction::get_rs2 Instruction::set_rs2 Instruction::get_rd Instruction::set_rd
          Instruction::get_shamt Instruction::set_shamt Instruction::get Instruction::get_opcode
          Instruction::set_opcode Instruction::set_imm Instruction::get_imm Instruction::get_registers
          Instruction::get_opid
          b_type::IMMMASK12 b_type::IMMMASK11 b_type::IMMMASK10 b_type::IMMMASK4 b_type::OPMASK
          b_type::IMMSEXTMASK b_type::IMMSHIFT12 b_type::IMMSHIFT11 b_type::IMMSHIFT10 b_type::IMMSHIFT4
          b_type::set_immediate b_type::get_immediate
          i_type::IMMSHIFT i_type::OPMASK i_type::IMMSEXTMASK i_type::set_immediate i_type::get_immediate
          j_type::IMMMASK20 j_type::IMMMASK19 j_type::IMMMASK11 j_type::IMMMASK10 j_type::OPMASK
          j_type::IMMSEXTMASK j_type::IMMSHIFT20 j_type::IMMSHIFT19 j_type::IMMSHIFT11 j_type::IMMSHIFT10
          j_type::set_immediate j_type::get_immediate
          s_type::IMMMASK11 s_type::IMMMASK4 s_type::OPMASK s_type::IMMSHIFT11 s_type::IMMSHIFT4
          s_type::IMMSEXTMASK s_type::set_immediate s_type::get_immediate
          u_type::OPMASK u_type::IMMMASK u_type::set_immediate u_type::get_immediate'''), [])
    generate(w, repo, outdir, 'TextDebug.v', 'The plaintext shadow machine',
        [('fhevm/src/debug.rs', 'debug')],
        names('''
          debug::InterpreterDebug InterpreterDebug::new InterpreterDebug::set_instructions
          InterpreterDebug::set_ram InterpreterDebug::read_instructions InterpreterDebug::read_registers
          InterpreterDebug::read_ram InterpreterDebug::update_registers InterpreterDebug::update_ram
          InterpreterDebug::update_pc'''), ['TextInstr'])

def read_test(w, repo, outdir):
    generate(w, repo, outdir, 'TextTest.v', 'The cleartext reference machine',
        [('compiler/src/interpreter.rs', 'interpreter'), ('compiler/src/interpreter/testvm.rs', 'testvm')],
        names('''
          interpreter::BootMemory BootMemory::new interpreter::InputInfo interpreter::OutputInfo
          testvm::Memory Memory::new Memory::write_byte Memory::write_half Memory::write_word
          Memory::load_memory Memory::read_byte Memory::read_half Memory::read_word
          testvm::Inst testvm::RegisterIndex RegisterIndex::from testvm::TestVM TestVM::init
          TestVM::decode_inst TestVM::register TestVM::register_mut TestVM::execute TestVM::run
          TestVM::read_input_tape TestVM::output_tape utils::extract_bits utils::sign_extend'''), [])

def main():
    repo, outdir = sys.argv[1], sys.argv[2]
    read_machine(World(), repo, outdir)
    read_test(World(), repo, outdir)

if __name__ == '__main__': main()
