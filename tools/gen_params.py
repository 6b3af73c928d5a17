#!/usr/bin/env python3
"""Translate the cryptographic parameters and the measurements into Gallina.

usage: gen_params.py REPO OUTDIR

Writes OUTDIR/TextParams.v and OUTDIR/TextMeasure.v.  As gen_text.py, and:

  * the parameter [B] (a backend) and what it must provide are dropped;
  * the newtypes of the library are u32, [into] makes a u32 of a number;
  * the layouts of the library and [Duration] are those of RustParams.v;
  * [x.iter().map(f).sum()] and [collect()] go over the elements in order.
"""
import os, re, sys
sys.path.insert(0, os.path.dirname(os.path.abspath(__file__)))
import gen_text
from gen_text import World, Parser, Fn, Tok, Err, names, generate

NEW = {'Degree', 'Base2K', 'TorusPrecision', 'Rank', 'Dnum', 'Dsize'}
VALUES = {}

class PParser(Parser):
    def __init__(self, text, usize='USize'):
        super().__init__(text, usize)
        t = self.t
        s = lambda i, l: [x.s for x in t[i:i + len(l)]] == l
        i = 0
        while i < len(t):
            if s(i, ['<', 'B', ':', 'Backend', '>']): del t[i:i + 5]; continue
            if s(i, ['::', '<', 'B', '>']): del t[i:i + 4]; continue
            if s(i, ['<', 'B', '>']): del t[i:i + 3]; continue
            if t[i].s == 'where':
                while t[i].s != '{': del t[i]
                continue
            if t[i].s == 'use':
                while t[i].s != ';': del t[i]
                del t[i]
                continue
            if s(i, ['vec', '!', '[', ']']):
                l = t[i].line
                t[i:i + 4] = [Tok('id', 'Vec', l), Tok('p', '::', l), Tok('id', 'new', l), Tok('p', '(', l), Tok('p', ')', l)]
            if t[i].s in NEW:
                if t[i + 1].s == '(': del t[i]; continue
                t[i] = Tok('id', 'u32', t[i].line)
            i += 1

def const_value(e):
    if e[0] == 'path': return VALUES[e[1][-1]]
    if e[0] == 'lit': return e[1]
    if e[0] == 'bin':
        a, b = const_value(e[2]), const_value(e[3])
        return {'*': a * b, '+': a + b, '-': a - b, '<<': a << b}[e[1]]
    raise Err('constant')

class PFn(Fn):
    def coq_name(self):
        n = super().coq_name()
        fs = self.w.structs.get(self.owner, [])
        return n + '_fn' if any(f == self.n for f, _ in fs) else n
    def over(self, e, env):
        """[x.iter().map(f)] as a list"""
        if e[0] == 'meth' and e[2] == 'map' and e[1][0] == 'meth' and e[1][2] == 'iter':
            b, t, ty = self.tr(e[1][1], env)
            c = e[3][0]
            if c[0] != 'closure' or c[1][0][0] != 'var': raise Err('closure')
            x = c[1][0][1]
            b2, t2, ty2 = self.tr(c[2], dict(env, **{x: self.w.strip(ty)[1]}))
            if b2: raise Err('closure')
            return b, '(map (fun %s => %s) %s)' % (x, t2, t), ty2
        raise Err('iterator')
    def tr_meth(self, e, env):
        _, r, n, args = e
        if n == 'sum':
            b, t, ty = self.over(r, env)
            if self.w.strip(ty) != ('name', 'Duration'): raise Err('sum')
            x = self.tmp()
            return b + ['%s <- RustParams.sum_durations %s ;;' % (x, t)], x, ('name', 'Duration')
        if n == 'collect':
            b, t, ty = self.over(r, env)
            return b, t, ('list', ty)
        if n == 'into':
            b, t, ty = self.tr(r, env)
            s = self.w.strip(ty)
            if s == ('int', 'U32'): return b, t, s
            if s == ('int', 'USize'): return b, '(Rust.cast Rust.U32 %s)' % t, ('int', 'U32')
            raise Err('into of %r' % (ty,))
        if n == 'div_ceil':
            b, t, ty = self.tr(r, env)
            b2, t2, _ = self.tr(args[0], env)
            x = self.tmp()
            return b + b2 + ['%s <- RustIter.div_ceil %s %s ;;' % (x, t, t2)], x, ty
        if n == 'n':
            b, t, ty = self.tr(r, env)
            if self.w.strip(ty) == ('name', 'Module'): return b, '(RustParams.module_n %s)' % t, ('int', 'USize')
        return super().tr_meth(e, env)
    def tr_bin(self, e, env):
        if e[1] == '/':
            b, t, ty = self.tr(e[2], env)
            if self.w.strip(ty) == ('name', 'Duration'):
                b2, t2, _ = self.tr(e[3], env)
                x = self.tmp()
                return b + b2 + ['%s <- RustParams.div_duration %s %s ;;' % (x, t, t2)], x, ty
        return super().tr_bin(e, env)
    def tr_call(self, e, env):
        segs = e[1][1] if e[1][0] == 'path' else None
        if segs in (['Module', 'new'], ['Duration', 'from_secs'], ['Some']):
            b, t, ty = self.tr(e[2][0], env)
            if segs == ['Module', 'new']: return b, '(RustParams.mk_Module %s)' % t, ('name', 'Module')
            if segs == ['Some']: return b, '(Some %s)' % t, ('option', ty)
            return b, '(RustParams.from_secs %s)' % t, ('name', 'Duration')
        return super().tr_call(e, env)
    def tr(self, e, env):
        if e[0] == 'proj' and e[1] == ('lit', 0, None) and e[2] == 0: return [], 'RustParams.zero64', ('name', 'f64')
        return super().tr(e, env)

def records(path):
    """the fields of the records of RustParams.v"""
    out = {}
    for m in re.finditer(r'Record (\w+) := mk_\w+ \{(.*?)\}\.', open(path).read(), re.S):
        fs = []
        for f in m.group(2).split(';'):
            n, t = [x.strip() for x in f.split(':')]
            fs.append((n[len(m.group(1)) + 1:], ('int', 'U32') if t == 'u32' else ('int', 'U64') if t == 'int U64' else
                       ('option', ('name', t.split()[1])) if t.startswith('option') else ('name', t)))
        out[m.group(1)] = fs
    return out

gen_text.HEADER = gen_text.HEADER.replace('gen_text.py', 'gen_params.py')

def read_params(repo, outdir):
    """the world after parameters.rs"""
    gen_text.Parser, gen_text.Fn, gen_text.const_value = PParser, PFn, const_value
    lib = records(os.path.join(os.path.dirname(os.path.abspath(__file__)), '../rocq/theories/RustParams.v'))
    src = 'fhevm/src/parameters.rs'
    items = []
    PParser(open(os.path.join(repo, src)).read()).items(items, 'parameters')
    want = []
    for it in items:
        if it[0] == 'const': VALUES[it[2]] = const_value(it[4])
        want.append('%s::%s' % (it[2], it[3]) if it[0] == 'fn' else '%s::%s' % (it[1], it[2]))
    w = World()
    w.structs.update(lib)
    generate(w, repo, outdir, 'TextParams.v', 'The cryptographic parameters', [(src, 'parameters')],
        names(' '.join(want)), ['RustIter', 'RustParams'])
    return w

def main():
    repo, outdir = sys.argv[1], sys.argv[2]
    read_params(repo, outdir)
    src = 'fhevm/src/measurements.rs'
    items = []
    PParser(open(os.path.join(repo, src)).read()).items(items, 'measurements')
    want = ['%s::%s' % (it[2] or it[1], it[3]) if it[0] == 'fn' else '%s::%s' % (it[1], it[2]) for it in items]
    want = [x for x in want if x != 'measurements::measure_duration']
    w = World()
    w.structs['Duration'] = w.structs['f64'] = []
    generate(w, repo, outdir, 'TextMeasure.v', 'The times and noises of the cycles', [(src, 'measurements')],
        names(' '.join(want)), ['RustIter', 'RustParams'])

if __name__ == '__main__': main()
