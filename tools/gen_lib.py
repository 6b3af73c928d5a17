#!/usr/bin/env python3
"""Translate the encrypted memory, read as text, into Gallina.

usage: gen_lib.py REPO OUTDIR

Writes OUTDIR/RustLib.v and OUTDIR/TextMem.v.  Extends gen_text.py for the code
that calls the FHE library, which is not in the repository:

  * the library is a record of types and operations (RustLib.v), written from
    the table of signatures below; an operation takes its arguments in the order
    of the call and returns the new values of the arguments it borrows mutably,
    followed by its result; a panic is [None];
  * a type parameter stands for the library type its bounds name;
  * an argument whose layout is asked for (GLWEInfos, GGSWInfos) is replaced by
    its layout;
  * scratch space is a value: what the text calls [scratch] is a view of a
    region, and giving a view to an operation does not change it;
  * [thread::scope] with [scope.spawn] runs the spawned closures one after the
    other in the order of the text;
  * a loop over [iter_mut] or [chunks_mut] puts the new elements back;
  * [let x = &mut place] makes x a name of the place.

A construct that is not known raises an error; nothing is skipped silently.
"""
import re, sys, os
sys.path.insert(0, os.path.dirname(os.path.abspath(__file__)))
import gen_text
from gen_text import Parser, World, Fn, Err, name, INTS, tokens

# ----------------------------------------------------------------- the library
# `mut` before an argument: borrowed mutably.  `pure`: cannot panic.
LIBRARY = '''
types Module Keys Scratch GLWE FheUint FheUintPrepared GLWEBlindRetriever GLWELayout GGLWELayout GGSWLayout
types GLWEPlaintext Secret Source
Module.n() -> usize pure
Module.log_n() -> usize pure
Module.glwe_rotate_tmp_bytes() -> usize pure
Module.glwe_trace_tmp_bytes(GLWELayout, GLWELayout, GGLWELayout) -> usize pure
Module.glwe_blind_rotation_tmp_bytes(GLWELayout, GGSWLayout) -> usize pure
Module.glwe_blind_retrieval_tmp_bytes(GLWELayout, GGSWLayout) -> usize pure
Module.glwe_normalize_tmp_bytes() -> usize pure
GLWEBlindRetriever::retrieve_tmp_bytes(Module, GLWELayout, GGSWLayout) -> usize pure
GLWE::bytes_of_from_infos(GLWELayout) -> usize pure
GLWE.glwe_layout() -> GLWELayout pure
FheUint.glwe_layout() -> GLWELayout pure
FheUintPrepared.ggsw_layout() -> GGSWLayout pure
GLWELayout.n() -> usize pure
Keys.automorphism_key_infos() -> GGLWELayout pure
GLWE::alloc_from_infos(GLWELayout) -> GLWE pure
GLWEBlindRetriever::alloc(GLWELayout, usize) -> GLWEBlindRetriever pure
Scratch.available() -> usize pure
Scratch.split_mut(usize, usize) -> ([Scratch], Scratch)
Scratch.take_glwe(GLWELayout) -> (GLWE, Scratch)
Scratch.take_glwe_slice(usize, GLWELayout) -> ([GLWE], Scratch)
Scratch.take_glwe_plaintext(GLWELayout) -> (GLWEPlaintext, Scratch)
Scratch.take_slice(usize) -> ([i64], Scratch)
Module.glwe_rotate_inplace(i64, mut GLWE, Scratch)
Module.glwe_trace(mut GLWE, usize, GLWE, Keys, Scratch)
Module.glwe_add_inplace(mut GLWE, GLWE)
Module.glwe_sub_inplace(mut GLWE, GLWE)
Module.glwe_normalize_inplace(mut GLWE, Scratch)
Module.glwe_copy(mut GLWE, GLWE)
Module.glwe_blind_rotation_inplace(mut GLWE, FheUintPrepared, bool, usize, usize, usize, Scratch)
Module.glwe_blind_retrieval_statefull(mut [GLWE], FheUintPrepared, usize, usize, Scratch)
Module.glwe_blind_retrieval_statefull_rev(mut [GLWE], FheUintPrepared, usize, usize, Scratch)
mut GLWEBlindRetriever.retrieve(Module, mut GLWE, [GLWE], FheUintPrepared, usize, Scratch)
mut FheUint.pack(Module, [GLWE], Keys, Scratch)
FheUint.get_bit_glwe(Module, usize, mut GLWE, Keys, Scratch)
mut GLWEPlaintext.encode_vec_i64([i64], u32)
GLWEPlaintext.decode_vec_i64(mut [i64], u32)
mut GLWE.encrypt_sk(Module, GLWEPlaintext, Secret, mut Source, mut Source, Scratch)
GLWE.decrypt(Module, mut GLWEPlaintext, Secret, Scratch)
u32.bit(usize) -> u8 pure
'''
# which library type a type parameter stands for, by the first of its bounds found here
BOUNDS = [('GLWEToMut', 'GLWE'), ('GetGGSWBit', 'FheUintPrepared'), ('GLWEAutomorphismKeyHelper', 'Keys'),
          ('BDDKeyHelper', 'Keys'), ('GLWESecretPreparedToRef', 'Secret'), ('ModuleN', 'Module'), ('ModuleLogN', 'Module'),
          ('GLWEBlindRotation', 'Module'), ('ExecuteBDDCircuit2WTo1W', 'Module'), ('GGSWPreparedFactory', 'Module'),
          ('FheUintPreparedFactory', 'Module'),
          ('GLWEInfos', 'GLWELayout'), ('GGSWInfos', 'GGSWLayout'), ('GGLWEInfos', 'GGLWELayout')]
# layout wanted -> operation, by the type given
LAYOUT = {('GLWELayout', 'GLWE'): 'GLWE_glwe_layout', ('GLWELayout', 'FheUint'): 'FheUint_glwe_layout',
          ('GGSWLayout', 'FheUintPrepared'): 'FheUintPrepared_ggsw_layout'}
VIEWS = {'Scratch'}          # values that are views: never changed

class Sig:
    """one operation of the library"""
    def __init__(self, recv, static, n, rmut, args, ret, pure):
        self.recv, self.static, self.n, self.rmut, self.args, self.ret, self.pure = recv, static, n, rmut, args, ret, pure
        self.field = '%s_%s' % (recv, n)
        self.rec = 'L'          # the record it is a field of

class Library:
    def __init__(self, text):
        self.types, self.ops = [], {}
        for line in text.strip().split('\n'):
            if line.startswith('types '):
                self.types += line.split()[1:]
                continue
            m = re.match(r'(mut )?(\w+)(\.|::)(\w+)\((.*?)\)(?: -> (.*?))?( pure)?$', line)
            if not m: raise Err('signature %r' % line)
            args = []
            ps = Parser(m.group(5))
            while ps.kind() != 'eof':
                mu = ps.eat('mut')
                args.append((mu, ps.ty())); ps.eat(',')
            ret = Parser(m.group(6)).ty() if m.group(6) else ('tup', [])
            s = Sig(m.group(2), m.group(3) == '::', m.group(4), bool(m.group(1)), args, ret, bool(m.group(7)))
            key = (s.recv, s.n)
            if key in self.ops: s.field += '_%d' % len(self.ops[key])
            self.ops.setdefault(key, []).append(s)
    def coq(self):
        w = World()
        out = ['''(** * The FHE library, as the text of the repository calls it

    Generated by tools/gen_lib.py from its table of signatures.  Do not edit.
    The library (poulpy) is not in the repository; this record only says which
    operations there are and what they take.  An operation returns the new
    values of the arguments it borrows mutably, then its result; [None] is a
    panic. *)
Require Import ZArith List Bool.
From Verif Require Import Rust.
Local Notation u8 := (Rust.int Rust.U8).
Local Notation u32 := (Rust.int Rust.U32).
Local Notation u64 := (Rust.int Rust.U64).
Local Notation usize := (Rust.int Rust.USize).
Local Notation i64 := (Rust.int Rust.I64).
''']
        fs = ['%s : Type' % t for t in self.types]
        for k in self.ops:
            for s in self.ops[k]:
                tys = ([] if s.static else [w.coq_ty(('int', INTS[s.recv]) if s.recv in INTS else ('name', s.recv))]) \
                    + [w.coq_ty(t) for _, t in s.args]
                fs.append('%s : %s' % (s.field, ' -> '.join(tys + [self.result(s, w)])))
        out.append('Record library := {\n  %s }.' % ';\n  '.join(fs))
        return '\n'.join(out) + '\n'
    def result(self, s, w):
        rs = []
        if s.rmut: rs.append(('name', s.recv))
        rs += [t for m, t in s.args if m]
        if s.ret != ('tup', []) or not rs: rs.append(s.ret)
        r = w.coq_ty(rs[0]) if len(rs) == 1 else '(' + ' * '.join(w.coq_ty(t) for t in rs) + ')'
        return r if s.pure else 'option ' + r

# ----------------------------------------------------------------- parser
class LParser(Parser):
    """also keeps bounds of type parameters, and reads trait implementations,
    [move], [if let], constants inside functions"""
    def bounds(self, toks):
        """{parameter: [trait names]} of a generic list or where clause"""
        out, d, cur = {}, 0, []
        parts = []
        for t in toks:
            if t.s == '<': d += 1
            if t.s == '>': d -= 1
            if t.s == ',' and d == 0:
                parts.append(cur); cur = []
            else: cur.append(t)
        parts.append(cur)
        for c in parts:
            if len(c) >= 1 and c[0].s == 'const': continue
            if len(c) >= 2 and c[1].s == ':':
                d, ns = 0, []
                for t in c[2:]:
                    if t.s == '<': d += 1
                    elif t.s == '>': d -= 1
                    elif d == 0 and t.k == 'id': ns.append(t.s)
                out.setdefault(c[0].s, []).extend(ns)
            elif len(c) == 1 and c[0].k == 'id': out.setdefault(c[0].s, [])
        return out
    def generic_list(self):
        j = self.i
        self.generics()
        return self.bounds(self.t[j + 1:self.i - 1])
    traits = True
    def fn(self, out, mod, owner, start):
        if 1:
            self.ex('fn'); n = self.ident()
            bd = self.generic_list() if self.pk() == '<' else {}
            self.ex('(')
            mode, params = None, []
            while not self.eat(')'):
                if self.pk() == '&' and (self.pk(1) == 'self' or self.pk(1) == 'mut' and self.pk(2) == 'self'):
                    self.nx(); mode = 'mut' if self.eat('mut') else 'ref'; self.ex('self')
                elif self.pk() == 'self' or self.pk() == 'mut' and self.pk(1) == 'self':
                    self.eat('mut'); self.ex('self'); mode = 'val'
                else:
                    p = self.pat(); self.ex(':')
                    params.append((p, self.ty()))
                self.eat(',')
            ret = self.ty() if self.eat('->') else ('tup', [])
            if self.eat('where'):
                j = self.i
                while self.pk() != '{': self.nx()
                for k, v in self.bounds(self.t[j:self.i]).items(): bd.setdefault(k, []).extend(v)
            b = self.i
            if self.eat(';'): return
            self.skip_group('{', '}')
            out.append(('fn', mod, owner, n, mode, params, ret, b, start, self.t[self.i - 1].line, self, bd))
    def expr(self, struct=True):
        if self.pk() == 'move' and self.pk(1) in ('|', '||'): self.nx()
        return Parser.expr(self, struct)
    def primary(self, struct):
        if self.pk() == 'if' and self.pk(1) == 'let':
            self.nx(); self.nx()
            p = self.pat(); self.ex('=')
            e = self.expr(struct=False)
            a = self.block()
            b = self.block() if self.eat('else') else None
            return ('iflet', p, e, a, b)
        return Parser.primary(self, struct)
    def statement(self):
        if self.pk() == 'if' and self.pk(1) == 'let': return self.primary(True)
        return Parser.statement(self)

# ----------------------------------------------------------------- translation
class LFn(Fn):
    lib = None
    closed = ''      # the arguments its section left it with, once closed
    def __init__(self, w, item):
        Fn.__init__(self, w, item[:11])
        self.tmap = {}
        for g, bs in item[11].items():
            for b, t in BOUNDS:
                if b in bs:
                    self.tmap[g] = t
                    break
        self.params = [(p, self.inst(t)) for p, t in self.params]
        self.ret = self.inst(self.ret)
        self.uid = 0
        self.recs = []
    @classmethod
    def source(cls, w, ps, mod): pass
    @classmethod
    def fields(cls, fs): return fs
    def inst(self, t):
        if t[0] == 'name': return ('name', self.tmap.get(t[1], t[1]))
        if t[0] == 'ref': return ('ref', t[1], self.inst(t[2]))
        if t[0] == 'list': return ('list', self.inst(t[1]))
        if t[0] == 'tup': return ('tup', [self.inst(x) for x in t[1]])
        if t[0] == 'map': return ('map', self.inst(t[1]), self.inst(t[2]))
        if t[0] == 'option': return ('option', self.inst(t[1]))
        return t
    def is_view(self, t):
        t = self.w.strip(t)
        return t is not None and t[0] == 'name' and t[1] in VIEWS
    def coq_name(self):
        n = Fn.coq_name(self)
        return n + '_fn' if self.n in dict(self.w.structs.get(self.owner, [])) else n
    def muts(self):
        """indices of the parameters borrowed mutably (views are not returned)"""
        return [i for i, (p, t) in enumerate(self.params) if t[0] == 'ref' and t[1] and not self.is_view(t)]

    # -- environments: x -> type, '#x' -> identity of the binding, '@x' -> place it names
    def bind(self, env, x, ty):
        self.uid += 1
        env[x], env['#' + x] = ty, self.uid
        env.pop('@' + x, None)
    def bind_pat(self, p, ty, env):
        env = dict(env)
        def go(p, ty):
            ty = self.w.strip(ty) if ty else ty
            if p[0] == 'wild': return '_'
            if p[0] == 'var':
                self.bind(env, p[1], ty)
                return name(p[1])
            if p[0] == 'tup':
                tys = ty[1] if ty and ty[0] == 'tup' else [None] * len(p[1])
                return '(' + ', '.join(go(q, t) for q, t in zip(p[1], tys)) + ')'
            raise Err('pattern %r' % (p,))
        return go(p, ty), env
    def dry(self, f):
        """run a translation only for the bindings it writes"""
        s = (self.fresh, self.fuel, list(self.deps), self.uid)
        self.recs.append(set())
        try: f()
        finally:
            r = self.recs.pop()
            self.fresh, self.fuel, self.deps, self.uid = s
        for q in self.recs: q |= r
        return r
    def assigned(self, e, env, acc=None):
        r = self.dry(lambda: self.tail(e, dict(env), lambda t, ty, env2: 'Some tt'))
        return [x for x in env if x[0] not in '#@!&' and env.get('#' + x) in r]
    def type_of(self, e, env):
        out = []
        def f():
            try: out.append(self.tr(e, dict(env))[2])
            except Err: out.append(None)
        self.recs, keep = [], self.recs
        try: self.dry(f)
        finally: self.recs = keep
        return out[0]

    # -- calls
    def strs(self, t): return self.w.strip(t)
    def coerce(self, t, ty, want):
        """give [t : ty] where [want] is asked for"""
        a, b = self.strs(ty), self.strs(want)
        if a and b and a[0] == 'name' and b[0] == 'name' and a != b:
            op = LAYOUT.get((b[1], a[1]))
            if not op: raise Err('%s given for %s' % (a[1], b[1]))
            return '(%s L %s)' % (op, t)
        return t
    def call(self, callee, recv, rmut, args, sig, ret, env, pure=False):
        """[recv]: receiver or None; [sig]: [(mutable, type)]"""
        bs, ts, back = [], [], []
        if recv is not None:
            b, t, ty = self.tr(recv, env)
            bs += b; ts.append(t)
            if rmut: back.append(recv)
        if len(args) != len(sig): raise Err('%s: %d arguments' % (callee, len(args)))
        for a, (m, want) in zip(args, sig):
            b, t, ty = self.tr(a, env)
            bs += b; ts.append(self.coerce(t, ty, want))
            if m: back.append(a)
        unit = self.strs(ret) == ('tup', [])
        xs = [self.tmp() for _ in back] + ([] if unit and back else [self.tmp()])
        app = ' '.join([callee] + ts)
        if pure:
            if back: raise Err('pure operation with a mutable argument')
            return bs, '(%s)' % app if ts else app, ret
        pat = xs[0] if len(xs) == 1 else "'(" + ', '.join(xs) + ')'
        bs.append('%s <- %s ;;' % (pat, app))
        for a, x in zip(back, xs): bs += self.write(a, x, env)
        if unit and back: return bs, 'tt', ret
        return bs, xs[-1], ret
    def call_fn(self, f, recv, args, env):
        if not f.closed: self.deps.append(f.coq_name())
        if getattr(f, 'fuel', False): self.fuel = True
        ms = f.muts() if isinstance(f, LFn) else []
        sig = [(i in ms, t) for i, (p, t) in enumerate(f.params)]
        return self.call(f.coq_name() + f.closed + (' p fuel' if getattr(f, 'fuel', False) else ' p'), recv, f.mode == 'mut', args, sig, f.ret, env)
    def find_op(self, recv, n, args, env):
        ss = self.lib.ops.get((recv, n))
        if not ss: return None
        if len(ss) == 1: return ss[0]
        tys = [self.strs(self.type_of(a, env)) for a in args]
        ok = [s for s in ss if len(s.args) == len(args) and all(t is None or t == self.strs(q) for t, (_, q) in zip(tys, s.args))]
        if len(ok) != 1: raise Err('operation %s.%s of %r' % (recv, n, tys))
        return ok[0]
    def tr_call(self, e, env):
        w = self.w
        if e[1][0] != 'path': raise Err('call of %r' % (e[1][0],))
        segs = self.resolve(e[1][1])
        segs = [s for s in segs if not isinstance(s, tuple)]
        if segs == ['TorusPrecision']: return self.tr(e[2][0], env)
        if len(segs) >= 2:
            s = self.find_op(segs[-2], segs[-1], e[2], env)
            if s and s.static: return self.call(s.field + ' ' + s.rec, None, False, e[2], s.args, s.ret, env, s.pure)
        f = self.lookup_fn(segs)
        if f and isinstance(f, LFn): return self.call_fn(f, None, e[2], env)
        return Fn.tr_call(self, e, env)
    def lib_type(self, t):
        t = self.strs(t)
        if not t: return None
        if t[0] == 'name': return t[1]
        if t[0] == 'int': return next(k for k, v in INTS.items() if v == t[1])
        return None
    def tr_meth(self, e, env):
        w = self.w
        _, r, n, args = e
        rt = self.type_of(r, env)
        s = self.strs(rt)
        f = self.method(rt, n)
        if isinstance(f, LFn): return self.call_fn(f, r, args, env)
        op = self.find_op(self.lib_type(rt), n, args, env)
        if op is not None and not op.static: return self.call(op.field + ' ' + op.rec, r, op.rmut, args, op.args, op.ret, env, op.pure)
        if n in ('into', 'as_mut_slice', 'cloned') and not args: return self.tr(r, env)
        if n in ('max', 'min') and s and s[0] == 'int':
            b, t, ty = self.tr(r, env)
            b2, t2, _ = self.tr(args[0], env)
            return b + b2, '(RustIter.%s %s %s)' % (n, t, t2), ty
        if n == 'div_ceil':
            b, t, ty = self.tr(r, env)
            b2, t2, _ = self.tr(args[0], env)
            x = self.tmp()
            return b + b2 + ['%s <- RustIter.div_ceil %s %s ;;' % (x, t, t2)], x, ty
        if n == 'leading_zeros':
            b, t, ty = self.tr(r, env)
            return b, '(RustIter.leading_zeros %s)' % t, ('int', 'U32')
        if n == 'fill' and s and s[0] == 'list':
            b, t, ty = self.tr(r, env)
            b2, t2, _ = self.tr(args[0], env)
            return b + b2 + self.write(r, '(RustIter.fill %s %s)' % (t, t2), env), 'tt', ('tup', [])
        if n == 'collect': return self.collect(r, env)
        return Fn.tr_meth(self, e, env)
    def collect(self, it, env):
        """[(a..b).map(|x| e).collect()]"""
        if it[0] == 'meth' and it[2] == 'map' and it[1][0] == 'range' and it[3][0][0] == 'closure':
            _, ps, body = it[3][0]
            b1, a, _ = self.tr(it[1][1], env)
            b2, z, zt = self.tr(it[1][2], env)
            pp, env2 = self.bind_pat(ps[0], zt, env)
            tys = []
            def fin(t, ty, env3):
                tys.append(ty)
                return 'Some %s' % t
            txt = self.tail(body, env2, fin)
            x = self.tmp()
            return b1 + b2 + ['%s <- RustIter.collect_range %s %s (fun %s => %s) ;;' % (x, a, z, pp, txt)], x, ('list', tys[0])
        raise Err('collect')

    def tr(self, e, env):
        if e[0] == 'path' and len(e[1]) == 1 and '@' + str(e[1][0]) in env: return self.tr(env['@' + e[1][0]], env)
        return Fn.tr(self, e, env)
    def write(self, place, t, env):
        while place[0] == 'un' and place[1] in ('*', '&mut', '&'): place = place[2]
        if place[0] == 'meth' and place[2] in ('as_mut_slice', 'iter_mut'): return self.write(place[1], t, env)
        if place[0] == 'path' and len(place[1]) == 1:
            x = place[1][0]
            if '@' + x in env: return self.write(env['@' + x], t, env)
            if '#' + x not in env: raise Err('write to %s' % x)
            for q in self.recs: q.add(env['#' + x])
        return Fn.write(self, place, t, env)

    def state(self, vs, env, env2):
        """the variables written, which must not be hidden where they are given back"""
        for x in vs:
            if env2['#' + x] != env['#' + x]: raise Err('%s is hidden' % x)
        return self.tuple_of(vs)

    # -- loops
    def tree(self, it, env):
        """(lines, term of the list, type of an element, leaves).  A leaf: (path
        to the component of an element, place, kind)"""
        while it[0] == 'un' and it[1] in ('&', '&mut'): it = it[2]
        if it[0] == 'meth' and it[2] in ('iter', 'iter_mut', 'into_iter') and not it[3]:
            b, t, ty = self.tr(it[1], env)
            s = self.strs(ty)
            if not s or s[0] != 'list': raise Err('iteration over %r' % (ty,))
            return b, t, s[1], [((), it[1], 'iter')] if it[2] == 'iter_mut' else []
        if it[0] == 'meth' and it[2] in ('chunks', 'chunks_mut'):
            b, t, ty = self.tr(it[1], env)
            b2, c, _ = self.tr(it[3][0], env)
            x = self.tmp()
            return b + b2 + ['%s <- RustIter.chunks %s %s ;;' % (x, t, c)], x, ty, [((), it[1], 'chunks')] if it[2] == 'chunks_mut' else []
        if it[0] == 'meth' and it[2] == 'zip':
            b, t, ty, ls = self.tree(it[1], env)
            b2, t2, ty2, ls2 = self.tree(it[3][0], env)
            return b + b2, '(combine %s %s)' % (t, t2), ('tup', [ty, ty2]), \
                [(('fst',) + p, q, k) for p, q, k in ls] + [(('snd',) + p, q, k) for p, q, k in ls2]
        if it[0] == 'meth' and it[2] == 'enumerate':
            b, t, ty, ls = self.tree(it[1], env)
            return b, '(RustIter.enumerate %s)' % t, ('tup', [('int', 'USize'), ty]), [(('snd',) + p, q, k) for p, q, k in ls]
        b, t, ty = self.tr(it, env)
        s = self.strs(ty)
        if not s or s[0] != 'list': raise Err('iteration over %r' % (ty,))
        return b, t, s[1], []
    def sub_pat(self, p, path):
        for d in path:
            if p[0] != 'tup': return p
            p = p[1][0 if d == 'fst' else 1]
        return p
    def pat_vars(self, p):
        if p[0] == 'var': return [p[1]]
        if p[0] == 'tup': return sum([self.pat_vars(q) for q in p[1]], [])
        return []
    def no_wild(self, p):
        if p[0] == 'wild': return ('var', self.tmp())
        if p[0] == 'tup': return ('tup', [self.no_wild(q) for q in p[1]])
        return p
    def tr_for(self, e, env, go):
        _, p, it, body = e
        if self.has_return(body): raise Err('return in a loop')
        if it[0] == 'range':
            b1, a, _ = self.tr(it[1], env)
            b2, z, zt = self.tr(it[2], env)
            b, head, ety, leaves, items = b1 + b2, 'Rust.for_range %s %s' % (a, z), zt, [], None
        else:
            b, items, ety, leaves = self.tree(it, env)
            head = 'Rust.for_each %s' % items
        p = self.no_wild(p) if leaves else p
        pp, env2 = self.bind_pat(p, ety, env)
        r = self.dry(lambda: self.tail(body, dict(env2), lambda t, ty, env3: 'Some tt'))
        vs = [x for x in env if x[0] not in '#@!&' and env.get('#' + x) in r and env2.get('#' + x) == env['#' + x]]
        hidden = [x for x in env if x[0] not in '#@!&' and env.get('#' + x) in r and env2.get('#' + x) != env['#' + x]]
        if hidden: raise Err('hidden variables %r written' % hidden)
        written = [l for l in leaves if any(env2['#' + x] in r and not self.is_view(env2[x]) for x in self.pat_vars(self.sub_pat(p, l[0])))]
        tick = "'" if p[0] == 'tup' else ''
        acc = self.pat_of(vs) if vs else '_'
        if not written:
            txt = self.tail(body, env2, lambda t, ty, env3: 'Some %s' % self.state(vs, env, env3))
            return self.join(b, '%s <- %s (fun %s%s %s => %s) %s ;;\n%s' % (
                self.pat_of(vs), head, tick, pp, acc, txt, self.tuple_of(vs), go(env)))
        txt = self.tail(body, env2, lambda t, ty, env3: 'Some (%s, %s)' % (pp, self.state(vs + self.pat_vars(p), env2, env3) and self.tuple_of(vs)))
        y = self.tmp()
        st = self.tuple_of(vs)
        lines = b + ["'(%s, %s) <- RustIter.for_mut %s (fun %s%s %s => %s) %s ;;" % (y, '_' if not vs else st, items, tick, pp, acc, txt, st)]
        for path, place, kind in written:
            new = y if not path else '(map (fun x => %s) %s)' % (self.proj(path), y)
            if kind == 'chunks': new = '(concat %s)' % new
            b0, old, _ = self.tr(place, env)
            lines += b0 + self.write(place, '(RustIter.write_back %s %s)' % (old, new), env)
        return self.join(lines, go(env))
    def proj(self, path):
        t = 'x'
        for d in path: t = '(%s %s)' % (d, t)
        return t

    # -- statements
    def peel(self, e):
        """[thread::scope(|s| B)] and [s.spawn(|| B)] are B"""
        if e[0] == 'call' and e[1] == ('path', ['thread', 'scope']): return e[2][0][2]
        if e[0] == 'meth' and e[1] == ('path', ['scope']) and e[2] == 'spawn': return e[3][0][2]
        return e
    def stmts(self, ss, tail, env, k):
        if tail is not None and not ss:
            q = self.peel(tail)
            if q is not tail: return self.stmts([('expr', q)], None, env, k)
        if not ss: return self.tail(tail, env, k)
        s, rest = ss[0], ss[1:]
        go = lambda env2: self.stmts(rest, tail, env2, k)
        if s[0] == 'let' and s[3] is not None and s[3][0] == 'un' and s[3][1] == '&mut' and s[1][0] == 'var' \
                and s[3][2][0] in ('field', 'index'):
            env2 = dict(env)
            self.bind(env2, s[1][1], self.type_of(s[3][2], env))
            env2['@' + s[1][1]] = s[3][2]
            b, t, ty = self.tr(s[3][2], env)       # the place must exist
            return self.join(b, go(env2))
        if s[0] == 'expr':
            q = self.peel(s[1])
            if q is not s[1]: return self.stmts([('expr', q)] + rest, tail, env, k)
            if q[0] == 'for': return self.tr_for(q, env, go)
            if q[0] in ('if', 'match', 'block', 'iflet') and not self.has_return(q) and (rest or tail is not None):
                vs = self.assigned(q, env)
                body = self.tail(q, env, lambda t, ty, env2: 'Some %s' % self.state(vs, env, env2))
                return '%s <- (%s) ;;\n%s' % (self.pat_of(vs), body, go(env))
        if s[0] == 'let' and s[2]: s = ('let', s[1], self.inst(s[2]), s[3])
        if s[0] == 'let' and s[2] and s[3] is not None:
            have = self.strs(self.type_of(s[3], env))
            want = self.strs(s[2])
            if have and want[0] == 'name' and have[0] == 'name' and have != want: raise Err('let of %r as %r' % (have, want))
        return Fn.stmts(self, [s] + rest, tail, env, k)
    def results(self):
        rs = ['self'] if self.mode == 'mut' else []
        return rs + [name(self.params[i][0][1]) for i in self.muts()]
    def retk(self, t):
        rs = self.results()
        if self.strs(self.ret) != ('tup', []) or not rs: rs = rs + [t]
        return 'Some %s' % (rs[0] if len(rs) == 1 else '(' + ', '.join(rs) + ')')
    outer = {}       # what is known before the parameters
    def define(self):
        env, ps = dict(self.outer), []
        if self.mode:
            self.bind(env, 'self', ('name', self.owner))
            ps.append('(self : %s)' % self.owner)
        for pt, ty in self.params:
            if pt[0] != 'var': raise Err('parameter pattern')
            self.bind(env, pt[1], self.strs(ty))
            ps.append('(%s : %s)' % (name(pt[1]), self.w.coq_ty(ty)))
        rs = [self.owner] if self.mode == 'mut' else []
        rs += [self.w.coq_ty(self.params[i][1]) for i in self.muts()]
        if self.strs(self.ret) != ('tup', []) or not rs: rs.append(self.w.coq_ty(self.ret))
        body = self.tail(self.body(), env, lambda t, ty, env2: self.retk(t))
        fuel = '(fuel : nat) ' if self.fuel else ''
        return 'Definition %s (p : Rust.profile) %s%s : option %s :=\n%s.' % (
            self.coq_name(), fuel, ' '.join(ps), rs[0] if len(rs) == 1 else '(' + ' * '.join(rs) + ')', body)

HEADER = '''(** * %s, translated

    Generated by tools/gen_lib.py from %s.
    Do not edit.  The operators are those of Rust.v and RustIter.v; the library
    is the record of RustLib.v. *)
Require Import ZArith List Bool.
From Verif Require Import Rust RustIter RustLib.
%sImport ListNotations.
Open Scope Z_scope.
Local Notation u8 := (Rust.int Rust.U8).
Local Notation u16 := (Rust.int Rust.U16).
Local Notation u32 := (Rust.int Rust.U32).
Local Notation u64 := (Rust.int Rust.U64).
Local Notation usize := (Rust.int Rust.USize).
Local Notation i32 := (Rust.int Rust.I32).
Local Notation i64 := (Rust.int Rust.I64).

Section Text.
Variable L : library.
'''

def generate(w, lib, repo, outdir, coqfile, title, sources, want, imports, header=HEADER, cls=LFn, parser=LParser, notations=None):
    LFn.lib = lib
    out = [header % (title, ', '.join(s for s, _ in sources), ''.join('From Verif Require Import %s.\n' % i for i in imports))
           + '\n'.join(notations or ['Local Notation %s := (RustLib.%s L).' % (t, t) for t in lib.types])]
    fns, types = [], []
    for src, mod in sources:
        ps = parser(open(os.path.join(repo, src)).read())
        cls.source(w, ps, mod)
        items = []
        ps.items(items, mod)
        for it in items:
            if it[0] == 'fn':
                f = cls(w, it)
                q = '%s::%s' % (f.owner or f.mod, f.n)
                if q not in want: continue
                want[q] = True
                f.cite = '(** %s:%d-%d *)\n' % (src, f.l0, f.l1)
                w.fns[(f.mod, f.owner, f.n)] = f
                fns.append(f)
            elif '%s::%s' % (it[1], it[2]) in want:
                want['%s::%s' % (it[1], it[2])] = True
                types.append((src, it))
    for q, seen in want.items():
        if not seen: raise Err('%s not found' % q)
    known = set(w.enums) | set(w.structs) | set(w.tstructs) | set(lib.types)
    def mentions(x):
        if isinstance(x, tuple) and x[:1] == ('name',) and len(x) == 2: return {x[1]}
        if isinstance(x, (tuple, list)): return set().union(*[mentions(y) for y in x]) if x else set()
        return set()
    def needs(it): return mentions(cls.fields(it[3]) if it[0] == 'struct' else it[3])
    todo, args = types, []
    while todo:
        rest = [t for t in todo if not needs(t[1]) <= known]
        for src, it in todo:
            if not needs(it) <= known: continue
            n, cite = it[2], '(** %s:%d-%d *)\n' % (src, it[-2], it[-1])
            if it[0] == 'struct':
                fs = [(f, t) for f, t in cls.fields(it[3])]
                w.structs[n] = fs
                out.append(cite + 'Record %s := mk_%s {\n  %s }.' % (n, n, ';\n  '.join('%s_%s : %s' % (n, f, w.coq_ty(t)) for f, t in fs)))
                args.append('Arguments mk_%s {L}.' % n)
                for f, t in fs:
                    out.append('Definition set_%s_%s (s : %s) (x : %s) : %s :=\n  mk_%s %s.' % (
                        n, f, n, w.coq_ty(t), n, n, ' '.join('x' if g == f else '(%s_%s s)' % (n, g) for g, _ in fs)))
                    args.append('Arguments %s_%s {L}. Arguments set_%s_%s {L}.' % (n, f, n, f))
            elif it[0] == 'enum':
                w.enums[n] = it[3]
                for v, _, _ in it[3]: w.variants[(n, v)] = True
                out.append(cite + 'Inductive %s := %s.' % (n, ' '.join('| %s_%s' % (n, v) for v, _, _ in it[3])))
            else: raise Err('type %s' % n)
        for t in todo:
            if t not in rest: known.add(t[1][2])
        if len(rest) == len(todo): raise Err('types %r' % [t[1][2] for t in rest])
        todo = rest
    # the functions, each after those it calls (so that it is known whether they need fuel)
    done, active, order = set(), [], []
    texts = {}
    def define(f):
        if f.coq_name() in done: return
        if f in active: raise Err('recursion through %s' % f.coq_name())
        active.append(f)
        try:
            while True:
                try: txt = f.define()
                except Err as x: raise Err('%s: %s' % (f.coq_name(), x))
                before = f.fuel
                for d in list(f.deps):
                    for g in fns:
                        if g.coq_name() == d and d not in done: define(g)
                f.deps, f.fresh, f.uid = [], 0, 0
                txt = f.define()
                break
        finally: active.remove(f)
        done.add(f.coq_name())
        gen_text.line_depth[0] = 0
        out.append(f.cite + gen_text.indent(txt))
    for f in fns: define(f)
    for f in fns: f.closed = ' L'
    out.append('End Text.')
    out.append('\n'.join(args))
    if outdir != os.devnull: open(os.path.join(outdir, coqfile), 'w').write('\n\n'.join(out) + '\n')

def names(s): return {x: False for x in s.split()}

def read_memory(w, lib, repo, outdir):
    generate(w, lib, repo, outdir, 'TextMem.v', 'The encrypted memory', [('fhevm/src/memory.rs', 'memory')],
        names('''
          memory::Memory memory::BitArray Memory::alloc Memory::size Memory::encrypt_sk Memory::decrypt Memory::zero
          Memory::read_stateless Memory::read_statefull Memory::read_statefull_rev Memory::write
          BitArray::alloc BitArray::encrypt_sk BitArray::decrypt BitArray::retrieve_stateless_tmp_bytes
          BitArray::retrieve_stateless BitArray::retrieve_statefull_tmp_bytes BitArray::retrieve_statefull
          BitArray::retrieve_statefull_rev_tmp_bytes BitArray::retrieve_statefull_rev
          BitArray::write_tmp_bytes BitArray::write'''), [])

def main():
    repo, outdir = sys.argv[1], sys.argv[2]
    lib = Library(LIBRARY)
    open(os.path.join(outdir, 'RustLib.v'), 'w').write(lib.coq())
    read_memory(World(), lib, repo, outdir)

if __name__ == '__main__': main()
