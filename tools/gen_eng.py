#!/usr/bin/env python3
"""Translate the encrypted machine, read as text, into Gallina.

usage: gen_eng.py REPO OUTDIR

Writes OUTDIR/RustEng.v and OUTDIR/TextEnc.v.  Extends gen_lib.py for the code
of the encrypted machine itself:

  * the operations on encrypted words are a second record (RustEng.v), written
    from the table of signatures below;
  * a circuit is a name; the bits a circuit is evaluated over are a pair: how
    many there are, and the function that gives them;
  * [Option] is option; [if let Some(x) = &mut place] puts x back;
  * a HashMap is a list of its entries, the last inserted first;
  * [r.get_bits(..)] borrows part of r: what is written to the parts is written
    to r; [r.get_bit(i)] as a place likewise;
  * an argument [&mut vec![&mut a, &mut b]] puts each element back;
  * a const generic parameter is a first argument;
  * time and noise are left out: fields and parameters of the types in DROPPED,
    what is bound to an Instant, to a Measurement or to a noise estimate, and
    what is assigned to those; [x = measure_duration(|| B)] is B.

A construct that is not known raises an error; nothing else is skipped silently.
"""
import re, sys, os, io
sys.path.insert(0, os.path.dirname(os.path.abspath(__file__)))
import gen_text, gen_lib
from gen_text import Parser, World, Fn, Err, name, INTS
from gen_lib import LFn, LParser, Library, LIBRARY, names

ENGINE = '''
types GGSWPrepared GGSW LWE CbtKey KsGlwe KsLwe CryptographicParameters
CryptographicParameters.rom_infos() -> GLWELayout pure
CryptographicParameters.ram_infos() -> GLWELayout pure
CryptographicParameters.fhe_uint_infos() -> GLWELayout pure
CryptographicParameters.fhe_uint_prepared_infos() -> GGSWLayout pure
CryptographicParameters.module() -> Module pure
FheUint::alloc_from_infos(GLWELayout) -> FheUint pure
FheUintPrepared::alloc_from_infos(Module, GGSWLayout) -> FheUintPrepared pure
FheUint.decrypt(Module, Secret, Scratch) -> u32
FheUintPrepared.decrypt(Module, Secret, Keys, Scratch) -> u32
FheUintPrepared.get_bit(usize) -> GGSWPrepared
mut FheUintPrepared.put_bit(usize, GGSWPrepared)
FheUintPrepared.get_bits(usize, usize) -> [GGSWPrepared]
mut FheUintPrepared.put_bits(usize, usize, [GGSWPrepared])
GGSWPrepared.ggsw_layout() -> GGSWLayout pure
mut GGSWPrepared.zero(Module)
mut GGSWPrepared.prepare(Module, GGSW, Scratch)
Keys.get_cbt_key() -> (CbtKey, KsGlwe, KsLwe) pure
CbtKey.block_size() -> usize pure
CbtKey.execute_to_constant(Module, mut GGSW, LWE, usize, usize, Scratch)
Module.fhe_uint_prepare_tmp_bytes(usize, usize, GGSWLayout, GLWELayout, Keys) -> usize pure
Scratch.take_ggsw(GGSWLayout) -> (GGSW, Scratch)
Scratch.take_lwe(GLWELayout) -> (LWE, Scratch)
FheUint.get_bit_lwe(Module, usize, mut LWE, KsGlwe, KsLwe, Scratch)
mut FheUintPrepared.prepare_custom_multi_thread(usize, Module, FheUint, usize, usize, Keys, Scratch)
mut FheUint.identity_multi_thread(usize, Module, FheUintPrepared, Keys, Scratch)
Module.execute_bdd_circuit_multi_thread(usize, mut [GLWE], Bits, Circuits, Scratch)
mut FheUint.bdd_2w_to_1w_multi_thread(Circuits, usize, Module, FheUintPrepared, FheUintPrepared, Keys, Scratch)
mut FheUint.add_multi_thread(usize, Module, FheUintPrepared, FheUintPrepared, Keys, Scratch)
mut FheUint.sub_multi_thread(usize, Module, FheUintPrepared, FheUintPrepared, Keys, Scratch)
mut FheUint.sll_multi_thread(usize, Module, FheUintPrepared, FheUintPrepared, Keys, Scratch)
mut FheUint.slt_multi_thread(usize, Module, FheUintPrepared, FheUintPrepared, Keys, Scratch)
mut FheUint.sltu_multi_thread(usize, Module, FheUintPrepared, FheUintPrepared, Keys, Scratch)
mut FheUint.xor_multi_thread(usize, Module, FheUintPrepared, FheUintPrepared, Keys, Scratch)
mut FheUint.srl_multi_thread(usize, Module, FheUintPrepared, FheUintPrepared, Keys, Scratch)
mut FheUint.sra_multi_thread(usize, Module, FheUintPrepared, FheUintPrepared, Keys, Scratch)
mut FheUint.or_multi_thread(usize, Module, FheUintPrepared, FheUintPrepared, Keys, Scratch)
mut FheUint.and_multi_thread(usize, Module, FheUintPrepared, FheUintPrepared, Keys, Scratch)
Module.glwe_copy(mut FheUint, FheUint)
mut FheUint.zero_byte(Module, usize, Keys, Scratch)
mut FheUint.sext(Module, usize, Keys, Scratch)
mut FheUint.splice_u8(Module, usize, usize, FheUint, FheUint, Keys, Scratch)
mut FheUint.splice_u16(Module, usize, usize, FheUint, FheUint, Keys, Scratch)
Module.glwe_blind_selection(mut FheUint, HashMap<usize, FheUint>, FheUintPrepared, usize, usize, Scratch)
'''
CIRCUITS = ['codegen_lui', 'codegen_jalr', 'codegen_auipc', 'codegen_ram_offset', 'codegen_pc_update']
BITS = '(option usize * (usize -> option GGSWPrepared))'
DROPPED = {'Measurements', 'Measurement', 'PhantomData'}
TIMES = {'Instant', 'Measurement', 'Measurements'}

class Both:
    """the operations of the two records"""
    def __init__(self, lib, eng):
        self.types = lib.types + eng.types + ['Circuits']
        self.ops = {k: list(v) for k, v in lib.ops.items()}
        for k, v in eng.ops.items():
            for s in v:
                s.rec = 'E'
                if k in self.ops: s.field += '_%d' % len(self.ops[k])
                self.ops.setdefault(k, []).append(s)

def engine_coq(lib, eng):
    w = World()
    out = ['''(** * The operations on encrypted words, as the text of the repository calls them

    Generated by tools/gen_eng.py from its table of signatures.  Do not edit.
    A second record beside RustLib.v, with the same conventions. *)
Require Import ZArith List Bool.
From Verif Require Import Rust RustLib.
Local Notation u32 := (Rust.int Rust.U32).
Local Notation usize := (Rust.int Rust.USize).

(** the tables of compiled circuits (fhevm/src/codegen) *)
Inductive Circuits := %s.

Section Engine.
Variable L : library.
%s''' % (' '.join('| ' + c for c in CIRCUITS), '\n'.join('Local Notation %s := (RustLib.%s L).' % (t, t) for t in lib.types))]
    fs = ['%s : Type' % t for t in eng.types]
    args = ['Arguments %s {L}.' % t for t in eng.types]
    for k in eng.ops:
        for s in eng.ops[k]:
            tys = ([] if s.static else [w.coq_ty(('name', s.recv))]) + [w.coq_ty(t) for _, t in s.args]
            fs.append('%s : %s' % (s.field, ' -> '.join([re.sub(r'\bBits\b', BITS, t) for t in tys] + [eng.result(s, w)])))
            args.append('Arguments %s {L}.' % s.field)
    out.append('Record engine := {\n  %s }.' % ';\n  '.join(fs))
    out.append('End Engine.\n' + '\n'.join(args))
    return '\n'.join(out) + '\n'

class EParser(LParser):
    def fn(self, out, mod, owner, start):
        """keeps the const parameters"""
        j = self.i + 2
        consts = []
        if self.t[j].s == '<':
            d, k = 1, j + 1
            while d:
                if d == 1 and self.t[k].s == 'const' and self.t[k - 1].s in ('<', ','): consts.append((self.t[k + 1].s, self.t[k + 3].s))
                d += (self.t[k].s == '<') - (self.t[k].s == '>')
                k += 1
        n = len(out)
        LParser.fn(self, out, mod, owner, start)
        if len(out) > n and consts:
            it = list(out[-1])
            it[5] = [(('var', c), {'bool': ('bool',)}[t]) for c, t in consts] + it[5]
            out[-1] = tuple(it[:11]) + (dict(it[11], **{'const': len(consts)}),)

class EFn(LFn):
    def __init__(self, w, item):
        bd = dict(item[11])
        self.nconst = bd.pop('const', 0)
        LFn.__init__(self, w, item[:11] + (bd,))
        for g, bs in bd.items():
            if 'UnsignedInteger' in bs: self.tmap[g] = 'u32'
        self.all_params = self.params
        self.gone = [i for i, (p, t) in enumerate(self.params) if self.w.strip(t) in [('name', d) for d in DROPPED]]
        self.params = [x for i, x in enumerate(self.params) if i not in self.gone]
    @classmethod
    def source(cls, w, ps, mod):
        # the two helper structs have the same name
        for t in ps.t:
            if t.s == 'FheUintHelper': t.s = 'FheUintHelper_' + mod
        # the operations a macro defines: name -> circuits
        ts = [t.s for t in ps.t]
        for i, s in enumerate(ts):
            if s == 'impl_bdd_2w_to_1w_trait' and ts[i + 1] == '!':
                j = ts.index(')', i)
                a = ''.join(ts[i + 3:j]).split(',')
                m = [re.match(r'crate::codegen::(\w+)::(\w+)$', x) for x in a[3:5]]
                if a[2] != 'u32' or m[0].group(1) != m[1].group(1) or m[1].group(2) != 'OUTPUT_CIRCUITS' or m[1].group(1) not in CIRCUITS:
                    raise Err('macro %r' % a)
                w.macros[a[1]] = m[1].group(1)
        # an entry of a map lent out by iter_mut must not be looked at again
        for i in range(len(ts) - 2):
            if ts[i + 1:i + 3] == ['.', 'iter_mut'] and ts[i - 1] == 'in':
                nxt = next((j for j in range(i + 1, len(ts)) if ts[j] == ts[i]), None)
                if nxt is not None and ts[nxt - 2:nxt] != ['let', 'mut'] and ts[i] in w.maps.get(mod, ()): raise Err('%s used again' % ts[i])
    @classmethod
    def fields(cls, fs):
        return [(f, cls.dyn(t)) for f, t in fs if not (t[0] == 'name' and t[1] in DROPPED)]
    @classmethod
    def dyn(cls, t):
        if t == ('name', 'GetGGSWBit'): return ('name', 'FheUintPrepared')
        if isinstance(t, tuple): return tuple(cls.dyn(x) for x in t)
        if isinstance(t, list): return [cls.dyn(x) for x in t]
        return t
    def inst(self, t): return self.dyn(LFn.inst(self, t))

    # -- what is left out
    def drops(self, e, env):
        if isinstance(e, tuple):
            if e[:1] == ('meth',) and e[2] == 'noise': return True
            if e[:1] == ('path',):
                r = e[1][0]
                return r in TIMES or '!' + str(r) in env
            return any(self.drops(x, env) for x in e)
        if isinstance(e, list): return any(self.drops(x, env) for x in e)
        return False
    def drop_vars(self, p, env):
        env = dict(env)
        for x in self.pat_vars(p):
            env.pop(x, None); env.pop('#' + x, None); env.pop('@' + x, None)
            env['!' + x] = True
        return env
    def bind(self, env, x, ty):
        LFn.bind(self, env, x, ty)
        env.pop('!' + x, None)
    def is_timer(self, e):
        return e[0] == 'call' and e[1] == ('path', ['measure_duration']) and e[2][0][0] == 'closure' and e[2][0][2][0] == 'block'
    def left_out(self, s, env):
        """statements of which nothing remains"""
        if s[0] == 'let': return s[3] is not None and self.drops(s[3], env)
        e = s[1]
        if e[0] == 'macro' and e[1] == 'println': return True
        if e[0] in ('assign', 'opassign'):
            l = e[1] if e[0] == 'assign' else e[2]
            return '!' + str(self.root(l)) in env and not (e[0] == 'assign' and self.is_timer(e[2]))
        if e[0] == 'meth' and e[1] == ('path', ['self']) and e[2] == 'print_timings': return True
        if e[0] == 'meth' and e[2] == 'push' and e[1] == ('field', ('field', ('path', ['self']), 'measurements'), 'cycle_measurements'): return True
        if e[0] == 'if' and self.drops(e[1], env):
            for b in (e[2], e[3]):
                if b is None: continue
                env2 = dict(env)
                for q in b[1] + ([('expr', b[2])] if b[2] is not None else []):
                    if not self.left_out(q, env2): raise Err('left out: %r' % (q,))
                    if q[0] == 'let': env2 = self.drop_vars(q[1], env2)
            return True
        return False

    # -- calls
    def coerce(self, t, ty, want):
        if self.strs(want) == ('name', 'Bits'):
            fs = [self.method(ty, n) for n in ('bit_size', 'get_bit')]
            if None in fs: raise Err('bits of %r' % (ty,))
            self.deps += [f.coq_name() for f in fs]
            return '(%s p %s, %s p %s)' % (fs[0].coq_name(), t, fs[1].coq_name(), t)
        if self.strs(want) == ('name', 'Circuits'): return t
        return LFn.coerce(self, t, ty, want)
    def call_fn(self, f, recv, args, env):
        args = [a for i, a in enumerate(args) if i not in getattr(f, 'gone', [])]
        return LFn.call_fn(self, f, recv, args, env)
    def tr_call(self, e, env):
        if e[1][0] == 'path':
            segs = e[1][1]
            if segs == ['Some']:
                b, t, ty = self.tr(e[2][0], env)
                return b, '(Some %s)' % t, ('option', ty)
            gs = [s for s in segs if isinstance(s, tuple)]
            f = self.lookup_fn(self.resolve([s for s in segs if not isinstance(s, tuple)]))
            if f and getattr(f, 'nconst', 0):
                if len(gs) != f.nconst: raise Err('const arguments')
                return self.call_fn(f, None, [('bool', g[1][1]) for g in gs] + e[2], env)
        return LFn.tr_call(self, e, env)
    def tr_path(self, segs, env):
        q = [s for s in segs if not isinstance(s, tuple)]
        if q == ['None']: return [], 'None', ('option', None)
        if q[-1] == 'OUTPUT_CIRCUITS':
            if q[-2] not in CIRCUITS or q[0] != 'crate': raise Err('circuits %r' % q)
            return [], q[-2], ('name', 'Circuits')
        if len(q) == 2 and q[1] == 'BITS' and self.tmap.get(q[0]) == 'u32': return LFn.tr_path(self, ['u32', 'BITS'], env)
        return LFn.tr_path(self, segs, env)
    def tr(self, e, env):
        if e[0] == 'cast' and self.strs(e[2]) == ('name', 'GetGGSWBit'):
            b, t, ty = self.tr(e[1], env)
            if self.strs(ty) != ('name', 'FheUintPrepared'): raise Err('cast of %r' % (ty,))
            return b, t, self.strs(ty)
        if e[0] == 'struct':
            n = self.resolve(e[1])[-1]
            keep = dict(self.w.structs[n])
            for f, x in e[2]:
                if f not in keep and not (self.drops(x, env) or x == ('path', ['PhantomData'])): raise Err('field %s' % f)
            e = ('struct', e[1], [(f, x) for f, x in e[2] if f in keep])
        return LFn.tr(self, e, env)
    def tr_bin(self, e, env):
        if e[1] in ('==', '!='):
            ty = self.strs(self.type_of(e[2], env))
            if ty and ty[0] == 'list':
                b, t, _ = self.tr(e[2], env)
                b2, t2, _ = self.tr(e[3], env)
                r = '(RustIter.eq_list %s %s)' % (t, t2)
                return b + b2, r if e[1] == '==' else '(negb %s)' % r, ('bool',)
        return LFn.tr_bin(self, e, env)
    def tr_meth(self, e, env):
        _, r, n, args = e
        if n.endswith('_multi_thread') and n[:-13] in self.w.macros:
            op = self.lib.ops[('FheUint', 'bdd_2w_to_1w_multi_thread')][0]
            circ = ('path', ['crate', 'codegen', self.w.macros[n[:-13]], 'OUTPUT_CIRCUITS'])
            return self.call(op.field + ' E', r, True, [circ] + args, op.args, op.ret, env)
        if n == 'find' and args[0][0] == 'closure':
            b, t, ety, _ = self.tree(r, env)
            p = args[0][1][0]
            pp, env2 = self.bind_pat(p, ety, env)
            txt = self.tail(args[0][2], env2, lambda t, ty, env3: 'Some %s' % t)
            x = self.tmp()
            return b + ['%s <- RustIter.find %s (fun %s%s => %s) ;;' % (x, t, "'" if p[0] == 'tup' else '', pp, txt)], x, ('option', ety)
        if n == 'sum':
            b, t, ety, _ = self.tree(r, env)
            x = self.tmp()
            return b + ['%s <- RustIter.sum p %s ;;' % (x, t)], x, ety
        return LFn.tr_meth(self, e, env)
    def collect(self, it, env):
        if it[0] == 'meth' and it[2] == 'chain':
            b, t, ety, _ = self.tree(it, env)
            return b, t, ('list', ety)
        return LFn.collect(self, it, env)
    def tree(self, it, env):
        while it[0] == 'un' and it[1] in ('&', '&mut'): it = it[2]
        if it[0] == 'meth' and it[2] in ('iter', 'iter_mut'):
            ty = self.strs(self.type_of(it[1], env))
            if ty and ty[0] == 'map':
                b, t, _ = self.tr(it[1], env)
                return b, t, ('tup', [ty[1], ty[2]]), [((), it[1], 'map')] if it[2] == 'iter_mut' else []
        if it[0] == 'meth' and it[2] == 'rev':
            b, t, ty, ls = self.tree(it[1], env)
            if ls: raise Err('rev of iter_mut')
            return b, '(List.rev %s)' % t, ty, []
        if it[0] == 'call' and it[1] == ('path', ['std', 'iter', 'once']):
            b, t, ty = self.tr(it[2][0], env)
            return b, '[%s]' % t, ty, []
        if it[0] == 'meth' and it[2] == 'chain':
            b, t, ty, ls = self.tree(it[1], env)
            b2, t2, ty2, ls2 = self.tree(it[3][0], env)
            if ls or ls2: raise Err('chain of iter_mut')
            return b + b2, '(%s ++ %s)' % (t, t2), ty or ty2, []
        if it[0] == 'meth' and it[2] == 'scan':
            b, t, ety, ls = self.tree(it[1], env)
            b2, s0, _ = self.tr(it[3][0], env)
            _, ps, body = it[3][1]
            env2 = dict(env)
            self.bind(env2, ps[0][1], ety)
            pp, env2 = self.bind_pat(ps[1], ety, env2)
            tys = []
            def fin(t, ty, env3):
                tys.append(ty[1])
                return 'Some (%s, %s)' % (name(ps[0][1]), t)
            txt = self.tail(body, env2, fin)
            x = self.tmp()
            return b + b2 + ['%s <- RustIter.scan %s %s (fun %s %s => %s) ;;' % (x, t, s0, name(ps[0][1]), pp, txt)], x, tys[0], []
        return LFn.tree(self, it, env)
    def write(self, place, t, env):
        while place[0] == 'un' and place[1] in ('*', '&mut', '&'): place = place[2]
        if place[0] == 'arr':
            out = []
            for k, el in enumerate(place[1]):
                x = self.tmp()
                out += ['%s <- Rust.index %s (Rust.lit %d) ;;' % (x, t, k)] + self.write(el, x, env)
            return out
        if place[0] == 'meth' and place[2] == 'get_bit':
            b, o, ty = self.tr(place[1], env)
            if self.strs(ty) != ('name', 'FheUintPrepared'): raise Err('place get_bit')
            b2, i, _ = self.tr(place[3][0], env)
            x = self.tmp()
            return b + b2 + ['%s <- FheUintPrepared_put_bit E %s %s %s ;;' % (x, o, i, t)] + self.write(place[1], x, env)
        if place[0] == 'path' and len(place[1]) == 1 and '&' + place[1][0] in env:
            x = place[1][0]
            views, items, pp, r, args, owner = env['&' + x]
            lines = LFn.write(self, place, t, env)
            y = self.tmp()
            lines += ["%s <- RustIter.collect (combine %s (RustIter.regroup %s %s)) (fun '(%s, part) => FheUintPrepared_put_bits E %s %s part) ;;" % (
                y, items, views, name(x), pp, r, args)]
            b, o, _ = self.tr(owner, env)
            return lines + b + self.write(owner, '(RustIter.write_back %s %s)' % (o, y), env)
        return LFn.write(self, place, t, env)

    # -- statements
    def tail(self, e, env, k):
        if e is not None and e[0] == 'iflet': return self.iflet(e, env, k)
        if e is not None and e[0] == 'macro' and e[1] in ('assert_eq', 'assert_ne'): e = (e[0], e[1], e[2][:2])
        return LFn.tail(self, e, env, k)
    def iflet(self, e, env, k):
        _, p, scr, a, els = e
        ps, es = (p[1], scr[1]) if p[0] == 'tup' else ([p], [scr])
        bs, ts, env2, backs = [], [], dict(env), []
        for q, x in zip(ps, es):
            if q[0] != 'con' or q[1] != ['Some'] or q[2][0][0] != 'var': raise Err('if let %r' % (q,))
            b, t, ty = self.tr(x, env)
            ty = self.strs(ty)
            if ty[0] != 'option': raise Err('if let of %r' % (ty,))
            bs += b; ts.append(t)
            v = q[2][0][1]
            self.bind(env2, v, self.strs(ty[1]))
            if x[0] == 'un' and x[1] == '&mut': backs.append((v, x[2], env2['#' + v]))
        r = self.dry(lambda: self.tail(a, dict(env2), lambda t, ty, env3: 'Some tt'))
        backs = [(v, pl) for v, pl, u in backs if u in r]
        def fin(t, ty, env3):
            lines = []
            for v, pl in backs: lines += self.write(pl, '(Some %s)' % name(v), env3)
            return self.join(lines, k(t, ty, env3))
        pats = ', '.join('Some %s' % name(q[2][0][1]) for q in ps)
        return self.join(bs, 'match %s with\n| %s => %s\n| %s => %s\nend' % (
            ', '.join(ts), pats, self.tail(a, env2, fin), ', '.join('_' for _ in ps), self.tail(els, env, k)))
    def stmts(self, ss, tail, env, k):
        if not ss: return LFn.stmts(self, ss, tail, env, k)
        s, rest = ss[0], ss[1:]
        if self.left_out(s, env):
            return self.stmts(rest, tail, self.drop_vars(s[1], env) if s[0] == 'let' else env, k)
        if s[0] == 'expr' and s[1][0] == 'assign' and self.is_timer(s[1][2]):
            if '!' + str(self.root(s[1][1])) not in env: raise Err('timer')
            return self.stmts([('expr', s[1][2][2][0][2])] + rest, tail, env, k)
        if s[0] == 'expr' and s[1][0] == 'iflet' and not rest and tail is None: return self.tail(s[1], env, k)
        if s[0] == 'let' and s[3] is not None and s[3][0] == 'meth' and s[3][2] == 'collect' and s[3][1][0] == 'meth' and s[3][1][2] == 'flat_map':
            fm = s[3][1]
            b, items, ety, leaves = self.tree(fm[1], env)
            (_, (p,), body), = fm[3]
            if len(leaves) != 1 or leaves[0][2] != 'iter' or leaves[0][0] != ('fst',): raise Err('flat_map')
            r = self.sub_pat(p, leaves[0][0])
            if body[0] != 'meth' or body[2] != 'get_bits' or body[1] != ('path', [r[1]]): raise Err('flat_map body')
            pp, env2 = self.bind_pat(p, ety, env)
            args = []
            for x in body[3]:
                bx, tx, _ = self.tr(x, env2)
                if bx: raise Err('flat_map arguments')
                args.append(tx)
            args = ' '.join(args)
            v, x = self.tmp(), s[1][1]
            env3 = dict(env)
            self.bind(env3, x, ('list', ('name', 'GGSWPrepared')))
            env3['&' + x] = (v, items, pp, name(r[1]), args, leaves[0][1])
            return self.join(b + ["%s <- RustIter.collect %s (fun '%s => FheUintPrepared_get_bits E %s %s) ;;" % (v, items, pp, name(r[1]), args),
                                  'let %s := concat %s in' % (name(x), v)], self.stmts(rest, tail, env3, k))
        return LFn.stmts(self, ss, tail, env, k)
    def define(self):
        env = {}
        for i in self.gone: env['!' + self.all_params[i][0][1]] = True
        self.outer = env
        return LFn.define(self)

HEADER = gen_lib.HEADER.replace('gen_lib', 'gen_eng').replace('is the record of RustLib.v. *)', 'is the records of RustLib.v and RustEng.v. *)') \
    .replace('Rust RustIter RustLib.', 'Rust RustIter RustLib RustEng.').replace('Variable L : library.\n', 'Variable L : library.\nVariable E : engine L.\n')

def read_engine(w, both, lib, eng, repo, outdir):
    w.macros, w.maps = {}, {'ram_update': {'cts'}, 'interpreter': {'rd_map', 'res_tmp'}}
    gen_text.read_machine(w, repo, os.devnull)
    gen_lib.read_memory(w, lib, repo, os.devnull)
    F = 'fhevm/src/'
    gen_lib.generate(w, both, repo, outdir, 'TextEnc.v', 'The encrypted machine',
        [(F + 'rd_update.rs', 'rd_update'), (F + 'ram_update.rs', 'ram_update'), (F + 'ram_offset.rs', 'ram_offset'),
         (F + 'pc_update.rs', 'pc_update'), (F + 'prepare.rs', 'prepare'), (F + 'interpreter.rs', 'interpreter')],
        names('''
          RD_UPDATE::eval_enc RAM_UPDATE::eval_enc
          ram_offset::FheUintHelper_ram_offset FheUintHelper_ram_offset::bit_size FheUintHelper_ram_offset::get_bit ram_offset::ram_offset
          pc_update::FheUintHelper_pc_update FheUintHelper_pc_update::bit_size FheUintHelper_pc_update::get_bit pc_update::update_pc
          Module::prepare_multiple_fheuint
          interpreter::InstructionSet interpreter::Interpreter
          Interpreter::new Interpreter::new_with_debug Interpreter::new_internal
          Interpreter::set_verbose_timings Interpreter::set_threads Interpreter::threads
          Interpreter::instructions_encrypt_sk Interpreter::init_registers Interpreter::ram_encrypt_sk Interpreter::ram_decrypt
          Interpreter::cycle Interpreter::cycle_debug Interpreter::cycle_internal
          Interpreter::read_and_prepare_instruction_components Interpreter::read_and_prepare_registers Interpreter::read_ram
          Interpreter::update_registers Interpreter::update_ram Interpreter::update_pc'''),
        ['TextInstr', 'TextDebug', 'TextMem'], HEADER, EFn, EParser,
        ['Local Notation %s := (RustLib.%s L).' % (t, t) for t in lib.types] +
        ['Local Notation %s := (RustEng.%s E).' % (t, t) for t in eng.types] + ['Local Notation Memory := (TextMem.Memory L).'])

def main():
    repo, outdir = sys.argv[1], sys.argv[2]
    lib, eng = Library(LIBRARY), Library(ENGINE)
    both = Both(lib, eng)
    open(os.path.join(outdir, 'RustEng.v'), 'w').write(engine_coq(lib, eng))
    read_engine(World(), both, lib, eng, repo, outdir)

if __name__ == '__main__': main()
