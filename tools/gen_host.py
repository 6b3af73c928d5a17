#!/usr/bin/env python3
"""Translate the host side, read as text, into Gallina.

usage: gen_host.py REPO OUTDIR

Writes OUTDIR/RustHost.v and OUTDIR/TextHost.v.  Extends gen_eng.py for
compiler/src/interpreter.rs:

  * what the host calls outside the repository (the ELF parser, the environment,
    the key generation) is a third record (RustHost.v), written from the table of
    signatures below; [Result] is option, its error has no value;
  * a string is the list of its bytes;
  * [it.for_each(|x| B)] is [for x in it B]; [tqdm(it)] is it;
  * [it.map(f)] of an iterator is evaluated at once;
  * a floating-point literal is the pair of its two parts.

VMKeys and VMKeysPrepared (fhevm/src/keys.rs) are not translated: they are
operations of the record.  A construct that is not known raises an error.
"""
import re, sys, os
sys.path.insert(0, os.path.dirname(os.path.abspath(__file__)))
import gen_text, gen_lib, gen_eng
from gen_text import World, Fn, Err, name, const_value
from gen_lib import Library, LIBRARY, names, LFn
from gen_eng import EFn, EParser, ENGINE, Both

HOST = '''
types ElfBytes ScratchOwned GLWESecret LWESecret VMKeys Degree Rank
ElfBytes::minimal_parse([u8]) -> Option<ElfBytes> pure
ElfBytes.segments() -> Option<[ProgramHeader]> pure
ElfBytes.section_header_by_name([u8]) -> Option<Option<SectionHeader>> pure
env::var([u8]) -> Option<[u8]> pure
num_cpus::get_physical() -> usize pure
CryptographicParameters::new() -> CryptographicParameters pure
CryptographicParameters.n_glwe() -> Degree pure
CryptographicParameters.rank() -> Rank pure
CryptographicParameters.n_lwe() -> Degree pure
CryptographicParameters.lwe_block_size() -> usize pure
Source::new([u8]) -> Source pure
ScratchOwned::alloc(usize) -> ScratchOwned
ScratchOwned.borrow() -> Scratch pure
GLWESecret::alloc(Degree, Rank) -> GLWESecret pure
mut GLWESecret.fill_ternary_prob(f64, mut Source)
LWESecret::alloc(Degree) -> LWESecret pure
mut LWESecret.fill_binary_block(usize, mut Source)
Secret::alloc(Module, Rank) -> Secret pure
mut Secret.prepare(Module, GLWESecret)
VMKeys::encrypt_sk(CryptographicParameters, LWESecret, GLWESecret, mut Source, mut Source) -> VMKeys
Keys::alloc(CryptographicParameters) -> Keys pure
mut Keys.prepare(Module, VMKeys, Scratch)
'''
RENAMED = {'GLWESecretPrepared': 'Secret', 'VMKeysPrepared': 'Keys'}
# records of the [elf] crate, and constants of [elf::abi]
RECORDS = {'ProgramHeader': [('p_type', 'u32'), ('p_flags', 'u32'), ('p_offset', 'u64'), ('p_vaddr', 'u64'), ('p_filesz', 'u64'), ('p_memsz', 'u64')],
           'SectionHeader': [('sh_addr', 'u64'), ('sh_size', 'u64')]}
CONSTS = {'PT_LOAD': 1, 'PF_X': 1, 'PF_W': 2, 'PF_R': 4}
INT = {'u32': ('int', 'U32'), 'u64': ('int', 'U64')}

def host_coq(lib, eng, host):
    w = World()
    out = ['''(** * What the host calls outside the repository

    Generated by tools/gen_host.py from its tables.  Do not edit.
    A third record beside RustLib.v and RustEng.v, with the same conventions;
    the fields of the two records of the ELF parser that the text reads; the
    constants of the ELF format. *)
Require Import ZArith List Bool.
From Verif Require Import Rust RustLib RustEng.
Local Notation u8 := (Rust.int Rust.U8).
Local Notation u32 := (Rust.int Rust.U32).
Local Notation u64 := (Rust.int Rust.U64).
Local Notation usize := (Rust.int Rust.USize).
(** a floating-point literal: what stands before and after the point *)
Definition f64 : Type := Z * Z.
''']
    for r, fs in RECORDS.items():
        out.append('Record %s := mk_%s { %s }.' % (r, r, '; '.join('%s_%s : %s' % (r, f, t) for f, t in fs)))
    for c, v in CONSTS.items(): out.append('Definition abi_%s : u32 := Rust.lit %d.' % (c, v))
    out.append('\nSection Host.\nVariable L : library.\nVariable E : engine L.')
    out += ['Local Notation %s := (RustLib.%s L).' % (t, t) for t in lib.types]
    out += ['Local Notation %s := (RustEng.%s E).' % (t, t) for t in eng.types]
    fs = ['%s : Type' % t for t in host.types]
    args = ['Arguments %s {L E}.' % t for t in host.types]
    for k in host.ops:
        for s in host.ops[k]:
            tys = ([] if s.static else [w.coq_ty(('name', s.recv))]) + [w.coq_ty(t) for _, t in s.args]
            fs.append('%s : %s' % (s.base, ' -> '.join(tys + [host.result(s, w)])))
            args.append('Arguments %s {L E}.' % s.base)
    out.append('Record host := {\n  %s }.' % ';\n  '.join(fs))
    out.append('End Host.\n' + '\n'.join(args))
    return '\n'.join(out) + '\n'

class Three:
    def __init__(self, both, host):
        self.types = both.types + host.types
        self.ops = {k: list(v) for k, v in both.ops.items()}
        for k, v in host.ops.items():
            for s in v:
                s.rec, s.base = 'H', s.field
                self.ops.setdefault(k, []).append(s)

STR = ('list', ('int', 'U8'))
class HFn(EFn):
    @classmethod
    def source(cls, w, ps, mod):
        for i, t in enumerate(ps.t):
            if t.s in RENAMED: t.s = RENAMED[t.s]
            if t.s == 'parse' and [x.s for x in ps.t[i - 1:i + 6]] != ['.', 'parse', '::', '<', 'usize', '>', '(']: raise Err('parse')
    @classmethod
    def fields(cls, fs): return fs
    def tr(self, e, env):
        if e[0] == 'str':
            s = e[1]
            if s[0] != '"' or '\\' in s: raise Err('string %s' % s)
            return [], '(RustStr.str [%s])' % '; '.join(str(c) for c in s[1:-1].encode()), STR
        if e[0] == 'proj' and e[1][0] == 'lit': return [], '(%d, %d)' % (e[1][1], e[2]), ('name', 'f64')
        if e[0] == 'index' and e[2][0] == 'range':
            b, t, ty = self.tr(e[1], env)
            ba, ta, _ = self.tr(e[2][1], env)
            bb, tb, _ = self.tr(e[2][2], env)
            x = self.tmp()
            return b + ba + bb + ['%s <- RustStr.slice %s %s %s ;;' % (x, t, ta, tb)], x, ty
        return EFn.tr(self, e, env)
    def closure(self, c, ety, env):
        """(pattern, text) of a closure of one argument that changes nothing outside"""
        (p,) = c[1]
        pp, env2 = self.bind_pat(p, ety, env)
        r = self.dry(lambda: self.tail(c[2], dict(env2), lambda t, ty, env3: 'Some tt'))
        if any(env.get('#' + x) in r for x in env if x[0] not in '#@!&'): raise Err('closure with an effect')
        tys = []
        def fin(t, ty, env3):
            tys.append(ty)
            return 'Some %s' % t
        return pp, self.tail(c[2], env2, fin), tys[0]
    def tree(self, it, env):
        while it[0] == 'un' and it[1] in ('&', '&mut'): it = it[2]
        if it[0] == 'call' and it[1] == ('path', ['tqdm']): return self.tree(it[2][0], env)
        if it[0] == 'meth' and it[2] == 'chunks_exact':
            b, t, ty = self.tr(it[1], env)
            b2, c, _ = self.tr(it[3][0], env)
            x = self.tmp()
            return b + b2 + ['%s <- RustStr.chunks_exact %s %s ;;' % (x, t, c)], x, ty, []
        if it[0] == 'meth' and it[2] in ('map', 'filter') and it[3][0][0] == 'closure':
            b, t, ety, ls = self.tree(it[1], env)
            if ls: raise Err('%s of iter_mut' % it[2])
            pp, txt, ty = self.closure(it[3][0], ety, env)
            x = self.tmp()
            f = {'map': 'RustIter.collect', 'filter': 'RustStr.filter'}[it[2]]
            return b + ['%s <- %s %s (fun %s => %s) ;;' % (x, f, t, pp, txt)], x, ty if it[2] == 'map' else ety, []
        return EFn.tree(self, it, env)
    def collect(self, it, env):
        if it[0] == 'meth' and it[2] in ('map', 'filter') and it[1][0] != 'range':
            b, t, ety, _ = self.tree(it, env)
            return b, t, ('list', ety)
        return EFn.collect(self, it, env)
    def tr_meth(self, e, env):
        _, r, n, args = e
        rt = self.strs(self.type_of(r, env))
        if rt and rt[0] == 'option' and n == 'map':
            b, t, _ = self.tr(r, env)
            pp, txt, ty = self.closure(args[0], rt[1], env)
            x = self.tmp()
            return b + ['%s <- RustStr.map_option %s (fun %s => %s) ;;' % (x, t, pp, txt)], x, ('option', ty)
        if rt and rt[0] == 'option' and n == 'unwrap_or':
            b, t, _ = self.tr(r, env)
            b2, d, _ = self.tr(args[0], env)
            return b + b2, '(RustStr.unwrap_or %s %s)' % (t, d), rt[1]
        if rt == STR and n == 'eq_ignore_ascii_case':
            b, t, _ = self.tr(r, env)
            b2, d, _ = self.tr(args[0], env)
            return b + b2, '(RustStr.eq_ignore_ascii_case %s %s)' % (t, d), ('bool',)
        if rt == STR and n == 'parse':
            b, t, _ = self.tr(r, env)
            return b, '(RustStr.parse_usize %s)' % t, ('option', ('int', 'USize'))
        return EFn.tr_meth(self, e, env)
    def tr_for(self, e, env, go):
        if e[2][0] == 'call' and e[2][1] == ('path', ['tqdm']): e = (e[0], e[1], e[2][2][0], e[3])
        return EFn.tr_for(self, e, env, go)
    def each(self, e):
        if e is not None and e[0] == 'meth' and e[2] == 'for_each' and e[3][0][0] == 'closure':
            (p,) = e[3][0][1]
            b = e[3][0][2]
            return ('for', p, e[1], b if b[0] == 'block' else ('block', [('expr', b)], None))
        return e
    def stmts(self, ss, tail, env, k):
        if ss and ss[0][0] == 'expr': ss = [('expr', self.each(ss[0][1]))] + ss[1:]
        if not ss and tail is not None and self.each(tail) is not tail: return self.stmts([('expr', self.each(tail))], None, env, k)
        return EFn.stmts(self, ss, tail, env, k)

HEADER = gen_eng.HEADER.replace('gen_eng', 'gen_host').replace('RustLib.v and RustEng.v', 'RustLib.v, RustEng.v and RustHost.v') \
    .replace('RustLib RustEng.', 'RustLib RustEng RustHost RustStr.').replace('Variable E : engine L.\n', 'Variable E : engine L.\nVariable H : host L E.\n')
USES_E = {'new', 'new_with_debug', 'cycle', 'cycle_debug'}

def read_host(repo, outdir):
    lib, eng, host = Library(LIBRARY), Library(ENGINE), Library(HOST)
    both = Both(lib, eng)
    three = Three(both, host)
    if outdir != os.devnull: open(os.path.join(outdir, 'RustHost.v'), 'w').write(host_coq(lib, eng, host))
    w = World()
    gen_eng.read_engine(w, both, lib, eng, repo, os.devnull)
    for (m, o, n), f in w.fns.items():
        if o == 'Interpreter': f.closed = ' L E' if n in USES_E else ' L'
    w2 = World()
    gen_text.read_test(w2, repo, os.devnull)
    for s in ('BootMemory', 'InputInfo', 'OutputInfo', 'TestVM'): w.structs[s] = w2.structs[s]
    for k, f in w2.fns.items():
        if (k[1], k[2]) in (('BootMemory', 'new'), ('TestVM', 'init')): w.fns[k] = f
    for r, fs in RECORDS.items(): w.structs[r] = [(f, INT[t]) for f, t in fs]
    for c in CONSTS: w.consts[('abi', c)] = {'coq': 'abi_' + c, 'ty': ('int', 'U32')}
    src = 'compiler/src/interpreter.rs'
    ps = EParser(open(os.path.join(repo, src)).read())
    items = []
    ps.items(items, 'host')
    (c,) = [it for it in items if it[0] == 'const']
    if c[2] != 'RAM_SIZE': raise Err('constant %s' % c[2])
    w.consts[('host', 'RAM_SIZE')] = {'coq': 'host_RAM_SIZE', 'ty': c[3]}
    gen_lib.generate(w, three, repo, outdir, 'TextHost.v', 'The host side', [(src, 'host')],
        names('''
          host::EncryptedVM host::Phantom EncryptedVM::execute EncryptedVM::output_tape
          Phantom::from_elf Phantom::encrypted_vm Phantom::test_vm'''),
        ['TextInstr', 'TextTest', 'TextDebug', 'TextMem', 'TextEnc'], HEADER, HFn, EParser,
        ['Local Notation %s := (RustLib.%s L).' % (t, t) for t in lib.types] +
        ['Local Notation %s := (RustEng.%s E).' % (t, t) for t in eng.types] +
        ['Local Notation %s := (RustHost.%s H).' % (t, t) for t in host.types] +
        ['Local Notation Interpreter := (TextEnc.Interpreter L).',
         '(** %s:%d-%d *)' % (src, c[5], c[6]), 'Definition host_RAM_SIZE : usize := Rust.lit %d.' % const_value(c[4])])
    if outdir != os.devnull:
        # what the sections leave: Phantom needs none of the records, EncryptedVM the first two
        f = os.path.join(outdir, 'TextHost.v')
        ls = [l for l in open(f).read().split('\n') if not re.match(r'Arguments \w*Phantom', l)]
        open(f, 'w').write('\n'.join(l.replace('{L}', '{L E}') if l.startswith('Arguments') else l for l in ls))
    return w, w2, three, lib, eng, host

def main(): read_host(sys.argv[1], sys.argv[2])

if __name__ == '__main__': main()
