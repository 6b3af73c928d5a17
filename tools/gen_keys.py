#!/usr/bin/env python3
"""Translate the keys of the machine, read as text, into Gallina.

usage: gen_keys.py REPO OUTDIR

Writes OUTDIR/RustKeys.v and OUTDIR/TextKeys.v.  As gen_eng.py, for
fhevm/src/keys.rs, over a record of its own:

  * the parameters are those of TextParams.v, the layouts those of RustParams.v;
  * [HashMap::from_iter(l.iter().map(|x| (k, v)))] is the loop over l that inserts
    (k, v); only as the value of a [let], or as the first field of a structure;
  * the two methods that the library gives to a HashMap of prepared keys are
    operations of the record.

[evk_ram_mut], which lends a part out, is not translated.  A construct that is not
known raises an error.
"""
import os, re, sys
sys.path.insert(0, os.path.dirname(os.path.abspath(__file__)))
import gen_text, gen_lib, gen_eng, gen_params
from gen_text import World, Err, name
from gen_lib import Library, names
from gen_eng import EFn, EParser

KEYS = '''
types Scratch ScratchOwned Source GLWESecret LWESecret GLWEAutomorphismKey GLWEAutomorphismKeyPrepared BDDKey BDDKeyPrepared
types CircuitBootstrappingKeyPrepared GLWESwitchingKeyPrepared GLWEToLWEKeyPrepared
GLWE::trace_galois_elements(Module) -> [i64] pure
ScratchOwned::alloc(usize) -> ScratchOwned
ScratchOwned.borrow() -> Scratch pure
GLWEAutomorphismKey::encrypt_sk_tmp_bytes(Module, GGLWELayout) -> usize pure
GLWEAutomorphismKey::alloc_from_infos(GGLWELayout) -> GLWEAutomorphismKey pure
mut GLWEAutomorphismKey.encrypt_sk(Module, i64, GLWESecret, mut Source, mut Source, Scratch)
GLWEAutomorphismKeyPrepared::alloc_from_infos(Module, GGLWELayout) -> GLWEAutomorphismKeyPrepared pure
mut GLWEAutomorphismKeyPrepared.prepare(Module, GLWEAutomorphismKey, Scratch)
Module.bdd_key_encrypt_sk_tmp_bytes(BDDKeyLayout) -> usize pure
BDDKey::alloc_from_infos(BDDKeyLayout) -> BDDKey pure
mut BDDKey.encrypt_sk(Module, LWESecret, GLWESecret, mut Source, mut Source, Scratch)
BDDKeyPrepared::alloc_from_infos(Module, BDDKeyLayout) -> BDDKeyPrepared pure
mut BDDKeyPrepared.prepare(Module, BDDKey, Scratch)
BDDKeyPrepared.cbt_infos() -> CircuitBootstrappingKeyLayout pure
BDDKeyPrepared.ks_glwe_infos() -> Option<GLWESwitchingKeyLayout> pure
BDDKeyPrepared.ks_lwe_infos() -> GLWEToLWEKeyLayout pure
BDDKeyPrepared.get_cbt_key() -> (CircuitBootstrappingKeyPrepared, Option<GLWESwitchingKeyPrepared>, GLWEToLWEKeyPrepared) pure
Entries.automorphism_key_infos() -> GGLWELayout pure
Entries.get_automorphism_key(i64) -> Option<GLWEAutomorphismKeyPrepared> pure
'''
gen_lib.BOUNDS[:0] = [('GLWESecretToRef', 'GLWESecret'), ('LWESecretToRef', 'LWESecret'), ('GLWEAutomorphismKeyPreparedFactory', 'Module')]

def keys_coq(lib):
    s = lib.coq().replace('The FHE library, as the text of the repository calls it', 'The FHE library, as the text of the keys calls it') \
        .replace('gen_lib.py', 'gen_keys.py').replace('Require Import Rust.', 'Require Import Rust RustParams.')
    return re.sub(r'\bEntries -> ', 'list (i64 * GLWEAutomorphismKeyPrepared) -> ', s)

class KFn(EFn):
    @classmethod
    def source(cls, w, ps, mod): pass
    @classmethod
    def fields(cls, fs): return fs
    def from_iter(self, e):
        """(list, pattern, statements, key, value) of [HashMap::from_iter(..)]"""
        if e is None or e[0] != 'call' or e[1] != ('path', ['HashMap', 'from_iter']): return None
        (m,) = e[2]
        if m[0] != 'meth' or m[2] != 'map' or m[1][0] != 'meth' or m[1][2] != 'iter' or m[3][0][0] != 'closure': raise Err('from_iter')
        (_, (p,), body), = m[3]
        ss, t = (body[1], body[2]) if body[0] == 'block' else ([], body)
        if t[0] != 'tup' or len(t[1]) != 2: raise Err('entry %r' % (t,))
        return m[1], p, ss, t[1]
    def stmts(self, ss, tail, env, k):
        if not ss and tail is not None and tail[0] == 'struct' and tail[2] and self.from_iter(tail[2][0][1]):
            f, e = tail[2][0]
            if f in env: raise Err('%s is known' % f)
            ty = dict(self.w.structs[self.resolve(tail[1])[-1]])[f]
            return self.stmts([('let', ('var', f), ty, e)], ('struct', tail[1], [(f, ('path', [f]))] + tail[2][1:]), env, k)
        if ss and ss[0][0] == 'let' and self.from_iter(ss[0][3]):
            l, p, body, entry = self.from_iter(ss[0][3])
            _, x, ty, _ = ss[0]
            if x[0] != 'var' or not ty: raise Err('let of a map')
            put = ('expr', ('meth', ('path', [x[1]]), 'insert', entry))
            loop = ('for', p, l, ('block', body + [put], None))
            return self.stmts([('let', x, ty, ('call', ('path', ['HashMap', 'new']), [])), ('expr', loop)] + ss[1:], tail, env, k)
        return EFn.stmts(self, ss, tail, env, k)
    def tr_meth(self, e, env):
        _, r, n, args = e
        rt = self.strs(self.type_of(r, env))
        if rt and rt[0] == 'map' and ('Entries', n) in self.lib.ops:
            (op,) = self.lib.ops[('Entries', n)]
            return self.call(op.field + ' L', r, False, args, op.args, op.ret, env, True)
        return EFn.tr_meth(self, e, env)

HEADER = gen_lib.HEADER.replace('gen_lib', 'gen_keys').replace('RustLib', 'RustKeys').replace('Rust RustIter', 'Rust RustIter RustParams')

def main():
    repo, outdir = sys.argv[1], sys.argv[2]
    lib = Library(KEYS)
    open(os.path.join(outdir, 'RustKeys.v'), 'w').write(keys_coq(lib))
    w = gen_params.read_params(repo, os.devnull)
    w.macros, w.maps = {}, {}
    gen_lib.generate(w, lib, repo, outdir, 'TextKeys.v', 'The keys of the machine', [('fhevm/src/keys.rs', 'keys')],
        names('''
          keys::VMKeys keys::VMKeysPrepared
          VMKeysPrepared::cbt_infos VMKeysPrepared::ks_glwe_infos VMKeysPrepared::ks_lwe_infos
          VMKeysPrepared::automorphism_key_infos VMKeysPrepared::get_automorphism_key
          VMKeysPrepared::alloc VMKeysPrepared::prepare VMKeys::new VMKeys::evk_ram VMKeys::set_evk_ram
          VMKeys::encrypt_sk VMKeysPrepared::get_cbt_key'''), ['TextParams'], HEADER, KFn, EParser,
        ['Local Notation %s := (RustKeys.%s L).' % (t, t) for t in lib.types])

if __name__ == '__main__': main()
