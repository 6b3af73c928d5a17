#!/usr/bin/env python3
"""Translate the repository's homomorphic tests, read as text, into Gallina.

usage: gen_ftests.py REPO OUTDIR

Writes OUTDIR/RustTests.v and OUTDIR/TextFheTests.v.  Extends gen_host.py for
fhevm/src/tests:

  * what only the tests call is a fourth record (RustTests.v), written from the
    table of signatures below; the noise of a word is measured here, not left out;
  * a measured real number is compared with a literal, the pair of its two parts;
  * a [use] inside a function is left out, and so is the time ([Instant]);
  * the values of [PCU] are the text of gen_tests.py.

A construct that is not known raises an error.
"""
import os, re, sys
sys.path.insert(0, os.path.dirname(os.path.abspath(__file__)))
import gen_text, gen_lib, gen_eng, gen_host, gen_tests
from gen_text import World, Err, Tok
from gen_lib import Library, names
from gen_eng import EParser, EFn
from gen_host import HFn

TESTS = '''
types Stats Real
GLWESecret.rank() -> Rank pure
mut Source.next_u32() -> u32
mut FheUint.encrypt_sk(Module, u32, Secret, mut Source, mut Source, Scratch)
mut FheUintPrepared.encrypt_sk(Module, u32, Secret, mut Source, mut Source, Scratch)
FheUint.noise(Module, u32, Secret, Scratch) -> Stats
Stats.std() -> Real pure
Real.log2() -> Real pure
'''

def tests_coq(lib, eng, host, tst):
    w = World()
    out = ['''(** * What the homomorphic tests call outside the repository

    Generated by tools/gen_ftests.py from its table of signatures.  Do not edit.
    A fourth record beside RustLib.v, RustEng.v and RustHost.v, with the same
    conventions. *)
Require Import ZArith List Bool.
From Verif Require Import Rust RustLib RustEng RustHost.
Local Notation u32 := (Rust.int Rust.U32).

Section Tests.
Variable L : library.
Variable E : engine L.
Variable H : host L E.''']
    out += ['Local Notation %s := (RustLib.%s L).' % (t, t) for t in lib.types]
    out += ['Local Notation %s := (RustEng.%s E).' % (t, t) for t in eng.types]
    out += ['Local Notation %s := (RustHost.%s H).' % (t, t) for t in host.types]
    fs = ['%s : Type' % t for t in tst.types]
    for k in tst.ops:
        for s in tst.ops[k]:
            fs.append('%s : %s' % (s.field, ' -> '.join([w.coq_ty(('name', s.recv))] + [w.coq_ty(t) for _, t in s.args] + [tst.result(s, w)])))
    fs.append('Real_lt : Real -> f64 -> bool')
    out.append('Record tests := {\n  %s }.\nEnd Tests.' % ';\n  '.join(fs))
    out += ['Arguments %s {L E H}.' % re.match(r'\w+', f).group(0) for f in fs]
    return '\n'.join(out) + '\n'

class Four:
    def __init__(self, three, tst):
        self.types = three.types + tst.types
        self.ops = {k: list(v) for k, v in three.ops.items()}
        for k, v in tst.ops.items():
            for s in v:
                s.rec = 'Q'
                self.ops.setdefault(k, []).append(s)

class QParser(EParser):
    def __init__(self, text, usize='USize'):
        super().__init__(text, usize)
        t, d, i = self.t, 0, 0
        while i < len(t):
            d += (t[i].s == '{') - (t[i].s == '}')
            if t[i].s == 'use' and d:
                j = i
                while t[j].s != ';': j += 1
                del t[i:j + 1]
                continue
            if [x.s for x in t[i:i + 3]] == ['crate', '::', 'Measurement']: del t[i:i + 2]
            i += 1

class QFn(HFn):
    pcus = {}
    @classmethod
    def source(cls, w, ps, mod):
        HFn.source(w, ps, mod)
        i = 0
        while i < len(ps.t):
            t = ps.t
            if t[i].s == 'PCU' and t[i + 1].s == '::' and t[i + 2].s in cls.pcus:
                t[i + 2:i + 3] = [Tok('p' if x in ('(', ')', '::') else 'id', x, t[i].line) for x in ['new', '(', 'PC_UPDATE', '::', cls.pcus[t[i + 2].s], ')']]
            i += 1
    def each(self, e):
        """the elements of an array that is not named are not seen again"""
        e = HFn.each(self, e)
        if e is not None and e[0] == 'for' and e[2][0] == 'meth' and e[2][2] == 'iter_mut' and e[2][1][0] == 'arr':
            e = (e[0], e[1], ('meth', e[2][1], 'iter', []), e[3])
        return e
    def drops(self, e, env):
        """the noise is kept"""
        if isinstance(e, tuple):
            if e[:1] == ('path',):
                r = e[1][0]
                return r in gen_eng.TIMES or '!' + str(r) in env
            return any(self.drops(x, env) for x in e)
        if isinstance(e, list): return any(self.drops(x, env) for x in e)
        return False
    def tr_bin(self, e, env):
        if e[1] == '<' and self.strs(self.type_of(e[2], env)) == ('name', 'Real'):
            b, t, _ = self.tr(e[2], env)
            r = e[3]
            if r[0] != 'un' or r[1] != '-' or r[2][0] != 'proj' or r[2][1][0] != 'lit': raise Err('comparison %r' % (r,))
            return b, '(Real_lt Q %s (-%d, %d))' % (t, r[2][1][1], r[2][2]), ('bool',)
        return HFn.tr_bin(self, e, env)

USES_E = {'eval_enc', 'ram_offset', 'update_pc', 'prepare_multiple_fheuint', 'read_and_prepare_instruction_components'}
HEADER = gen_host.HEADER.replace('gen_host', 'gen_ftests').replace('RustEng.v and RustHost.v', 'RustEng.v, RustHost.v and RustTests.v') \
    .replace('RustHost RustStr.', 'RustHost RustStr RustTests.').replace('Variable H : host L E.\n', 'Variable H : host L E.\nVariable Q : tests L E H.\n')

def main():
    repo, outdir = sys.argv[1], sys.argv[2]
    tst = Library(TESTS)
    w0, w2, three, lib, eng, host = gen_host.read_host(repo, os.devnull)
    four = Four(three, tst)
    open(os.path.join(outdir, 'RustTests.v'), 'w').write(tests_coq(lib, eng, host, tst))
    w, w1 = w0, World()
    gen_text.read_machine(w1, repo, os.devnull)
    P, G = gen_text.Parser, gen_text.Fn
    gen_text.Parser, gen_text.Fn = gen_tests.TParser, gen_tests.TFn
    pcu = 'u_rs1 u_rs2 u_pc u_imm set_rs2_equal_rs1 set_rs1_lt_rs2 set_rs1_gte_rs2 set_rs1_lt_rs2_signed set_rs1_gte_rs2_signed expected_update'
    gen_text.generate(w1, repo, os.devnull, 'TextInstrTests.v', '', [('fhevm/src/pc_update.rs', 'pc_update')],
        names('pc_update::PCU PCU::new ' + ' '.join('PCU::' + x for x in pcu.split())), [])
    gen_text.Parser, gen_text.Fn = P, G
    w.structs['PCU'] = w1.structs['PCU']
    for k, f in w1.fns.items():
        if k[1] == 'PCU': w.fns[k] = f
    QFn.pcus = dict(re.findall(r'const (\w+): PCU = PCU::new\(PC_UPDATE::(\w+)\);', open(os.path.join(repo, 'fhevm/src/pc_update.rs')).read()))
    for (m, o, n), f in w.fns.items():
        if n in USES_E: f.closed = ' L E'
    F = 'fhevm/src/tests/'
    gen_lib.generate(w, four, repo, outdir, 'TextFheTests.v', "The repository's homomorphic tests",
        [(F + 'memory.rs', 'memory'), (F + 'ram_offset.rs', 'ram_offset'), (F + 'pc_update.rs', 'pc_update'), (F + 'interpreters.rs', 'interpreters'), (F + 'cycle.rs', 'cycle')],
        names('''
          memory::test_fhe_ram ram_offset::test_ram_offset pc_update::test_pc_update
          interpreters::test_interpreter_init_one_instruction interpreters::test_interpreter_init_one_op
          interpreters::test_interpreter_init_many_instructions interpreters::test_interpreter_cycle_single_instruction_noop
          cycle::test_interpreter_cycles'''),
        ['TextInstr', 'TextInstrTests', 'TextDebug', 'TextMem', 'TextEnc'], HEADER, QFn, QParser,
        ['Local Notation %s := (RustLib.%s L).' % (t, t) for t in lib.types] +
        ['Local Notation %s := (RustEng.%s E).' % (t, t) for t in eng.types] +
        ['Local Notation %s := (RustHost.%s H).' % (t, t) for t in host.types] +
        ['Local Notation %s := (RustTests.%s Q).' % (t, t) for t in tst.types] +
        ['Local Notation Interpreter := (TextEnc.Interpreter L).', 'Local Notation Memory := (TextMem.Memory L).'])

if __name__ == '__main__': main()
