#!/usr/bin/env python3
"""Translate the noise measurement of the encrypted memory, read as text, into Gallina.

usage: gen_noise.py REPO OUTDIR

Writes OUTDIR/RustNoise.v and OUTDIR/TextNoise.v.  As gen_lib.py, for the two
functions [noise] of fhevm/src/memory.rs.  The f64 of the text and the library's
statistics are a second record beside RustLib.v; a constant of f64 is a field of it.
"""
import os, re, sys
sys.path.insert(0, os.path.dirname(os.path.abspath(__file__)))
import gen_text, gen_lib
from gen_text import World, Err
from gen_lib import Library, LIBRARY, LFn, LParser, names, read_memory

METER = '''
types f64 Stats
f64.max(f64) -> f64 pure
f64.log2() -> f64 pure
Stats.max() -> f64 pure
GLWE.noise(Module, mut GLWEPlaintext, Secret, Scratch) -> Stats
'''
CONSTS = ['MIN', 'zero']

def meter_coq(lib, met):
    w = World()
    w.structs['f64'] = []
    fs = ['%s : Type' % t for t in met.types] + ['f64_%s : f64' % c for c in CONSTS]
    fs += ['%s : %s' % (s.field, ' -> '.join([w.coq_ty(('name', s.recv))] + [w.coq_ty(t) for _, t in s.args] + [met.result(s, w)]))
           for ss in met.ops.values() for s in ss]
    return '''(** * Noise, as the text of the repository measures it

    Generated by tools/gen_noise.py from its table of signatures.  Do not edit.
    A second record beside RustLib.v, with the same conventions. *)
Require Import ZArith List Bool.
From Verif Require Import Rust RustLib.

Section Meter.
Variable L : library.
%s
Record meter := {
  %s }.
End Meter.
%s
''' % ('\n'.join('Local Notation %s := (RustLib.%s L).' % (t, t) for t in lib.types), ';\n  '.join(fs),
       '\n'.join('Arguments %s {L}.' % re.match(r'\w+', f).group(0) for f in fs))

class Both:
    def __init__(self, lib, met):
        self.types = lib.types + met.types
        self.ops = {k: list(v) for k, v in lib.ops.items()}
        for k, v in met.ops.items():
            if k in self.ops: raise Err('%s twice' % (k,))
            for s in v: s.rec = 'F'
            self.ops[k] = v

class NParser(LParser):
    def primary(self, struct):
        """also reads [0f64]"""
        if self.pk() == '0' and self.pk(1) == 'f64':
            self.nx(); self.nx()
            return ('path', ['f64', 'zero'])
        return LParser.primary(self, struct)

class NFn(LFn):
    def tr(self, e, env):
        if e[0] == 'path' and e[1][0] == 'f64':
            if e[1][1] not in CONSTS: raise Err('f64::%s' % e[1][1])
            return [], '(f64_%s F)' % e[1][1], ('name', 'f64')
        return LFn.tr(self, e, env)

HEADER = gen_lib.HEADER.replace('gen_lib', 'gen_noise').replace('is the record of RustLib.v', 'is the record of RustLib.v, the noise that of RustNoise.v') \
    .replace('RustIter RustLib', 'RustIter RustLib RustNoise').replace('Variable L : library.', 'Variable L : library.\nVariable F : meter L.')

def main():
    repo, outdir = sys.argv[1], sys.argv[2]
    lib, met = Library(LIBRARY), Library(METER)
    both = Both(lib, met)
    open(os.path.join(outdir, 'RustNoise.v'), 'w').write(meter_coq(lib, met))
    w = World()
    read_memory(w, lib, repo, os.devnull)
    for t in ('Memory', 'BitArray'):
        if t not in w.structs: raise Err(t)
    gen_lib.generate(w, both, repo, outdir, 'TextNoise.v', 'The noise of the encrypted memory', [('fhevm/src/memory.rs', 'memory')],
        names('Memory::noise BitArray::noise'), ['TextMem'], HEADER, NFn, NParser,
        ['Local Notation %s := (RustLib.%s L).' % (t, t) for t in lib.types] +
        ['Local Notation %s := (RustNoise.%s F).' % (t, t) for t in met.types] +
        ['Local Notation %s := (TextMem.%s L).' % (t, t) for t in ('Memory', 'BitArray')])

if __name__ == '__main__': main()
