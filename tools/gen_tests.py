#!/usr/bin/env python3
"""Translate the repository's tests of the instruction codec, and the values that
the test of the pc update works on, into Gallina.

usage: gen_tests.py REPO OUTDIR

Writes OUTDIR/TextInstrTests.v.  As gen_text.py, and:

  * the functions of [mod tests] are read as functions of the file;
  * [(a..b).for_each(|i| B)] is [for i in a..b B]; an integer of which nothing
    fixes the type is an i32;
  * [std::cmp::max] and [min] are those of the integers (RustIter.v);
  * a component of a tuple is taken by [let].
"""
import os, sys
sys.path.insert(0, os.path.dirname(os.path.abspath(__file__)))
import gen_text
from gen_text import World, Parser, Fn, Tok, Err, names, generate, read_machine

class TParser(Parser):
    def __init__(self, text, usize='USize'):
        super().__init__(text, usize)
        t = self.t
        s = lambda i, l: [x.s for x in t[i:i + len(l)]] == l
        i = 0
        while i < len(t):
            if s(i, ['#', '[', 'cfg', '(', 'test', ')', ']']) and (s(i + 7, ['mod', 'tests', '{'])):
                j, d = i + 10, 1
                while d:
                    d += (t[j].s == '{') - (t[j].s == '}'); j += 1
                del t[j - 1]; del t[i:i + 10]
                continue
            if s(i, ['#', '[', 'cfg', '(', 'test', ')', ']']): del t[i:i + 7]; continue
            if t[i].s == '(' and t[i + 2].s == '..' and s(i + 4, [')', '.', 'for_each', '(', '|', 'i', '|', '{']):
                j, d = i + 12, 1
                while d:
                    d += (t[j].s == '{') - (t[j].s == '}'); j += 1
                if t[j].s != ')': raise Err('for_each')
                del t[j]
                a, b, l = t[i + 1].s, t[i + 3].s, t[i].line
                t[i:i + 12] = [Tok('id', 'for', l), Tok('id', 'i', l), Tok('id', 'in', l), Tok('num', a + 'i32', l), Tok('p', '..', l), Tok('num', b + 'i32', l), Tok('p', '{', l)]
                continue
            if t[i].s == 'use':
                j = i
                while t[j].s != ';': j += 1
                del t[i:j + 1]
                continue
            i += 1

class TFn(Fn):
    def tr(self, e, env, *rest):
        if e[0] == 'proj':
            b, t, ty = super().tr(e[1], env)
            s = self.w.strip(ty)
            if s and s[0] == 'tup':
                xs = ['x%d' % i for i in range(len(s[1]))]
                return b, "(let '(%s) := %s in %s)" % (', '.join(xs), t, xs[e[2]]), s[1][e[2]]
        if e[0] == 'call' and e[1][0] == 'path' and list(e[1][1][:2]) == ['std', 'cmp'] and e[1][1][2] in ('max', 'min'):
            b, t, ty = self.tr(e[2][0], env)
            b2, t2, _ = self.tr(e[2][1], env)
            return b + b2, '(RustIter.%s %s %s)' % (e[1][1][2], t, t2), ty
        return super().tr(e, env, *rest)

gen_text.HEADER = gen_text.HEADER.replace('gen_text.py', 'gen_tests.py')

def main():
    repo, outdir = sys.argv[1], sys.argv[2]
    w = World()
    read_machine(w, repo, os.devnull)
    gen_text.Parser, gen_text.Fn = TParser, TFn
    I = 'fhevm/src/instructions/'
    want = []
    for m, fs in [('b', 'imm_encoding beq bge bgeu blt bltu bne test_instruction'),
                  ('i', 'imm_encoding addi slti sltiu xori ori andi slli srli srai jalr lb lh lw lbu lhu test_instruction test_instruction_shamt'),
                  ('j', 'imm_encoding jal test_instruction'),
                  ('r', 'add and or sll slt sltu sra srl sub xor mul mulh mulhsu mulhu div divu rem remu test_instruction'),
                  ('s', 'imm_encoding sb sh sw test_instruction'),
                  ('u', 'imm_encoding lui auipc test_instruction')]:
        want += ['%s_type::%s' % (m, f) for f in fs.split()]
    generate(w, repo, outdir, 'TextInstrTests.v', "The repository's tests of the instruction codec",
        [(I + '%s_type.rs' % m, '%s_type' % m) for m in 'bijrsu'] + [('fhevm/src/pc_update.rs', 'pc_update')],
        names(' '.join(want) + ' pc_update::PCU PCU::new PCU::u_rs1 PCU::u_rs2 PCU::u_pc PCU::u_imm PCU::set_rs2_equal_rs1 PCU::set_rs1_lt_rs2 PCU::set_rs1_gte_rs2 PCU::set_rs1_lt_rs2_signed PCU::set_rs1_gte_rs2_signed PCU::expected_update'),
        ['RustIter', 'TextInstr'])

if __name__ == '__main__': main()
