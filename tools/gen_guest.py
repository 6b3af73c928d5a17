#!/usr/bin/env python3
"""Translate the guest programs, their allocator and their host programs, read
as text, into Gallina.

usage: gen_guest.py REPO OUTDIR

Writes OUTDIR/TextAlloc.v, TextGuest*.v and TextMain*.v.  Extends gen_host.py:

  * the places where a program touches raw memory are replaced, token by token
    (the tables of [rewrite] below; each must be found exactly once): a guest's
    [main] takes its input and returns what it would copy to the output tape,
    instead of looping; the allocator takes the address of _end, the value of the
    static HEAP_POS and the stack pointer, and returns the new value of HEAP_POS
    with the block; a host's [main] takes the bytes of the compiled guest;
  * [to_u8_slice] and [from_u8_slice] are variables of the host's text;
  * [return] inside a [for] over a range ends the loop (RustGuest.for_ret);
  * f32 is IEEE 754 binary32 (RustGuest.v);
  * [==] of a structure that derives PartialEq compares the fields;
  * a function inside a function stands before it.

usize has 32 bits in the allocator; in the guest string-match, where it only
counts up to 20, it has 64.
"""
import re, sys, os
sys.path.insert(0, os.path.dirname(os.path.abspath(__file__)))
import gen_text, gen_lib, gen_eng, gen_host
from gen_text import World, Fn, Err, name, const_value, tokens, Tok
from gen_lib import Library, LIBRARY, names, LFn
from gen_eng import EFn, EParser, ENGINE, Both
from gen_host import HFn, HOST, Three, STR

F32 = ('name', 'f32')

def rewrite(ps, old, new):
    a = [t.s for t in tokens(old)[:-1]]
    at = [i for i in range(len(ps.t)) if [t.s for t in ps.t[i:i + len(a)]] == a]
    if len(at) != 1: raise Err('%d places match %r' % (len(at), old))
    i = at[0]
    ps.t[i:i + len(a)] = [Tok(t.k, t.s, ps.t[i].line) for t in tokens(new)[:-1]]

def hoist(ps, fn):
    """move [fn] out of [main]"""
    (i,) = [i for i in range(len(ps.t)) if ps.t[i].s == 'fn' and ps.t[i + 1].s == fn]
    j = i
    while ps.t[j].s != '{': j += 1
    d = 0
    while True:
        d += (ps.t[j].s == '{') - (ps.t[j].s == '}')
        j += 1
        if d == 0: break
    (m,) = [k for k in range(len(ps.t)) if ps.t[k].s == 'fn' and ps.t[k + 1].s == 'main']
    ps.t[m:j] = ps.t[i:j] + ps.t[m:i]

READ = 'let mut input: Input = unsafe { core::ptr::read_volatile(((&INPUT) as *const u8) as *const Input) };'
WRITE = '''unsafe { core::ptr::copy_nonoverlapping((&output_str as *const Output) as *const u8, OUTPUT.as_mut_ptr(),
  core::mem::size_of::<Output>(),) }; loop {} }'''
def guest_source(ps):
    rewrite(ps, READ, '')
    rewrite(ps, WRITE, 'output_str }')
    rewrite(ps, 'fn main() {', 'fn main(input: Input) -> Output {')
def alloc_source(ps):
    rewrite(ps, 'fn sys_alloc_aligned(bytes: usize, align: usize) -> *mut u8 {',
            'fn sys_alloc_aligned(_end: usize, static_heap_pos: usize, stack_ptr: usize, bytes: usize, align: usize) -> (usize, usize) {')
    rewrite(ps, 'let mut heap_pos = HEAP_POS;', 'let mut heap_pos = static_heap_pos;')
    rewrite(ps, '&_end as *const u8 as usize', '_end')
    rewrite(ps, 'heap_pos as *mut u8', 'heap_pos')
    rewrite(ps, 'let stack_ptr: usize; unsafe { core::arch::asm!("mv {}, sp", out(reg) stack_ptr); }', '')
    rewrite(ps, 'HEAP_POS = heap_pos; ptr }', '(heap_pos, ptr) }')
def static_source(fn, before=None):
    """a static array read by [fn] is a local variable of [fn]"""
    def f(ps):
        if before: before(ps)
        ss = [t.s for t in ps.t]
        (i,) = [i for i in range(len(ss)) if ss[i:i + 2] == ['static', 'HARDCODED_VALUE']]
        j = ss.index('=', i)
        while ss[j] != ';': j += 1
        decl = ps.t[i + 2:j + 1]
        for t in ps.t:
            if t.s == 'HARDCODED_VALUE': t.s = 'hardcoded_value'
        (m,) = [k for k in range(len(ss)) if ss[k:k + 2] == ['fn', fn]]
        while ss[m] != '{': m += 1
        ps.t[m + 1:m + 1] = [Tok('id', 'let', ps.t[m].line), Tok('id', 'hardcoded_value', ps.t[m].line)] + list(decl)
    return f
def main_source(program, local=None):
    def f(ps):
        rewrite(ps, 'fn main() {', 'fn main(elf_bytes: Vec<u8>) {')
        rewrite(ps, 'let compiler = CompileOpts::new("guest"); let elf_bytes = compiler.build("%s");' % program, '')
        if local: hoist(ps, local)
    return f

class GParser(EParser):
    usize = 'USize'
    def __init__(self, text): EParser.__init__(self, text, self.usize)
    def postfix(self, a):
        if a[0] == 'lit' and self.pk() == '.' and self.kind(1) == 'num':
            n = self.t[self.i - 1].s
            self.nx()
            d = self.nx().s
            if not (re.match(r'^[0-9_]+$', n) and re.match(r'^[0-9]+$', d)): raise SyntaxError('number %s.%s' % (n, d))
            if self.pk() == 'f32': self.nx()
            a = ('float', n.replace('_', ''), d)
        return EParser.postfix(self, a)
class AParser(GParser): usize = 'U32'

class GFn(HFn):
    rewrites = {}       # module -> rewriting of its tokens
    partial_eq = set()
    def __init__(self, w, item):
        HFn.__init__(self, w, item)
        self.params = [(p, ('ref', False, STR) if t == ('ref', False, ('name', 'str')) else t) for p, t in self.params]
    @classmethod
    def source(cls, w, ps, mod):
        ss = [t.s for t in ps.t]
        for i in range(len(ss)):
            if ss[i:i + 4] == ['#', '[', 'derive', '('] and 'PartialEq' in ss[i:ss.index(']', i)]:
                j = ss.index('struct', i)
                cls.partial_eq.add(ss[j + 1])
        if mod in cls.rewrites: cls.rewrites[mod](ps)
    def tr(self, e, env):
        if e[0] == 'float':
            return [], '(RustGuest.flit %d %d)' % (int(e[1] + e[2]), 10 ** len(e[2])), F32
        return HFn.tr(self, e, env)
    def equal(self, a, b, t):
        t = self.strs(t)
        if t == ('bool',): return '(Bool.eqb %s %s)' % (a, b)
        if t[0] == 'int': return '(Rust.eq %s %s)' % (a, b)
        if t[0] == 'name' and t[1] in self.w.structs and t[1] in self.partial_eq:
            return '(' + ' && '.join(self.equal('(%s_%s %s)' % (t[1], f, a), '(%s_%s %s)' % (t[1], f, b), ft) for f, ft in self.w.structs[t[1]]) + ')'
        raise Err('== of %r' % (t,))
    def tr_bin(self, e, env):
        if e[1] not in ('&&', '||'):
            ty = self.strs(self.type_of(e[2], env)) or self.strs(self.type_of(e[3], env))
            if ty == F32:
                b, t, _ = self.tr(e[2], env)
                b2, t2, _ = self.tr(e[3], env)
                op = {'+': 'fadd', '-': 'fsub', '*': 'fmul', '/': 'fdiv', '<=': 'fle', '>': 'fgt'}[e[1]]
                return b + b2, '(RustGuest.%s %s %s)' % (op, t, t2), F32 if op in ('fadd', 'fsub', 'fmul', 'fdiv') else ('bool',)
            if e[1] == '==' and ty and ty[0] == 'name':
                b, t, _ = self.tr(e[2], env)
                b2, t2, _ = self.tr(e[3], env)
                return b + b2, self.equal(t, t2, ty), ('bool',)
        return HFn.tr_bin(self, e, env)
    def tr_call(self, e, env):
        if e[1][0] == 'path' and e[1][1] == ['to_u8_slice']:
            b, t, _ = self.tr(e[2][0], env)
            ty = self.strs(self.type_of(e[2][0], env))
            if ty not in (('name', 'Input'), ('name', 'Output')): raise Err('to_u8_slice of %r' % (ty,))
            return b, '(to_u8_slice%s %s)' % ('' if ty[1] == 'Input' else '_Output', t), STR
        if e[1][0] == 'path' and e[1][1] == ['from_u8_slice', ('generic', ('name', 'Output'))]:
            b, t, _ = self.tr(e[2][0], env)
            x = self.tmp()
            return b + ['%s <- from_u8_slice %s ;;' % (x, t)], x, ('name', 'Output')
        return HFn.tr_call(self, e, env)
    def tr_meth(self, e, env):
        _, r, n, args = e
        if n in ('as_bytes', 'to_vec') and self.strs(self.type_of(r, env)) == STR: return self.tr(r, env)
        if n == 'fold' and args[1][0] == 'closure':
            b, t, ety, ls = self.tree(r, env)
            if ls: raise Err('fold of iter_mut')
            b2, z, zt = self.tr(args[0], env)
            pa, pv = args[1][1]
            ppv, env2 = self.bind_pat(pv, ety, env)
            ppa, env2 = self.bind_pat(pa, zt or ety, env2)
            r = self.dry(lambda: self.tail(args[1][2], dict(env2), lambda t, ty, env3: 'Some tt'))
            if any(env.get('#' + x) in r for x in env if x[0] not in '#@!&'): raise Err('closure with an effect')
            txt = self.tail(args[1][2], env2, lambda t, ty, env3: 'Some %s' % t)
            x = self.tmp()
            return b + b2 + ['%s <- Rust.for_each %s (fun %s %s => %s) %s ;;' % (x, t, ppv, ppa, txt, z)], x, zt or ety
        if n == 'sqrt' and self.strs(self.type_of(r, env)) == F32:
            b, t, _ = self.tr(r, env)
            return b, '(RustGuest.fsqrt %s)' % t, F32
        f = self.method(self.type_of(r, env), n)
        if f is not None and not isinstance(f, LFn) and f.fuel: return self.call_fn(f, r, args, env)
        rt = self.strs(self.type_of(r, env))
        if rt and rt[0] == 'option' and n == 'ok' and not args: return self.tr(r, env)      # a Result is an option
        if rt and rt[0] == 'option' and n == 'and_then':
            b, t, _ = self.tr(r, env)
            pp, txt, ty = self.closure(args[0], rt[1], env)
            x = self.tmp()
            return b + ['%s <- RustGuest.and_then %s (fun %s => %s) ;;' % (x, t, pp, txt)], x, ty
        return HFn.tr_meth(self, e, env)
    def tr_for(self, e, env, go):
        _, p, it, body = e
        if not self.has_return(body): return HFn.tr_for(self, e, env, go)
        if it[0] != 'range': raise Err('return in a loop')
        b1, a, _ = self.tr(it[1], env)
        b2, z, zt = self.tr(it[2], env)
        pp, env2 = self.bind_pat(p, zt, env)
        def text():
            self.retk = lambda t: 'Some (inl %s)' % t
            try: return self.tail(body, dict(env2), lambda t, ty, env3: 'Some (inr tt)')
            finally: del self.retk
        r = self.dry(text)
        if any(env.get('#' + x) in r for x in env if x[0] not in '#@!&'): raise Err('assignment in a loop with a return')
        txt = text()
        x = self.tmp()
        return self.join(b1 + b2, '%s <- RustGuest.for_ret %s %s (fun %s => %s) ;;\nmatch %s with inl %s => %s | inr _ => %s end' % (
            x, a, z, pp, txt, x, x, self.retk(x), go(env)))

GUEST_HEADER = gen_text.HEADER.replace('gen_text', 'gen_guest').replace('those of Rust.v', 'those of Rust.v, RustIter.v, RustStr.v and RustGuest.v') \
    .replace('Import Rust.\n', 'Import Rust RustIter RustStr RustGuest.\n') + '\nSection Text.\n'

def finish(f):
    ps = [x for x in open(f).read().split('\n\n') if not x.startswith('Arguments ')]
    vs = [v for v in (('to_u8_slice', 'Variable to_u8_slice : Input -> list u8.'),
                      ('to_u8_slice_Output', 'Variable to_u8_slice_Output : Output -> list u8.'),
                      ('from_u8_slice', 'Variable from_u8_slice : list u8 -> option Output.')) if any(re.search(r'\b%s\b' % v[0], x) for x in ps)]
    i = next(i for i, x in enumerate(ps) if '(p : Rust.profile)' in x)
    if vs: ps.insert(i, '(** the bytes of a value in memory, and a value read from bytes *)\n' + '\n'.join(t for _, t in vs))
    open(f, 'w').write('\n\n'.join(x for x in ps if x != '(* *)').rstrip().replace('\n(* *)', '') + '\n')

def constant(w, repo, src, mod, n, usize='USize'):
    ps = EParser(open(os.path.join(repo, src)).read(), usize)
    items = []
    ps.items(items, mod)
    (c,) = [it for it in items if it[0] == 'const' and it[2] == n]
    w.consts[(mod, n)] = {'coq': '%s_%s' % (mod, n), 'ty': c[3]}
    return ['(** %s:%d-%d *)' % (src, c[5], c[6]), 'Definition %s_%s : %s := Rust.lit %d.' % (
        mod, n, {'USize': 'usize', 'U32': 'u32'}[usize], const_value(c[4]))]

def guest(repo, outdir, coqfile, title, sources, want, rewrites, consts=(), parser=GParser):
    w = World()
    GFn.rewrites, GFn.partial_eq = rewrites, set()
    ns = []
    for src, mod, n, usize in consts: ns += constant(w, repo, src, mod, n, usize)
    gen_lib.generate(w, Library(''' types'''[1:] + ' f32'), repo, outdir, coqfile, title, sources, names(want), [], GUEST_HEADER, GFn, parser, ns or ['(* *)'])
    finish(os.path.join(outdir, coqfile))

MAIN_HEADER = gen_host.HEADER.replace('gen_host', 'gen_guest').replace('RustHost RustStr.', 'RustHost RustStr RustGuest.')

def program(host, repo, outdir, coqfile, title, sources, want, rewrites, consts=()):
    w0, w2, three, lib, eng, hst = host
    w = World()
    for t in ('enums', 'structs', 'tstructs', 'variants', 'fns', 'consts'): getattr(w, t).update(getattr(w0, t))
    for k, f in w2.fns.items():
        if k[1] == 'TestVM':
            w.fns[k] = f
            f.closed = ''
    for k, f in w.fns.items():
        if k[1] in ('Phantom', 'EncryptedVM'): f.closed = '' if k[2] == 'test_vm' else ' L E H'
    GFn.rewrites, GFn.partial_eq = rewrites, set()
    ns = []
    for src, mod, n, usize in consts: ns += constant(w, repo, src, mod, n, usize)
    gen_lib.generate(w, three, repo, outdir, coqfile, title, sources, names(want), ['TextInstr', 'TextTest', 'TextDebug', 'TextMem', 'TextEnc', 'TextHost'],
        MAIN_HEADER, GFn, GParser, ns or ['(* *)'])
    finish(os.path.join(outdir, coqfile))

C = 'compiler-tests/'
def main():
    repo, outdir = sys.argv[1], sys.argv[2]
    guest(repo, outdir, 'TextAlloc.v', 'The allocator of the guests', [('runtime/src/alloc.rs', 'alloc')], 'alloc::sys_alloc_aligned',
          {'alloc': alloc_source}, [('runtime/src/alloc.rs', 'alloc', 'MEMORY_GAP', 'U32')], AParser)
    guest(repo, outdir, 'TextGuestSwap.v', 'The guest uniswap', [(C + 'uniswap/src/guest/src/main.rs', 'guest')],
          'guest::Pool guest::Output guest::Trade guest::Account guest::Input guest::main', {'guest': guest_source})
    s = C + 'string-match/src/guest/src/main.rs'
    guest(repo, outdir, 'TextGuestMatch.v', 'The guest string-match', [(s, 'guest')],
          'guest::Output guest::UpperBoundedString UpperBoundedString::new UpperBoundedString::eq guest::Input guest::main',
          {'guest': guest_source}, [(s, 'guest', 'MAX_LENGTH', 'USize')])
    guest(repo, outdir, 'TextGuestPoly.v', 'The guest template', [(C + 'template/src/guest/src/main.rs', 'guest')],
          'guest::Output guest::Input guest::main', {'guest': guest_source})
    guest(repo, outdir, 'TextGuestOtc.v', 'The guest otc', [(C + 'otc/src/guest/src/main.rs', 'guest')],
          '''guest::ClientType guest::ClientProfile guest::MarketData guest::Trade guest::Quote guest::Output guest::Input
          guest::base_spread guest::size_adj guest::volume_disc guest::main''', {'guest': guest_source})
    guest(repo, outdir, 'TextGuestTest1.v', 'The guest guest-test1', [(C + 'gen-tests/src/guest-test1/src/main.rs', 'guest')],
          'guest::Output guest::Input guest::main', {'guest': static_source('main', guest_source)})
    guest(repo, outdir, 'TextGenTests.v', 'The test cases of guest-test1', [(C + 'gen-tests/src/guest_test1.rs', 'gen')],
          'gen::Output gen::Input gen::run gen::test_cases', {'gen': static_source('run', lambda ps: rewrite(ps, 'vec![]', 'Vec::new()'))})
    host = gen_host.read_host(repo, os.devnull)
    host[2].types.append('f32')
    m = C + 'template/src/main.rs'
    program(host, repo, outdir, 'TextMainPoly.v', 'The host program of template', [(m, 'prog')],
            'prog::Output prog::Input prog::main prog::expected_output', {'prog': main_source('template', 'expected_output')})
    m = C + 'string-match/src/main.rs'
    program(host, repo, outdir, 'TextMainMatch.v', 'The host program of string-match', [(m, 'prog')],
            'prog::Output prog::UpperBoundedString prog::Input UpperBoundedString::new UpperBoundedString::eq prog::main prog::expected_output',
            {'prog': main_source('string-match', 'expected_output')}, [(m, 'prog', 'MAX_LENGTH', 'USize')])
    m = C + 'uniswap/src/main.rs'
    program(host, repo, outdir, 'TextMainSwap.v', 'The host program of uniswap', [(m, 'prog')],
            'prog::Account prog::Trade prog::Pool prog::Output prog::Input prog::main', {'prog': main_source('uniswap')})
    m = C + 'otc/src/main.rs'
    program(host, repo, outdir, 'TextMainOtc.v', 'The host program of otc', [(C + 'otc/src/lib.rs', 'prog'), (m, 'main')],
            '''prog::ClientType prog::ClientProfile prog::MarketData prog::Trade prog::Quote main::Input main::Output
            ClientProfile::new MarketData::default Trade::new prog::base_spread prog::size_adj prog::volume_disc prog::volatility_factor prog::quote main::main''',
            {'main': main_source('otc')})

if __name__ == '__main__': main()
