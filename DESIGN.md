# Formal model of phantom: design

The model is in `rocq/theories` (logical name `Verif`, Coq 8.16.1, standard library only).
The code under study is read as text from `/repo`; paths below are relative to it.

## 1. What is modelled

| Coq file | code | remarks |
|---|---|---|
| `Word.v` | Rust `u32`/`i32`/`u64`/`usize` operators | 32-bit words are `Z` in `[0,2^32)`; every wrapping, shifting and truncating operator is written out |
| `Codec.v` | `fhevm/src/instructions/*.rs` | fields, immediates, `get_type`, `get_opid`, parser. Panics are `None`. `dbg` selects `debug_assertions` |
| `EvalPlain.v` | `RD_UPDATE/RAM_UPDATE/PC_UPDATE::eval_plain`, op lists | panic of native `%` is `None` |
| `DebugVM.v` | `fhevm/src/debug.rs` | the plaintext shadow VM, all methods |
| `TestVM.v` | `compiler/src/interpreter/testvm.rs` | decoder, byte memory, `run`, `execute`, tapes. `chk` selects overflow checks |
| `Loader.v` | `compiler/src/interpreter.rs` | `from_elf` on an abstract list of program headers and sections, `encrypted_vm`, `test_vm`, `output_tape` |
| `Alloc.v` | `runtime/src/alloc.rs` | bump allocator |
| `Link.v` | `compiler/linker-script/default.x` | section addresses, segments (assumed to be formed as ld.lld does) |
| `Guests.v` | `compiler-tests/{uniswap,string-match,template,gen-tests}`, guest and host side | Rust source semantics with a flag for overflow checks; `repr(C)` layout of the tape structures; a panic is `None` |
| `Otc.v` | `compiler-tests/otc`, guest and host side | `f32` is the standard library's `SpecFloat` at 24 bits, exponent 128 (no axioms); one NaN, its bit pattern a parameter |
| `Scratch.v` | `fhevm/src/memory.rs`: the scratch space of the memory operations (what they assert, split and use) | the sizes of the library's operations are parameters; alignment ignored; one plane stands for all |
| `Keys.v` | `fhevm/src/keys.rs`, `fhevm/src/measurements.rs`, the end of `Interpreter::cycle` | hash maps are lists of pairs; key generation and preparation are functions; times are numbers of nanoseconds |
| `Noise.v` | the same primitives with noise | phases on a torus; each primitive of an arbitrary `alg` moves the phase by at most a given bound; bootstraps only work within a tolerance; growth of the error in one cycle, noise budget, decryption by rounding |
| `Measure.v` | memory.rs:110-138, 510-540 (`Memory::noise`, `BitArray::noise`) | noise of a plane as the largest distance on the torus (the library's `max` statistic); the contents of the scratch buffer are a parameter |
| `Flow.v` | doc/costs.md:41-168, interpreter.rs:487-627 | the documented dependency graph, and a recorder of its values in a cycle |
| `Asm.v` | instructions/mod.rs:76-149, 746-888; unit tests in instructions/{u,j,b,s,i,r}_type.rs | the templates, setter chains, and the unit tests as functions of their operands |
| `RepoTests.v` | pc_update.rs:101-205 (`PCU`), tests/pc_update.rs, tests/ram_offset.rs, tests/interpreters.rs:200-340, tests/memory.rs | tests as functions of the drawn values; assertions about noise left out |
| `RepoRuns.v` | tests/interpreters.rs:36-185, 347-620, tests/cycle.rs | the tests that fetch instructions or run cycles, as functions of program and schedules; noise, timings and plots left out |
| `CycleTime.v` | doc/costs.md:35-95, interpreter.rs:522-618 | blocks, their documented durations and the order of the calls; durations are parameters |
| `Seeds.v` | compiler/src/interpreter.rs:304-410, memory.rs:48-75, 471-482, fhevm/src/interpreter.rs:302-358 | sources of randomness, secret key and order of encryption; the library's algorithms are a parameter (record `library`) |
| `Host.v` | compiler-tests/*/src/main.rs, compiler/src/interpreter.rs:338-347, fhevm/benches/cycle.rs | settings from the environment, the host program up to the comparison of the outputs, the benchmark; reading numbers is modelled after the standard library's `usize::from_str` |
| `CycleScratch.v` | fhevm/src/interpreter.rs (scratch space of a cycle), prepare.rs, ram_offset.rs, pc_update.rs, rd_update.rs, ram_update.rs; compiler/src/interpreter.rs:121-139; benches/cycle.rs:154 | scratch space only; what the library's operations need is a parameter, for multi-threaded ones a function of the number of threads |
| `Params.v` | fhevm/src/parameters.rs | constants and layouts; the library's newtypes are integers, `dsize` is 1 everywhere and left out |
| `TextInstr.v`, `TextDebug.v` | fhevm/src/instructions/*.rs, fhevm/src/debug.rs | the functions themselves, translated by `tools/gen_text.py` over the operators of `Rust.v`; C94 and C95 prove Codec.v, EvalPlain.v and DebugVM.v equal to them. Output macros are dropped; `HashMap` is an association list whose last insertion comes first; panics are `None` |
| `TextTest.v` | compiler/src/interpreter/testvm.rs, the boot records of interpreter.rs | translated by `tools/gen_text.py`; C96 proves TestVM.v equal to it. The `while` of `execute` is cut off by a fuel argument, which C96 only asks to exceed the cycle limit |
| `TextMem.v` | fhevm/src/memory.rs | translated by `tools/gen_lib.py` over an abstract library (`RustLib.v`: one field per function of the library that the text calls); `thread::scope` runs the spawned closures one after the other. C97 proves EncMem.v and Scratch.v equal to it with the library `TextLib.v`, made of an arbitrary `alg` and arbitrary scratch sizes |
| `TextEnc.v` | fhevm/src/interpreter.rs, prepare.rs, ram_offset.rs, pc_update.rs, the encrypted halves of rd_update.rs and ram_update.rs | translated by `tools/gen_eng.py` over `RustLib.v` and a second record `RustEng.v` (the operations on encrypted words). Timings, noise estimates and what only they use are dropped (the list DROPPED in the script); a HashMap is the list of its entries, iterated in an arbitrary order. C98 proves EncVM.v, EncEval.v, Prepare.v and CycleScratch.v equal to it with the operations `TextEng.v`, made of an arbitrary `alg`; C99 runs it with the ideal operations (`TextIdeal.v`). The three GLWE layouts of parameters.rs coincide (K_ROM = K_RAM = K_FHE_UINT), so one layout is used |
| `TextHost.v` | compiler/src/interpreter.rs (`Phantom`, `EncryptedVM` and their functions) | translated by `tools/gen_host.py` over `RustLib.v`, `RustEng.v` and a third record `RustHost.v` (the ELF parser, environment variables, keys, scratch space). Printing is dropped. `TextHostFacts.v` and `TextHostRun.v` prove Loader.v and Host.v equal to it; C100 composes its functions as the `main` functions do (`text_main`, written by hand) |
| `TextAlloc.v`, `TextGuest*.v`, `TextGenTests.v` | runtime/src/alloc.rs, the guests' src/main.rs, gen-tests/src/guest_test1.rs (`run`, `test_cases`) | translated by `tools/gen_guest.py`. The places that touch raw memory are replaced, token by token, by arguments and results: the input structure, the output structure, `_end`, `HEAP_POS`, the stack pointer. C101 proves Guests.v, Otc.v and Alloc.v equal to them |
| `TextMainPoly.v`, `TextMainMatch.v`, `TextMainSwap.v`, `TextMainOtc.v` | the host programs' src/main.rs and otc/src/lib.rs | translated by `tools/gen_guest.py` over the records of `TextHost.v`. The compiled guest is an argument; `to_u8_slice` and `from_u8_slice` are variables, given in C102 by the layout of C54; printing is dropped |
| `TextInstrTests.v` | the `#[cfg(test)]` modules of fhevm/src/instructions/*_type.rs, `PCU` in fhevm/src/pc_update.rs | translated by `tools/gen_tests.py`: the operands of a test helper are those of its text, its constants are arguments only where they are in the text. C103 proves Asm.v and RepoTests.v equal to them |
| `TextParams.v`, `TextMeasure.v` | fhevm/src/parameters.rs (all), fhevm/src/measurements.rs (all but `measure_duration`, which reads the clock) | translated by `tools/gen_params.py`. C104 proves Params.v and the averages of Keys.v equal to them |
| `TextKeys.v` | fhevm/src/keys.rs (all but `evk_ram_mut`, which hands out a mutable reference) | translated by `tools/gen_keys.py` over `TextParams.v` and the library record `RustKeys.v`. C105 proves Keys.v equal to it |
| `TextNoise.v` | fhevm/src/memory.rs:110-138, 510-540 (the two `noise`) | translated by `tools/gen_noise.py`; f64 and the library's statistics are the record `RustNoise.v`. C106 proves Measure.v equal to it. With this every function body of memory.rs is translated |
| `Display.v` | `Display` of `Instruction` and `RegisterIndex`, `{:30b}` | core::fmt's integers and padding written from their documentation |
| `GenCode.v` | gen-tests/src/lib.rs `codegen_test_cases`, `write_test_cases` | to token trees; writing them out with spaces and rustfmt are not modelled |
| `Build.v` | compiler/src/lib.rs `CompileOpts::build` | cargo, the environment and the file system are parameters; stderr is left out |
| `TextFheTests.v` | tests/memory.rs, ram_offset.rs, pc_update.rs, interpreters.rs and cycle.rs (`test_interpreter_cycles`) | translated by `tools/gen_ftests.py` over the records of `TextHost.v` and a fourth, `RustTests.v` (random words, encryption of a word, measured noise). Printing and timings are dropped. C110 is about all eight functions (lemmas in `TextFheFacts.v`, `TextFheRuns.v`, `TextFheFetch.v`, `TextFheOps.v`) |
| `Startup.v` | `runtime/src/lib.rs` (`_start` assembly) | as instruction words for given linker symbols |
| `Bdd.v`, `Circ*.v` | `fhevm/src/codegen/*.rs` | the circuits themselves, copied node by node by `tools/gen_circuits.py`; evaluation semantics of the external library |
| `Glwe.v` | external primitives used by `memory.rs` and `interpreter.rs` | a record `alg` of primitive operations over abstract ciphertext types (the code is modelled once, over any `alg`) and the instance `Ideal`: noise-free polynomials with negacyclic rotation, trace, cmux, cswap network, retriever |
| `Par.v` | `thread::scope` patterns of `memory.rs`, `prepare.rs` | tasks per thread, arbitrary interleavings |
| `EncMem.v` | `fhevm/src/memory.rs` | bit-sliced memories over `Glwe` |
| `Prepare.v` | `fhevm/src/prepare.rs` | |
| `EncEval.v` | `rd_update.rs`, `ram_update.rs`, `ram_offset.rs`, `pc_update.rs` | |
| `EncVM.v` | `fhevm/src/interpreter.rs` | `instructions_encrypt_sk`, `ram_encrypt_sk`, `cycle_internal` |

Proof files sit between the model and the property files: `Bits`, `CodecBits`, `CodecFacts`, `DecodeFacts`, `DecodeAccept`,
`EvalFacts`, `ListFacts`, `TestDecode`, `TestRunFacts`, `TestStep`, `IsaSplit` (an ISA step split into register, RAM and pc
updates), `DebugFacts`, `DebugStep`, `DebugLoad`, `RunFacts`, `BddCheck`/`BddFacts` (the circuit checker and its soundness),
`CircFacts`, `CircStruct`, `GlweFacts`, `ParFacts`, `MemFacts`, `MemOps`, `MemClient`, `MemSeq`, `PrepFacts`,
`EncFacts` (operations), `EncCycle` (one cycle), `EncTrack` (following the shadow VM), `EncLoad` (start state), `EncRun` (runs), `Oblivious`, `ObliviousFacts` (relational parametricity over `alg`; C45), `NoiseFacts`, `NoiseMem`, `NoiseEval`, `NoiseVM` (errors through the operations, a cycle, a run), `NoiseWorst` (an implementation that makes the largest allowed errors), `Depend` (schedules and data flow of a cycle), `LoadFacts`, `LinkFacts` (loading), `LoadRun` (start of both VMs), `EndToEnd` (outputs). The `*Spec` files hold the relations used in statements.

Specifications are separate and use none of the model's helpers:
`Isa.v` (RV32IM: abstract syntax, manual encoding tables, arithmetic semantics, byte memory),
`ExactSpec.v` (the plaintext machine the encrypted VM is, deviations included), `RefSpec.v` and `ShadowSpec.v` (the same for the reference VM and the shadow VM),
`GuestSpec.v` (guests over unbounded integers), `FloatSpec.v` (binary32 numbers as integers, correct rounding), `OtcSpec.v` (the desk's price list), and small array/interleaving specs next to the memory theorems.

`Expr.v` has the expressions in which C45 is stated.

Property theorems are in `Prop*.v`: most theorems are closed by `exact <lemma>`, each is followed by `Print Assumptions`.

## 2. Trusted base

* Coq's kernel, including `vm_compute` conversion.
* What `Print Assumptions` lists under each theorem: "Closed under the global context" for every property theorem. (Loading `Lia` brings
  the opaque interface `Coq.ssr.ssrunder.Under_rel` of the standard library into the environment; no theorem uses it.)
* The correspondence between the Rust text and the Gallina definitions (line citations at each definition).
* `tools/gen_text.py` and `Rust.v`: the translation of Rust text to Gallina (a statement at a time; every variable that a block assigns is rebound; unknown syntax is an error) and the meaning of the operators
  (checked or wrapping arithmetic by profile, shifts, casts, division, indexing, loops). For the functions of `Text*.v` this replaces trust in the hand-written model: the theorems C94... prove the two equal.
* `tools/gen_lib.py`, `RustIter.v` (iterators, slices, chunks, threads) and `TextLib.v`: as above, for text that calls the library; the table of the library's functions at the head of `gen_lib.py` says which argument each changes and whether it uses scratch space
* `tools/gen_eng.py` and `TextEng.v`: as above, for the text of the encrypted machine; the table ENGINE at the head of `gen_eng.py` says which argument each operation changes and whether it uses scratch space. A compiled circuit is a name, which `circuits_agree` ties to the function the circuit computes (proved of the ideal operations in `TextIdeal.v` from the circuits of `Circ*.v`)
* `tools/gen_host.py`, `RustStr.v` (strings, `parse`, `find`, `filter`, ranges of slices) and the record `RustHost.v`: as above, for the text of the host. The container parser, the environment, the keys and the scratch space are arbitrary operations. C100 assumes that making keys does not panic, that 2^24 bytes (and 2^24 per thread, for fewer than 2^40 threads) are given, and a ROM that is not empty; with 2^40 threads or more it covers builds with overflow checks only
* `tools/gen_guest.py` and `RustGuest.v` (binary32 operations of the standard library's SpecFloat, `and_then`, loops with `return`): as above, for the guests, the allocator and the host programs, with the replacements listed at the top of the tool (each must match the source exactly once). usize has 32 bits in the allocator and 64 elsewhere
* `tools/gen_tests.py`, `tools/gen_params.py` and `RustParams.v` (the library's layout records with the newtypes as u32, `usize` to newtype conversion by truncation, `Duration` as nanoseconds with the panics of the standard library): as above, for the unit tests, the parameters and the measurements
* `tools/gen_keys.py` and `RustKeys.v` (the library's key operations as functions that may panic, which return the new key and the new states of the sources): as above, for the keys
* `tools/gen_noise.py` and `RustNoise.v`: as above, for the noise
* `tools/gen_ftests.py` and the record `RustTests.v`: as above, for the text of the tests. C110 assumes that `encrypt_sk` of a word gives a ciphertext with this message (`tests_ok`) and that a random `u32` is a word; the measured noise is an arbitrary operation.
* `tools/gen_circuits.py`, which copies the tables of `fhevm/src/codegen/*.rs` to Coq lists.
* The external library (poulpy 0.4.x) is not in `/repo`. Its primitives are modelled by their ideal functionality:
  * a ciphertext is its message, without noise, except in C72 and C73, where the functionality below holds up to a bounded error of the phase
    (worst case per coefficient; the bounds themselves are parameters, not derived from the ring dimension and the key distribution);
  * a GLWE message is a polynomial of degree below N over the integers with `X^N = -1`;
    `glwe_rotate k` multiplies by `X^k`; `glwe_trace(.,0,.)` keeps the constant coefficient;
    `add`, `sub`, `copy`, `normalize` are the obvious maps;
  * `glwe_blind_rotation_inplace(sign, rsh, mask, lsh)` multiplies by `X^(-v)` (`X^v` if sign) with
    `v = sum_i bit[rsh+i] 2^(i+lsh)`, one conditional factor per address bit;
  * `glwe_blind_retrieval_statefull` is the conditional-swap network running from the most significant
    address bit, `_rev` the same network in reverse order;
  * `GLWEBlindRetriever::retrieve` returns the entry selected by the address bits above `log_n`, zero when out of range;
  * `glwe_blind_selection` returns the entry whose key equals the selector bits, zero for a missing key;
  * `execute_bdd_circuit` evaluates the levels of a circuit starting from slots (0, 1, undefined, ...), each level reads only
    the previous level, output is slot 0; a `None` node leaves its slot *undefined* in the model (so a theorem that
    evaluation succeeds shows it is never read);
  * `pack`/`get_bit_glwe` move constant coefficients in and out of an encrypted integer; `zero_byte`, `sext`,
    `splice_u8`, `splice_u16` act on bytes; the 2-input word circuits of the library (add, sub, sll, srl, sra, slt, sltu, and, or, xor)
    compute the corresponding 32-bit operation; `prepare*` keeps a bit, bits outside the prepared range are zero.
* Rust's `f32` operations are IEEE 754 binary32 with rounding to nearest, ties to even (on riscv32 they are the compiler's soft-float routines).
* Not modelled: the algorithms that make keys (their randomness is, Seeds.v), the size of the noise of each primitive, the scratch sizes of the library, ELF byte parsing (the list of
  headers is the input), how the operating system passes environment variables (Host.v starts from their values), the linker's own
  algorithms, rustc (the guests are modelled as Rust source, not as compiled code).

## 3. Properties

`proved` / `refuted` below is the plan before the proofs; MANIFEST.json has the current status.

| id | modelled by | proof plan |
|---|---|---|
| C01 | Codec immediates vs. Isa immediate fields | bit-level extensionality (`Z.testbit`), every word and immediate |
| C02 | Codec setters/getters | same |
| C03 | `Isa.encode` then Codec decode | field extraction lemmas on the arithmetic encoding, case split on the operation |
| C04 | Codec accept vs. `Isa.encode` image | expected false (SLLI funct7, JALR funct3, opcode 1110011): refutation plus the exact set of accepted words |
| C05 | parser as three lists | induction on the sequence; packing by bit extensionality |
| C06 | Codec vs. TestVM.decode | case split on opcode/funct3/funct7 |
| C07 | EvalPlain vs. Isa ALU | per operation, shift/mask to div/mod |
| C08 | same for M | MUL* proved; DIV/DIVU/REM by zero expected false: refutations plus proofs for nonzero divisors |
| C09 | PC eval vs. Isa | per operation |
| C10 | RAM eval vs. byte list update | bit extensionality; odd half-word offset expected false |
| C11 | DebugVM load vs. Isa load | expected false for sub-word offsets; proof for offset zero |
| C12 | invariants of three machines | induction on cycles |
| C13 | frame of DebugVM and TestVM steps | |
| C14 | EncVM on a zero slot | fixpoint, induction on cycles |
| C15 | index bounds, aliasing | arithmetic; refutation for non power of two sizes between the two VMs |
| C16 | TestVM.run vs. Isa.step | per instruction, simulation relation on byte memory |
| C17 | TestVM division | refutation (panic) plus proof for nonzero divisor without overflow |
| C18 | iteration lemmas | induction |
| C19-C23 | circuits | a verified checker explores (slot, knowledge) pairs level by level; knowledge automata for ripple-carry sums and comparisons are proved sound, the checker runs by `vm_compute`; result holds for all inputs |
| C24 | same checker: evaluation never hits an undefined slot; a structural check for widths and selectors | `forallb` over the finite tables |
| C25 | pc circuit vs. Isa jal | expected false beyond 20 bits: refutation, proof for offsets in range |
| C26 | EncEval vs. EvalPlain | per operation; LB expected false |
| C27 | EncEval stores | per offset |
| C28 | blind selection over op tables | proof for ids in table, refutation for M ids |
| C29-C33 | EncMem vs. arrays | negacyclic rotation algebra, permutation network invariants, induction on operation sequences; `zero` expected false for general addresses |
| C34, C35 | Par | every interleaving of the thread task lists has the same effect as a sequential map |
| C36 | EncVM vs. DebugVM | simulation, induction on cycles |
| C37 | EncVM vs. TestVM | composition of C36, C39, C41 and a DebugVM/TestVM simulation under a stated "supported run" predicate on the reference run. Programs are lists of 32-bit words, as in an image: words that are never executed need not be RV32IM (the runtime's `unimp` is not); fetching one stops the RISC-V machine |
| C38 | EncVM pc truncation | expected false: refutation |
| C39-C41 | Loader | list lemmas; C40 expected false for segments with file size different from memory size |
| C42 | Alloc | invariant over request histories |
| C43 | EncVM on M instructions / ECALL | expected false: refutation |
| C44 | EncMem state flag | case analysis over operation sequences |
| C49 | Isa runs at `JAL x0, 0`; C37 | the self-jump is supported, keeps memory; run concatenation |
| C50 | Startup on the Isa | symbolic execution of the seven words; pc-relative split |
| C51 | TestVM, EncVM at SYSTEM words | reference VM stops; expected false for the encrypted VM: refutation |
| C52, C53 | Loader, Link | case analysis over segments; `C53_program_correct` is a full program proved for every input |
| C54 | Guests layout | induction on types through field lists |
| C55, C56 | Guests.swap over unbounded integers (`GuestSpec`) | division algebra; C55 expected false |
| C57, C58 | Guests | loop invariants |
| C59, C60 | EncVM vs. the plaintext machine of ExactSpec | simulation, induction on cycles; no hypothesis on the program beyond acceptance |
| C61 | TestVM vs. the plaintext machine of RefSpec | simulation, induction on cycles; then init, tape in, tape out |
| C62, C63 | DebugVM and EncVM with the debugging key vs. the plaintext machine of ShadowSpec | simulation, induction on cycles; each check of the encrypted VM inverted |
| C64 | EvalPlain, DebugVM, EncVM, TestVM on RV32M | case analysis |
| C65 | EncVM (init_registers), ExactSpec with given registers | the invariant of C59 from another start; first cycle of the check by case analysis |
| C66 | Otc (quote) on the standard library's SpecFloat, OtcSpec | each operation shown to be correctly rounded (FloatFacts); relative errors composed over six roundings |
| C67 | Otc, FloatSpec | monotonicity of rounding, from the coefficients (27 cases) to the prices |
| C68 | Otc (otc_guest, otc_read, bits) | round trips of bits and tapes (C54) |
| C69 | Scratch (all) | exact amounts (iff), the assertion's claim for large memories, witness for small ones |
| C70 | Keys (alloc_keys, encrypt_keys, prepare_keys) | round trip / exact panics |
| C71 | Keys (average_time, end_cycle) | exact description, invariant over cycles |
| C72 | EncVM over `alg`, Noise | refinement with error bounds, by induction over cycles |
| C73 | EncVM over `alg`, NoiseWorst | refuted: an implementation within its bounds, and a run of three cycles |
| C74 | Measure | refuted for memories that do not fill their ciphertexts; true for the others |
| C75 | Measure | exact characterisation |
| C76 | EncVM over `alg` | equality of runs, by induction over cycles |
| C77 | Flow, EncVM over `alg` | refuted for two nodes, proved for the others |
| C78 | Flow, EncVM over `alg` | every edge list entry: sufficiency for all machines, necessity by a witness each |
| C79 | Asm | against `encode` (Isa) with `put` (AsmSpec) |
| C80 | Asm | every unit test, all operands |
| C81 | RepoTests | exact conditions for passing |
| C82 | RepoRuns | exact conditions for passing, against `accepted` (DecodeSpec) |
| C83 | RepoRuns | exact conditions for passing, against `exec` (ExactSpec) and `sh_run` (ShadowSpec) |
| C84, C85 | CycleTime | `valid`, `valid_run`, `path` (TimeSpec: schedules over the graph of C78) |
| C86, C87 | Seeds | `correct`, `started`, `procedure`, `code_of`, `data_of` (SeedSpec) |
| C88, C89, C90 | Host | `writes`, `says_yes`, `host_spec` (HostSpec) |
| C91, C92 | CycleScratch | `demands`, `shares_suffice`, `scalable` (CycleScratchSpec) |
| C93 | Params | `digits`, `lossless` (ParamsSpec): what cutting a number into digits loses |
| C94, C95 | TextInstr, TextDebug (translated) against Codec, EvalPlain, DebugVM (hand-written) | renamings `ins`, `rd_of`, `dvm_of`... (TextFacts); `Isa` for the corollaries |
| C96 | TextTest (translated) against TestVM (hand-written) | renamings `vm_of`, `inst_of`... (TextTestFacts); `RefSpec` for the session |
| C97 | TextMem (translated) against EncMem, Scratch (hand-written) | `mem_of` (TextMemFacts); `holds`, `addresses`, `enc_of` of `MemSpec` for the array |
| C98 | TextEnc (translated) against EncVM, EncEval, Prepare, CycleScratch (hand-written) | `interp`, `mem_of`, `dvm_of` (TextCycle, TextMemFacts, TextFacts): which fields of the text are which of the model |
| C99 | TextEnc (translated) with the ideal operations | `ExactSpec.q_run`; `ShadowSpec.sh_run`; `cycles_space` of CycleScratch for the space |
| C100 | TextHost, TextEnc, TextTest (translated) with the ideal operations | `HostSpec.host_spec`; `cycles_space` of CycleScratch for the space |
| C101 | TextAlloc, TextGuest*, TextGenTests (translated) | the models of Alloc.v, Guests.v and Otc.v, whose specifications are those of C42, C54-C58, C66-C68 |
| C102 | TextMain* over TextHost (translated) | `HostSpec.host_spec`; the decoded output written out |
| C103 | TextInstrTests (translated) | Asm.v, RepoTests.v, whose specifications are those of C79-C81 |
| C104 | TextParams, TextMeasure (translated) | Params.v (C93) and `Keys.average_time` (C71); the field of each function written out |
| C105 | TextKeys (translated) | Keys.v (C70), `made` (the chain of the sources), `encrypts` and `prepares` (the library's contract) |
| C106 | TextNoise (translated) | Measure.v (C75); `measures` (the library's contract) |
| C107 | Display | `DisplaySpec.v`: reading digits from the left |
| C108 | GenCode | `GenCodeSpec.v`: a reader of the constants of a Rust module |
| C109 | Build | `BuildSpec.v`: what cargo's documentation says of a build command (`cargo_like`) |
| C110 | TextFheTests | exact conditions for passing: noise of the results, words drawn (`drawn`), bytes of scratch space (`CycleScratch.v`) |
| C45 | EncVM over `alg` | the run in the syntactic implementation is the plan; relational parametricity shows that every run carries it out |

## 4. Findings

Statements of the property list that are false of the model, with the theorem that shows it.

* **F1** (C04, `C04_illegal_words_refuted`): the fhevm decoder accepts words that are not RV32IM: SLLI with nonzero
  funct7, JALR with nonzero funct3, and every word with opcode 1110011 (ECALL, EBREAK, CSR), which becomes a no-op.
  `C04_accepted_exactly` gives the exact set. The reference decoder has its own, different set (`C46_reference_accepts_exactly`).
* **F2** (C08, `C08_rv32m_refuted`): in `eval_plain`, DIV by zero gives 2^31-1 instead of -1, DIVU by zero gives the dividend
  instead of 2^32-1, REM by zero panics.
* **F3** (C10, C13, `C10_misaligned_half_refuted`, `C13_shadow_store_refuted`): SH at an odd byte offset clears the whole word.
* **F4** (C11, `C11_subword_refuted`): byte and half-word loads ignore the two low address bits
  (`C11_load_ignores_low_bits` is the exact behaviour); the stores do not ignore them. `C37_byte_load_refuted`: a linked program that reads the
  second byte of its input with LBU outputs the first byte in the encrypted VM and the second in the reference VM. The byte-string guest
  `compiler-tests/string-match` depends on such loads.
* **F5** (C17, `C17_division_refuted`): the reference VM panics on division by zero and on MIN/-1.
* **F6** (C25, `C25_jal_range_refuted`): the encrypted pc circuit sees 20 of the 21 bits of a JAL offset; a jump is honoured
  exactly when its offset is in [-2^19, 2^19) (`C25_jal_exact`), otherwise it lands 2^20 bytes away.
* **F7** (C32, `C32_clear_refuted`): `Memory::zero(addr)` clears coefficient `(addr/N) mod N` instead of `addr mod N` of polynomial
  `addr/N`; for `addr < N` it always clears word 0. `C32_clear_exactly` is the exact behaviour. The only caller uses address 0.
* **F8** (C33, `C33_dropped_refuted`): `Memory::encrypt_sk` divides the data length by the word size before comparing with the
  number of words, so up to 32 times too much data is accepted and the excess is silently dropped.
* **F9** (C44, `C44_clear_pending_refuted`, `C44_other_address_refuted`): `Memory::zero` does not check the pending-read flag
  and then clears some other word; a write-back does not check that the address is the one that was read.
* **F10** (C26, C36, `C26_lb_refuted`, `C36_unrestricted_refuted`): the encrypted LB does not extend the sign (the `sext` call is
  commented out), so it computes LBU (`C26_register_evaluation`). With the shadow VM on, a debug assertion fails; without it the
  result is silently wrong.
* **F11** (C28, C43, `C28_outside_refuted`, `C43_encrypted_refuted`): instructions of the M extension are accepted by the decoder and
  their ids (29 to 36) are truncated to five bits by the blind selection: MUL*, DIV give 0, DIVU gives the pc, REM gives rs1 and
  REMU the sign bit of rs1 (`C43_encrypted_result`, for all operands). The shadow VM panics on them. SYSTEM instructions are
  no-operations in both (`C43_system_is_nop`).
* **F12** (C38, `C38_jump_outside_refuted`): the encrypted VM uses `rb + 2` bits of the pc (`rb`: bits of the ROM size); a jump outside
  the ROM continues at the address modulo `4 * 2^rb`. Slots between the program's end and `2^rb` are self-loops (`C14_empty_slot_halts`).
* **F13** (C40, `C40_partial_segment_refuted`): `Phantom::from_elf` copies a data segment only when its file size equals its memory
  size; a segment with .data followed by .bss is dropped as a whole and the program starts with zeros instead of its initialised
  data. `C40_exact` gives every byte of the initial RAM. A segment below the first data segment, or beyond 4096 bytes, makes
  loading panic (`C40_outside_refused`, `C52_loads_exactly`). With the repository's linker script this happens to every program that has
  both .data and .bss (`C53_data_refuted`; `C53_linked_image` is the exact condition); further read-execute segments and segments with other flags are ignored (`C40_code`).
* **F14** (C37, `C37_other_base_refuted`): the loader takes the RAM base from the first data segment, but the encrypted VM
  subtracts the constant 2^18. When the two differ by something that is not a multiple of 4096, the encrypted and the reference VM
  give different outputs although both run to the end. With the linker script in the repository the bases agree.
* **F15** (C51, `C51_encrypted_refuted`): the runtime places `unimp` (0xC0001073) behind the call of `_start_rust` to stop a program
  whose `main` returns. The reference VM panics there (`C51_reference_stops`, for every SYSTEM word); the encrypted VM steps over it
  (`C43_system_is_nop`), falls into `_start_rust` and runs the program again on the modified memory, so the output depends on the
  cycle budget. The guests avoid this only because each `main` ends in `loop {}`.
* **F16** (C55, `C55_product_refuted`, `C55_overflow_refuted`, `C55_pool_drained`): the `uniswap` guest rounds the amount paid out up
  (`t1 - k / (t0 + amount)`), so the pool's product falls in the repository's own test (50000 to 49950). Every pool with `t0 >= t1` is
  emptied of its t1 by selling one unit of t0 at a time, one t0 for each t1 whatever the pool's price. If `t0 * t1` overflows, a trade of
  amount 0 can pay out a whole reserve (pool 65536/65536). The host program repeats the same formula, so its comparison cannot notice.
* **F17** (C58, `C58_host_checked_exactly`): with overflow checks (the default of `cargo run`), the template's host-side expectation
  panics for every point above 18, among them the point 123 it is called with. It works only with `--release`.
* **F18** (C56, `C56_tape_to_tape`): a guest that panics is seen by the host as an output of zeros. For the exchange guest zeros are never
  a successful result, so failure can be told; for `string-match` and the arithmetic guests zeros are also valid results.
* **F19** (C60, `C60_counter_wrap_refuted`): `cycle` skips the preparation of the pc when the 32-bit cycle counter is zero, meaning "first
  cycle". In a build without overflow checks the counter comes round to zero after 2^32 cycles and that cycle executes the previous
  instruction again (with overflow checks the run panics instead).
* **F20** (C65, `C65_x0_refuted`, `C65_checked_runs_stop`): `init_registers` takes a word for x0 and writes it; the first instruction of the
  run then sees x0 with that value. It also leaves the shadow VM's registers at zero, so a checked run of a VM whose registers were set panics in
  its first cycle (always when two registers other than x0 are not zero), although the encrypted run is right.
* **F21** (C69, `C69_small_refuted`): `retrieve_statefull_tmp_bytes`, `retrieve_statefull_rev_tmp_bytes` and with it `write_tmp_bytes` (memory.rs:585-604, 640-667, 720-738)
  count the blind rotation only if the memory is larger than one ciphertext, and the blind retrieval always. The operations do it the other way round: the
  rotation always runs, the retrieval only for the larger memories. The registers are always small. The size is used to split the scratch space among
  the threads, so if a rotation needs more than what is counted every such operation panics in the library, however much space the caller provides.
  Nor do the assertions count the space of `pack` (244, 303) and of `get_bit_glwe` (362, 427).
* **F22** (C73, `C73_unbounded_runs_refuted`): registers and RAM are never bootstrapped. Every cycle rotates and swaps each of their ciphertexts forth and
  back (`read_stateful`/`write_stateful`), whether or not the instruction touches the word, so their errors grow by a fixed bound per cycle (`grow_regs`,
  `grow_ram` in Noise.v) and the number of cycles a parameter set supports is bounded (C72 gives a sufficient number). Nothing in the code limits or
  checks it: `max_cycles` is not compared with a noise budget, and the only measurement (fhevm/src/tests/cycle.rs:142-) plots the noise without asserting anything.
* **F23** (C74, `C74_small_refuted`, `C74_large_refuted`): `BitArray::noise` (memory.rs:510-540) compares a ciphertext with the polynomial in a scratch buffer
  of which it only sets as many coefficients as there are words; `encrypt_sk` (475) clears the rest of the same buffer, `noise` does not. For a memory that does not fill
  its last ciphertext the reported noise is therefore that of the words and of whatever the buffer contained: for the 32 registers, coefficients 32 to 1023 are compared
  with leftover scratch contents (the `reg_noise` that a checked run prints, interpreter.rs:1225-1238); for larger memories with the words one ciphertext earlier.
* **F24** (C77, `C77_documented_refuted`): the dependency graph in doc/costs.md lacks the edges REGISTERS --> REGISTERS (after), RAM --> RAM (after) and
  RAM_ADDRESS --> RAM (after). With them it is exact (C78).
* **F25** (C81, `C81_one_op`): test_interpreter_init_one_op compares every operation, LB among them, with its plain evaluation, but on one RAM value. `C110_one_op` shows the same of the translated text of the test: it passes exactly when the low byte of the fifth word drawn is below 128.
  It passes exactly if that value's low byte is below 128, so it does not show the missing sign extension (C26) for half of the draws. `C81_pc_update`:
  `PCU::set_rs1_lt_rs2` and `set_rs1_lt_rs2_signed` panic in debug builds when both operands are `u32::MAX` (test code only).
* **F26** (C83, `C83_program`, `C83_straight_line`): the program of test_interpreter_cycles does not do what its comments say. ADDI with 0x1 adds 1, not 1<<12;
  SLTI keeps only 12 bits of 0xEF10 and compares with -240, so it stores 0 where the comment's comparison gives 1. The test does not notice, because it
  compares the encrypted VM only with the shadow VM; every straight-line program without LB and M operations passes it.
* **F27** (C84, `C84_documented_refuted`, `C84_code_time`): doc/costs.md says that blocks at the same level run in parallel and that a cycle takes the
  time of the longest path. The code runs the six blocks one after the other: 760 ms with the documented durations (the document's average is 763 ms),
  where the longest path takes 598 ms. With cycles overlapping as far as the data allows, 433 ms would be possible (C85).
* **F28** (C86, `C86_hidden_refuted`, `C86_one_key`, `C86_equal_ciphertexts`): `Phantom::encrypted_vm` (compiler/src/interpreter.rs:350-353) makes the sources
  of the secret key, of the masks and of the errors with `Source::new([0u8; 32])`. Everybody can make the secret key again and decrypt code, RAM and input of every encrypted VM;
  the key is the same for all VMs, and masks and errors repeat, so that equal messages are visible even without the key. This contradicts README.md:5
  ("hidden instructions, constants, states"). All three sources also yield the same stream. C87 shows that the seed is what matters; it is not a proof of security,
  it only excludes procedures that work for every library.
* **F29** (C88, `C88_numbers`, `C88_no_threads`): PHANTOM_THREADS=0 is accepted as a number; every cycle then panics (division of the work among no threads). A value that is not a number
  ("8 ", "-1", "1e3") silently means the default.
* **F30** (C90, `C90_debug_transparent_refuted`): PHANTOM_DEBUG is not only diagnostics. The shadow VM panics at every multiplication or division and where the program is left,
  so that a run that returns the right output without the variable aborts with it. `C90_debug_only_stops`: it never changes an output.
* **F31** (C92, `C92_bench_refuted`, `C91_converse_refuted`): the benchmark's scratch space (benches/cycle.rs:154) does not grow with the threads as the host's does; with its default of 32 threads
  each has half of what the host program gives it. Running with more threads can succeed where one thread panics, because part of the demand (32 words) does not depend on the threads.
* **F32** (C93, `C93_new`, `C93_all_lossless_refuted`): the switching keys' numbers of digits are constants (parameters.rs:309, 319). The one from GLWE to GLWE covers 26 of the 30 bits of a word;
  the other layouts are computed and lose nothing. (The lost bits are below the noise that the following switch to LWE, with 16 bits, adds; but changing K_FHE_UINT or the base does not change them.)
* **F33** (C102, `C102_otc`): the program otc passes on any output of eight bytes on which the two machines agree. It prints the guest's quote and the one it computes itself and does not compare them
  (otc/src/main.rs), unlike the other three programs. By `C102_template` the template program cannot pass when it is compiled with overflow checks (`cargo run` without `--release`), whatever the guest does (F17).
* **F34** (read, not proved): gen-tests/src/guest_test1.rs:47 calls `compiler.build()` without the argument that `CompileOpts::build` (compiler/src/lib.rs:24) takes, so the crate does not compile as it stands.

## 5. Mutation testing

`seeded/LOG.jsonl` has one line per wrong program. `K`, `L`: edits of the model by hand. `T`: edits of the Rust text, translated again. `A`, `B`: random edits of the model.
The values of `result`:

* `killed`: the build reports an error. `lemmas_failed` is what failed first in each file, `theorems_failed` the property theorems that depend on it by name. A file stops at its
  first error, so theorems after it were mostly not tried. Where no property theorem is listed, `note` says what failed; for some edits it is only the concrete case of a property.
  A kill also does not show that the claim is false of the edited program: some harmless edits break a proof script. They are noted where they were recognised.
* `survived, then tightened`: the theorem in `theorems_tightened` was added or strengthened afterwards.
* `equivalent`: everything still builds and the edit was judged, by reading, to change nothing a property speaks about. This is not proved.
* `survived`: everything still builds and the edit is not equivalent. T307 and T308 change which bits the loop of the unit test `imm_encoding` (instructions/b_type.rs) covers. The test
  passes either way, and no theorem says what a test covers: C103 and C110 say when a test passes, not how much it would notice.
* `proof did not finish`: the only error is that a time limit was reached. Not counted as killed. For `A` and `B` the messages were not kept, so some of their kills may be of this sort.
* `stillborn`: the edited text does not type-check.
