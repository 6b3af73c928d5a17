{"id": "C01", "title": "Immediate write/read round trip", "statement": "For every instruction whose format carries an immediate (I, shift-I, S, B, U, J), writing an immediate and reading it back yields the immediate cut to the field of that format and sign-extended as the RISC-V manual prescribes, and no bit outside the immediate field changes.", "quantifier": "every 32-bit instruction word of the format and every 32-bit immediate (2^64 pairs per format)", "why_tests_cant": "Unit tests sample 1024 random immediates on an all-zero template word; sign bits, scrambled B/J bit positions and neighbouring fields are only checked for the sampled values.", "anchors": ["fhevm/src/instructions/mod.rs: Instruction::set_imm, Instruction::get_imm", "fhevm/src/instructions/{i,s,b,u,j}_type.rs: set_immediate, get_immediate"]}
{"id": "C02", "title": "Instruction fields are independent", "statement": "Writing any of rd, rs1, rs2, funct3, funct7, shamt, opcode stores the value modulo the field width and leaves every other field of the word unchanged.", "quantifier": "every 32-bit word and every written value", "why_tests_cant": "There are 2^64 word/value pairs per field; tests exercise a few templates.", "anchors": ["fhevm/src/instructions/mod.rs: Instruction::set_rd, set_rs1, set_rs2, set_funct3, set_funct7, set_shamt, set_opcode and getters"]}
{"id": "C03", "title": "The encrypted VM's decoder follows the ISA on every legal instruction", "statement": "Encoding any legal RV32I or RV32M instruction as in the RISC-V manual and handing the word to the parser gives exactly that operation, those registers (zero for absent ones) and that immediate; it never panics.", "quantifier": "every legal RV32IM instruction with every register and immediate operand", "why_tests_cant": "About 2^31 legal words; tests build templates with one field pattern.", "anchors": ["fhevm/src/instructions/mod.rs: Instruction::get_type, get_opid, get_registers, get_imm"]}
{"id": "C04", "title": "Words outside RV32IM are rejected", "statement": "Whenever the parser accepts a word as an executable instruction, the word is the ISA encoding of that instruction; any other word panics at load time instead of being executed as something else.", "quantifier": "every 32-bit word", "why_tests_cant": "2^32 words, tests only use legal ones.", "anchors": ["fhevm/src/instructions/mod.rs: Instruction::get_type, Instruction::get_opid"]}
{"id": "C05", "title": "Parsed program keeps every instruction's fields", "statement": "After adding any sequence of instructions to a parser, reading entry i returns the immediate, registers and operation ids of the i-th instruction added, for every i below the length; adding an instruction never disturbs earlier entries.", "quantifier": "every finite sequence of decodable instructions and every index", "why_tests_cant": "Packing six fields in one integer could overlap for some combination or length; tests check single entries.", "anchors": ["fhevm/src/instructions/mod.rs: InstructionsParser::add, get, get_raw"]}
{"id": "C06", "title": "The two decoders never disagree", "statement": "For every 32-bit word that both the reference VM and the encrypted VM accept, they decode it to the same operation with the same registers and an immediate that denotes the same value.", "quantifier": "every 32-bit word", "why_tests_cant": "Two independently written decoders over 2^32 words.", "anchors": ["fhevm/src/instructions/mod.rs: Instruction::get_opid, get_registers, get_imm", "compiler/src/interpreter/testvm.rs: TestVM::decode_inst"]}
{"id": "C07", "title": "Plain evaluation of RV32I register results is the ISA's", "statement": "For each RV32I operation the value written to rd by the plaintext evaluator equals the value defined by the ISA manual.", "quantifier": "every 32-bit value of rs1, rs2, immediate, pc and loaded word, each RV32I operation", "why_tests_cant": "Operands range over 2^160 combinations; tests draw one or a few random ones.", "anchors": ["fhevm/src/instructions/mod.rs: RD_UPDATE::eval_plain, sext"]}
{"id": "C08", "title": "Plain evaluation of RV32M results is the ISA's", "statement": "For each RV32M operation the plaintext evaluator returns the ISA value (including division by zero and signed overflow) and never panics.", "quantifier": "every pair of 32-bit operands, each of the eight M operations", "why_tests_cant": "Division by zero and overflow are single points in 2^64 operand pairs.", "anchors": ["fhevm/src/instructions/mod.rs: RD_UPDATE::eval_plain (MUL..REMU)"]}
{"id": "C09", "title": "Plain next-pc is the ISA's", "statement": "For each control-flow operation the next pc computed by the plaintext evaluator equals the ISA's (branch taken/not taken with signed or unsigned comparison, jal, jalr with cleared low bit, sequential), with wrap-around modulo 2^32.", "quantifier": "every 32-bit rs1, rs2, pc, immediate, each of the nine operations", "why_tests_cant": "2^128 operand combinations; signed/unsigned boundary cases are sparse.", "anchors": ["fhevm/src/instructions/mod.rs: PC_UPDATE::eval_plain"]}
{"id": "C10", "title": "Plain stores touch exactly the addressed bytes", "statement": "A byte, half-word or word store changes exactly the addressed bytes of the containing RAM word to the low bytes of rs2 and keeps the others; a half-word store that would be misaligned never destroys unrelated bytes.", "quantifier": "every rs2, every old word, every byte offset, each store operation", "why_tests_cant": "2^66 combinations and the odd offsets are never tested.", "anchors": ["fhevm/src/instructions/mod.rs: RAM_UPDATE::eval_plain"]}
{"id": "C11", "title": "Loads return the bytes at the addressed location", "statement": "In the encrypted VM (and its plaintext shadow) LB/LBU/LH/LHU/LW return the bytes stored at the byte address rs1+imm, properly extended.", "quantifier": "every RAM content, every base register and immediate, each load", "why_tests_cant": "Tests only load from word-aligned addresses.", "anchors": ["fhevm/src/debug.rs: read_ram, update_registers", "fhevm/src/interpreter.rs: read_ram, update_registers", "fhevm/src/instructions/mod.rs: RD_UPDATE::eval_plain"]}
{"id": "C12", "title": "Register x0 is always zero", "statement": "In the reference VM, the plaintext shadow VM and the encrypted VM, register x0 reads as zero before every cycle, whatever the program writes to it.", "quantifier": "every program, every initial RAM, every number of cycles", "why_tests_cant": "An invariant over unbounded executions.", "anchors": ["compiler/src/interpreter/testvm.rs: TestVM::run", "fhevm/src/debug.rs: update_registers", "fhevm/src/interpreter.rs: update_registers"]}
{"id": "C13", "title": "Only stores change RAM, and only the addressed bytes", "statement": "A cycle that does not execute a store leaves RAM unchanged; a cycle that executes a store changes no byte other than the addressed ones.", "quantifier": "every VM state and every instruction", "why_tests_cant": "Frame property over all RAM contents and addresses.", "anchors": ["fhevm/src/debug.rs: update_ram", "compiler/src/interpreter/testvm.rs: Memory::write_byte, write_half, write_word"]}
{"id": "C14", "title": "Unused program slots halt the machine", "statement": "When a program shorter than the ROM reaches a slot that was never filled, the encrypted VM stays there: pc, registers and RAM no longer change, for any number of further cycles.", "quantifier": "every reachable state whose pc points at an unfilled slot, every number of further cycles", "why_tests_cant": "A statement about all continuations.", "anchors": ["fhevm/src/interpreter.rs: instructions_encrypt_sk, cycle_internal", "fhevm/src/instructions/mod.rs: PC_UPDATE ids"]}
{"id": "C15", "title": "RAM accesses stay inside RAM and wrap predictably", "statement": "Whatever address a program computes, the RAM word accessed by the shadow VM and by the encrypted VM has an index below the RAM size, and addresses that differ by a multiple of the RAM byte size (a power of two) access the same word.", "quantifier": "every 32-bit register and immediate value, every RAM size", "why_tests_cant": "All addresses including wrap-around below the RAM base.", "anchors": ["fhevm/src/debug.rs: read_ram, update_ram", "fhevm/src/interpreter.rs: read_ram"]}
{"id": "C16", "title": "The reference VM implements the RISC-V ISA", "statement": "One step of the reference VM on a legal RV32I instruction (or RV32M multiplication) either panics for misalignment or produces exactly the ISA's next registers, pc and memory.", "quantifier": "every reference VM state (registers, pc, RAM) and every legal instruction", "why_tests_cant": "All states times all instructions.", "anchors": ["compiler/src/interpreter/testvm.rs: TestVM::run, TestVM::decode_inst, Memory"]}
{"id": "C17", "title": "Division in the reference VM follows the ISA", "statement": "DIV, DIVU, REM and REMU in the reference VM return the ISA value for every divisor, including zero and the signed overflow case.", "quantifier": "every pair of 32-bit operands", "why_tests_cant": "The failing operands are isolated points.", "anchors": ["compiler/src/interpreter/testvm.rs: TestVM::run (DIV, DIVU, REM, REMU)"]}
{"id": "C18", "title": "Running n+m cycles equals running n then m", "statement": "Executing a VM for n cycles and then for m more gives the same state, output and panics as executing n+m cycles at once, for the reference, shadow and encrypted VM.", "quantifier": "every program, state, n and m", "why_tests_cant": "All split points of all executions.", "anchors": ["compiler/src/interpreter/testvm.rs: TestVM::execute", "compiler/src/interpreter.rs: EncryptedVM::execute", "fhevm/src/interpreter.rs: cycle_internal (cycle counter)"]}
{"id": "C19", "title": "LUI circuit is correct", "statement": "The encrypted LUI circuit yields imm << 12 for every immediate.", "quantifier": "all 2^20 immediates (32 output bits)", "why_tests_cant": "Tests compare a single random immediate.", "anchors": ["fhevm/src/codegen/codegen_lui.rs: OUTPUT_CIRCUITS"]}
{"id": "C20", "title": "Link-address circuit is correct", "statement": "The encrypted JAL/JALR link circuit yields pc+4 modulo 2^32 for every pc.", "quantifier": "all 2^32 values of pc", "why_tests_cant": "Carry chains over 32 bits cannot be enumerated by encrypted tests.", "anchors": ["fhevm/src/codegen/codegen_jalr.rs: OUTPUT_CIRCUITS"]}
{"id": "C21", "title": "AUIPC circuit is correct", "statement": "The encrypted AUIPC circuit yields pc + (imm << 12) modulo 2^32.", "quantifier": "all 2^52 inputs", "why_tests_cant": "Input space.", "anchors": ["fhevm/src/codegen/codegen_auipc.rs: OUTPUT_CIRCUITS"]}
{"id": "C22", "title": "RAM address circuit is correct", "statement": "The encrypted RAM-address circuit yields rs1 + imm - 2^18 modulo 2^32 and does not depend on the order in which the two operands are given.", "quantifier": "all 2^64 inputs", "why_tests_cant": "Input space; the code passes the operands in the opposite order to the one documented.", "anchors": ["fhevm/src/codegen/codegen_ram_offset.rs: OUTPUT_CIRCUITS", "fhevm/src/ram_offset.rs: ram_offset"]}
{"id": "C23", "title": "Next-pc circuit is correct", "statement": "For each of the nine control-flow operation ids the encrypted pc circuit yields the ISA's next pc.", "quantifier": "all operation ids in use and all 2^116 values of rs1, rs2, pc and the 20 immediate bits", "why_tests_cant": "Input space; tests use 100 random samples for one operation id.", "anchors": ["fhevm/src/codegen/codegen_pc_update.rs: OUTPUT_CIRCUITS", "fhevm/src/pc_update.rs: update_pc"]}
{"id": "C24", "title": "Circuits never read an unset slot and stay within their declared width", "statement": "Every generated circuit only reads intermediate slots that the previous level has written, only indexes below its declared width and only selects on declared inputs.", "quantifier": "every output bit of every generated circuit, every level, every slot", "why_tests_cant": "A read of a stale slot is masked for most inputs.", "anchors": ["fhevm/src/codegen/*.rs: OUTPUT_CIRCUITS"]}
{"id": "C25", "title": "Every JAL target is honoured by the encrypted VM", "statement": "For every JAL instruction, the encrypted VM's next pc equals pc plus the 21-bit signed offset.", "quantifier": "every pc and every JAL offset", "why_tests_cant": "Only offsets beyond half a megabyte differ.", "anchors": ["fhevm/src/pc_update.rs: update_pc (bit_size 120)", "fhevm/src/codegen/codegen_pc_update.rs", "fhevm/src/instructions/j_type.rs"]}
{"id": "C26", "title": "Encrypted register evaluation equals plaintext evaluation", "statement": "For every RV32I operation, the value obtained by the homomorphic evaluation, decrypted, equals the value of the plaintext evaluator on the decrypted operands.", "quantifier": "every operation of the RV32I list and every operand", "why_tests_cant": "Tests draw one random operand set per operation.", "anchors": ["fhevm/src/rd_update.rs: Evaluate::eval_enc", "fhevm/src/instructions/mod.rs: RD_UPDATE::eval_plain"]}
{"id": "C27", "title": "Encrypted store evaluation equals plaintext evaluation", "statement": "For each store operation the homomorphically computed word equals the plaintext evaluator's word for every byte offset.", "quantifier": "every rs2, old word and offset 0..3, each operation", "why_tests_cant": "2^66 combinations per operation.", "anchors": ["fhevm/src/ram_update.rs: Store::eval_enc", "fhevm/src/instructions/mod.rs: RAM_UPDATE::eval_plain"]}
{"id": "C28", "title": "Blind selection picks the instruction's operation", "statement": "Among the homomorphically evaluated candidates the VM writes the one whose id the instruction carries; ids outside the candidate table are never selected silently.", "quantifier": "every candidate table, every encrypted id", "why_tests_cant": "All ids, including the eight RV32M ids that decode but are not evaluated.", "anchors": ["fhevm/src/interpreter.rs: update_registers, update_ram"]}
{"id": "C29", "title": "Blind memory read returns the addressed word", "statement": "A stateless read of an encrypted memory returns the word stored at the encrypted address and leaves the memory unchanged.", "quantifier": "every memory size, ring degree, content and in-range address", "why_tests_cant": "Tests use one size and a few addresses.", "anchors": ["fhevm/src/memory.rs: Memory::read_stateless, BitArray::retrieve_stateless"]}
{"id": "C30", "title": "Read-modify-write-back equals an array update", "statement": "A stateful read returns the addressed word; the matching write-back stores the new word at that address, restores every other word to its previous value and place, and makes the memory ready for the next read.", "quantifier": "every memory size, ring degree, content, in-range address and written word, and every sequence of such operations", "why_tests_cant": "The memory is permuted and rotated between the two calls; one misplaced word in one size/address combination is enough to corrupt a run.", "anchors": ["fhevm/src/memory.rs: Memory::read_statefull, Memory::read_statefull_rev, BitArray::retrieve_statefull, retrieve_statefull_rev"]}
{"id": "C31", "title": "Blind write equals an array update", "statement": "A blind write replaces exactly the addressed word.", "quantifier": "every memory size, ring degree, content, in-range address and word", "why_tests_cant": "As C30.", "anchors": ["fhevm/src/memory.rs: Memory::write, BitArray::write"]}
{"id": "C32", "title": "Clearing a word clears that word", "statement": "Clearing address a of an encrypted memory sets word a to zero and leaves all others unchanged.", "quantifier": "every memory and every address below its size", "why_tests_cant": "The VM only ever clears address 0.", "anchors": ["fhevm/src/memory.rs: Memory::zero"]}
{"id": "C33", "title": "Encrypt then decrypt is the identity on memory contents", "statement": "Encrypting a slice of words into a memory and decrypting it gives back the words, zero-padded to the memory size; nothing is dropped silently.", "quantifier": "every slice and every memory size", "why_tests_cant": "Lengths near and above the memory size are not tested.", "anchors": ["fhevm/src/memory.rs: Memory::encrypt_sk, decrypt, BitArray::encrypt_sk, decrypt"]}
{"id": "C34", "title": "Memory results do not depend on the number of threads or their schedule", "statement": "Reads, writes, write-backs and clears give the same memory and the same result for every positive thread count and every interleaving of the worker threads; each bit plane is processed exactly once.", "quantifier": "every thread count >= 1, every interleaving", "why_tests_cant": "Schedules cannot be enumerated by tests.", "anchors": ["fhevm/src/memory.rs: read_stateless, read_statefull, read_statefull_rev, write, zero (thread::scope)"]}
{"id": "C35", "title": "Instruction components are prepared completely for any thread count", "statement": "Preparing several encrypted integers at once prepares bit j of component i from bit j of component i for every j below its bit count and zeroes the rest, for every thread count and interleaving.", "quantifier": "every list of bit counts, thread count >= 1, interleaving", "why_tests_cant": "The index arithmetic across components and chunks has many boundary cases.", "anchors": ["fhevm/src/prepare.rs: prepare_multiple_fheuint"]}
{"id": "C36", "title": "The encrypted VM tracks its plaintext shadow", "statement": "As long as every executed instruction is in the supported set, the encrypted registers, RAM and pc decrypt to those of the plaintext shadow VM after every cycle, so none of the debug assertions fires.", "quantifier": "every program, RAM content, thread count, schedule and number of cycles", "why_tests_cant": "Encrypted cycles take minutes; tests run a handful.", "anchors": ["fhevm/src/interpreter.rs: cycle_internal", "fhevm/src/debug.rs: InterpreterDebug"]}
{"id": "C37", "title": "Encrypted output equals reference output", "statement": "For every program whose run stays in the supported set, the output tape of the encrypted VM equals the output tape of the reference VM.", "quantifier": "every ELF image, input tape and number of cycles satisfying the condition", "why_tests_cant": "The sample programs compare a single input.", "anchors": ["compiler/src/interpreter.rs: EncryptedVM::execute, EncryptedVM::output_tape", "compiler/src/interpreter/testvm.rs: TestVM::execute, output_tape"]}
{"id": "C38", "title": "A jump outside the program is not silently redirected", "statement": "If a program sets pc to an address outside the ROM, the encrypted VM does not continue executing instructions of the program at a different address.", "quantifier": "every target address", "why_tests_cant": "Needs targets beyond the ROM size.", "anchors": ["fhevm/src/interpreter.rs: cycle_internal (rom_bits_size + 2)"]}
{"id": "C39", "title": "Both VMs start from the same program and RAM", "statement": "The instruction words and initial RAM bytes seen by the encrypted VM equal those seen by the reference VM, with the input tape at the input section and all other bytes as in the image.", "quantifier": "every image and input tape of the declared size", "why_tests_cant": "Layout offsets and sizes vary per program.", "anchors": ["compiler/src/interpreter.rs: Phantom::encrypted_vm, Phantom::test_vm", "compiler/src/interpreter/testvm.rs: TestVM::init, read_input_tape"]}
{"id": "C40", "title": "All initialised data of the image is loaded", "statement": "Every byte of every loadable read or read-write segment present in the ELF file is in RAM at its address when the program starts, and bytes not in the file are zero.", "quantifier": "every ELF image", "why_tests_cant": "Depends on the segment layout the linker produces.", "anchors": ["compiler/src/interpreter.rs: Phantom::from_elf"]}
{"id": "C41", "title": "Output tape is read from the output section", "statement": "The i-th output byte of the encrypted VM is the byte of its RAM at output start + i, in little-endian word order, for every output section inside RAM.", "quantifier": "every RAM content and every output section", "why_tests_cant": "Word/byte order and modulo arithmetic for all positions.", "anchors": ["compiler/src/interpreter.rs: EncryptedVM::output_tape"]}
{"id": "C42", "title": "Heap blocks are aligned, disjoint and below the stack gap", "statement": "Over any sequence of allocations, every returned block has the requested alignment and size, lies at or above the end of static data, does not overlap any earlier block and ends at least 256 bytes below the stack pointer at the time of the request; a failing request changes nothing.", "quantifier": "every sequence of requests (size, power-of-two alignment, stack pointer)", "why_tests_cant": "Unbounded request histories.", "anchors": ["runtime/src/alloc.rs: sys_alloc_aligned", "runtime/src/lib.rs: Heap::alloc"]}
{"id": "C43", "title": "Unsupported instructions are refused, not miscomputed", "statement": "A program containing an instruction the encrypted VM cannot evaluate (RV32M, ECALL/EBREAK) is refused rather than executed with a wrong result.", "quantifier": "every program", "why_tests_cant": "Requires comparing with the ISA on programs outside the tested set.", "anchors": ["fhevm/src/interpreter.rs: update_registers", "fhevm/src/instructions/mod.rs: Instruction::get_opid"]}
{"id": "C44", "title": "Memory protocol is enforced", "statement": "A memory between a stateful read and its write-back refuses every other access, a write-back without a preceding read is refused, and a refused call leaves the memory unchanged.", "quantifier": "every sequence of memory operations", "why_tests_cant": "All histories of calls.", "anchors": ["fhevm/src/memory.rs: Memory.state"]}
{"id": "C45", "title": "Server's work is independent of the secret data", "statement": "The sequence of homomorphic operations and ciphertext positions touched in a cycle depends only on public parameters (ROM size, RAM size, ring degree, threads, cycle number), never on the program, inputs or register contents.", "quantifier": "every pair of machines with equal public parameters and every number of cycles", "why_tests_cant": "A relational property over pairs of executions.", "anchors": ["fhevm/src/interpreter.rs: cycle_internal", "fhevm/src/memory.rs"]}
{"id": "C46", "title": "Words the reference VM accepts", "statement": "The reference VM decodes a word exactly when it is a legal RV32IM encoding or belongs to an explicit list of extra words (shift-immediate, register and multiply encodings with stray funct7 bits), and every legal word decodes to the instruction it encodes.", "quantifier": "every 32-bit word", "why_tests_cant": "2^32 words.", "anchors": ["compiler/src/interpreter/testvm.rs: TestVM::decode_inst"]}
{"id": "C47", "title": "The shadow VM implements the ISA on supported instructions", "statement": "On every RV32I instruction whose memory access is inside RAM and aligned as the machine requires (loads at word addresses, stores at their natural alignment), a cycle of the plaintext shadow VM gives exactly the ISA's next registers, pc and RAM, and so does any number of cycles; the state set up by the loader is a valid start.", "quantifier": "every shadow VM state, program and number of cycles", "why_tests_cant": "All states times all instructions, unbounded runs.", "anchors": ["fhevm/src/debug.rs: InterpreterDebug", "fhevm/src/interpreter.rs: cycle_internal"]}
{"id": "C48", "title": "Shadow VM and reference VM stay in lock step", "statement": "Started on the same program and RAM, the reference VM and the shadow VM have equal pc, registers and RAM bytes after any number of cycles of a run that stays in the supported set.", "quantifier": "every program, RAM, number of cycles and build profile", "why_tests_cant": "Two independent implementations over unbounded runs.", "anchors": ["fhevm/src/debug.rs: InterpreterDebug", "compiler/src/interpreter/testvm.rs: TestVM::run"]}
{"id": "C49", "title": "Output settles once the program has finished", "statement": "Once a run has reached the guest's final self-jump (loop {}), registers, pc and memory never change again, and for every larger cycle budget the reference VM and the encrypted VM both output what memory held at that moment.", "quantifier": "every image, tape, halting time and number of extra cycles below 2^32", "why_tests_cant": "Unbounded cycle budgets; a test picks one max_cycles.", "anchors": ["compiler/src/interpreter.rs: EncryptedVM::execute", "compiler/src/interpreter/testvm.rs: TestVM::execute", "compiler-tests/*/src/guest/src/main.rs: loop {}"]}
{"id": "C50", "title": "Startup code prepares the registers and reaches the Rust entry", "statement": "Started at pc 0 with argument register a0 not positive, the runtime's _start code reaches _start_rust in seven instructions with gp, sp and fp holding the linker symbols' values, ra the address behind the call, memory and all other registers unchanged, and every step inside the supported set; with a0 positive it ends at the trap word instead.", "quantifier": "every value of the linker symbols, every entry address below 2^18, every initial register file and memory", "why_tests_cant": "Link addresses vary per program; the pc-relative split has 2^32 cases with a carry at bit 11.", "anchors": ["runtime/src/lib.rs: _start (global_asm)"]}
{"id": "C51", "title": "The runtime's trap word stops the program", "statement": "When execution reaches the unimp word placed behind the call of _start_rust (or any SYSTEM word), the reference VM and the encrypted VM both stop: no later cycle changes the state.", "quantifier": "every program, state and number of further cycles", "why_tests_cant": "The guests under test never return from main, so the trap is never reached.", "anchors": ["runtime/src/lib.rs: _start (global_asm)", "compiler/src/interpreter/testvm.rs: decode_inst", "fhevm/src/instructions/mod.rs: InstructionsParser"]}
{"id": "C52", "title": "Which images load", "statement": "Phantom::from_elf succeeds exactly when the first read-execute segment is whole (file size = memory size), at address 0 and inside the file, every whole non-empty data segment lies inside the 4096 bytes starting at the first data segment and inside the file, and both the .inpdata and .outdata sections exist; the result does not depend on the build profile.", "quantifier": "every image (any number of segments and sections, all 32-bit field values), both build profiles", "why_tests_cant": "Unbounded segment lists and 32-bit fields with wrapping subtractions; tests load five well-formed images.", "anchors": ["compiler/src/interpreter.rs: Phantom::from_elf"]}
{"id": "C53", "title": "Linked programs are loaded where the linker script puts them", "statement": "Every program that fits the linker script's memory regions loads, with RAM base 2^18; sections are placed in order, aligned to four, without overlap; code, .inpdata and .rodata arrive at their addresses, everything outside the sections is zero; the initial values of .outdata and .data arrive exactly when there is no .bss or they are zero (for .outdata also when there are constants between them); and the placement conditions under which both VMs give the RISC-V output hold for every tape of the declared length.", "quantifier": "every combination of section contents and sizes, both build profiles, every tape and supported run", "why_tests_cant": "Section sizes are unbounded parameters; the failing combination (.data together with .bss) occurs in none of the tested guests.", "anchors": ["compiler/linker-script/default.x", "compiler/src/interpreter.rs: Phantom::from_elf"]}
{"id": "C54", "title": "Host and guest agree on the tapes' layout", "statement": "For every repr(C) type built from bool, u8, u32, arrays and structures (no pointer-sized integers), a value written by the host is read back unchanged by the guest and conversely, whatever the padding bytes contain; the tape is exactly as long as the guest's buffer; every scalar lies at a multiple of its width, apart from the others and inside the buffer, least significant byte first.", "quantifier": "every type (any nesting and length), value, padding contents, both pointer widths", "why_tests_cant": "Types and values are unbounded; the tests exchange five fixed structures with one value each.", "anchors": ["compiler-tests/uniswap/src/main.rs: to_u8_slice, from_u8_slice", "compiler-tests/uniswap/src/guest/src/main.rs: Input, Output, INPUT, OUTPUT", "compiler-tests/gen-tests/src/guest_test1.rs: Input"]}
{"id": "C55", "title": "The exchange guest never lowers the pool's product", "statement": "Whenever the uniswap guest carries out a trade without overflow, the product of the pool's reserves does not fall.", "quantifier": "every pool, trade and account of 32-bit values", "why_tests_cant": "2^160 inputs; the one tested trade (100/500, sell 50) itself violates the property, but the test compares only with the same computation on the host.", "anchors": ["compiler-tests/uniswap/src/guest/src/main.rs: main"]}
{"id": "C56", "title": "What the exchange guest computes", "statement": "Without overflow a sale of amount a of t0 pays ceil(t1*a/(t0+a)) of t1, and symmetrically; the guest panics exactly when the balance does not cover the sale or the new reserve is 0 modulo 2^32; both tokens are conserved modulo 2^32; the host's recomputation agrees with the guest; from the host's input structure to its output structure the result is carried unchanged, and an output of zeros appears exactly when the guest panicked.", "quantifier": "every pool, trade and account of 32-bit values, every padding, both build profiles of the host", "why_tests_cant": "2^160 inputs; tests run one.", "anchors": ["compiler-tests/uniswap/src/guest/src/main.rs: main", "compiler-tests/uniswap/src/main.rs: main"]}
{"id": "C57", "title": "What the string-match guest accepts", "statement": "For every string of at most 20 bytes the guest outputs one byte, 1 exactly when the string is the hidden string followed by any number of NUL bytes, and 0 otherwise; the host expects the same; longer strings are refused by UpperBoundedString::new.", "quantifier": "every byte string", "why_tests_cant": "256^20 inputs; tests run one string.", "anchors": ["compiler-tests/string-match/src/guest/src/main.rs: UpperBoundedString::new, eq, main", "compiler-tests/string-match/src/main.rs: expected_output"]}
{"id": "C58", "title": "What the arithmetic guests compute", "statement": "The template guest outputs the polynomial's value modulo 2^32 and guest-test1 outputs 4a+100 or 100a modulo 2^32, from the host's input structure to its output structure; the host's own expectation, built with overflow checks, panics exactly for points above 18.", "quantifier": "every 32-bit input", "why_tests_cant": "2^32 inputs; the tests run one point and three values.", "anchors": ["compiler-tests/template/src/guest/src/main.rs: main", "compiler-tests/template/src/main.rs: expected_output", "compiler-tests/gen-tests/src/guest-test1/src/main.rs: main"]}
{"id": "C59", "title": "The encrypted VM is an exact plaintext machine", "statement": "For every program the loader accepts, every initial RAM, every number of cycles, thread schedule and build, with or without the debugging key: if the run completes, the decrypted registers, RAM and pc are those of an explicitly given plaintext machine (including its deviations from RV32IM: loads without byte offset, LB without sign, SH at odd addresses, M instructions, SYSTEM words, 20-bit jumps, wrapping of RAM and ROM addresses). Without the debugging key a run completes unless the build checks overflow and the run has 2^32 cycles or more.", "quantifier": "every accepted program, initial RAM and number of cycles", "why_tests_cant": "Unbounded programs and runs; one homomorphic cycle takes a large part of a second, and tests only execute programs for which the deviations do not show.", "anchors": ["fhevm/src/interpreter.rs: cycle, read_instruction_components, evaluate, store, update_pc", "fhevm/src/memory.rs: read, read_prepare_write, write", "fhevm/src/instructions/mod.rs: get_instruction_components"]}
{"id": "C60", "title": "Which instruction a cycle executes", "statement": "Cycle number n of the encrypted VM (counting from 0, any n) executes the instruction at pc modulo 4*2^rb, except when n is a positive multiple of 2^32 (possible only without overflow checks), where it repeats the slot executed in the cycle before.", "quantifier": "every accepted program and every cycle number", "why_tests_cant": "2^32 homomorphic cycles would take years.", "anchors": ["fhevm/src/interpreter.rs: cycle (self.cycle != 0), self.cycle += 1"]}
{"id": "C61", "title": "The reference VM is an exact plaintext machine", "statement": "For every ROM and RAM content, placement and size, input tape and number of cycles, in builds with and without overflow checks: creating the reference VM, giving it the input, executing and reading the output gives exactly the bytes of an explicitly given machine (including its deviations from RV32IM: words with stray funct7 bits, addresses outside a region, the panics), and panics exactly where that machine has no result.", "quantifier": "every image, input, region and number of cycles", "why_tests_cant": "Unbounded programs and memories; the tests use programs that stay in range and meet no panic.", "anchors": ["compiler/src/interpreter/testvm.rs: TestVM::init, read_input_tape, execute, run, exec, output_tape, Memory", "compiler/src/interpreter.rs: test_vm"]}
{"id": "C62", "title": "The shadow VM is an exact plaintext machine", "statement": "The shadow VM, loaded with any accepted program and any RAM of n > 0 words, is after any number of cycles in the state of an explicitly given machine, and panics exactly where that machine stops (RV32M instructions, pc beyond the program); deviations from RV32IM (loads without byte offset, SH at odd addresses, RAM wrapping modulo n words, SYSTEM words) are spelled out in it.", "quantifier": "every accepted program, RAM and number of cycles", "why_tests_cant": "Unbounded programs and runs; tests compare the shadow VM with the encrypted one, which deviates in the same way.", "anchors": ["fhevm/src/debug.rs: InterpreterDebug, all methods", "fhevm/src/interpreter.rs: cycle_internal"]}
{"id": "C63", "title": "When a run with the debugging key completes", "statement": "A run of the encrypted VM with the debugging key (fewer than 2^32 cycles) completes if and only if every executed instruction lies in the program, is no RV32M instruction, is no LB of a byte above 127 (even into x0), and is no JAL of 2^19 bytes or more; then the decrypted state is that of the shadow machine.", "quantifier": "every accepted program, RAM, number of cycles, thread schedule and build", "why_tests_cant": "Unbounded programs and runs of a slow homomorphic VM; tests only show that particular programs pass the checks.", "anchors": ["fhevm/src/interpreter.rs: cycle_debug, cycle_internal, all assert_eq with the shadow VM"]}
{"id": "C64", "title": "RV32M in every evaluator, exactly", "statement": "For all operands: the plaintext evaluator gives the RV32M value except for a zero divisor, where DIV gives 2^31-1, DIVU the dividend, REM panics unless the dividend is zero (then 0) and REMU is right; the shadow VM panics on every RV32M instruction; the encrypted VM gives 0 for MUL*, DIV, the pc for DIVU, the first operand for REM and its sign for REMU; the reference VM panics for a zero divisor and for MIN/-1 and is right otherwise.", "quantifier": "all pairs of 32-bit operands", "why_tests_cant": "2^64 operand pairs per operation; no test executes a division by zero in all of the evaluators.", "anchors": ["fhevm/src/instructions/mod.rs: eval_plain (RD_UPDATE)", "fhevm/src/debug.rs: update_registers", "fhevm/src/rd_update.rs: Evaluate", "compiler/src/interpreter/testvm.rs: exec"]}
{"id": "C65", "title": "Registers set by the client", "statement": "A client may set the registers before a run with up to 32 words. If the first is zero, the run is exactly that of the ISA started with those registers (missing ones zero). If the first is not zero, the first instruction sees it as x0; it is zero after the first cycle. The checking run (debug VM and secret key) does not learn of the registers: with two registers other than x0 not zero it stops in the first cycle.", "quantifier": "all register contents, programs, RAM contents and numbers of cycles", "why_tests_cant": "2^1024 register contents; no test calls init_registers before a run.", "anchors": ["fhevm/src/interpreter.rs: init_registers, cycle"]}
{"id": "C66", "title": "Trading desk: prices up to rounding", "statement": "For every client, trade and market (mid price from 2^-40 to 2^60, volatility factor from 2^-60 to 2^60, volumes not negative, day's volume not zero) the quoted prices are within one part in 2^21 of mid price plus and minus half of base spread x size factor x discount x volatility factor. The size factor is the one of the exact share, or of a share smaller by one part in 2^24; the share is compared after rounding, so that at the thresholds the smaller factor can be used.", "quantifier": "all clients and all single precision numbers in the ranges", "why_tests_cant": "2^128 inputs; the test computes one quote and prints it.", "anchors": ["compiler-tests/otc/src/lib.rs: quote, size_adj, volume_disc, base_spread", "compiler-tests/otc/src/guest/src/main.rs: main"]}
{"id": "C67", "title": "Trading desk: order of the prices", "statement": "bid <= mid price <= ask for every trade, if mid price and volatility factor are not negative and the factor is at most 2^119; both inequalities are strict from mid price 2^-100 and factor 2^-10 on. For the same trade prime clients get prices at least as good as institutions, and those as retail clients. Among trades with the same discount a larger trade never gets a better price; across a discount it may. Volumes that are NaN, or a day's volume of zero, give the largest size factor; one negative volume gives the smallest.", "quantifier": "all clients, trades and markets, including NaN, infinite and negative volumes", "why_tests_cant": "2^128 inputs; rounding at each of eight operations.", "anchors": ["compiler-tests/otc/src/lib.rs: quote", "compiler-tests/otc/src/guest/src/main.rs: main"]}
{"id": "C68", "title": "Trading desk: tapes", "statement": "For every trade the host can form, and any padding and any choice of NaN, the guest accepts the host's input structure, writes eight bytes, and the host reads from them the quote it would have computed itself; every number but NaN has one bit pattern and survives the tape.", "quantifier": "all trades, paddings and NaN patterns", "why_tests_cant": "2^128 inputs and arbitrary padding.", "anchors": ["compiler-tests/otc/src/main.rs: main, Input, Output", "compiler-tests/otc/src/guest/src/main.rs: main"]}
{"id": "C69", "title": "Scratch space of the memory operations", "statement": "For all sizes of the library's operations and all thread counts from 1: clearing a word and stateless reading succeed exactly if the space their assertion asks for (and that for packing) is there. Stateful reading, its reverse and writing of a memory larger than one ciphertext succeed with what their assertion asks for, if packing and taking a bit need no more than the rest. For smaller memories (the registers among them) the blind rotation, which they use, is not counted and the retrieval, which they do not use, is: if the rotation needs more than what is counted they panic with any amount of space.", "quantifier": "all sizes, memory sizes, thread counts and amounts of space", "why_tests_cant": "The tests allocate 2^24 bytes per thread and one set of parameters; the sizes depend on the backend.", "anchors": ["fhevm/src/memory.rs: Memory::zero, read_stateless, read_statefull, read_statefull_rev, write", "fhevm/src/memory.rs: BitArray::retrieve_statefull_tmp_bytes, retrieve_statefull_rev_tmp_bytes, write_tmp_bytes"]}
{"id": "C70", "title": "Prepared keys", "statement": "Preparing keys encrypted for parameters whose Galois elements include those of the VM never panics, and afterwards the VM finds for each of its Galois elements the prepared key for that element, and nothing for others. With keys from elsewhere it panics exactly if one is missing, and otherwise prepares the given ones.", "quantifier": "all lists of Galois elements (duplicates included), secrets and maps of keys", "why_tests_cant": "The tests use one set of parameters.", "anchors": ["fhevm/src/keys.rs: VMKeysPrepared::alloc, prepare", "fhevm/src/keys.rs: VMKeys::encrypt_sk"]}
{"id": "C71", "title": "Times of the cycles", "statement": "Every cycle adds one measurement, and a verbose VM prints after each cycle that cycle's own, for fewer than 2^32 cycles. The average of a time is the total divided by the number of cycles, rounded down, and lies between the smallest and the largest; it panics exactly if the total does not fit a Duration or the number of cycles is a multiple of 2^32, 0 in particular.", "quantifier": "all lists of times and numbers of cycles", "why_tests_cant": "Times differ from run to run; no test takes an average over no cycle or over 2^32.", "anchors": ["fhevm/src/measurements.rs: Measurements", "fhevm/src/interpreter.rs: Interpreter::cycle, print_timings"]}
{"id": "C72", "title": "Noise budget of a run", "statement": "If every primitive of the library moves the phase of its result by at most a given bound, and the errors a run can accumulate (those of the start, plus per cycle a fixed amount for each register and RAM word) stay within what a bootstrap tolerates, then the run with noise succeeds and its registers, RAM and pc decrypt to those of the run without noise.", "quantifier": "all implementations of the primitives, noise bounds, moduli, ring sizes, programs, RAM contents, start errors, thread schedules and numbers of cycles below 2^32", "why_tests_cant": "The tests run a few cycles at one parameter set and only plot the noise; nothing is asserted about it (fhevm/src/tests/cycle.rs).", "anchors": ["fhevm/src/interpreter.rs: Interpreter::cycle_internal", "fhevm/src/memory.rs: Memory::read_stateless, read_stateful, write_stateful, zero", "fhevm/src/memory.rs: decrypt"]}
{"id": "C73", "title": "Runs of unbounded length under noise", "statement": "A run whose first cycle is within the tolerance keeps decrypting correctly, however long it is.", "quantifier": "all implementations of the primitives within given noise bounds, programs and numbers of cycles", "why_tests_cant": "The tests stop after at most a hundred cycles.", "anchors": ["fhevm/src/interpreter.rs: Interpreter::cycle_internal", "fhevm/src/tests/cycle.rs"]}
{"id": "C74", "title": "Measured noise", "statement": "The noise that Memory::noise reports for a plane is the largest deviation of the coefficients of its ciphertexts from the data they encrypt.", "quantifier": "all memories, ring sizes, noise, and contents of the scratch space", "why_tests_cant": "The tests measure a RAM that fills its ciphertexts exactly; the registers, which do not, are only printed.", "anchors": ["fhevm/src/memory.rs: Memory::noise, BitArray::noise", "fhevm/src/interpreter.rs: Interpreter::update_registers (reg_noise)"]}
{"id": "C75", "title": "What Memory::noise measures", "statement": "The reported value of a plane is the largest distance of a coefficient from its reference: the bit of the word, or, beyond the last word, what the previous ciphertext's words or the scratch space left in the comparison buffer.", "quantifier": "all memories, ring sizes, noise, and contents of the scratch space", "why_tests_cant": "The contents of scratch space cannot be enumerated.", "anchors": ["fhevm/src/memory.rs: Memory::noise, BitArray::noise"]}
{"id": "C76", "title": "Schedules of whole runs", "statement": "A run gives the same result, down to every ciphertext, whatever the number of threads of each cycle and whatever the order in which the threads execute their tasks.", "quantifier": "all library implementations, machines, runs, thread counts and interleavings", "why_tests_cant": "Interleavings cannot be enumerated, and a test sees one of them per run.", "anchors": ["fhevm/src/interpreter.rs: Interpreter::cycle_internal, set_threads", "fhevm/src/memory.rs", "fhevm/src/prepare.rs"]}
{"id": "C77", "title": "Documented dependency graph", "statement": "In a cycle every value of the dependency graph in doc/costs.md is determined by the values it has edges from.", "quantifier": "all library implementations, pairs of machines, and schedules", "why_tests_cant": "A dependency is a property of all pairs of executions.", "anchors": ["doc/costs.md", "README.md: Architecture", "fhevm/src/interpreter.rs: Interpreter::cycle_internal"]}
{"id": "C78", "title": "Exact dependency graph of a cycle", "statement": "With the edges from the old registers to the new ones, and from the old RAM and the RAM address to the new RAM, the documented graph determines every value, and no edge can be left out. In particular the next pc does not depend on the RAM.", "quantifier": "all library implementations, pairs of machines, and schedules", "why_tests_cant": "A dependency is a property of all pairs of executions.", "anchors": ["doc/costs.md", "fhevm/src/interpreter.rs: Interpreter::cycle_internal"]}
{"id": "C79", "title": "Instruction templates", "statement": "The constants of the RV32I enum, completed with the setters in any order, are the ISA's encodings of the instruction with these operands; every RV32I instruction can be written so; and in debug builds setting an operand the format lacks panics.", "quantifier": "all templates, operand values and chains of setters", "why_tests_cant": "Tests fill in each template with one operand tuple.", "anchors": ["fhevm/src/instructions/mod.rs: RV32I, Instruction::set_imm, set_rs1, set_rs2, set_rd", "fhevm/src/tests/cycle.rs"]}
{"id": "C80", "title": "The instruction unit tests hold for all operands", "statement": "Each unit test of the instruction formats passes for every operand its format can hold, not only for the written ones; setting and getting an immediate agrees with sign extension exactly for the encodable ones.", "quantifier": "all 45 unit tests and all operands", "why_tests_cant": "Each test uses one operand tuple.", "anchors": ["fhevm/src/instructions/u_type.rs", "fhevm/src/instructions/j_type.rs", "fhevm/src/instructions/b_type.rs", "fhevm/src/instructions/s_type.rs", "fhevm/src/instructions/i_type.rs", "fhevm/src/instructions/r_type.rs"]}
{"id": "C81", "title": "Outcome of the homomorphic tests for every draw", "statement": "The memory and RAM offset tests pass for all values; the pc update test passes, covering both directions of every branch, unless overflow checks are on and a less-than case draws the largest word twice; the operation test passes exactly if the low byte of the drawn RAM word is below 128.", "quantifier": "all values drawn, memory sizes, indices and schedules", "why_tests_cant": "The tests draw from fixed seeds, so each sees one tuple of values.", "anchors": ["fhevm/src/pc_update.rs: PCU", "fhevm/src/tests/pc_update.rs", "fhevm/src/tests/ram_offset.rs", "fhevm/src/tests/interpreters.rs: test_interpreter_init_one_op", "fhevm/src/tests/memory.rs"]}
{"id": "C82", "title": "Fetching encrypted instructions", "statement": "The tests that encrypt a program and fetch each of its instructions pass exactly if the decoder accepts every word and the program fits the ROM: the decrypted immediate, register addresses and operations are then those of the plain decoder at every index.", "quantifier": "all programs, ROM sizes up to 2^30, builds, thread counts and schedules", "why_tests_cant": "The tests use one program of one and one of twelve instructions.", "anchors": ["fhevm/src/tests/interpreters.rs: test_interpreter_init_one_instruction, test_interpreter_init_many_instructions", "fhevm/src/interpreter.rs: Interpreter::instructions_encrypt_sk, read_and_prepare_instruction_components"]}
{"id": "C83", "title": "Outcome of the cycle tests for every program", "statement": "The one-cycle test passes exactly if the first instruction, executed with zero registers at pc 0, continues at 4. The tests that run with the debugging key pass exactly if the decoder accepts the program and the machine of C63 does not stop; straight-line programs without LB and M operations pass for as many cycles as they have instructions and for no more.", "quantifier": "all programs, RAM contents, numbers of cycles, builds, thread counts and schedules", "why_tests_cant": "The tests run a program of nine instructions and one of a hundred copies of ECALL.", "anchors": ["fhevm/src/tests/interpreters.rs: test_interpreter_cycle_single_instruction_noop", "fhevm/src/tests/cycle.rs: test_interpreter_cycles, test_interpreter_cycles_noise_progression"]}
{"id": "C84", "title": "Time of one cycle", "statement": "The time of a cycle is the sum of the times of the blocks on the longest path of the dependency graph. (False of the code, which runs the blocks one after the other. Exact: with unlimited parallelism the longest path of the graph of C78 is the least time in which a cycle can be done, and it is attained; the code takes the sum of all blocks, which is that time only if the blocks beside the path take none.)", "quantifier": "all durations of the six blocks, all schedules that respect the dependencies", "why_tests_cant": "The tests measure one order of execution on one machine; the bound is about all schedules.", "anchors": ["doc/costs.md: dependency graph and durations", "fhevm/src/interpreter.rs: Interpreter::cycle_internal"]}
{"id": "C85", "title": "Time of overlapping cycles", "statement": "If cycles may overlap as far as their data allows, consecutive cycles are apart by the largest of three times, and by no less: from pc to pc, from registers to registers and from RAM to RAM.", "quantifier": "all durations, numbers of cycles and schedules that respect the dependencies within and between cycles", "why_tests_cant": "A statement about all schedules of unboundedly many cycles.", "anchors": ["doc/costs.md: dependency graph and durations"]}
{"id": "C86", "title": "The published VM hides program and input", "statement": "Code, constants and input of an encrypted VM cannot be computed from what is published. (False: the three sources of randomness are seeded with 32 zero bytes. Exact: one procedure recovers code and RAM, including the input, of every VM from its published part, for every library whose decryption undoes its encryption; all VMs have the same secret key; ciphertexts at the same place of two VMs are equal exactly if the messages are.)", "quantifier": "all libraries (encryption, key generation, generators), all ELF files, inputs and VMs made from them", "why_tests_cant": "Tests only check that the owner's decryption gives the right result; they never ask what somebody without the key learns.", "anchors": ["README.md:5", "compiler/src/interpreter.rs: Phantom::encrypted_vm"]}
{"id": "C87", "title": "Necessity of the known seed", "statement": "Without knowledge of the secret key's seed no procedure that works for every correct library recovers the input: for two VMs of the same size there is a correct library and two seeds for which exactly the same is published, whatever the seeds of masks and errors are.", "quantifier": "all pairs of VMs of equal sizes and output layout, all procedures over library and published data", "why_tests_cant": "A statement about all procedures.", "anchors": ["compiler/src/interpreter.rs: Phantom::encrypted_vm"]}
{"id": "C88", "title": "Settings from the environment", "statement": "A number (PHANTOM_THREADS, MAX_CYCLES) is taken from the environment exactly if the variable writes one in decimal, perhaps after a plus sign, that fits 64 bits; otherwise the default is taken. A flag (PHANTOM_DEBUG, PHANTOM_VERBOSE_TIMINGS) is on exactly for 1 and for true in any case. Zero threads are accepted and make every cycle panic. The benchmark completes for every other setting and any number of iterations below 2^32, leaving registers and RAM zero.", "quantifier": "all byte strings, defaults, libraries, machines, schedules, numbers of iterations", "why_tests_cant": "No test sets these variables; there are infinitely many values.", "anchors": ["compiler/src/interpreter.rs: Phantom::encrypted_vm", "fhevm/benches/cycle.rs: benc_cycle", "compiler-tests/template/src/main.rs: main"]}
{"id": "C89", "title": "The host program, exactly", "statement": "What the host program returns for an image, an input and a setting of the environment, or that it panics, is given by a plaintext function: the image must be loadable, the input must fit, the threads must be positive (or no cycle run) and their scratch space computable; the result is the output of the reference machine if the machine that the encrypted VM is (C59, with PHANTOM_DEBUG the strict shadow, C63) has the same, otherwise a panic. The number of threads, their schedules and the printing of times do not matter.", "quantifier": "all ELF files (RAM below 2^32), inputs, settings with fewer than 2^32 cycles, builds, schedules", "why_tests_cant": "The tests run a handful of images with one setting each.", "anchors": ["compiler-tests/template/src/main.rs: main", "compiler-tests/uniswap/src/main.rs: main", "compiler/src/interpreter.rs"]}
{"id": "C90", "title": "PHANTOM_DEBUG is transparent", "statement": "Setting PHANTOM_DEBUG does not change what the host program returns. (False: a MUL whose result is never used is a panic with it and harmless without it. Exact: whenever the host program returns an output with PHANTOM_DEBUG it returns the same without; it can only add panics.)", "quantifier": "all ELF files, inputs, settings, schedules", "why_tests_cant": "Compares two settings for all programs.", "anchors": ["compiler/src/interpreter.rs: Phantom::encrypted_vm", "fhevm/src/interpreter.rs: Interpreter::cycle_debug"]}
{"id": "C91", "title": "Scratch space of a cycle", "statement": "A cycle of the encrypted VM has enough scratch space exactly if every one of a list of demands (one per operation of the cycle, counted from outside) fits and the share that the code gives to each thread is enough for what the thread does. Space that is enough for one thread is, times t, enough for t threads, if the library's multi-threaded operations need at most t times what one thread needs. (The converse is false: 32 words are collected before they are packed however many threads there are.)", "quantifier": "all sizes of the library's operations, numbers of threads, memory sizes, amounts of scratch space, with and without the debugging key", "why_tests_cant": "The tests use one parameter set and one amount of space.", "anchors": ["fhevm/src/interpreter.rs: Interpreter::cycle_internal", "fhevm/src/prepare.rs: prepare_multiple_fheuint", "fhevm/src/memory.rs", "fhevm/src/ram_offset.rs", "fhevm/src/pc_update.rs"]}
{"id": "C92", "title": "The space that is allocated", "statement": "The host program allocates 2^24 bytes per thread: it has enough for all cycles with every number of threads (whose product with 2^24 is below 2^64) if it has with one. The benchmark allocates 2^28 bytes whatever the number of threads: that is as good as the host's up to 16 threads; beyond (its default is 32) there are sizes for which the host program runs and the benchmark panics. With 2^40 threads the product wraps to nothing in a release build and every run panics.", "quantifier": "all sizes of the library's operations, numbers of threads and cycles, builds", "why_tests_cant": "No test varies the number of threads.", "anchors": ["compiler/src/interpreter.rs: EncryptedVM::execute", "fhevm/benches/cycle.rs: benc_cycle"]}
{"id": "C93", "title": "Digits of the keys", "statement": "For all parameters the layouts computed in parameters.rs have the least number of digits that loses nothing of the precision they are computed from (prepared bits: a word; keys of the memories: a RAM entry; bootstrapping keys: a prepared bit). With the parameters of CryptographicParameters::new nothing is lost of what they are applied to, except by the switching key from GLWE to GLWE, whose number of digits is a constant: it is exact precisely for the words whose last four of thirty bits are zero.", "quantifier": "all parameters, precisions, bases, numbers of digits and coefficients", "why_tests_cant": "Infinitely many parameters; 2^30 coefficients.", "anchors": ["fhevm/src/parameters.rs: CryptographicParameters"]}
{"id": "C94", "title": "The model of the codec is the source text", "statement": "For every build profile (overflow checks and debug assertions separately), every 32-bit word and every value, each function of the instruction codec as it stands in the source text (all field getters and setters, the immediates of the five formats, get_imm, set_imm, get_registers, get_opid, the parser, sext, and the three eval_plain functions) returns what the model's function returns, panics included. Hence the decoder, as text, follows the ISA.", "quantifier": "all profiles, words, values, operations, parsers and sequences of additions", "why_tests_cant": "2^32 words, 2^160 operands of eval_plain; the model is not executable against the code here.", "anchors": ["fhevm/src/instructions/mod.rs: Instruction", "fhevm/src/instructions/mod.rs: eval_plain", "fhevm/src/instructions/mod.rs: InstructionsParser"]}
{"id": "C95", "title": "The model of the plaintext machine is the source text", "statement": "For every build profile, program and RAM contents, creating the plaintext machine, loading it and running the six functions of a cycle n times, as they stand in the source text of debug.rs, gives the state of the model (or panics when the model does). Hence the text executes n steps of the ISA on supported programs.", "quantifier": "all profiles, programs, RAM contents, states and numbers of cycles", "why_tests_cant": "Unbounded programs and runs.", "anchors": ["fhevm/src/debug.rs: InterpreterDebug"]}
{"id": "C96", "title": "The model of the cleartext reference machine is the source text", "statement": "For every build profile and all values of the Rust types, each function of testvm.rs as it stands in the source text (memory creation, loading, reads and writes, the decoder, one step for all 45 instructions, the run to the cycle limit, the tapes) returns what the model's function returns, panics included. Hence a session of the text on any program, memory contents and input outputs what the independently specified machine of C61 outputs, and panics exactly where that has no output.", "quantifier": "all profiles, words, states, programs, tapes and cycle limits", "why_tests_cant": "2^32 words, unbounded programs and runs.", "anchors": ["compiler/src/interpreter/testvm.rs: TestVM", "compiler/src/interpreter/testvm.rs: Memory", "compiler/src/interpreter/testvm.rs: utils"]}
{"id": "C97", "title": "The model of the encrypted memory is the source text", "statement": "For every build profile, every implementation of the library's operations with any scratch sizes, every contents of the scratch space, all layouts, memories of 32 planes, addresses, offsets, numbers of threads and amounts of scratch space, each function of memory.rs as it stands in the source text (allocation, encryption, decryption, the three reads, the write, zeroing, with their threads and chunks) does what the model's function does, and panics exactly when the model of the scratch space or of the memory panics; the model's result is the same in every order of the threads' tasks. Hence, with the ideal operations, the text reads and writes an array of 32-bit words.", "quantifier": "all profiles, operations, sizes, memories, addresses, threads and schedules", "why_tests_cant": "Unbounded memories and addresses; tests run one schedule and one set of parameters.", "anchors": ["fhevm/src/memory.rs: Memory", "fhevm/src/memory.rs: BitArray"]}
{"id": "C98", "title": "The model of the encrypted interpreter is the source text", "statement": "For every build profile, every implementation of the library's operations with any scratch sizes and any contents of the scratch space, every order in which a HashMap is iterated, every number of threads, with and without the secret key, n calls of cycle (or cycle_debug) as they stand in the source text of interpreter.rs (with ram_offset.rs, pc_update.rs, prepare.rs and the encrypted halves of rd_update.rs and ram_update.rs) produce the state the model of the encrypted VM produces, and panic exactly when the model panics or the model of the scratch space does not fit.", "quantifier": "all profiles, operations, sizes, interpreter states, map orders, numbers of threads and cycles", "why_tests_cant": "Unbounded states and runs; tests run one parameter set, one library and one map order.", "anchors": ["fhevm/src/interpreter.rs: Interpreter::cycle", "fhevm/src/interpreter.rs: Interpreter::cycle_debug", "fhevm/src/prepare.rs", "fhevm/src/ram_offset.rs", "fhevm/src/pc_update.rs", "fhevm/src/rd_update.rs", "fhevm/src/ram_update.rs"]}
{"id": "C99", "title": "A session of the interpreter's text computes what the exact machine computes", "statement": "With ideal library operations, for every program of accepted words and RAM contents that fit: creating the interpreter, encrypting instructions and RAM, running n < 2^32 cycles and decrypting the RAM, all as they stand in the source text, yields the RAM of the independently specified machine of C59 after n steps, and panics exactly when the scratch space does not suffice. With cycle_debug and the key it yields the RAM of the machine of C63, and panics exactly when the scratch space does not suffice or that machine stops at a difference between the two VMs.", "quantifier": "all profiles, programs, RAM contents, sizes, numbers of threads, map orders, seeds, amounts of scratch space and n < 2^32", "why_tests_cant": "Unbounded programs and runs; the tests compare a handful of programs.", "anchors": ["fhevm/src/interpreter.rs: Interpreter::new", "fhevm/src/interpreter.rs: instructions_encrypt_sk", "fhevm/src/interpreter.rs: ram_encrypt_sk", "fhevm/src/interpreter.rs: ram_decrypt", "fhevm/src/interpreter.rs: Interpreter::cycle"]}
{"id": "C100", "title": "The host's text returns what the two specified machines agree on", "statement": "For every build profile, every file, every container parser, every setting of PHANTOM_THREADS, PHANTOM_DEBUG and PHANTOM_VERBOSE_TIMINGS and every input tape: loading the image, building and running the encrypted VM for n < 2^32 cycles, reading its output tape, running the test VM and comparing the two tapes, with the functions of compiler/src/interpreter.rs and testing-emulator as they stand in the source text, returns the output tape HostSpec states (the reference machine's, if the exact machine or with PHANTOM_DEBUG the strict shadow machine has the same), and panics exactly when HostSpec says so or the scratch space does not suffice. from_elf as it stands in the text yields the image of the model for every library and parser.", "quantifier": "all profiles, files, parsers, settings, tapes, n < 2^32, scratch sizes, map orders and seeds, for a non-empty ROM", "why_tests_cant": "Unbounded images, tapes and settings; the tests run five images with one setting.", "anchors": ["compiler/src/interpreter.rs: Phantom::from_elf", "compiler/src/interpreter.rs: Phantom::encrypted_vm", "compiler/src/interpreter.rs: EncryptedVM::execute", "compiler/src/interpreter.rs: EncryptedVM::output_tape", "compiler-tests/template/src/main.rs: main"]}
{"id": "C101", "title": "The guests' and the allocator's text is the model", "statement": "For every build profile and every input: the `main` functions of the guests uniswap, string-match, template, otc and guest-test1 and the allocator's sys_alloc_aligned, as they stand in the source text, compute what the model of C42 and C54-C68 says: the same output structure, the same block and new heap position, and a panic in exactly the same cases; the six cases that gen-tests makes for guest-test1 are what the guest computes on them.", "quantifier": "all profiles and inputs; for the allocator all 32-bit values of _end, HEAP_POS, stack pointer, size and alignment", "why_tests_cant": "2^64 inputs and more per program; the tests use one input per program and no test calls the allocator.", "anchors": ["compiler-tests/uniswap/src/guest/src/main.rs: main", "compiler-tests/string-match/src/guest/src/main.rs: main", "compiler-tests/template/src/guest/src/main.rs: main", "compiler-tests/otc/src/guest/src/main.rs: main", "compiler-tests/gen-tests/src/guest_test1.rs: test_cases", "runtime/src/alloc.rs: sys_alloc_aligned"]}
{"id": "C102", "title": "When the host programs end without a panic", "statement": "The `main` functions of the programs template, string-match, uniswap and otc, as they stand in the source text: on an image and a machine as in C100, template ends normally exactly when it is compiled without overflow checks and the two machines agree on an output tape that holds the polynomial's value at 123 modulo 2^32; string-match exactly when they agree on 'no match'; uniswap exactly when they agree on pool (150, 333) and account (10, 167); otc exactly when they agree on any tape of eight bytes. The number of cycles is MAX_CYCLES if that parses, else the program's default. An image that computes what its source says (C56, C57, C58) passes.", "quantifier": "all images, profiles (with and without overflow checks), environment settings, padding bytes and NaN patterns, scratch sizes, thread counts", "why_tests_cant": "The programs are the tests: they run one image under one profile and environment and cannot tell what else they would let pass.", "anchors": ["compiler-tests/template/src/main.rs: main", "compiler-tests/string-match/src/main.rs: main", "compiler-tests/uniswap/src/main.rs: main", "compiler-tests/otc/src/main.rs: main"]}
{"id": "C103", "title": "The repository's own codec and program-counter tests, as text", "statement": "The test helpers `test_instruction` of the instruction formats, the table RV32I of templates and the helper type PCU of the program-counter test, as they stand in the source text, are the functions modelled in C79-C81: each helper checks its instruction with the operands of the source whatever opcode, funct fields and expected operation it is given; the 45 tests of the text are the model's list, pass in every build profile, and each passes for exactly one expected operation; every template of the model has a name in the text and equal words.", "quantifier": "all build profiles; all opcodes and funct fields of the fields' width, all expected operations, all PCU values", "why_tests_cant": "The tests are the object of the statement: a run shows that they pass, not what else they would let pass.", "anchors": ["fhevm/src/instructions/i_type.rs: test_instruction", "fhevm/src/instructions/r_type.rs: test_instruction", "fhevm/src/instructions/mod.rs: RV32I", "fhevm/src/pc_update.rs: PCU"]}
{"id": "C104", "title": "The text of the parameters and measurements is the model", "statement": "`CryptographicParameters::new`, the ten layout functions and the getters of parameters.rs, as they stand in the source text, give the constants and the layouts of the model (C93) for all parameters whose ring degree and LWE dimension are below 2^32, with a panic exactly when a base is zero. The 23 `average_*` functions of measurements.rs each average the field they are named after, over all cycles, with the arithmetic of C71; the five noise lists give the field they are named after; a new measurement is all zero and has no average.", "quantifier": "all build profiles, all parameters, all lists of measurements", "why_tests_cant": "A swapped base or precision of a key, or an average over the neighbouring field, changes no result that a test compares.", "anchors": ["fhevm/src/parameters.rs: CryptographicParameters", "fhevm/src/measurements.rs: Measurements", "fhevm/src/measurements.rs: Measurement::new"]}
{"id": "C105", "title": "The text of the keys is the model, and every key is found", "statement": "`VMKeys::encrypt_sk`, `VMKeysPrepared::alloc`, `VMKeysPrepared::prepare` and the getters of keys.rs, as they stand in the source text, are the model of C70: allocation holds a blank key for exactly the Galois elements of the ring; preparing any client's keys panics exactly if the key for one of these is missing, and else holds for each of them, and no other, the prepared form of the key given for it. Making the keys takes the two sources of randomness from one key to the next, in the order of the elements and then to the bootstrapping key, always in the same two places, and in scratch space of the larger of the two sizes asked for, so it never panics and yields for each element a key for that element under the given secret; these keys can be prepared in any machine whose Galois elements are among them.", "quantifier": "all build profiles, parameters with non-zero bases, libraries meeting the stated contract, secrets, sources and client key maps", "why_tests_cant": "A key filed under the wrong element, a missing element or exchanged sources make wrong or insecure ciphertexts only; a test decrypts a few values with one key.", "anchors": ["fhevm/src/keys.rs: VMKeys::encrypt_sk", "fhevm/src/keys.rs: VMKeysPrepared::alloc", "fhevm/src/keys.rs: VMKeysPrepared::prepare", "fhevm/src/keys.rs: get_automorphism_key"]}
{"id": "C106", "title": "The text of the noise measurement is the model", "statement": "`Memory::noise` and `BitArray::noise` of memory.rs, as they stand in the source text, are the model of C74 and C75: for every memory, all words and all scratch space that suffices, the same panic and, plane by plane, the same number, as the library's f64 shows it. In particular the text reports what C75 says: beyond the last word, the deviation from the bits one ciphertext earlier or from the former contents of the scratch space.", "quantifier": "all build profiles, libraries, memories, words, contents of the scratch space; all f64 operations of which the maximum is one", "why_tests_cant": "No test looks at the numbers; they depend on what the scratch space held before.", "anchors": ["fhevm/src/memory.rs: Memory::noise", "fhevm/src/memory.rs: BitArray::noise"]}
{"id": "C107", "title": "Numbers printed are read back", "statement": "The text of an instruction (`{:032b}`) is its 32 bits, the highest first, and determines the instruction. The decimal of an unsigned number has no superfluous zero, and `usize::from_str` reads it back, so a setting written in decimal is the one the host programs use. Registers are printed r0 to r31, all different; an index from 32 is refused. `{:30b}` is 30 bytes wide only for words below 2^30.", "quantifier": "all words, all numbers below 2^64 (2^128 for the decimal itself), all register indices", "why_tests_cant": "2^32 instructions and 2^64 settings; the tests only print.", "anchors": ["fhevm/src/instructions/mod.rs: Display for Instruction", "compiler/src/interpreter/testvm.rs: Display for RegisterIndex", "fhevm/src/instructions/r_type.rs: test_instruction"]}
{"id": "C108", "title": "The module that gen-tests writes holds the program and its test cases", "statement": "For every program that is accepted and every list of test cases, the generated Rust module read by the rules of the language (literals in range of their suffix, arrays of the length of their type) declares thirteen constants, no name twice: offset, size and bytes of ROM and RAM, input and output region, the number of cases and the two tables, each with the value of the loaded program; the pairs of the tables are the test cases in order. The module determines the program and the cases. For guest-test1 the six pairs are an input tape and the output tape that the guest makes of it, whatever is in the padding.", "quantifier": "all ELF images accepted, all test cases, all padding bytes", "why_tests_cant": "gen-tests has no tests, and as it stands it does not compile (F34).", "anchors": ["compiler-tests/gen-tests/src/lib.rs: codegen_test_cases", "compiler-tests/gen-tests/src/lib.rs: write_test_cases", "compiler-tests/gen-tests/src/guest_test1.rs: write_guest_test1"]}
{"id": "C109", "title": "The file that the host program loads is the guest it asked for", "statement": "Whatever cargo does that follows its documentation, `CompileOpts::build` returns the binary of the package named, for riscv32i, profile release, with exactly four flags, one of them the repository's linker script, and never a file of an older build; it panics exactly when the script, the variable CARGO or the binary is missing. This holds for every path of the repository without the character U+001F (spaces and quotes do no harm) and fails with it. Two builds whose destination names have no slash write to the same file only if package and destination are the same; so the four host programs, all of whose packages are called guest, use different files. With a slash they can collide.", "quantifier": "all systems (canonicalize, environment, cargo), paths, program and destination names, file system contents", "why_tests_cant": "A test runs in one directory with one cargo.", "anchors": ["compiler/src/lib.rs: CompileOpts::build", "compiler-tests/uniswap/src/main.rs: main"]}
{"id": "C110", "title": "The text of the homomorphic tests passes exactly under a condition on what it is given", "statement": "For the tests of fhevm/src/tests/ as written (mechanically translated): over any library whose encryptions have the word encrypted as message, the test of the memory compares correctly and passes exactly when the noise of its three results is below 2^-16; the test of the RAM address passes; the test of the program counter passes unless overflow is checked and one of its cases increments the largest word, whatever sixty words are drawn; the test of one cycle with sixteen threads and the test of nine cycles pass exactly when the scratch space is enough; the tests that fetch one and many instructions pass exactly when the scratch space of a fetch is enough; the test of one operation after the other, with enough scratch space, passes exactly when the low byte of the fifth word drawn (the value loaded) is below 128.", "quantifier": "all ring sizes up to 2^62, random words, garbage left by allocation, layouts, scratch sizes, both profiles", "why_tests_cant": "A test cannot say under which conditions it passes: each run is one seed and one parameter set.", "anchors": ["fhevm/src/tests/memory.rs: test_fhe_ram", "fhevm/src/tests/ram_offset.rs: test_ram_offset", "fhevm/src/tests/pc_update.rs: test_pc_update", "fhevm/src/tests/interpreters.rs: test_interpreter_cycle_single_instruction_noop", "fhevm/src/tests/cycle.rs: test_interpreter_cycles", "fhevm/src/tests/interpreters.rs: test_interpreter_init_one_instruction", "fhevm/src/tests/interpreters.rs: test_interpreter_init_many_instructions", "fhevm/src/tests/interpreters.rs: test_interpreter_init_one_op"]}
