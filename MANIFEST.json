{
 "claims": [
  {
   "property": "C01",
   "status": "proved",
   "theorems": [
    "C01_imm_round_trip",
    "C01_imm_is_isa"
   ],
   "note": ""
  },
  {
   "property": "C02",
   "status": "proved",
   "theorems": [
    "C02_fields_independent",
    "C02_getters_read_fields",
    "C02_release_total"
   ],
   "note": ""
  },
  {
   "property": "C03",
   "status": "proved",
   "theorems": [
    "C03_decoder_follows_isa"
   ],
   "note": ""
  },
  {
   "property": "C04",
   "status": "partial",
   "theorems": [
    "C04_illegal_words_refuted",
    "C04_accepted_exactly",
    "C04_lenient_disjoint",
    "C04_lenient_meaning"
   ],
   "note": "The statement is false (finding F1): SLLI with nonzero funct7, JALR with nonzero funct3 and all SYSTEM words are accepted. The exact accepted set is proved."
  },
  {
   "property": "C05",
   "status": "proved",
   "theorems": [
    "C05_parser_keeps_fields",
    "C05_parser_accepts",
    "C05_add_keeps_earlier"
   ],
   "note": ""
  },
  {
   "property": "C06",
   "status": "proved",
   "theorems": [
    "C06_decoders_agree"
   ],
   "note": ""
  },
  {
   "property": "C07",
   "status": "proved",
   "theorems": [
    "C07_rv32i_eval",
    "C07_covers_list"
   ],
   "note": ""
  },
  {
   "property": "C08",
   "status": "partial",
   "theorems": [
    "C08_rv32m_refuted",
    "C08_div_by_zero_wrong",
    "C08_divu_by_zero_wrong",
    "C08_rem_by_zero_panics",
    "C08_rv32m_eval_partial",
    "C08_rv32m_exact"
   ],
   "note": "False for a zero divisor (finding F2); proved for every other input."
  },
  {
   "property": "C09",
   "status": "proved",
   "theorems": [
    "C09_next_pc"
   ],
   "note": ""
  },
  {
   "property": "C10",
   "status": "partial",
   "theorems": [
    "C10_misaligned_half_refuted",
    "C10_misaligned_half_zeroes",
    "C10_stores_bytes_partial"
   ],
   "note": "False for SH at an odd byte offset (finding F3); proved for every aligned store."
  },
  {
   "property": "C100",
   "status": "proved",
   "theorems": [
    "C100_from_elf",
    "C100_main"
   ],
   "note": "Excluded: an empty ROM; 2^40 threads or more without overflow checks."
  },
  {
   "property": "C101",
   "status": "proved",
   "theorems": [
    "C101_alloc",
    "C101_alloc_block",
    "C101_swap",
    "C101_string",
    "C101_match",
    "C101_template",
    "C101_test1",
    "C101_cases",
    "C101_otc"
   ],
   "note": ""
  },
  {
   "property": "C102",
   "status": "proved",
   "theorems": [
    "C102_match_expected",
    "C102_quote",
    "C102_template",
    "C102_template_passes",
    "C102_match",
    "C102_match_passes",
    "C102_swap",
    "C102_swap_passes",
    "C102_otc"
   ],
   "note": "With the exclusions of C100."
  },
  {
   "property": "C103",
   "status": "proved",
   "theorems": [
    "C103_test_functions",
    "C103_same_tests",
    "C103_tests_pass",
    "C103_tests_strict",
    "C103_templates",
    "C103_templates_all",
    "C103_pcu_fields",
    "C103_pcu_adjust",
    "C103_pcu_expected"
   ],
   "note": ""
  },
  {
   "property": "C104",
   "status": "proved",
   "theorems": [
    "C104_new",
    "C104_ciphertexts",
    "C104_keys",
    "C104_averages",
    "C104_average_times",
    "C104_noises",
    "C104_fresh"
   ],
   "note": ""
  },
  {
   "property": "C105",
   "status": "proved",
   "theorems": [
    "C105_alloc",
    "C105_prepare",
    "C105_model",
    "C105_order",
    "C105_encrypt",
    "C105_keys",
    "C105_bdd",
    "C105_client"
   ],
   "note": ""
  },
  {
   "property": "C106",
   "status": "proved",
   "theorems": [
    "C106_noise",
    "C106_reported"
   ],
   "note": ""
  },
  {
   "property": "C107",
   "status": "proved",
   "theorems": [
    "C107_bits",
    "C107_instruction",
    "C107_decimal",
    "C107_setting",
    "C107_register",
    "C107_wide"
   ],
   "note": ""
  },
  {
   "property": "C108",
   "status": "proved",
   "theorems": [
    "C108_constants",
    "C108_module",
    "C108_faithful",
    "C108_test1"
   ],
   "note": ""
  },
  {
   "property": "C109",
   "status": "proved",
   "theorems": [
    "C109_request",
    "C109_build",
    "C109_separator_refuted",
    "C109_separate",
    "C109_separate_refuted",
    "C109_hosts"
   ],
   "note": ""
  },
  {
   "property": "C11",
   "status": "partial",
   "theorems": [
    "C11_subword_refuted",
    "C11_load_ignores_low_bits",
    "C11_aligned_loads_partial",
    "C11_encrypted_load",
    "C11_encrypted_refuted"
   ],
   "note": "False for sub-word loads at addresses not divisible by 4 (finding F4), and for LB in the encrypted VM (F10). Exact behaviour proved for the shadow and the encrypted VM."
  },
  {
   "property": "C110",
   "status": "proved",
   "theorems": [
    "C110_memory",
    "C110_ram_offset",
    "C110_pc_update",
    "C110_noop",
    "C110_cycles",
    "C110_one_instruction",
    "C110_many_instructions",
    "C110_one_op"
   ],
   "note": ""
  },
  {
   "property": "C12",
   "status": "proved",
   "theorems": [
    "C12_reference_x0",
    "C12_reference_init",
    "C12_shadow_x0",
    "C12_encrypted_x0"
   ],
   "note": ""
  },
  {
   "property": "C13",
   "status": "partial",
   "theorems": [
    "C13_reference_frame",
    "C13_shadow_frame",
    "C13_shadow_store_refuted",
    "C47_shadow_step_is_isa",
    "C15_encrypted_frame"
   ],
   "note": "Reference VM: proved. Shadow and encrypted VM: proved word-precise, byte-precise for aligned stores (shadow), false for SH at an odd address (F3)."
  },
  {
   "property": "C14",
   "status": "proved",
   "theorems": [
    "C14_empty_slot_halts"
   ],
   "note": "Below 2^32 cycles, and for a pc the machine can tell apart (C38)."
  },
  {
   "property": "C15",
   "status": "proved",
   "theorems": [
    "C15_shadow_in_range",
    "C15_shadow_wraps",
    "C15_encrypted_frame",
    "C15_encrypted_wrap"
   ],
   "note": "Encrypted VM for RAM sizes that are powers of two."
  },
  {
   "property": "C16",
   "status": "proved",
   "theorems": [
    "C16_step_is_isa",
    "C16_runs_are_isa"
   ],
   "note": "Access outside the RAM region wraps modulo the RAM size in this VM; the theorem covers accesses inside it. SH at address 1 mod 4 is not refused and does what the ISA says."
  },
  {
   "property": "C17",
   "status": "partial",
   "theorems": [
    "C17_division_refuted",
    "C17_division_partial"
   ],
   "note": "False: zero divisor and MIN/-1 panic (finding F5). All other operands proved."
  },
  {
   "property": "C18",
   "status": "proved",
   "theorems": [
    "C18_reference_split",
    "C18_shadow_split",
    "C18_encrypted_split"
   ],
   "note": ""
  },
  {
   "property": "C19",
   "status": "proved",
   "theorems": [
    "C19_lui_circuit"
   ],
   "note": ""
  },
  {
   "property": "C20",
   "status": "proved",
   "theorems": [
    "C20_link_circuit"
   ],
   "note": ""
  },
  {
   "property": "C21",
   "status": "proved",
   "theorems": [
    "C21_auipc_circuit"
   ],
   "note": ""
  },
  {
   "property": "C22",
   "status": "proved",
   "theorems": [
    "C22_ram_offset_circuit",
    "C22_ram_offset_symmetric"
   ],
   "note": ""
  },
  {
   "property": "C23",
   "status": "proved",
   "theorems": [
    "C23_pc_circuit",
    "C23_pc_circuit_isa"
   ],
   "note": "The circuit takes 20 immediate bits; C25 has the consequence for JAL."
  },
  {
   "property": "C24",
   "status": "proved",
   "theorems": [
    "C24_reads_written",
    "C24_total"
   ],
   "note": ""
  },
  {
   "property": "C25",
   "status": "partial",
   "theorems": [
    "C25_jal_range_refuted",
    "C25_jal_exact"
   ],
   "note": "False (finding F6): only 20 of the 21 offset bits reach the circuit. The exact set of honoured offsets is proved."
  },
  {
   "property": "C26",
   "status": "partial",
   "theorems": [
    "C26_lb_refuted",
    "C26_register_evaluation"
   ],
   "note": "False for LB (finding F10): no sign extension. Proved for every other operation; LB computes LBU."
  },
  {
   "property": "C27",
   "status": "proved",
   "theorems": [
    "C27_store_evaluation"
   ],
   "note": ""
  },
  {
   "property": "C28",
   "status": "partial",
   "theorems": [
    "C28_selection",
    "C28_outside_refuted"
   ],
   "note": "Selection of table entries proved; ids outside the table are reduced modulo 32 and silently select another operation or zero (finding F11)."
  },
  {
   "property": "C29",
   "status": "proved",
   "theorems": [
    "C29_read_is_array_read"
   ],
   "note": ""
  },
  {
   "property": "C30",
   "status": "proved",
   "theorems": [
    "C30_read_write_back",
    "C30_sequences_are_array_operations"
   ],
   "note": ""
  },
  {
   "property": "C31",
   "status": "proved",
   "theorems": [
    "C31_write_is_array_update",
    "C30_sequences_are_array_operations"
   ],
   "note": ""
  },
  {
   "property": "C32",
   "status": "partial",
   "theorems": [
    "C32_clear_refuted",
    "C32_clear_exactly",
    "C32_clear_partial"
   ],
   "note": "False (finding F7): the coefficient cleared is computed from the polynomial index. Exact behaviour proved; right for register 0, the only call."
  },
  {
   "property": "C33",
   "status": "partial",
   "theorems": [
    "C33_dropped_refuted",
    "C33_encrypt_exactly",
    "C33_round_trip_partial"
   ],
   "note": "False (finding F8): words beyond the size are dropped silently. Exact behaviour and the round trip for data that fits are proved."
  },
  {
   "property": "C34",
   "status": "proved",
   "theorems": [
    "C34_schedule_irrelevant",
    "C34_every_plane_once",
    "C34_every_thread_count"
   ],
   "note": ""
  },
  {
   "property": "C35",
   "status": "proved",
   "theorems": [
    "C35_components_prepared"
   ],
   "note": ""
  },
  {
   "property": "C36",
   "status": "proved",
   "theorems": [
    "C36_tracks_shadow",
    "C36_unrestricted_refuted"
   ],
   "note": "Supported: the shadow VM does not panic, LB reads a byte below 128, jump and branch offsets fit 20 bits; the second theorem shows both exclusions are needed."
  },
  {
   "property": "C37",
   "status": "proved",
   "theorems": [
    "C37_same_output",
    "C37_other_base_refuted",
    "C37_byte_load_refuted"
   ],
   "note": "Supported set: LoadSpec.supported along the RISC-V run, RAM base congruent to 2^18 modulo 4096, input and output sections in RAM; the refuted variants show that the base condition and the alignment condition on loads are needed (findings F14, F4). The image may contain any word the decoder accepts (for example the unimp words of the runtime); executed words must be RV32IM. Fewer than 2^32 cycles."
  },
  {
   "property": "C38",
   "status": "partial",
   "theorems": [
    "C38_jump_outside_refuted",
    "C38_fetch_address",
    "C38_in_range_partial"
   ],
   "note": "False (finding F12): the pc is reduced modulo 4*2^rb. Exact fetch address proved."
  },
  {
   "property": "C39",
   "status": "proved",
   "theorems": [
    "C39_same_start",
    "C39_starts_iff"
   ],
   "note": ""
  },
  {
   "property": "C40",
   "status": "partial",
   "theorems": [
    "C40_partial_segment_refuted",
    "C40_exact",
    "C40_whole_segments",
    "C40_rest_zero",
    "C40_outside_refused",
    "C40_code"
   ],
   "note": "False (finding F13): a segment whose file size differs from its memory size is dropped. Exact content of RAM and ROM proved; full statement proved for images whose data segments are present in full."
  },
  {
   "property": "C41",
   "status": "proved",
   "theorems": [
    "C41_output"
   ],
   "note": ""
  },
  {
   "property": "C42",
   "status": "proved",
   "theorems": [
    "C42_request",
    "C42_history",
    "C42_refused",
    "C42_zero_alignment"
   ],
   "note": ""
  },
  {
   "property": "C43",
   "status": "partial",
   "theorems": [
    "C43_shadow_refuses_rv32m",
    "C43_encrypted_refuted",
    "C43_encrypted_result",
    "C43_system_row",
    "C43_system_is_nop"
   ],
   "note": "False (finding F11): the shadow VM panics, but without it M instructions give wrong results (exact results proved); ECALL, EBREAK and CSR instructions are no-operations in both."
  },
  {
   "property": "C44",
   "status": "partial",
   "theorems": [
    "C44_pending_refuses",
    "C44_ready_refuses_write_back",
    "C44_accepted_follow_protocol",
    "C44_clear_pending_refuted",
    "C44_other_address_refuted"
   ],
   "note": "False for zero and for a write-back to another address (finding F9); the flag protocol is proved for reads, writes and write-backs."
  },
  {
   "property": "C45",
   "status": "proved",
   "theorems": [
    "C45_one_plan",
    "C45_public_stays_equal",
    "C45_same_length_same_public"
   ],
   "note": "For runs without the debugging key and any implementation of the library operations; operations are counted as data flow (the plan is an expression per ciphertext of the result)."
  },
  {
   "property": "C46",
   "status": "proved",
   "theorems": [
    "C46_reference_accepts_exactly",
    "C46_legal_decodes",
    "C46_isa_of"
   ],
   "note": ""
  },
  {
   "property": "C47",
   "status": "proved",
   "theorems": [
    "C47_shadow_step_is_isa",
    "C47_shadow_runs_are_isa",
    "C47_boot"
   ],
   "note": ""
  },
  {
   "property": "C48",
   "status": "proved",
   "theorems": [
    "C48_shadow_equals_reference"
   ],
   "note": ""
  },
  {
   "property": "C49",
   "status": "proved",
   "theorems": [
    "C49_finished_stays",
    "C49_output_settles"
   ],
   "note": "Same supported set as C37."
  },
  {
   "property": "C50",
   "status": "proved",
   "theorems": [
    "C50_start",
    "C50_start_refuses_arguments"
   ],
   "note": "Stated over the RISC-V semantics; C37 carries it to both VMs."
  },
  {
   "property": "C51",
   "status": "partial",
   "theorems": [
    "C51_reference_stops",
    "C51_encrypted_refuted",
    "C43_system_is_nop"
   ],
   "note": "False (finding F15): the reference VM panics at every SYSTEM word, the encrypted VM steps over it and runs the program again."
  },
  {
   "property": "C52",
   "status": "proved",
   "theorems": [
    "C52_loads_exactly",
    "C52_profile_independent"
   ],
   "note": "For images whose fields are 32 bits wide (elf_ok)."
  },
  {
   "property": "C53",
   "status": "proved",
   "theorems": [
    "C53_linked_image",
    "C53_linked_same_output",
    "C53_program_correct",
    "C53_data_refuted",
    "C53_global_pointer",
    "C53_fits"
   ],
   "note": "Sections are combined to segments as described in Link.v. C53_data_refuted: initial values of .data are lost when there is a .bss (finding F13). C53_program_correct: a complete program (startup code and main) is computed correctly by both VMs for every input."
  },
  {
   "property": "C54",
   "status": "proved",
   "theorems": [
    "C54_tape_round_trip",
    "C54_scalars_aligned",
    "C54_usize_refuted"
   ],
   "note": "C54_usize_refuted shows that the exclusion of pointer-sized integers is needed."
  },
  {
   "property": "C55",
   "status": "partial",
   "theorems": [
    "C55_product_refuted",
    "C55_overflow_refuted",
    "C55_pool_drained",
    "C55_product_bound"
   ],
   "note": "False (finding F16), for the values of the repository test too. Residual: the product falls by less than the new reserve of the token sold; C55_pool_drained shows that repeated sales of one unit nevertheless empty the pool."
  },
  {
   "property": "C56",
   "status": "proved",
   "theorems": [
    "C56_swap_exact",
    "C56_directions_mirror",
    "C56_guest_panics_exactly",
    "C56_tokens_conserved",
    "C56_host_agrees",
    "C56_tape_to_tape"
   ],
   "note": "Guest modelled at the level of its Rust source, not of compiled code."
  },
  {
   "property": "C57",
   "status": "proved",
   "theorems": [
    "C57_new_exact",
    "C57_eq_exact",
    "C57_match_exact",
    "C57_trailing_nul_refuted"
   ],
   "note": "Guest modelled at the level of its Rust source. C57_trailing_nul_refuted: the guest cannot tell the hidden string from the hidden string with NULs appended."
  },
  {
   "property": "C58",
   "status": "proved",
   "theorems": [
    "C58_template_exact",
    "C58_host_checked_exactly",
    "C58_test1_exact",
    "C58_tape_to_tape"
   ],
   "note": "Guests modelled at the level of their Rust source."
  },
  {
   "property": "C59",
   "status": "proved",
   "theorems": [
    "C59_exact_machine",
    "C59_runs_complete",
    "C59_accepted"
   ],
   "note": "The plaintext machine is ExactSpec.v. It is written over RISC-V instructions; the deviations are visible in it."
  },
  {
   "property": "C60",
   "status": "proved",
   "theorems": [
    "C60_where",
    "C60_counter_wrap_refuted"
   ],
   "note": "C60_where is the exact rule; C60_counter_wrap_refuted exhibits a program for which the repeated instruction changes the result (finding F19)."
  },
  {
   "property": "C61",
   "status": "proved",
   "theorems": [
    "C61_reference_step",
    "C61_reference_runs",
    "C61_session_exact",
    "C61_legal_words"
   ],
   "note": "The machine is RefSpec.v. usize is 64 bits wide (as in the rest of the model)."
  },
  {
   "property": "C62",
   "status": "proved",
   "theorems": [
    "C62_shadow_exact",
    "C62_shadow_step"
   ],
   "note": "The machine is ShadowSpec.v (strict = false)."
  },
  {
   "property": "C63",
   "status": "proved",
   "theorems": [
    "C63_checked_runs_exact"
   ],
   "note": "The machine is ShadowSpec.v (strict = true). Runs of 2^32 cycles or more are left to C59, C60."
  },
  {
   "property": "C64",
   "status": "proved",
   "theorems": [
    "C08_rv32m_exact",
    "C43_shadow_refuses_rv32m",
    "C43_encrypted_result",
    "C64_reference_rv32m"
   ],
   "note": "One theorem per evaluator; C64_reference_rv32m is for builds with and without overflow checks."
  },
  {
   "property": "C65",
   "status": "proved",
   "theorems": [
    "C65_initial_registers",
    "C65_runs_complete",
    "C65_x0_refuted",
    "C65_x0_cleared",
    "C65_checked_runs_stop"
   ],
   "note": "data of more than 32 words is C33 (finding there)."
  },
  {
   "property": "C66",
   "status": "proved",
   "theorems": [
    "C66_prices",
    "C66_size_refuted"
   ],
   "note": "C66_size_refuted is the witness that the smaller factor does occur above the threshold."
  },
  {
   "property": "C67",
   "status": "proved",
   "theorems": [
    "C67_around_mid",
    "C67_strict",
    "C67_clients",
    "C67_sizes",
    "C67_sizes_refuted",
    "C67_odd_volumes"
   ],
   "note": "C67_sizes_refuted: a larger trade with a better price, across a discount."
  },
  {
   "property": "C68",
   "status": "proved",
   "theorems": [
    "C68_of_bits",
    "C68_bits_round_trip",
    "C68_tape_to_tape"
   ],
   "note": ""
  },
  {
   "property": "C69",
   "status": "proved",
   "theorems": [
    "C69_stateless",
    "C69_zero",
    "C69_statefull",
    "C69_rev",
    "C69_write",
    "C69_planes",
    "C69_large",
    "C69_small_refuted"
   ],
   "note": "C69_small_refuted (finding F21): the assertion of a small memory is not enough."
  },
  {
   "property": "C70",
   "status": "proved",
   "theorems": [
    "C70_prepare",
    "C70_other"
   ],
   "note": ""
  },
  {
   "property": "C71",
   "status": "proved",
   "theorems": [
    "C71_average",
    "C71_between",
    "C71_cycles"
   ],
   "note": ""
  },
  {
   "property": "C72",
   "status": "proved",
   "theorems": [
    "C72_noise_budget",
    "C72_noisy_exists"
   ],
   "note": "The noise bounds of the primitives are parameters. C72_noisy_exists: the hypothesis on the implementation can be met for any bounds."
  },
  {
   "property": "C73",
   "status": "partial",
   "theorems": [
    "C73_unbounded_runs_refuted",
    "C72_noise_budget"
   ],
   "note": "False (finding F22): errors of registers and RAM accumulate. C72_noise_budget says for how many cycles a run is right."
  },
  {
   "property": "C74",
   "status": "partial",
   "theorems": [
    "C74_small_refuted",
    "C74_large_refuted",
    "C74_full_rows_partial"
   ],
   "note": "False (finding F23) for memories that do not fill their ciphertexts, such as the registers. C74_full_rows_partial: true for the others. C75 is the exact statement."
  },
  {
   "property": "C75",
   "status": "proved",
   "theorems": [
    "C75_measured"
   ],
   "note": ""
  },
  {
   "property": "C76",
   "status": "proved",
   "theorems": [
    "C76_schedules",
    "C76_new_machine",
    "C76_loaded_machine"
   ],
   "note": ""
  },
  {
   "property": "C77",
   "status": "partial",
   "theorems": [
    "C77_documented_refuted",
    "C77_documented_partial",
    "C77_recorded"
   ],
   "note": "False for the registers and the RAM after the cycle (finding F24), true for every other node. C78 is the exact statement."
  },
  {
   "property": "C78",
   "status": "proved",
   "theorems": [
    "C78_sound",
    "C78_exact",
    "C78_next_pc"
   ],
   "note": ""
  },
  {
   "property": "C79",
   "status": "proved",
   "theorems": [
    "C79_templates",
    "C79_complete",
    "C79_assemble"
   ],
   "note": ""
  },
  {
   "property": "C80",
   "status": "proved",
   "theorems": [
    "C80_unit_tests",
    "C80_unit_tests_strict",
    "C80_imm_encoding"
   ],
   "note": ""
  },
  {
   "property": "C81",
   "status": "proved",
   "theorems": [
    "C81_pc_update",
    "C81_both_directions",
    "C81_ram_offset",
    "C81_one_op",
    "C81_memory"
   ],
   "note": "The assertions about noise are not part of the model (ciphertexts without noise)."
  },
  {
   "property": "C82",
   "status": "proved",
   "theorems": [
    "C82_many_instructions",
    "C82_one_instruction"
   ],
   "note": ""
  },
  {
   "property": "C83",
   "status": "proved",
   "theorems": [
    "C83_noop",
    "C83_noop_system",
    "C83_checked_runs",
    "C83_straight_line"
   ],
   "note": "Noise and timings are not part of the model."
  },
  {
   "property": "C84",
   "status": "partial",
   "theorems": [
    "C84_longest_path",
    "C84_documented_refuted",
    "C84_code_order",
    "C84_code_time"
   ],
   "note": "False of the code; the exact times are proved."
  },
  {
   "property": "C85",
   "status": "proved",
   "theorems": [
    "C85_lower_bound",
    "C85_attained"
   ],
   "note": ""
  },
  {
   "property": "C86",
   "status": "partial",
   "theorems": [
    "C86_hidden_refuted",
    "C86_one_key",
    "C86_equal_ciphertexts"
   ],
   "note": "False of the code; what can be recovered is proved exactly."
  },
  {
   "property": "C87",
   "status": "proved",
   "theorems": [
    "C87_unknown_seed",
    "C87_no_procedure"
   ],
   "note": "Black-box statement about procedures that work for every library; no hardness assumption is modelled."
  },
  {
   "property": "C88",
   "status": "proved",
   "theorems": [
    "C88_numbers",
    "C88_flags",
    "C88_no_threads",
    "C88_bench"
   ],
   "note": ""
  },
  {
   "property": "C89",
   "status": "proved",
   "theorems": [
    "C89_host_exact",
    "C89_threads"
   ],
   "note": "RAM regions that end above 2^32 and 2^32 or more cycles are excluded."
  },
  {
   "property": "C90",
   "status": "partial",
   "theorems": [
    "C90_debug_transparent_refuted",
    "C90_debug_only_stops"
   ],
   "note": "False of the code; the exact relation is proved."
  },
  {
   "property": "C91",
   "status": "proved",
   "theorems": [
    "C91_exact",
    "C91_scales",
    "C91_converse_refuted"
   ],
   "note": ""
  },
  {
   "property": "C92",
   "status": "proved",
   "theorems": [
    "C92_host_exact",
    "C92_threads",
    "C92_bench",
    "C92_bench_refuted",
    "C92_wraps"
   ],
   "note": ""
  },
  {
   "property": "C93",
   "status": "proved",
   "theorems": [
    "C93_digits",
    "C93_lossless",
    "C93_layouts",
    "C93_new",
    "C93_all_lossless_refuted"
   ],
   "note": ""
  },
  {
   "property": "C94",
   "status": "proved",
   "theorems": [
    "C94_fields",
    "C94_immediates",
    "C94_decode",
    "C94_parser",
    "C94_eval",
    "C94_ids",
    "C94_all_operations",
    "C94_text_follows_isa"
   ],
   "note": ""
  },
  {
   "property": "C95",
   "status": "proved",
   "theorems": [
    "C95_steps",
    "C95_load",
    "C95_boot",
    "C95_runs",
    "C95_text_runs_are_isa"
   ],
   "note": ""
  },
  {
   "property": "C96",
   "status": "proved",
   "theorems": [
    "C96_memory",
    "C96_decode",
    "C96_step",
    "C96_execute",
    "C96_session"
   ],
   "note": ""
  },
  {
   "property": "C97",
   "status": "proved",
   "theorems": [
    "C97_alloc",
    "C97_encrypt",
    "C97_decrypt",
    "C97_read_stateless",
    "C97_read_statefull",
    "C97_read_statefull_rev",
    "C97_write",
    "C97_zero",
    "C97_array"
   ],
   "note": "The threads of the translated text run one after the other; the model side is for every order of the tasks."
  },
  {
   "property": "C98",
   "status": "proved",
   "theorems": [
    "C98_cycle",
    "C98_run"
   ],
   "note": "The threads of the translated text run one after the other; the model is for every order of the tasks (C97)."
  },
  {
   "property": "C99",
   "status": "proved",
   "theorems": [
    "C99_load",
    "C99_session",
    "C99_checked_session"
   ],
   "note": ""
  }
 ]
}