(** * The interpreter tests of the repository

    Model of the tests of fhevm/src/tests/interpreters.rs and
    fhevm/src/tests/cycle.rs that fetch instructions or run cycles, as functions
    of the program and of the schedules.  [None]: an assertion fails or the test
    panics.  Noise, timings and plots are left out. *)
Require Import ZArith List Bool.
Require Import Verif.Word Verif.Codec Verif.EvalPlain Verif.DebugVM Verif.Bdd Verif.Glwe Verif.Par Verif.EncMem Verif.EncEval
  Verif.EncVM Verif.RepoTests Verif.Asm.
Import ListNotations.
Open Scope Z_scope.

Section Runs.
Context (log : nat).
Notation I := (Ideal log).

(** The seven integers that [read_and_prepare_instruction_components] leaves in
    the struct (interpreter.rs:661-730), which [read_components] only hands on
    in prepared form: immediate, three register addresses, three operations. *)
Definition fetch (e : env) (r : eroms poly) (pcp : list bool) : option (list (list Z)) :=
  do (_, imm) <- mem_read_stateless I (n_threads e) (sched e 0%nat) (e_imm r) pcp 2;
  do (_, rdu) <- mem_read_stateless I (n_threads e) (sched e 1%nat) (e_rdu r) pcp 2;
  do (_, mu) <- mem_read_stateless I (n_threads e) (sched e 2%nat) (e_mu r) pcp 2;
  do (_, pcu) <- mem_read_stateless I (n_threads e) (sched e 3%nat) (e_pcu r) pcp 2;
  do (_, rs1) <- mem_read_stateless I (n_threads e) (sched e 4%nat) (e_rs1 r) pcp 2;
  do (_, rs2) <- mem_read_stateless I (n_threads e) (sched e 5%nat) (e_rs2 r) pcp 2;
  do (_, rd) <- mem_read_stateless I (n_threads e) (sched e 6%nat) (e_rd r) pcp 2;
  Some [imm; rs1; rs2; rd; rdu; mu; pcu].

(** tests/interpreters.rs:104-184, 424-506: one fetch, compared with the raw
    instruction at [idx].  There is no shadow VM. *)
Definition fetch_check (dbg : bool) (p : parser) (e : env) (er : eroms poly) (pcp : list bool) (idx : nat)
    : option (eroms poly) :=
  do w <- parser_get_raw p idx;
  do imm <- get_imm dbg w;
  do (rs2, rs1, rd) <- get_registers dbg w;
  do (rdu, mu, pcu) <- get_opid dbg w;
  do (er', _, _) <- read_components I (Some secret_key) e None er pcp;
  do cs <- fetch e er pcp;
  assert (eqb_list [imm; rs1; rs2; rd; rd_id rdu; ram_id mu; pc_id pcu] (map decrypt_word cs));
  Some er'.

(** tests/interpreters.rs:66-102, 393-415, 550-577: a new interpreter without
    shadow VM, with the program encrypted; its RAM is as allocated *)
Definition programmed (dbg : bool) (rom_size ram_size : nat) (ws : list Z) : option (parser * evm poly bool (list Z)) :=
  do v <- evm_new I false rom_size ram_size;
  do p <- parser_add_all dbg parser_new ws;
  do v' <- instructions_encrypt log dbg v p;
  Some (p, v').

(** tests/interpreters.rs:36-185; the test has 1024 words of ROM and of RAM and
    the instruction 258455.  It encrypts [pc_fhe_uint], which is not read; what
    is read is [pc_fhe_uint_prepared], still as allocated. *)
Definition test_one_instruction (dbg : bool) (rom_size ram_size : nat) (e : env) (w : Z) : option unit :=
  do (p, v) <- programmed dbg rom_size ram_size [w];
  do _ <- fetch_check dbg p e (v_rom v) (v_pcp v) 0;
  Some tt.

(** tests/interpreters.rs:347-507, with the twelve instructions [many_words] *)
Fixpoint fetch_all (dbg : bool) (p : parser) (er : eroms poly) (idx : nat) (es : list env) : option unit :=
  match es with
  | [] => Some tt
  | e :: es' =>
      do er' <- fetch_check dbg p e er (encrypt_prepared (u32 (4 * Z.of_nat idx))) idx;
      fetch_all dbg p er' (S idx) es'
  end.
Definition test_many_instructions (dbg : bool) (rom_size ram_size : nat) (es : list env) (ws : list Z) : option unit :=
  do (p, v) <- programmed dbg rom_size ram_size ws;
  fetch_all dbg p (v_rom v) 0 es.
Definition many_words : list Z :=
  [258455; 33653139; 512279; 4286644499; 66579; 10507363; 3221229683; 8388847; 3221229683; 791; 8585319; 259383].

(** tests/interpreters.rs:514-620, with the program [0x73; 0x73]: one cycle
    without the key, after which the pc is 4 *)
Definition test_noop (dbg : bool) (rom_size ram_size : nat) (e : env) (ws : list Z) : option unit :=
  do (_, v) <- programmed dbg rom_size ram_size ws;
  let v := {| v_cycle := v_cycle v; v_debug := v_debug v; v_rom_bits := v_rom_bits v; v_rom_size := v_rom_size v;
              v_rom := v_rom v; v_regs := v_regs v; v_ram_bits := v_ram_bits v; v_ram_size := v_ram_size v; v_ram := v_ram v;
              v_pc := fhe_of_word 0; v_pcp := v_pcp v |} in
  do v' <- ecycle I None e dbg v;
  assert (decrypt_word (v_pc v') =? 4);
  Some tt.

(** tests/cycle.rs:33-142, 149-283: a program and a RAM, each filling its memory,
    and one [cycle_debug] per environment; the tests run as many cycles as there
    are instructions *)
Definition test_cycles (dbg : bool) (es : list env) (ws ram : list Z) : option unit :=
  do v <- evm_new I true (length ws) (length ram);
  do p <- parser_add_all dbg parser_new ws;
  do v <- instructions_encrypt log dbg v p;
  do v <- ram_encrypt log v ram;
  do _ <- ecycles I (Some secret_key) dbg es v;
  Some tt.

(** tests/cycle.rs:64-82 *)
Definition cycle_program : list (template * list (operand * Z)) :=
  [(T_LUI, [(O_imm, 2 ^ 6); (O_rd, 31)]);
   (T_LUI, [(O_imm, 0xABCD); (O_rd, 1)]);
   (T_LUI, [(O_imm, 0xEF10); (O_rd, 2)]);
   (T_ADDI, [(O_imm, 1); (O_rs1, 1); (O_rd, 3)]);
   (T_SW, [(O_imm, 0); (O_rs1, 31); (O_rs2, 3)]);
   (T_ADDI, [(O_imm, 4); (O_rs1, 31); (O_rd, 31)]);
   (T_SLTI, [(O_imm, 0xEF10); (O_rs1, 1); (O_rd, 3)]);
   (T_SW, [(O_imm, 0); (O_rs1, 31); (O_rs2, 3)]);
   (T_ADDI, [(O_imm, 4); (O_rs1, 31); (O_rd, 31)])].
Fixpoint assemble_all (dbg : bool) (l : list (template * list (operand * Z))) : option (list Z) :=
  match l with
  | [] => Some []
  | (t, ops) :: l' => do w <- assemble dbg t ops; do ws <- assemble_all dbg l'; Some (w :: ws)
  end.
(** tests/cycle.rs:149-283, [vec![instruction; num_instructions]] *)
Definition progression_program : list Z := repeat 0x73 100.
End Runs.
