(** * Data flow of a cycle

    Transcription of the dependency graph in doc/costs.md:41-168 and a recorder
    for the values of its nodes during one cycle of the encrypted VM. *)
Require Import ZArith List Bool.
Require Import Verif.Word Verif.Codec Verif.EvalPlain Verif.DebugVM Verif.Bdd Verif.Glwe Verif.Par Verif.EncMem
  Verif.Prepare Verif.EncEval Verif.EncVM.
Import ListNotations.

(** doc/costs.md:44-102.  The three nodes of the last block are [PC_AFTER],
    [RAM_AFTER] and [REGISTERS_AFTER]. *)
Inductive node :=
  | PC | ROM | RAM | REGISTERS
  | IMM | RS1_INDEX | RS2_INDEX | RD_INDEX | PCU | RDU | MU
  | RS1 | RS2
  | RAM_ADDRESS | RAM_VAL
  | POSSIBLE_RD_VALS | RD
  | POSSIBLE_RAM_VALS | NEW_RAM_VAL
  | NEW_PC_VAL
  | PC_AFTER | RAM_AFTER | REGISTERS_AFTER.

(** doc/costs.md:105-159 (RS2 --> POSSIBLE_RAM_VALS is listed twice there) *)
Definition doc_edges : list (node * node) :=
  [ (PC, IMM); (PC, RS1_INDEX); (PC, RS2_INDEX); (PC, RD_INDEX); (PC, PCU); (PC, RDU); (PC, MU);
    (ROM, IMM); (ROM, RS1_INDEX); (ROM, RS2_INDEX); (ROM, RD_INDEX); (ROM, PCU); (ROM, RDU); (ROM, MU);
    (RS1_INDEX, RS1); (RS2_INDEX, RS2);
    (REGISTERS, RS1); (REGISTERS, RS2); (IMM, RAM_ADDRESS); (RS1, RAM_ADDRESS);
    (RAM_ADDRESS, RAM_VAL); (RAM, RAM_VAL);
    (IMM, POSSIBLE_RD_VALS); (RS1, POSSIBLE_RD_VALS); (RS2, POSSIBLE_RD_VALS); (PC, POSSIBLE_RD_VALS); (RAM_VAL, POSSIBLE_RD_VALS);
    (POSSIBLE_RD_VALS, RD); (RD_INDEX, RD); (RDU, RD);
    (RS2, POSSIBLE_RAM_VALS); (RAM_VAL, POSSIBLE_RAM_VALS); (RAM_ADDRESS, POSSIBLE_RAM_VALS);
    (POSSIBLE_RAM_VALS, NEW_RAM_VAL); (MU, NEW_RAM_VAL);
    (IMM, NEW_PC_VAL); (RS1, NEW_PC_VAL); (RS2, NEW_PC_VAL); (PC, NEW_PC_VAL); (PCU, NEW_PC_VAL);
    (NEW_PC_VAL, PC_AFTER); (RD, REGISTERS_AFTER); (NEW_RAM_VAL, RAM_AFTER) ].

(** the values at the nodes *)
Inductive val (ct pb fu : Type) :=
  | VMem (m : memory ct) | VRom (r : eroms ct) | VBits (b : list pb) | VWord (w : fu)
  | VBoth (w : fu) (b : list pb)            (* a word and its prepared form *)
  | VMany (m : list (nat * fu))             (* candidates with their selectors *)
  | VPut (where_ : list pb) (w : fu).       (* a word and the register it goes to *)
Arguments VMem {ct pb fu}. Arguments VRom {ct pb fu}. Arguments VBits {ct pb fu}. Arguments VWord {ct pb fu}.
Arguments VBoth {ct pb fu}. Arguments VMany {ct pb fu}. Arguments VPut {ct pb fu}.

Section Flow.
Context {ct pb fu : Type} (A : alg ct pb fu).

(** One cycle (interpreter.rs:487-627) without debugging key, recording.  [PC]
    is the prepared pc the cycle uses, [RS2] the register's ciphertext (which a
    store uses) with its prepared form, the other operands are prepared. *)
Definition flow_of (e : env) (v : evm ct pb fu) : option (node -> val ct pb fu) :=
  do pcp <- (if (v_cycle v =? 0)%Z then Some (v_pcp v) else prepare_low A (v_pc v) (v_rom_bits v + 2));
  do (rom, _, p) <- read_components A None e None (v_rom v) pcp;
  do (regs1, _, rs2_fu, rs1, rs2) <- read_regs A None e None (v_regs v) p;
  do (ram1, _, loaded, pa) <- read_ram_enc A None e None (v_ram v) (v_ram_bits v) p rs1;
  do rds <- eval_all rd_id (fun o => rd_eval_enc A o rs1 rs2 (p_imm p) pcp loaded) RD_RV32I;
  do rd_bits <- bit_len_pred (Z.of_nat (length RD_RV32I));
  do x <- blind_select A rds (p_rdu p) 0 rd_bits;
  do xp <- prepare_low A x 32;
  let rd := a_ident A xp in
  do regs2 <- mem_write A (n_threads e) (sched e 12) regs1 rd (p_rd p) 0;
  do regs3 <- mem_zero A (n_threads e) (sched e 13) regs2 0;
  do rams <- eval_all ram_id (fun o => ram_eval_enc A o rs2_fu loaded pa) RAM_LIST;
  do ram_bits <- bit_len_pred (Z.of_nat (length RAM_LIST));
  do y <- blind_select A rams (p_mu p) 0 ram_bits;
  do yp <- prepare_low A y 32;
  let stored := a_ident A yp in
  do ram2 <- mem_read_statefull_rev A (n_threads e) (sched e 14) ram1 stored pa 2;
  let pc := update_pc_enc A rs1 rs2 pcp (p_imm p) (p_pcu p) in
  Some (fun n => match n with
    | PC => VBits pcp | ROM => VRom (v_rom v) | RAM => VMem (v_ram v) | REGISTERS => VMem (v_regs v)
    | IMM => VBits (p_imm p) | RS1_INDEX => VBits (p_rs1 p) | RS2_INDEX => VBits (p_rs2 p) | RD_INDEX => VBits (p_rd p)
    | PCU => VBits (p_pcu p) | RDU => VBits (p_rdu p) | MU => VBits (p_mu p)
    | RS1 => VBits rs1 | RS2 => VBoth rs2_fu rs2
    | RAM_ADDRESS => VBits pa | RAM_VAL => VWord loaded
    | POSSIBLE_RD_VALS => VMany rds | RD => VPut (p_rd p) rd
    | POSSIBLE_RAM_VALS => VMany rams | NEW_RAM_VAL => VWord stored
    | NEW_PC_VAL => VWord pc
    | PC_AFTER => VWord pc | RAM_AFTER => VMem ram2 | REGISTERS_AFTER => VMem regs3
    end).
End Flow.
