(** * The cleartext reference machine, translated

    Generated by tools/gen_text.py from compiler/src/interpreter.rs, compiler/src/interpreter/testvm.rs.
    Do not edit.  The operators are those of Rust.v. *)
Require Import ZArith List Bool.
From Verif Require Import Rust.
Import ListNotations.
Open Scope Z_scope.
Local Notation u8 := (Rust.int Rust.U8).
Local Notation u16 := (Rust.int Rust.U16).
Local Notation u32 := (Rust.int Rust.U32).
Local Notation u64 := (Rust.int Rust.U64).
Local Notation usize := (Rust.int Rust.USize).
Local Notation i32 := (Rust.int Rust.I32).
Local Notation i64 := (Rust.int Rust.I64).


(** compiler/src/interpreter.rs:53-57 *)
Record BootMemory := mk_BootMemory {
  BootMemory_data : (list u8);
  BootMemory_offset : usize;
  BootMemory_size : usize }.

Definition set_BootMemory_data (s : BootMemory) (x : (list u8)) : BootMemory :=
  mk_BootMemory x (BootMemory_offset s) (BootMemory_size s).

Definition set_BootMemory_offset (s : BootMemory) (x : usize) : BootMemory :=
  mk_BootMemory (BootMemory_data s) x (BootMemory_size s).

Definition set_BootMemory_size (s : BootMemory) (x : usize) : BootMemory :=
  mk_BootMemory (BootMemory_data s) (BootMemory_offset s) x.

(** compiler/src/interpreter.rs:78-81 *)
Record InputInfo := mk_InputInfo {
  InputInfo_start_addr : usize;
  InputInfo_size : usize }.

Definition set_InputInfo_start_addr (s : InputInfo) (x : usize) : InputInfo :=
  mk_InputInfo x (InputInfo_size s).

Definition set_InputInfo_size (s : InputInfo) (x : usize) : InputInfo :=
  mk_InputInfo (InputInfo_start_addr s) x.

(** compiler/src/interpreter.rs:94-97 *)
Record OutputInfo := mk_OutputInfo {
  OutputInfo_start_addr : usize;
  OutputInfo_size : usize }.

Definition set_OutputInfo_start_addr (s : OutputInfo) (x : usize) : OutputInfo :=
  mk_OutputInfo x (OutputInfo_size s).

Definition set_OutputInfo_size (s : OutputInfo) (x : usize) : OutputInfo :=
  mk_OutputInfo (OutputInfo_start_addr s) x.

(** compiler/src/interpreter/testvm.rs:5-10 *)
Record Memory := mk_Memory {
  Memory_data : (list u8);
  Memory_offset : usize;
  Memory__is_write : bool;
  Memory_size : usize }.

Definition set_Memory_data (s : Memory) (x : (list u8)) : Memory :=
  mk_Memory x (Memory_offset s) (Memory__is_write s) (Memory_size s).

Definition set_Memory_offset (s : Memory) (x : usize) : Memory :=
  mk_Memory (Memory_data s) x (Memory__is_write s) (Memory_size s).

Definition set_Memory__is_write (s : Memory) (x : bool) : Memory :=
  mk_Memory (Memory_data s) (Memory_offset s) x (Memory_size s).

Definition set_Memory_size (s : Memory) (x : usize) : Memory :=
  mk_Memory (Memory_data s) (Memory_offset s) (Memory__is_write s) x.

(** compiler/src/interpreter/testvm.rs:149-149 *)
Record RegisterIndex := mk_RegisterIndex { RegisterIndex_0 : u32 }.

(** compiler/src/interpreter/testvm.rs:164-179 *)
Record TestVM := mk_TestVM {
  TestVM_registers : (list u32);
  TestVM_rom : Memory;
  TestVM_ram : Memory;
  TestVM_pc : u32;
  TestVM_input_info : InputInfo;
  TestVM_output_info : OutputInfo;
  TestVM_max_cycles : usize }.

Definition set_TestVM_registers (s : TestVM) (x : (list u32)) : TestVM :=
  mk_TestVM x (TestVM_rom s) (TestVM_ram s) (TestVM_pc s) (TestVM_input_info s) (TestVM_output_info s) (TestVM_max_cycles s).

Definition set_TestVM_rom (s : TestVM) (x : Memory) : TestVM :=
  mk_TestVM (TestVM_registers s) x (TestVM_ram s) (TestVM_pc s) (TestVM_input_info s) (TestVM_output_info s) (TestVM_max_cycles s).

Definition set_TestVM_ram (s : TestVM) (x : Memory) : TestVM :=
  mk_TestVM (TestVM_registers s) (TestVM_rom s) x (TestVM_pc s) (TestVM_input_info s) (TestVM_output_info s) (TestVM_max_cycles s).

Definition set_TestVM_pc (s : TestVM) (x : u32) : TestVM :=
  mk_TestVM (TestVM_registers s) (TestVM_rom s) (TestVM_ram s) x (TestVM_input_info s) (TestVM_output_info s) (TestVM_max_cycles s).

Definition set_TestVM_input_info (s : TestVM) (x : InputInfo) : TestVM :=
  mk_TestVM (TestVM_registers s) (TestVM_rom s) (TestVM_ram s) (TestVM_pc s) x (TestVM_output_info s) (TestVM_max_cycles s).

Definition set_TestVM_output_info (s : TestVM) (x : OutputInfo) : TestVM :=
  mk_TestVM (TestVM_registers s) (TestVM_rom s) (TestVM_ram s) (TestVM_pc s) (TestVM_input_info s) x (TestVM_max_cycles s).

Definition set_TestVM_max_cycles (s : TestVM) (x : usize) : TestVM :=
  mk_TestVM (TestVM_registers s) (TestVM_rom s) (TestVM_ram s) (TestVM_pc s) (TestVM_input_info s) (TestVM_output_info s) x.

(** compiler/src/interpreter/testvm.rs:81-146 *)
Inductive Inst :=
| Inst_ADD (x0 : RegisterIndex) (x1 : RegisterIndex) (x2 : RegisterIndex)
| Inst_SUB (x0 : RegisterIndex) (x1 : RegisterIndex) (x2 : RegisterIndex)
| Inst_SLL (x0 : RegisterIndex) (x1 : RegisterIndex) (x2 : RegisterIndex)
| Inst_SLT (x0 : RegisterIndex) (x1 : RegisterIndex) (x2 : RegisterIndex)
| Inst_SLTU (x0 : RegisterIndex) (x1 : RegisterIndex) (x2 : RegisterIndex)
| Inst_XOR (x0 : RegisterIndex) (x1 : RegisterIndex) (x2 : RegisterIndex)
| Inst_SRL (x0 : RegisterIndex) (x1 : RegisterIndex) (x2 : RegisterIndex)
| Inst_SRA (x0 : RegisterIndex) (x1 : RegisterIndex) (x2 : RegisterIndex)
| Inst_OR (x0 : RegisterIndex) (x1 : RegisterIndex) (x2 : RegisterIndex)
| Inst_AND (x0 : RegisterIndex) (x1 : RegisterIndex) (x2 : RegisterIndex)
| Inst_ADDI (x0 : RegisterIndex) (x1 : RegisterIndex) (x2 : u32)
| Inst_SLTI (x0 : RegisterIndex) (x1 : RegisterIndex) (x2 : u32)
| Inst_SLTIU (x0 : RegisterIndex) (x1 : RegisterIndex) (x2 : u32)
| Inst_XORI (x0 : RegisterIndex) (x1 : RegisterIndex) (x2 : u32)
| Inst_ORI (x0 : RegisterIndex) (x1 : RegisterIndex) (x2 : u32)
| Inst_ANDI (x0 : RegisterIndex) (x1 : RegisterIndex) (x2 : u32)
| Inst_SLLI (x0 : RegisterIndex) (x1 : RegisterIndex) (x2 : u32)
| Inst_SRLI (x0 : RegisterIndex) (x1 : RegisterIndex) (x2 : u32)
| Inst_SRAI (x0 : RegisterIndex) (x1 : RegisterIndex) (x2 : u32)
| Inst_MUL (x0 : RegisterIndex) (x1 : RegisterIndex) (x2 : RegisterIndex)
| Inst_MULH (x0 : RegisterIndex) (x1 : RegisterIndex) (x2 : RegisterIndex)
| Inst_MULHSU (x0 : RegisterIndex) (x1 : RegisterIndex) (x2 : RegisterIndex)
| Inst_MULHU (x0 : RegisterIndex) (x1 : RegisterIndex) (x2 : RegisterIndex)
| Inst_DIV (x0 : RegisterIndex) (x1 : RegisterIndex) (x2 : RegisterIndex)
| Inst_DIVU (x0 : RegisterIndex) (x1 : RegisterIndex) (x2 : RegisterIndex)
| Inst_REM (x0 : RegisterIndex) (x1 : RegisterIndex) (x2 : RegisterIndex)
| Inst_REMU (x0 : RegisterIndex) (x1 : RegisterIndex) (x2 : RegisterIndex)
| Inst_LUI (x0 : RegisterIndex) (x1 : u32)
| Inst_AUIPC (x0 : RegisterIndex) (x1 : u32)
| Inst_JAL (x0 : RegisterIndex) (x1 : u32)
| Inst_JALR (x0 : RegisterIndex) (x1 : RegisterIndex) (x2 : u32)
| Inst_BEQ (x0 : RegisterIndex) (x1 : RegisterIndex) (x2 : u32)
| Inst_BNE (x0 : RegisterIndex) (x1 : RegisterIndex) (x2 : u32)
| Inst_BLT (x0 : RegisterIndex) (x1 : RegisterIndex) (x2 : u32)
| Inst_BGE (x0 : RegisterIndex) (x1 : RegisterIndex) (x2 : u32)
| Inst_BLTU (x0 : RegisterIndex) (x1 : RegisterIndex) (x2 : u32)
| Inst_BGEU (x0 : RegisterIndex) (x1 : RegisterIndex) (x2 : u32)
| Inst_LB (x0 : RegisterIndex) (x1 : RegisterIndex) (x2 : u32)
| Inst_LH (x0 : RegisterIndex) (x1 : RegisterIndex) (x2 : u32)
| Inst_LW (x0 : RegisterIndex) (x1 : RegisterIndex) (x2 : u32)
| Inst_LBU (x0 : RegisterIndex) (x1 : RegisterIndex) (x2 : u32)
| Inst_LHU (x0 : RegisterIndex) (x1 : RegisterIndex) (x2 : u32)
| Inst_SB (x0 : RegisterIndex) (x1 : RegisterIndex) (x2 : u32)
| Inst_SH (x0 : RegisterIndex) (x1 : RegisterIndex) (x2 : u32)
| Inst_SW (x0 : RegisterIndex) (x1 : RegisterIndex) (x2 : u32).

(** compiler/src/interpreter.rs:60-62 *)
Definition BootMemory_new (p : Rust.profile) (offset : usize) (size : usize) (data : (list u8)) : option BootMemory :=
  Some (mk_BootMemory data offset size).

(** compiler/src/interpreter/testvm.rs:13-20 *)
Definition Memory_new (p : Rust.profile) (offset : usize) (size : usize) (is_write : bool) : option Memory :=
  Some (mk_Memory (Rust.filled (Rust.lit (t := Rust.U8) 0) size) offset is_write size).

(** compiler/src/interpreter/testvm.rs:22-25 *)
Definition Memory_write_byte (p : Rust.profile) (self : Memory) (addr : usize) (value : u8) : option Memory :=
  t1 <- Rust.sub p addr (Memory_offset self) ;;
  t2 <- Rust.rem t1 (Memory_size self) ;;
  t3 <- Rust.store (Memory_data self) t2 value ;;
  let self := (set_Memory_data self t3) in
  Some self.

(** compiler/src/interpreter/testvm.rs:27-33 *)
Definition Memory_write_half (p : Rust.profile) (self : Memory) (addr : usize) (value : u16) : option Memory :=
  self <- Rust.for_range (Rust.lit 0) (Rust.lit 2) (fun i self => t1 <- Rust.mul p i (Rust.lit 8) ;;
    t2 <- Rust.shr p value t1 ;;
    t3 <- Rust.shl p (Rust.lit 1) (Rust.lit (t := Rust.I32) 8) ;;
    t4 <- Rust.sub p t3 (Rust.lit 1) ;;
    let vbyte := (Rust.cast Rust.U8 (Rust.band t2 t4)) in
    t5 <- Rust.add p addr i ;;
    t6 <- Rust.sub p t5 (Memory_offset self) ;;
    t7 <- Rust.rem t6 (Memory_size self) ;;
    t8 <- Rust.store (Memory_data self) t7 vbyte ;;
    let self := (set_Memory_data self t8) in
    Some self) self ;;
  Some self.

(** compiler/src/interpreter/testvm.rs:35-41 *)
Definition Memory_write_word (p : Rust.profile) (self : Memory) (addr : usize) (value : u32) : option Memory :=
  self <- Rust.for_range (Rust.lit 0) (Rust.lit 4) (fun i self => t1 <- Rust.mul p i (Rust.lit 8) ;;
    t2 <- Rust.shr p value t1 ;;
    t3 <- Rust.shl p (Rust.lit 1) (Rust.lit (t := Rust.I32) 8) ;;
    t4 <- Rust.sub p t3 (Rust.lit 1) ;;
    let vbyte := (Rust.cast Rust.U8 (Rust.band t2 t4)) in
    t5 <- Rust.add p addr i ;;
    t6 <- Rust.sub p t5 (Memory_offset self) ;;
    t7 <- Rust.rem t6 (Memory_size self) ;;
    t8 <- Rust.store (Memory_data self) t7 vbyte ;;
    let self := (set_Memory_data self t8) in
    Some self) self ;;
  Some self.

(** compiler/src/interpreter/testvm.rs:43-46 *)
Definition Memory_load_memory (p : Rust.profile) (self : Memory) (start_at : usize) (values : (list u8)) : option Memory :=
  t2 <- Rust.sub p start_at (Memory_offset self) ;;
  t3 <- Rust.sub p start_at (Memory_offset self) ;;
  t4 <- Rust.add p t3 (Rust.len values) ;;
  t1 <- Rust.copy_range (Memory_data self) t2 t4 values ;;
  let self := (set_Memory_data self t1) in
  Some self.

(** compiler/src/interpreter/testvm.rs:48-50 *)
Definition Memory_read_byte (p : Rust.profile) (self : Memory) (addr : usize) : option u8 :=
  t1 <- Rust.sub p addr (Memory_offset self) ;;
  t2 <- Rust.rem t1 (Memory_size self) ;;
  t3 <- Rust.index (Memory_data self) t2 ;;
  Some t3.

(** compiler/src/interpreter/testvm.rs:52-63 *)
Definition Memory_read_half (p : Rust.profile) (self : Memory) (addr : usize) : option u16 :=
  t1 <- Rust.rem addr (Rust.lit 2) ;;
  if (Rust.eq t1 (Rust.lit 0)) then let out := (Rust.lit (t := Rust.U16) 0) in
  out <- Rust.for_range (Rust.lit 0) (Rust.lit 2) (fun i out => t2 <- Rust.sub p addr (Memory_offset self) ;;
    t3 <- Rust.add p t2 i ;;
    t4 <- Rust.rem t3 (Memory_size self) ;;
    t5 <- Rust.index (Memory_data self) t4 ;;
    t6 <- Rust.mul p i (Rust.lit 8) ;;
    t7 <- Rust.shl p (Rust.cast Rust.U16 t5) t6 ;;
    t8 <- Rust.add p out t7 ;;
    let out := t8 in
    Some out) out ;;
  Some out else None.

(** compiler/src/interpreter/testvm.rs:65-77 *)
Definition Memory_read_word (p : Rust.profile) (self : Memory) (addr : usize) : option u32 :=
  t1 <- Rust.rem addr (Rust.lit 4) ;;
  if (Rust.eq t1 (Rust.lit 0)) then let out := (Rust.lit (t := Rust.U32) 0) in
  out <- Rust.for_range (Rust.lit 0) (Rust.lit 4) (fun i out => t2 <- Rust.sub p addr (Memory_offset self) ;;
    t3 <- Rust.add p t2 i ;;
    t4 <- Rust.rem t3 (Memory_size self) ;;
    t5 <- Rust.index (Memory_data self) t4 ;;
    t6 <- Rust.mul p i (Rust.lit 8) ;;
    t7 <- Rust.shl p (Rust.cast Rust.U32 t5) t6 ;;
    t8 <- Rust.add p out t7 ;;
    let out := t8 in
    Some out) out ;;
  Some out else None.

(** compiler/src/interpreter/testvm.rs:152-155 *)
Definition RegisterIndex_from (p : Rust.profile) (v : u32) : option RegisterIndex :=
  if (Rust.lt v (Rust.lit 32)) then Some (mk_RegisterIndex v) else None.

(** compiler/src/interpreter/testvm.rs:182-204 *)
Definition TestVM_init (p : Rust.profile) (boot_rom : BootMemory) (boot_ram : BootMemory) (input_info : InputInfo) (output_info : OutputInfo) (max_cycles : usize) : option TestVM :=
  t1 <- Memory_new p (BootMemory_offset boot_rom) (BootMemory_size boot_rom) false ;;
  let rom := t1 in
  t2 <- Memory_load_memory p rom (BootMemory_offset boot_rom) (BootMemory_data boot_rom) ;;
  let rom := t2 in
  t3 <- Memory_new p (BootMemory_offset boot_ram) (BootMemory_size boot_ram) true ;;
  let ram := t3 in
  t4 <- Memory_load_memory p ram (BootMemory_offset boot_ram) (BootMemory_data boot_ram) ;;
  let ram := t4 in
  Some (mk_TestVM (Rust.filled (Rust.lit (t := Rust.U32) 0) (Rust.lit 32)) rom ram (Rust.lit 0) input_info output_info max_cycles).

(** compiler/src/interpreter/testvm.rs:1177-1179 *)
Definition utils_extract_bits (p : Rust.profile) (value : u32) (bits : usize) : option u32 :=
  t1 <- Rust.shl p (Rust.lit (t := Rust.U32) 1) bits ;;
  t2 <- Rust.sub p t1 (Rust.lit 1) ;;
  Some (Rust.band value t2).

(** compiler/src/interpreter/testvm.rs:1181-1189 *)
Definition utils_sign_extend (p : Rust.profile) (value : u32) (bitlen : usize) : option u32 :=
  t1 <- Rust.shr p value bitlen ;;
  if (Rust.eq t1 (Rust.lit 0)) then t2 <- Rust.sub p bitlen (Rust.lit 1) ;;
  t3 <- Rust.shr p value t2 ;;
  let msb := (Rust.band t3 (Rust.lit 1)) in
  let out_v := value in
  out_v <- Rust.for_range bitlen (Rust.lit 32) (fun i out_v => t4 <- Rust.shl p msb i ;;
    t5 <- Rust.add p out_v t4 ;;
    let out_v := t5 in
    Some out_v) out_v ;;
  Some out_v else None.

(** compiler/src/interpreter/testvm.rs:206-391 *)
Definition TestVM_decode_inst (p : Rust.profile) (self : TestVM) (inst : u32) : option Inst :=
  t1 <- utils_extract_bits p inst (Rust.lit 7) ;;
  let opcode := t1 in
  if (Rust.eq opcode (Rust.lit 19))
  then (t2 <- Rust.shr p inst (Rust.lit (t := Rust.I32) 20) ;;
    t3 <- utils_extract_bits p t2 (Rust.lit 12) ;;
    let imm := t3 in
    t4 <- utils_sign_extend p imm (Rust.lit 12) ;;
    let imm := t4 in
    t5 <- Rust.shr p inst (Rust.lit (t := Rust.I32) 7) ;;
    t6 <- utils_extract_bits p t5 (Rust.lit 5) ;;
    t7 <- RegisterIndex_from p t6 ;;
    let rd := t7 in
    t8 <- Rust.shr p inst (Rust.lit (t := Rust.I32) 15) ;;
    t9 <- utils_extract_bits p t8 (Rust.lit 5) ;;
    t10 <- RegisterIndex_from p t9 ;;
    let rs1 := t10 in
    t11 <- Rust.shr p inst (Rust.lit (t := Rust.I32) 12) ;;
    t12 <- utils_extract_bits p t11 (Rust.lit 3) ;;
    let funct3 := t12 in
    if (Rust.eq funct3 (Rust.lit 0))
    then (Some (Inst_ADDI rs1 rd imm))
    else (if (Rust.eq funct3 (Rust.lit 2))
      then (Some (Inst_SLTI rs1 rd imm))
      else (if (Rust.eq funct3 (Rust.lit 3))
        then (Some (Inst_SLTIU rs1 rd imm))
        else (if (Rust.eq funct3 (Rust.lit 4))
          then (Some (Inst_XORI rs1 rd imm))
          else (if (Rust.eq funct3 (Rust.lit 6))
            then (Some (Inst_ORI rs1 rd imm))
            else (if (Rust.eq funct3 (Rust.lit 7))
              then (Some (Inst_ANDI rs1 rd imm))
              else (t13 <- Rust.shr p inst (Rust.lit (t := Rust.I32) 20) ;;
                t14 <- utils_extract_bits p t13 (Rust.lit 5) ;;
                let shift := t14 in
                if (Rust.eq funct3 (Rust.lit 1))
                then (Some (Inst_SLLI rs1 rd shift))
                else (if (Rust.eq funct3 (Rust.lit 5))
                  then (t15 <- Rust.shr p inst (Rust.lit (t := Rust.I32) 30) ;;
                    if (Rust.eq (Rust.band t15 (Rust.lit 1)) (Rust.lit 0))
                    then (Some (Inst_SRLI rs1 rd shift))
                    else (Some (Inst_SRAI rs1 rd shift)))
                  else (None)))))))))
  else (if (Rust.eq opcode (Rust.lit 55))
    then (t16 <- Rust.shr p inst (Rust.lit (t := Rust.I32) 12) ;;
      t17 <- utils_extract_bits p t16 (Rust.lit 20) ;;
      t18 <- Rust.shl p t17 (Rust.lit (t := Rust.I32) 12) ;;
      let imm := t18 in
      t19 <- Rust.shr p inst (Rust.lit (t := Rust.I32) 7) ;;
      t20 <- utils_extract_bits p t19 (Rust.lit 5) ;;
      t21 <- RegisterIndex_from p t20 ;;
      let rd := t21 in
      Some (Inst_LUI rd imm))
    else (if (Rust.eq opcode (Rust.lit 23))
      then (t22 <- Rust.shr p inst (Rust.lit (t := Rust.I32) 12) ;;
        t23 <- utils_extract_bits p t22 (Rust.lit 20) ;;
        t24 <- Rust.shl p t23 (Rust.lit (t := Rust.I32) 12) ;;
        let imm := t24 in
        t25 <- Rust.shr p inst (Rust.lit (t := Rust.I32) 7) ;;
        t26 <- utils_extract_bits p t25 (Rust.lit 5) ;;
        t27 <- RegisterIndex_from p t26 ;;
        let rd := t27 in
        Some (Inst_AUIPC rd imm))
      else (if (Rust.eq opcode (Rust.lit 51))
        then (t28 <- Rust.shr p inst (Rust.lit (t := Rust.I32) 7) ;;
          t29 <- utils_extract_bits p t28 (Rust.lit 5) ;;
          t30 <- RegisterIndex_from p t29 ;;
          let rd := t30 in
          t31 <- Rust.shr p inst (Rust.lit (t := Rust.I32) 15) ;;
          t32 <- utils_extract_bits p t31 (Rust.lit 5) ;;
          t33 <- RegisterIndex_from p t32 ;;
          let rs1 := t33 in
          t34 <- Rust.shr p inst (Rust.lit (t := Rust.I32) 20) ;;
          t35 <- utils_extract_bits p t34 (Rust.lit 5) ;;
          t36 <- RegisterIndex_from p t35 ;;
          let rs2 := t36 in
          t37 <- Rust.shr p inst (Rust.lit (t := Rust.I32) 12) ;;
          t38 <- utils_extract_bits p t37 (Rust.lit 3) ;;
          let func3 := t38 in
          t39 <- Rust.shr p inst (Rust.lit (t := Rust.I32) 25) ;;
          if (Rust.eq (Rust.band t39 (Rust.lit 1)) (Rust.lit 0))
          then (if (Rust.eq func3 (Rust.lit 0))
            then (t40 <- Rust.shr p inst (Rust.lit (t := Rust.I32) 30) ;;
              if (Rust.eq (Rust.band t40 (Rust.lit 1)) (Rust.lit 0))
              then (Some (Inst_ADD rs1 rs2 rd))
              else (Some (Inst_SUB rs1 rs2 rd)))
            else (if (Rust.eq func3 (Rust.lit 1))
              then (Some (Inst_SLL rs1 rs2 rd))
              else (if (Rust.eq func3 (Rust.lit 2))
                then (Some (Inst_SLT rs1 rs2 rd))
                else (if (Rust.eq func3 (Rust.lit 3))
                  then (Some (Inst_SLTU rs1 rs2 rd))
                  else (if (Rust.eq func3 (Rust.lit 4))
                    then (Some (Inst_XOR rs1 rs2 rd))
                    else (if (Rust.eq func3 (Rust.lit 6))
                      then (Some (Inst_OR rs1 rs2 rd))
                      else (if (Rust.eq func3 (Rust.lit 7))
                        then (Some (Inst_AND rs1 rs2 rd))
                        else (if (Rust.eq func3 (Rust.lit 5))
                          then (t41 <- Rust.shr p inst (Rust.lit (t := Rust.I32) 30) ;;
                            if (Rust.eq (Rust.band t41 (Rust.lit 1)) (Rust.lit 0))
                            then (Some (Inst_SRL rs1 rs2 rd))
                            else (Some (Inst_SRA rs1 rs2 rd)))
                          else (None)))))))))
          else (if (Rust.eq func3 (Rust.lit 0))
            then (Some (Inst_MUL rs1 rs2 rd))
            else (if (Rust.eq func3 (Rust.lit 1))
              then (Some (Inst_MULH rs1 rs2 rd))
              else (if (Rust.eq func3 (Rust.lit 2))
                then (Some (Inst_MULHSU rs1 rs2 rd))
                else (if (Rust.eq func3 (Rust.lit 3))
                  then (Some (Inst_MULHU rs1 rs2 rd))
                  else (if (Rust.eq func3 (Rust.lit 4))
                    then (Some (Inst_DIV rs1 rs2 rd))
                    else (if (Rust.eq func3 (Rust.lit 5))
                      then (Some (Inst_DIVU rs1 rs2 rd))
                      else (if (Rust.eq func3 (Rust.lit 6))
                        then (Some (Inst_REM rs1 rs2 rd))
                        else (if (Rust.eq func3 (Rust.lit 7))
                          then (Some (Inst_REMU rs1 rs2 rd))
                          else (None))))))))))
        else (if (Rust.eq opcode (Rust.lit 111))
          then (t42 <- Rust.shr p inst (Rust.lit (t := Rust.I32) 7) ;;
            t43 <- utils_extract_bits p t42 (Rust.lit 5) ;;
            t44 <- RegisterIndex_from p t43 ;;
            let rd := t44 in
            t45 <- Rust.shr p inst (Rust.lit (t := Rust.I32) 21) ;;
            t46 <- utils_extract_bits p t45 (Rust.lit 10) ;;
            t47 <- Rust.shl p t46 (Rust.lit (t := Rust.I32) 1) ;;
            t48 <- Rust.shr p inst (Rust.lit (t := Rust.I32) 20) ;;
            t49 <- utils_extract_bits p t48 (Rust.lit 1) ;;
            t50 <- Rust.shl p t49 (Rust.lit (t := Rust.I32) 11) ;;
            t51 <- Rust.add p t47 t50 ;;
            t52 <- Rust.shr p inst (Rust.lit (t := Rust.I32) 12) ;;
            t53 <- utils_extract_bits p t52 (Rust.lit 8) ;;
            t54 <- Rust.shl p t53 (Rust.lit (t := Rust.I32) 12) ;;
            t55 <- Rust.add p t51 t54 ;;
            t56 <- Rust.shr p inst (Rust.lit (t := Rust.I32) 31) ;;
            t57 <- utils_extract_bits p t56 (Rust.lit 1) ;;
            t58 <- Rust.shl p t57 (Rust.lit (t := Rust.I32) 20) ;;
            t59 <- Rust.add p t55 t58 ;;
            let imm := t59 in
            t60 <- utils_sign_extend p imm (Rust.lit 21) ;;
            let imm := t60 in
            Some (Inst_JAL rd imm))
          else (t63 <- (if (Rust.eq opcode (Rust.lit 103)) then t61 <- Rust.shr p inst (Rust.lit (t := Rust.I32) 12) ;; t62 <- utils_extract_bits p t61 (Rust.lit 3) ;; Some (Rust.eq t62 (Rust.lit 0)) else Some false) ;;
            if t63
            then (t64 <- Rust.shr p inst (Rust.lit (t := Rust.I32) 7) ;;
              t65 <- utils_extract_bits p t64 (Rust.lit 5) ;;
              t66 <- RegisterIndex_from p t65 ;;
              let rd := t66 in
              t67 <- Rust.shr p inst (Rust.lit (t := Rust.I32) 15) ;;
              t68 <- utils_extract_bits p t67 (Rust.lit 5) ;;
              t69 <- RegisterIndex_from p t68 ;;
              let rs1 := t69 in
              t70 <- Rust.shr p inst (Rust.lit (t := Rust.I32) 20) ;;
              t71 <- utils_extract_bits p t70 (Rust.lit 12) ;;
              let imm := t71 in
              t72 <- utils_sign_extend p imm (Rust.lit 12) ;;
              let imm := t72 in
              Some (Inst_JALR rs1 rd imm))
            else (if (Rust.eq opcode (Rust.lit 99))
              then (t73 <- Rust.shr p inst (Rust.lit (t := Rust.I32) 12) ;;
                t74 <- utils_extract_bits p t73 (Rust.lit 3) ;;
                let func3 := t74 in
                t75 <- Rust.shr p inst (Rust.lit (t := Rust.I32) 15) ;;
                t76 <- utils_extract_bits p t75 (Rust.lit 5) ;;
                t77 <- RegisterIndex_from p t76 ;;
                let rs1 := t77 in
                t78 <- Rust.shr p inst (Rust.lit (t := Rust.I32) 20) ;;
                t79 <- utils_extract_bits p t78 (Rust.lit 5) ;;
                t80 <- RegisterIndex_from p t79 ;;
                let rs2 := t80 in
                t81 <- Rust.shr p inst (Rust.lit (t := Rust.I32) 8) ;;
                t82 <- utils_extract_bits p t81 (Rust.lit 4) ;;
                t83 <- Rust.shl p t82 (Rust.lit (t := Rust.I32) 1) ;;
                t84 <- Rust.shr p inst (Rust.lit (t := Rust.I32) 25) ;;
                t85 <- utils_extract_bits p t84 (Rust.lit 6) ;;
                t86 <- Rust.shl p t85 (Rust.lit (t := Rust.I32) 5) ;;
                t87 <- Rust.add p t83 t86 ;;
                t88 <- Rust.shr p inst (Rust.lit (t := Rust.I32) 7) ;;
                t89 <- utils_extract_bits p t88 (Rust.lit 1) ;;
                t90 <- Rust.shl p t89 (Rust.lit (t := Rust.I32) 11) ;;
                t91 <- Rust.add p t87 t90 ;;
                t92 <- Rust.shr p inst (Rust.lit (t := Rust.I32) 31) ;;
                t93 <- utils_extract_bits p t92 (Rust.lit 1) ;;
                t94 <- Rust.shl p t93 (Rust.lit (t := Rust.I32) 12) ;;
                t95 <- Rust.add p t91 t94 ;;
                let imm := t95 in
                t96 <- utils_sign_extend p imm (Rust.lit 13) ;;
                let imm := t96 in
                if (Rust.eq func3 (Rust.lit 0))
                then (Some (Inst_BEQ rs1 rs2 imm))
                else (if (Rust.eq func3 (Rust.lit 1))
                  then (Some (Inst_BNE rs1 rs2 imm))
                  else (if (Rust.eq func3 (Rust.lit 4))
                    then (Some (Inst_BLT rs1 rs2 imm))
                    else (if (Rust.eq func3 (Rust.lit 5))
                      then (Some (Inst_BGE rs1 rs2 imm))
                      else (if (Rust.eq func3 (Rust.lit 6))
                        then (Some (Inst_BLTU rs1 rs2 imm))
                        else (if (Rust.eq func3 (Rust.lit 7))
                          then (Some (Inst_BGEU rs1 rs2 imm))
                          else (None)))))))
              else (if (Rust.eq opcode (Rust.lit 3))
                then (t97 <- Rust.shr p inst (Rust.lit (t := Rust.I32) 12) ;;
                  t98 <- utils_extract_bits p t97 (Rust.lit 3) ;;
                  let func3 := t98 in
                  t99 <- Rust.shr p inst (Rust.lit (t := Rust.I32) 15) ;;
                  t100 <- utils_extract_bits p t99 (Rust.lit 5) ;;
                  t101 <- RegisterIndex_from p t100 ;;
                  let rs1 := t101 in
                  t102 <- Rust.shr p inst (Rust.lit (t := Rust.I32) 7) ;;
                  t103 <- utils_extract_bits p t102 (Rust.lit 5) ;;
                  t104 <- RegisterIndex_from p t103 ;;
                  let rd := t104 in
                  t105 <- Rust.shr p inst (Rust.lit (t := Rust.I32) 20) ;;
                  t106 <- utils_extract_bits p t105 (Rust.lit 12) ;;
                  let imm := t106 in
                  t107 <- utils_sign_extend p imm (Rust.lit 12) ;;
                  let imm := t107 in
                  if (Rust.eq func3 (Rust.lit 0))
                  then (Some (Inst_LB rs1 rd imm))
                  else (if (Rust.eq func3 (Rust.lit 1))
                    then (Some (Inst_LH rs1 rd imm))
                    else (if (Rust.eq func3 (Rust.lit 2))
                      then (Some (Inst_LW rs1 rd imm))
                      else (if (Rust.eq func3 (Rust.lit 4))
                        then (Some (Inst_LBU rs1 rd imm))
                        else (if (Rust.eq func3 (Rust.lit 5))
                          then (Some (Inst_LHU rs1 rd imm))
                          else (None))))))
                else (if (Rust.eq opcode (Rust.lit 35))
                  then (t108 <- Rust.shr p inst (Rust.lit (t := Rust.I32) 12) ;;
                    t109 <- utils_extract_bits p t108 (Rust.lit 3) ;;
                    let func3 := t109 in
                    t110 <- Rust.shr p inst (Rust.lit (t := Rust.I32) 15) ;;
                    t111 <- utils_extract_bits p t110 (Rust.lit 5) ;;
                    t112 <- RegisterIndex_from p t111 ;;
                    let rs1 := t112 in
                    t113 <- Rust.shr p inst (Rust.lit (t := Rust.I32) 20) ;;
                    t114 <- utils_extract_bits p t113 (Rust.lit 5) ;;
                    t115 <- RegisterIndex_from p t114 ;;
                    let rs2 := t115 in
                    t116 <- Rust.shr p inst (Rust.lit (t := Rust.I32) 7) ;;
                    t117 <- utils_extract_bits p t116 (Rust.lit 5) ;;
                    t118 <- Rust.shr p inst (Rust.lit (t := Rust.I32) 25) ;;
                    t119 <- utils_extract_bits p t118 (Rust.lit 7) ;;
                    t120 <- Rust.shl p t119 (Rust.lit (t := Rust.I32) 5) ;;
                    t121 <- Rust.add p t117 t120 ;;
                    let imm := t121 in
                    t122 <- utils_sign_extend p imm (Rust.lit 12) ;;
                    let imm := t122 in
                    if (Rust.eq func3 (Rust.lit 0))
                    then (Some (Inst_SB rs1 rs2 imm))
                    else (if (Rust.eq func3 (Rust.lit 1))
                      then (Some (Inst_SH rs1 rs2 imm))
                      else (if (Rust.eq func3 (Rust.lit 2))
                        then (Some (Inst_SW rs1 rs2 imm))
                        else (None))))
                  else (None))))))))).

(** compiler/src/interpreter/testvm.rs:393-395 *)
Definition TestVM_register (p : Rust.profile) (self : TestVM) (index : RegisterIndex) : option u32 :=
  t1 <- Rust.index (TestVM_registers self) (Rust.cast Rust.USize (RegisterIndex_0 index)) ;;
  Some t1.

(** compiler/src/interpreter/testvm.rs:397-402 *)
Definition TestVM_register_mut (p : Rust.profile) (self : TestVM) (index : RegisterIndex) : option (TestVM * u32) :=
  t1 <- Rust.index (TestVM_registers self) (Rust.cast Rust.USize (RegisterIndex_0 index)) ;;
  Some (self, t1).

(** compiler/src/interpreter/testvm.rs:413-1149 *)
Definition TestVM_run (p : Rust.profile) (self : TestVM) : option TestVM :=
  t1 <- Memory_read_word p (TestVM_rom self) (Rust.cast Rust.USize (TestVM_pc self)) ;;
  let inst_u32 := t1 in
  t2 <- TestVM_decode_inst p self inst_u32 ;;
  let inst := t2 in
  self <- (match inst with
    | Inst_ADDI rs1 rd imm => t3 <- TestVM_register p self rs1 ;;
    let rs1v := t3 in
    let t4 := (Rust.wrapping_add rs1v imm) in
    let t5 := rd in
    t6 <- Rust.store (TestVM_registers self) (Rust.cast Rust.USize (RegisterIndex_0 t5)) t4 ;;
    let self := (set_TestVM_registers self t6) in
    t7 <- Rust.add p (TestVM_pc self) (Rust.lit 4) ;;
    let self := (set_TestVM_pc self t7) in
    Some self
    | Inst_SLTI rs1 rd imm => t8 <- TestVM_register p self rs1 ;;
    let rs1v := (Rust.cast Rust.I32 t8) in
    let t9 := (Rust.cast_bool Rust.U32 (Rust.lt rs1v (Rust.cast Rust.I32 imm))) in
    let t10 := rd in
    t11 <- Rust.store (TestVM_registers self) (Rust.cast Rust.USize (RegisterIndex_0 t10)) t9 ;;
    let self := (set_TestVM_registers self t11) in
    t12 <- Rust.add p (TestVM_pc self) (Rust.lit 4) ;;
    let self := (set_TestVM_pc self t12) in
    Some self
    | Inst_SLTIU rs1 rd imm => t13 <- TestVM_register p self rs1 ;;
    let rs1v := t13 in
    let t14 := (Rust.cast_bool Rust.U32 (Rust.lt rs1v imm)) in
    let t15 := rd in
    t16 <- Rust.store (TestVM_registers self) (Rust.cast Rust.USize (RegisterIndex_0 t15)) t14 ;;
    let self := (set_TestVM_registers self t16) in
    t17 <- Rust.add p (TestVM_pc self) (Rust.lit 4) ;;
    let self := (set_TestVM_pc self t17) in
    Some self
    | Inst_XORI rs1 rd imm => t18 <- TestVM_register p self rs1 ;;
    let rs1v := t18 in
    let t19 := (Rust.bxor rs1v imm) in
    let t20 := rd in
    t21 <- Rust.store (TestVM_registers self) (Rust.cast Rust.USize (RegisterIndex_0 t20)) t19 ;;
    let self := (set_TestVM_registers self t21) in
    t22 <- Rust.add p (TestVM_pc self) (Rust.lit 4) ;;
    let self := (set_TestVM_pc self t22) in
    Some self
    | Inst_ORI rs1 rd imm => t23 <- TestVM_register p self rs1 ;;
    let rs1v := t23 in
    let t24 := (Rust.bor rs1v imm) in
    let t25 := rd in
    t26 <- Rust.store (TestVM_registers self) (Rust.cast Rust.USize (RegisterIndex_0 t25)) t24 ;;
    let self := (set_TestVM_registers self t26) in
    t27 <- Rust.add p (TestVM_pc self) (Rust.lit 4) ;;
    let self := (set_TestVM_pc self t27) in
    Some self
    | Inst_ANDI rs1 rd imm => t28 <- TestVM_register p self rs1 ;;
    let rs1v := t28 in
    let t29 := (Rust.band rs1v imm) in
    let t30 := rd in
    t31 <- Rust.store (TestVM_registers self) (Rust.cast Rust.USize (RegisterIndex_0 t30)) t29 ;;
    let self := (set_TestVM_registers self t31) in
    t32 <- Rust.add p (TestVM_pc self) (Rust.lit 4) ;;
    let self := (set_TestVM_pc self t32) in
    Some self
    | Inst_SLLI rs1 rd shift => t33 <- TestVM_register p self rs1 ;;
    let rs1v := t33 in
    t34 <- Rust.shl p rs1v shift ;;
    let t35 := rd in
    t36 <- Rust.store (TestVM_registers self) (Rust.cast Rust.USize (RegisterIndex_0 t35)) t34 ;;
    let self := (set_TestVM_registers self t36) in
    t37 <- Rust.add p (TestVM_pc self) (Rust.lit 4) ;;
    let self := (set_TestVM_pc self t37) in
    Some self
    | Inst_SRLI rs1 rd shift => t38 <- TestVM_register p self rs1 ;;
    let rs1v := t38 in
    t39 <- Rust.shr p rs1v shift ;;
    let t40 := rd in
    t41 <- Rust.store (TestVM_registers self) (Rust.cast Rust.USize (RegisterIndex_0 t40)) t39 ;;
    let self := (set_TestVM_registers self t41) in
    t42 <- Rust.add p (TestVM_pc self) (Rust.lit 4) ;;
    let self := (set_TestVM_pc self t42) in
    Some self
    | Inst_SRAI rs1 rd shift => t43 <- TestVM_register p self rs1 ;;
    let rs1v := t43 in
    t44 <- Rust.shr p (Rust.cast Rust.I32 rs1v) shift ;;
    let t45 := (Rust.cast Rust.U32 t44) in
    let t46 := rd in
    t47 <- Rust.store (TestVM_registers self) (Rust.cast Rust.USize (RegisterIndex_0 t46)) t45 ;;
    let self := (set_TestVM_registers self t47) in
    t48 <- Rust.add p (TestVM_pc self) (Rust.lit 4) ;;
    let self := (set_TestVM_pc self t48) in
    Some self
    | Inst_LUI rd imm => let t49 := rd in
    t50 <- Rust.store (TestVM_registers self) (Rust.cast Rust.USize (RegisterIndex_0 t49)) imm ;;
    let self := (set_TestVM_registers self t50) in
    t51 <- Rust.add p (TestVM_pc self) (Rust.lit 4) ;;
    let self := (set_TestVM_pc self t51) in
    Some self
    | Inst_AUIPC rd imm => let t52 := (Rust.wrapping_add imm (TestVM_pc self)) in
    let t53 := rd in
    t54 <- Rust.store (TestVM_registers self) (Rust.cast Rust.USize (RegisterIndex_0 t53)) t52 ;;
    let self := (set_TestVM_registers self t54) in
    t55 <- Rust.add p (TestVM_pc self) (Rust.lit 4) ;;
    let self := (set_TestVM_pc self t55) in
    Some self
    | Inst_ADD rs1 rs2 rd => t56 <- TestVM_register p self rs1 ;;
    t57 <- TestVM_register p self rs2 ;;
    let t58 := (Rust.wrapping_add t56 t57) in
    let t59 := rd in
    t60 <- Rust.store (TestVM_registers self) (Rust.cast Rust.USize (RegisterIndex_0 t59)) t58 ;;
    let self := (set_TestVM_registers self t60) in
    t61 <- Rust.add p (TestVM_pc self) (Rust.lit 4) ;;
    let self := (set_TestVM_pc self t61) in
    Some self
    | Inst_SUB rs1 rs2 rd => t62 <- TestVM_register p self rs1 ;;
    t63 <- TestVM_register p self rs2 ;;
    let t64 := (Rust.wrapping_sub t62 t63) in
    let t65 := rd in
    t66 <- Rust.store (TestVM_registers self) (Rust.cast Rust.USize (RegisterIndex_0 t65)) t64 ;;
    let self := (set_TestVM_registers self t66) in
    t67 <- Rust.add p (TestVM_pc self) (Rust.lit 4) ;;
    let self := (set_TestVM_pc self t67) in
    Some self
    | Inst_SLL rs1 rs2 rd => t68 <- TestVM_register p self rs1 ;;
    t69 <- TestVM_register p self rs2 ;;
    t70 <- utils_extract_bits p t69 (Rust.lit 5) ;;
    t71 <- Rust.shl p t68 t70 ;;
    let t72 := rd in
    t73 <- Rust.store (TestVM_registers self) (Rust.cast Rust.USize (RegisterIndex_0 t72)) t71 ;;
    let self := (set_TestVM_registers self t73) in
    t74 <- Rust.add p (TestVM_pc self) (Rust.lit 4) ;;
    let self := (set_TestVM_pc self t74) in
    Some self
    | Inst_SLT rs1 rs2 rd => t75 <- TestVM_register p self rs1 ;;
    t76 <- TestVM_register p self rs2 ;;
    let t77 := (Rust.cast_bool Rust.U32 (Rust.lt (Rust.cast Rust.I32 t75) (Rust.cast Rust.I32 t76))) in
    let t78 := rd in
    t79 <- Rust.store (TestVM_registers self) (Rust.cast Rust.USize (RegisterIndex_0 t78)) t77 ;;
    let self := (set_TestVM_registers self t79) in
    t80 <- Rust.add p (TestVM_pc self) (Rust.lit 4) ;;
    let self := (set_TestVM_pc self t80) in
    Some self
    | Inst_SLTU rs1 rs2 rd => t81 <- TestVM_register p self rs1 ;;
    t82 <- TestVM_register p self rs2 ;;
    let t83 := (Rust.cast_bool Rust.U32 (Rust.lt t81 t82)) in
    let t84 := rd in
    t85 <- Rust.store (TestVM_registers self) (Rust.cast Rust.USize (RegisterIndex_0 t84)) t83 ;;
    let self := (set_TestVM_registers self t85) in
    t86 <- Rust.add p (TestVM_pc self) (Rust.lit 4) ;;
    let self := (set_TestVM_pc self t86) in
    Some self
    | Inst_XOR rs1 rs2 rd => t87 <- TestVM_register p self rs1 ;;
    t88 <- TestVM_register p self rs2 ;;
    let t89 := (Rust.bxor t87 t88) in
    let t90 := rd in
    t91 <- Rust.store (TestVM_registers self) (Rust.cast Rust.USize (RegisterIndex_0 t90)) t89 ;;
    let self := (set_TestVM_registers self t91) in
    t92 <- Rust.add p (TestVM_pc self) (Rust.lit 4) ;;
    let self := (set_TestVM_pc self t92) in
    Some self
    | Inst_OR rs1 rs2 rd => t93 <- TestVM_register p self rs1 ;;
    t94 <- TestVM_register p self rs2 ;;
    let t95 := (Rust.bor t93 t94) in
    let t96 := rd in
    t97 <- Rust.store (TestVM_registers self) (Rust.cast Rust.USize (RegisterIndex_0 t96)) t95 ;;
    let self := (set_TestVM_registers self t97) in
    t98 <- Rust.add p (TestVM_pc self) (Rust.lit 4) ;;
    let self := (set_TestVM_pc self t98) in
    Some self
    | Inst_AND rs1 rs2 rd => t99 <- TestVM_register p self rs1 ;;
    t100 <- TestVM_register p self rs2 ;;
    let t101 := (Rust.band t99 t100) in
    let t102 := rd in
    t103 <- Rust.store (TestVM_registers self) (Rust.cast Rust.USize (RegisterIndex_0 t102)) t101 ;;
    let self := (set_TestVM_registers self t103) in
    t104 <- Rust.add p (TestVM_pc self) (Rust.lit 4) ;;
    let self := (set_TestVM_pc self t104) in
    Some self
    | Inst_SRL rs1 rs2 rd => t105 <- TestVM_register p self rs1 ;;
    t106 <- TestVM_register p self rs2 ;;
    t107 <- utils_extract_bits p t106 (Rust.lit 5) ;;
    t108 <- Rust.shr p t105 t107 ;;
    let t109 := rd in
    t110 <- Rust.store (TestVM_registers self) (Rust.cast Rust.USize (RegisterIndex_0 t109)) t108 ;;
    let self := (set_TestVM_registers self t110) in
    t111 <- Rust.add p (TestVM_pc self) (Rust.lit 4) ;;
    let self := (set_TestVM_pc self t111) in
    Some self
    | Inst_SRA rs1 rs2 rd => t112 <- TestVM_register p self rs1 ;;
    t113 <- TestVM_register p self rs2 ;;
    t114 <- utils_extract_bits p t113 (Rust.lit 5) ;;
    t115 <- Rust.shr p (Rust.cast Rust.I32 t112) t114 ;;
    let t116 := (Rust.cast Rust.U32 t115) in
    let t117 := rd in
    t118 <- Rust.store (TestVM_registers self) (Rust.cast Rust.USize (RegisterIndex_0 t117)) t116 ;;
    let self := (set_TestVM_registers self t118) in
    t119 <- Rust.add p (TestVM_pc self) (Rust.lit 4) ;;
    let self := (set_TestVM_pc self t119) in
    Some self
    | Inst_JAL rd offset => let jump_target := (Rust.wrapping_add (TestVM_pc self) offset) in
    t120 <- Rust.rem jump_target (Rust.lit 4) ;;
    if (Rust.eq t120 (Rust.lit 0)) then let t121 := (Rust.wrapping_add (TestVM_pc self) (Rust.lit 4)) in
    let t122 := rd in
    t123 <- Rust.store (TestVM_registers self) (Rust.cast Rust.USize (RegisterIndex_0 t122)) t121 ;;
    let self := (set_TestVM_registers self t123) in
    let self := (set_TestVM_pc self jump_target) in
    Some self else None
    | Inst_JALR rs1 rd imm => t124 <- TestVM_register p self rs1 ;;
    t125 <- Rust.shr p (Rust.wrapping_add t124 imm) (Rust.lit (t := Rust.I32) 1) ;;
    t126 <- Rust.shl p t125 (Rust.lit (t := Rust.I32) 1) ;;
    let jump_target := t126 in
    t127 <- Rust.rem jump_target (Rust.lit 4) ;;
    if (Rust.eq t127 (Rust.lit 0)) then let t128 := (Rust.wrapping_add (TestVM_pc self) (Rust.lit 4)) in
    let t129 := rd in
    t130 <- Rust.store (TestVM_registers self) (Rust.cast Rust.USize (RegisterIndex_0 t129)) t128 ;;
    let self := (set_TestVM_registers self t130) in
    let self := (set_TestVM_pc self jump_target) in
    Some self else None
    | Inst_BEQ rs1 rs2 imm => let jump_target := (Rust.wrapping_add imm (TestVM_pc self)) in
    t131 <- TestVM_register p self rs1 ;;
    t132 <- TestVM_register p self rs2 ;;
    if (Rust.eq t131 t132)
    then (t133 <- Rust.rem jump_target (Rust.lit 4) ;;
      if (Rust.eq t133 (Rust.lit 0)) then let self := (set_TestVM_pc self jump_target) in
      Some self else None)
    else (t134 <- Rust.add p (TestVM_pc self) (Rust.lit 4) ;;
      let self := (set_TestVM_pc self t134) in
      Some self)
    | Inst_BNE rs1 rs2 imm => let jump_target := (Rust.wrapping_add imm (TestVM_pc self)) in
    t135 <- TestVM_register p self rs1 ;;
    t136 <- TestVM_register p self rs2 ;;
    if (Rust.ne t135 t136)
    then (t137 <- Rust.rem jump_target (Rust.lit 4) ;;
      if (Rust.eq t137 (Rust.lit 0)) then let self := (set_TestVM_pc self jump_target) in
      Some self else None)
    else (t138 <- Rust.add p (TestVM_pc self) (Rust.lit 4) ;;
      let self := (set_TestVM_pc self t138) in
      Some self)
    | Inst_BLT rs1 rs2 imm => let jump_target := (Rust.wrapping_add imm (TestVM_pc self)) in
    t139 <- TestVM_register p self rs1 ;;
    t140 <- TestVM_register p self rs2 ;;
    if (Rust.lt (Rust.cast Rust.I32 t139) (Rust.cast Rust.I32 t140))
    then (t141 <- Rust.rem jump_target (Rust.lit 4) ;;
      if (Rust.eq t141 (Rust.lit 0)) then let self := (set_TestVM_pc self jump_target) in
      Some self else None)
    else (t142 <- Rust.add p (TestVM_pc self) (Rust.lit 4) ;;
      let self := (set_TestVM_pc self t142) in
      Some self)
    | Inst_BLTU rs1 rs2 imm => let jump_target := (Rust.wrapping_add imm (TestVM_pc self)) in
    t143 <- TestVM_register p self rs1 ;;
    t144 <- TestVM_register p self rs2 ;;
    if (Rust.lt t143 t144)
    then (t145 <- Rust.rem jump_target (Rust.lit 4) ;;
      if (Rust.eq t145 (Rust.lit 0)) then let self := (set_TestVM_pc self jump_target) in
      Some self else None)
    else (t146 <- Rust.add p (TestVM_pc self) (Rust.lit 4) ;;
      let self := (set_TestVM_pc self t146) in
      Some self)
    | Inst_BGE rs1 rs2 imm => let jump_target := (Rust.wrapping_add imm (TestVM_pc self)) in
    t147 <- TestVM_register p self rs1 ;;
    t148 <- TestVM_register p self rs2 ;;
    if (Rust.ge (Rust.cast Rust.I32 t147) (Rust.cast Rust.I32 t148))
    then (t149 <- Rust.rem jump_target (Rust.lit 4) ;;
      if (Rust.eq t149 (Rust.lit 0)) then let self := (set_TestVM_pc self jump_target) in
      Some self else None)
    else (t150 <- Rust.add p (TestVM_pc self) (Rust.lit 4) ;;
      let self := (set_TestVM_pc self t150) in
      Some self)
    | Inst_BGEU rs1 rs2 imm => let jump_target := (Rust.wrapping_add imm (TestVM_pc self)) in
    t151 <- TestVM_register p self rs1 ;;
    t152 <- TestVM_register p self rs2 ;;
    if (Rust.ge t151 t152)
    then (t153 <- Rust.rem jump_target (Rust.lit 4) ;;
      if (Rust.eq t153 (Rust.lit 0)) then let self := (set_TestVM_pc self jump_target) in
      Some self else None)
    else (t154 <- Rust.add p (TestVM_pc self) (Rust.lit 4) ;;
      let self := (set_TestVM_pc self t154) in
      Some self)
    | Inst_LB rs1 rd imm => t155 <- TestVM_register p self rs1 ;;
    let addr := (Rust.wrapping_add t155 imm) in
    t156 <- Memory_read_byte p (TestVM_ram self) (Rust.cast Rust.USize addr) ;;
    let value := (Rust.cast Rust.U32 t156) in
    t157 <- utils_sign_extend p value (Rust.lit 8) ;;
    let value := t157 in
    let t158 := rd in
    t159 <- Rust.store (TestVM_registers self) (Rust.cast Rust.USize (RegisterIndex_0 t158)) value ;;
    let self := (set_TestVM_registers self t159) in
    t160 <- Rust.add p (TestVM_pc self) (Rust.lit 4) ;;
    let self := (set_TestVM_pc self t160) in
    Some self
    | Inst_LH rs1 rd imm => t161 <- TestVM_register p self rs1 ;;
    let addr := (Rust.wrapping_add t161 imm) in
    t162 <- Rust.rem addr (Rust.lit 4) ;;
    t165 <- (if (Rust.eq t162 (Rust.lit 0)) then Some true else t163 <- Rust.sub p addr (Rust.lit 1) ;; t164 <- Rust.rem t163 (Rust.lit 4) ;; Some (Rust.eq t164 (Rust.lit 0))) ;;
    t168 <- (if t165 then Some true else t166 <- Rust.sub p addr (Rust.lit 2) ;; t167 <- Rust.rem t166 (Rust.lit 4) ;; Some (Rust.eq t167 (Rust.lit 0))) ;;
    if t168 then t169 <- Memory_read_half p (TestVM_ram self) (Rust.cast Rust.USize addr) ;;
    let value := (Rust.cast Rust.U32 t169) in
    t170 <- utils_sign_extend p value (Rust.lit 16) ;;
    let value := t170 in
    let t171 := rd in
    t172 <- Rust.store (TestVM_registers self) (Rust.cast Rust.USize (RegisterIndex_0 t171)) value ;;
    let self := (set_TestVM_registers self t172) in
    t173 <- Rust.add p (TestVM_pc self) (Rust.lit 4) ;;
    let self := (set_TestVM_pc self t173) in
    Some self else None
    | Inst_LW rs1 rd imm => t174 <- TestVM_register p self rs1 ;;
    let addr := (Rust.wrapping_add t174 imm) in
    t175 <- Rust.rem addr (Rust.lit 4) ;;
    if (Rust.eq t175 (Rust.lit 0)) then t176 <- Memory_read_word p (TestVM_ram self) (Rust.cast Rust.USize addr) ;;
    let t177 := rd in
    t178 <- Rust.store (TestVM_registers self) (Rust.cast Rust.USize (RegisterIndex_0 t177)) t176 ;;
    let self := (set_TestVM_registers self t178) in
    t179 <- Rust.add p (TestVM_pc self) (Rust.lit 4) ;;
    let self := (set_TestVM_pc self t179) in
    Some self else None
    | Inst_LBU rs1 rd imm => t180 <- TestVM_register p self rs1 ;;
    let addr := (Rust.wrapping_add t180 imm) in
    t181 <- Memory_read_byte p (TestVM_ram self) (Rust.cast Rust.USize addr) ;;
    let t182 := (Rust.cast Rust.U32 t181) in
    let t183 := rd in
    t184 <- Rust.store (TestVM_registers self) (Rust.cast Rust.USize (RegisterIndex_0 t183)) t182 ;;
    let self := (set_TestVM_registers self t184) in
    t185 <- Rust.add p (TestVM_pc self) (Rust.lit 4) ;;
    let self := (set_TestVM_pc self t185) in
    Some self
    | Inst_LHU rs1 rd imm => t186 <- TestVM_register p self rs1 ;;
    let addr := (Rust.wrapping_add t186 imm) in
    t187 <- Rust.rem addr (Rust.lit 4) ;;
    t190 <- (if (Rust.eq t187 (Rust.lit 0)) then Some true else t188 <- Rust.sub p addr (Rust.lit 1) ;; t189 <- Rust.rem t188 (Rust.lit 4) ;; Some (Rust.eq t189 (Rust.lit 0))) ;;
    t193 <- (if t190 then Some true else t191 <- Rust.sub p addr (Rust.lit 2) ;; t192 <- Rust.rem t191 (Rust.lit 4) ;; Some (Rust.eq t192 (Rust.lit 0))) ;;
    if t193 then t194 <- Memory_read_half p (TestVM_ram self) (Rust.cast Rust.USize addr) ;;
    let t195 := (Rust.cast Rust.U32 t194) in
    let t196 := rd in
    t197 <- Rust.store (TestVM_registers self) (Rust.cast Rust.USize (RegisterIndex_0 t196)) t195 ;;
    let self := (set_TestVM_registers self t197) in
    t198 <- Rust.add p (TestVM_pc self) (Rust.lit 4) ;;
    let self := (set_TestVM_pc self t198) in
    Some self else None
    | Inst_SB rs1 rs2 imm => t199 <- TestVM_register p self rs1 ;;
    let addr := (Rust.wrapping_add t199 imm) in
    t200 <- TestVM_register p self rs2 ;;
    t201 <- utils_extract_bits p t200 (Rust.lit 8) ;;
    t202 <- Memory_write_byte p (TestVM_ram self) (Rust.cast Rust.USize addr) (Rust.cast Rust.U8 t201) ;;
    let self := (set_TestVM_ram self t202) in
    t203 <- Rust.add p (TestVM_pc self) (Rust.lit 4) ;;
    let self := (set_TestVM_pc self t203) in
    Some self
    | Inst_SH rs1 rs2 imm => t204 <- TestVM_register p self rs1 ;;
    let addr := (Rust.wrapping_add t204 imm) in
    t205 <- Rust.rem addr (Rust.lit 4) ;;
    t208 <- (if (Rust.eq t205 (Rust.lit 0)) then Some true else t206 <- Rust.sub p addr (Rust.lit 1) ;; t207 <- Rust.rem t206 (Rust.lit 4) ;; Some (Rust.eq t207 (Rust.lit 0))) ;;
    t211 <- (if t208 then Some true else t209 <- Rust.sub p addr (Rust.lit 2) ;; t210 <- Rust.rem t209 (Rust.lit 4) ;; Some (Rust.eq t210 (Rust.lit 0))) ;;
    if t211 then t212 <- TestVM_register p self rs2 ;;
    t213 <- utils_extract_bits p t212 (Rust.lit 16) ;;
    t214 <- Memory_write_half p (TestVM_ram self) (Rust.cast Rust.USize addr) (Rust.cast Rust.U16 t213) ;;
    let self := (set_TestVM_ram self t214) in
    t215 <- Rust.add p (TestVM_pc self) (Rust.lit 4) ;;
    let self := (set_TestVM_pc self t215) in
    Some self else None
    | Inst_SW rs1 rs2 imm => t216 <- TestVM_register p self rs1 ;;
    let addr := (Rust.wrapping_add t216 imm) in
    t217 <- Rust.rem addr (Rust.lit 4) ;;
    if (Rust.eq t217 (Rust.lit 0)) then t218 <- TestVM_register p self rs2 ;;
    t219 <- Memory_write_word p (TestVM_ram self) (Rust.cast Rust.USize addr) t218 ;;
    let self := (set_TestVM_ram self t219) in
    t220 <- Rust.add p (TestVM_pc self) (Rust.lit 4) ;;
    let self := (set_TestVM_pc self t220) in
    Some self else None
    | Inst_MUL rs1 rs2 rd => t221 <- TestVM_register p self rs1 ;;
    t222 <- TestVM_register p self rs2 ;;
    let t223 := (Rust.wrapping_mul t221 t222) in
    let t224 := rd in
    t225 <- Rust.store (TestVM_registers self) (Rust.cast Rust.USize (RegisterIndex_0 t224)) t223 ;;
    let self := (set_TestVM_registers self t225) in
    t226 <- Rust.add p (TestVM_pc self) (Rust.lit 4) ;;
    let self := (set_TestVM_pc self t226) in
    Some self
    | Inst_MULH rs1 rs2 rd => t227 <- TestVM_register p self rs1 ;;
    t228 <- TestVM_register p self rs2 ;;
    t229 <- Rust.shr p (Rust.cast Rust.U64 (Rust.wrapping_mul (Rust.cast Rust.I64 (Rust.cast Rust.I32 t227)) (Rust.cast Rust.I64 (Rust.cast Rust.I32 t228)))) (Rust.lit (t := Rust.I32) 32) ;;
    let t230 := (Rust.cast Rust.U32 t229) in
    let t231 := rd in
    t232 <- Rust.store (TestVM_registers self) (Rust.cast Rust.USize (RegisterIndex_0 t231)) t230 ;;
    let self := (set_TestVM_registers self t232) in
    t233 <- Rust.add p (TestVM_pc self) (Rust.lit 4) ;;
    let self := (set_TestVM_pc self t233) in
    Some self
    | Inst_MULHU rs1 rs2 rd => t234 <- TestVM_register p self rs1 ;;
    t235 <- TestVM_register p self rs2 ;;
    t236 <- Rust.shr p (Rust.wrapping_mul (Rust.cast Rust.U64 t234) (Rust.cast Rust.U64 t235)) (Rust.lit (t := Rust.I32) 32) ;;
    let t237 := (Rust.cast Rust.U32 t236) in
    let t238 := rd in
    t239 <- Rust.store (TestVM_registers self) (Rust.cast Rust.USize (RegisterIndex_0 t238)) t237 ;;
    let self := (set_TestVM_registers self t239) in
    t240 <- Rust.add p (TestVM_pc self) (Rust.lit 4) ;;
    let self := (set_TestVM_pc self t240) in
    Some self
    | Inst_MULHSU rs1 rs2 rd => t241 <- TestVM_register p self rs1 ;;
    t242 <- TestVM_register p self rs2 ;;
    t243 <- Rust.shr p (Rust.cast Rust.U64 (Rust.wrapping_mul (Rust.cast Rust.I64 (Rust.cast Rust.I32 t241)) (Rust.cast Rust.I64 t242))) (Rust.lit (t := Rust.I32) 32) ;;
    let t244 := (Rust.cast Rust.U32 t243) in
    let t245 := rd in
    t246 <- Rust.store (TestVM_registers self) (Rust.cast Rust.USize (RegisterIndex_0 t245)) t244 ;;
    let self := (set_TestVM_registers self t246) in
    t247 <- Rust.add p (TestVM_pc self) (Rust.lit 4) ;;
    let self := (set_TestVM_pc self t247) in
    Some self
    | Inst_DIV rs1 rs2 rd => t248 <- TestVM_register p self rs1 ;;
    t249 <- TestVM_register p self rs2 ;;
    t250 <- Rust.div (Rust.cast Rust.I32 t248) (Rust.cast Rust.I32 t249) ;;
    let t251 := (Rust.cast Rust.U32 t250) in
    let t252 := rd in
    t253 <- Rust.store (TestVM_registers self) (Rust.cast Rust.USize (RegisterIndex_0 t252)) t251 ;;
    let self := (set_TestVM_registers self t253) in
    t254 <- Rust.add p (TestVM_pc self) (Rust.lit 4) ;;
    let self := (set_TestVM_pc self t254) in
    Some self
    | Inst_DIVU rs1 rs2 rd => t255 <- TestVM_register p self rs1 ;;
    t256 <- TestVM_register p self rs2 ;;
    t257 <- Rust.div t255 t256 ;;
    let t258 := rd in
    t259 <- Rust.store (TestVM_registers self) (Rust.cast Rust.USize (RegisterIndex_0 t258)) t257 ;;
    let self := (set_TestVM_registers self t259) in
    t260 <- Rust.add p (TestVM_pc self) (Rust.lit 4) ;;
    let self := (set_TestVM_pc self t260) in
    Some self
    | Inst_REM rs1 rs2 rd => t261 <- TestVM_register p self rs1 ;;
    t262 <- TestVM_register p self rs2 ;;
    t263 <- Rust.rem (Rust.cast Rust.I32 t261) (Rust.cast Rust.I32 t262) ;;
    let t264 := (Rust.cast Rust.U32 t263) in
    let t265 := rd in
    t266 <- Rust.store (TestVM_registers self) (Rust.cast Rust.USize (RegisterIndex_0 t265)) t264 ;;
    let self := (set_TestVM_registers self t266) in
    t267 <- Rust.add p (TestVM_pc self) (Rust.lit 4) ;;
    let self := (set_TestVM_pc self t267) in
    Some self
    | Inst_REMU rs1 rs2 rd => t268 <- TestVM_register p self rs1 ;;
    t269 <- TestVM_register p self rs2 ;;
    t270 <- Rust.rem t268 t269 ;;
    let t271 := rd in
    t272 <- Rust.store (TestVM_registers self) (Rust.cast Rust.USize (RegisterIndex_0 t271)) t270 ;;
    let self := (set_TestVM_registers self t272) in
    t273 <- Rust.add p (TestVM_pc self) (Rust.lit 4) ;;
    let self := (set_TestVM_pc self t273) in
    Some self
    end) ;;
  let t274 := (Rust.lit 0) in
  let t275 := (mk_RegisterIndex (Rust.lit 0)) in
  t276 <- Rust.store (TestVM_registers self) (Rust.cast Rust.USize (RegisterIndex_0 t275)) t274 ;;
  let self := (set_TestVM_registers self t276) in
  Some self.

(** compiler/src/interpreter/testvm.rs:404-411 *)
Definition TestVM_execute (p : Rust.profile) (fuel : nat) (self : TestVM) : option TestVM :=
  let counter := (Rust.lit 0) in
  '(self, counter) <- Rust.while fuel (fun '(self, counter) => Some (Rust.lt counter (TestVM_max_cycles self))) (fun '(self, counter) => t1 <- TestVM_run p self  ;;
    let self := t1 in
    t2 <- Rust.add p counter (Rust.lit 1) ;;
    let counter := t2 in
    Some (self, counter)) (self, counter) ;;
  Some self.

(** compiler/src/interpreter/testvm.rs:1151-1158 *)
Definition TestVM_read_input_tape (p : Rust.profile) (self : TestVM) (tape : (list u8)) : option TestVM :=
  if (Rust.eq (Rust.len tape) (Rust.cast Rust.USize (InputInfo_size (TestVM_input_info self)))) then t1 <- Memory_load_memory p (TestVM_ram self) (InputInfo_start_addr (TestVM_input_info self)) tape ;;
  let self := (set_TestVM_ram self t1) in
  Some self else None.

(** compiler/src/interpreter/testvm.rs:1160-1173 *)
Definition TestVM_output_tape (p : Rust.profile) (self : TestVM) : option (list u8) :=
  let output := [] in
  output <- Rust.for_range (Rust.lit 0) (OutputInfo_size (TestVM_output_info self)) (fun i output => t1 <- Rust.add p (OutputInfo_start_addr (TestVM_output_info self)) i ;;
    t2 <- Memory_read_byte p (TestVM_ram self) (Rust.cast Rust.USize t1) ;;
    let output := (Rust.push output t2) in
    Some output) output ;;
  Some output.
