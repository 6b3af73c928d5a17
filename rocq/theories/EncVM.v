(** * The encrypted VM

    Model of fhevm/src/interpreter.rs over the library signature.  Timing
    measurements, noise estimates and printing are left out.  The ciphertext
    buffers of the struct that every cycle overwrites before reading them are
    local values here; [pc_fhe_uint] and [pc_fhe_uint_prepared], which survive a
    cycle, are part of the state. *)
Require Import ZArith List Bool.
Require Import Verif.Word Verif.Codec Verif.EvalPlain Verif.DebugVM Verif.Bdd Verif.Glwe Verif.Par Verif.EncMem
  Verif.Prepare Verif.EncEval.
Import ListNotations.
Open Scope nat_scope.

(** interpreter.rs:53-59 *)
Record eroms (ct : Type) := ERoms {
  e_imm : memory ct; e_rs1 : memory ct; e_rs2 : memory ct; e_rd : memory ct;
  e_rdu : memory ct; e_mu : memory ct; e_pcu : memory ct }.
Arguments ERoms {ct}. Arguments e_imm {ct}. Arguments e_rs1 {ct}. Arguments e_rs2 {ct}. Arguments e_rd {ct}.
Arguments e_rdu {ct}. Arguments e_mu {ct}. Arguments e_pcu {ct}.
(** interpreter.rs:41-108.  The instruction set is always RV32I (interpreter.rs:166). *)
Record evm (ct pb fu : Type) := EVM {
  v_cycle : Z; v_debug : option dvm;
  v_rom_bits : nat; v_rom_size : nat; v_rom : eroms ct;
  v_regs : memory ct;
  v_ram_bits : nat; v_ram_size : nat; v_ram : memory ct;
  v_pc : fu; v_pcp : list pb }.
Arguments EVM {ct pb fu}. Arguments v_cycle {ct pb fu}. Arguments v_debug {ct pb fu}.
Arguments v_rom_bits {ct pb fu}. Arguments v_rom_size {ct pb fu}. Arguments v_rom {ct pb fu}.
Arguments v_regs {ct pb fu}. Arguments v_ram_bits {ct pb fu}. Arguments v_ram_size {ct pb fu}.
Arguments v_ram {ct pb fu}. Arguments v_pc {ct pb fu}. Arguments v_pcp {ct pb fu}.

(** The secret key of [cycle_debug], by what it is used for: decrypting an
    encrypted integer, a prepared integer, a memory. *)
Record secret (ct pb fu : Type) := Secret {
  s_fu : fu -> Z; s_pb : list pb -> Z; s_mem : memory ct -> list Z -> option (list Z) }.
Arguments Secret {ct pb fu}. Arguments s_fu {ct pb fu}. Arguments s_pb {ct pb fu}. Arguments s_mem {ct pb fu}.

(** How one cycle is run: the number of threads ([set_threads]) and, for each
    of its parallel regions, the order in which the tasks happen to run. *)
Record env := Env { n_threads : nat; sched : nat -> list task }.

Section VM.
Context {ct pb fu : Type} (A : alg ct pb fu).

(** interpreter.rs:129-249 *)
Definition evm_new (debug : bool) (rom_size ram_size : nat) : option (evm ct pb fu) :=
  do m <- mem_alloc A 32 rom_size;
  do regs <- mem_alloc A 32 32;
  do ram <- mem_alloc A 32 ram_size;
  do ram_bits <- bit_len_pred (Z.of_nat ram_size);
  do rom_bits <- bit_len_pred (Z.of_nat rom_size);
  Some {| v_cycle := 0; v_debug := if debug then Some (dvm_new rom_size ram_size) else None;
          v_rom_bits := rom_bits; v_rom_size := rom_size; v_rom := ERoms m m m m m m m;
          v_regs := regs; v_ram_bits := ram_bits; v_ram_size := ram_size; v_ram := ram;
          v_pc := a_fzero A; v_pcp := repeat (a_pzero A) 32 |}.

(** the decrypted-versus-shadow comparison at the end of a stage: [st] advances
    the shadow VM, [same] are the assertions.  Only with a key and a shadow VM
    (interpreter.rs:777, 960, 1057, 1202, 1347, 1416). *)
Definition shadow (sk : option (secret ct pb fu)) (d : option dvm) (st : dvm -> option dvm)
    (same : secret ct pb fu -> dvm -> bool) : option (option dvm) :=
  match sk, d with
  | Some k, Some v => do v' <- st v; assert (same k v'); Some (Some v')
  | _, _ => Some d
  end.
Fixpoint eqb_list (xs ys : list Z) : bool :=
  match xs, ys with
  | [], [] => true
  | x :: xs', y :: ys' => (x =? y)%Z && eqb_list xs' ys'
  | _, _ => false
  end.

Variables (sk : option (secret ct pb fu)) (e : env).
Notation t := (n_threads e).
Notation s := (sched e).

(** [prepare_custom_multi_thread(.., 0, count, ..)]; a count above 32 panics *)
Definition prepare_low (w : fu) (count : nat) : option (list pb) :=
  assert (count <=? 32); Some (prepare_custom A w count).
(** destinations of [prepare_multiple_fheuint]: their old content is replaced *)
Definition fresh (n : nat) : list (list pb) := repeat (repeat (a_pzero A) 32) n.

(** values passed between the stages of a cycle *)
Record parts := Parts {
  p_rdu : list pb; p_mu : list pb; p_pcu : list pb; p_imm : list pb;
  p_rs1 : list pb; p_rs2 : list pb; p_rd : list pb }.

(** interpreter.rs:629-889 *)
Definition read_components (d : option dvm) (r : eroms ct) (pcp : list pb)
    : option (eroms ct * option dvm * parts) :=
  do (m_imm, imm) <- mem_read_stateless A t (s 0) (e_imm r) pcp 2;
  do (m_rdu, rdu) <- mem_read_stateless A t (s 1) (e_rdu r) pcp 2;
  do (m_mu, mu) <- mem_read_stateless A t (s 2) (e_mu r) pcp 2;
  do (m_pcu, pcu) <- mem_read_stateless A t (s 3) (e_pcu r) pcp 2;
  do (m_rs1, rs1) <- mem_read_stateless A t (s 4) (e_rs1 r) pcp 2;
  do (m_rs2, rs2) <- mem_read_stateless A t (s 5) (e_rs2 r) pcp 2;
  do (m_rd, rd) <- mem_read_stateless A t (s 6) (e_rd r) pcp 2;
  do rd_ops_bits <- bit_len_pred (Z.of_nat (length RD_RV32I));
  do ram_ops_bits <- bit_len_pred (Z.of_nat (length RAM_LIST));
  do ps <- prepare_multiple A t (s 7) (fresh 7) [rdu; mu; pcu; imm; rs1; rs2; rd]
             [rd_ops_bits; ram_ops_bits; 4; 32; 5; 5; 5];
  do d' <- shadow sk d read_instructions (fun k v => let l := lat v in
      (s_pb k pcp =? dpc v)%Z && (s_fu k imm =? DebugVM.imm l)%Z &&
      (s_fu k rs1 =? rs1_addr l)%Z && (s_fu k rs2 =? rs2_addr l)%Z && (s_fu k rd =? rd_addr l)%Z &&
      (s_fu k rdu =? DebugVM.rdu l)%Z && (s_fu k mu =? DebugVM.mu l)%Z && (s_fu k pcu =? DebugVM.pcu l)%Z);
  match ps with
  | [q_rdu; q_mu; q_pcu; q_imm; q_rs1; q_rs2; q_rd] =>
      Some (ERoms m_imm m_rs1 m_rs2 m_rd m_rdu m_mu m_pcu, d', Parts q_rdu q_mu q_pcu q_imm q_rs1 q_rs2 q_rd)
  | _ => None
  end.

(** interpreter.rs:891-984: (registers, shadow, rs2 value, prepared rs1 and rs2 values) *)
Definition read_regs (d : option dvm) (regs : memory ct) (p : parts)
    : option (memory ct * option dvm * fu * list pb * list pb) :=
  do (regs1, v1) <- mem_read_stateless A t (s 8) regs (p_rs1 p) 0;
  do (regs2, v2) <- mem_read_stateless A t (s 9) regs1 (p_rs2 p) 0;
  do ps <- prepare_multiple A t (s 10) (fresh 2) [v1; v2] [32; 32];
  do d' <- shadow sk d read_registers (fun k v => let l := lat v in
      (s_fu k v1 =? rs1_val l)%Z && (s_fu k v2 =? rs2_val l)%Z);
  match ps with
  | [q1; q2] => Some (regs2, d', v2, q1, q2)
  | _ => None
  end.

(** interpreter.rs:986-1090: (ram, shadow, loaded value, prepared address) *)
Definition read_ram_enc (d : option dvm) (ram : memory ct) (ram_bits : nat) (p : parts) (rs1 : list pb)
    : option (memory ct * option dvm * fu * list pb) :=
  let addr := ram_offset_enc A (p_imm p) rs1 in
  do pa <- prepare_low addr (ram_bits + 2);
  do (ram', v) <- mem_read_statefull A t (s 11) ram pa 2;
  do d' <- shadow sk d read_ram (fun k w => let l := lat w in
      (s_fu k addr =? ram_addr l)%Z && (s_fu k v =? ram_val l)%Z);
  Some (ram', d', v, pa).

(** interpreter.rs:1092-1241 *)
Definition update_regs (ops : list rd_op) (d : option dvm) (regs : memory ct) (p : parts)
    (rs1 rs2 pcp : list pb) (loaded : fu) : option (memory ct * option dvm) :=
  do m <- eval_all rd_id (fun o => rd_eval_enc A o rs1 rs2 (p_imm p) pcp loaded) ops;
  do bits <- bit_len_pred (Z.of_nat (length ops));
  do v0 <- blind_select A m (p_rdu p) 0 bits;
  do q <- prepare_low v0 32;
  let v := a_ident A q in
  do regs1 <- mem_write A t (s 12) regs v (p_rd p) 0;
  do regs2 <- mem_zero A t (s 13) regs1 0;
  do d' <- shadow sk d (update_registers ops) (fun k w =>
      (s_fu k v =? rd_val (lat w))%Z &&
      match s_mem k regs2 (repeat 0%Z 32) with Some have => eqb_list have (dregs w) | None => false end);
  Some (regs2, d').

(** interpreter.rs:1243-1376 *)
Definition update_ram_enc (d : option dvm) (ram : memory ct) (ram_size : nat) (p : parts)
    (rs2 loaded : fu) (pa : list pb) : option (memory ct * option dvm) :=
  do m <- eval_all ram_id (fun o => ram_eval_enc A o rs2 loaded pa) RAM_LIST;
  do bits <- bit_len_pred (Z.of_nat (length RAM_LIST));
  do v0 <- blind_select A m (p_mu p) 0 bits;
  do q <- prepare_low v0 32;
  let v := a_ident A q in
  do ram' <- mem_read_statefull_rev A t (s 14) ram v pa 2;
  do d' <- shadow sk d update_ram (fun k w =>
      (s_fu k v =? ram_val (lat w))%Z &&
      match s_mem k ram' (repeat 0%Z ram_size) with Some have => eqb_list have (dram w) | None => false end);
  Some (ram', d').

(** interpreter.rs:1378-1430 *)
Definition update_pc_stage (d : option dvm) (p : parts) (rs1 rs2 pcp : list pb) : option (fu * option dvm) :=
  let pc := update_pc_enc A rs1 rs2 pcp (p_imm p) (p_pcu p) in
  do d' <- shadow sk d update_pc (fun k w => (s_fu k pc =? dpc w)%Z);
  Some (pc, d').

(** interpreter.rs:487-627.  [chk]: overflow checks; the cycle counter is a [u32]. *)
Definition ecycle (chk : bool) (v : evm ct pb fu) : option (evm ct pb fu) :=
  do pcp <- (if (v_cycle v =? 0)%Z then Some (v_pcp v) else prepare_low (v_pc v) (v_rom_bits v + 2));
  do (rom, d1, p) <- read_components (v_debug v) (v_rom v) pcp;
  do (regs1, d2, rs2_fu, rs1, rs2) <- read_regs d1 (v_regs v) p;
  do (ram1, d3, loaded, pa) <- read_ram_enc d2 (v_ram v) (v_ram_bits v) p rs1;
  do (regs2, d4) <- update_regs RD_RV32I d3 regs1 p rs1 rs2 pcp loaded;
  do (ram2, d5) <- update_ram_enc d4 ram1 (v_ram_size v) p rs2_fu loaded pa;
  do (pc, d6) <- update_pc_stage d5 p rs1 rs2 pcp;
  assert (negb chk || (v_cycle v + 1 <? 4294967296)%Z);
  Some {| v_cycle := u32 (v_cycle v + 1); v_debug := d6;
          v_rom_bits := v_rom_bits v; v_rom_size := v_rom_size v; v_rom := rom;
          v_regs := regs2; v_ram_bits := v_ram_bits v; v_ram_size := v_ram_size v; v_ram := ram2;
          v_pc := pc; v_pcp := pcp |}.
End VM.
Arguments Parts {pb}. Arguments p_rdu {pb}. Arguments p_mu {pb}. Arguments p_pcu {pb}. Arguments p_imm {pb}.
Arguments p_rs1 {pb}. Arguments p_rs2 {pb}. Arguments p_rd {pb}.

(** [EncryptedVM::execute] (compiler/src/interpreter.rs:121-138): one [cycle]
    per step, each in its own environment *)
Fixpoint ecycles {ct pb fu} (A : alg ct pb fu) (sk : option (secret ct pb fu)) (chk : bool) (es : list env)
    (v : evm ct pb fu) : option (evm ct pb fu) :=
  match es with
  | [] => Some v
  | e :: r => do v' <- ecycle A sk e chk v; ecycles A sk chk r v'
  end.

(** ** the client side (ideal functionality) *)
Section Client.
Variable log : nat.
Notation vm := (evm poly bool (list Z)).

Definition secret_key : secret poly bool (list Z) := Secret decrypt_word pack_bits mem_decrypt.

(** interpreter.rs:283-300: tables of [rom_size] entries filled from the
    program; a program longer than the ROM indexes out of bounds *)
Definition table (rom_size : nat) (col : list Z) : list Z := col ++ repeat 0%Z (rom_size - length col).
(** interpreter.rs:263-359 *)
Definition instructions_encrypt (dbg : bool) (v : vm) (p : parser) : option vm :=
  do d <- match v_debug v with Some d => do d' <- set_instructions dbg d p; Some (Some d') | None => Some None end;
  assert (length (p_ins p) <=? length (p_raw p));
  do r <- fill dbg (firstn (length (p_ins p)) (p_raw p));
  assert (length (p_ins p) <=? v_rom_size v);
  let tb := table (v_rom_size v) in
  let er := v_rom v in
  do m1 <- mem_encrypt log (e_rs1 er) (tb (rs1_rom r));
  do m2 <- mem_encrypt log (e_rs2 er) (tb (rs2_rom r));
  do m3 <- mem_encrypt log (e_rd er) (tb (rd_rom r));
  do m4 <- mem_encrypt log (e_imm er) (tb (imm_rom r));
  do m5 <- mem_encrypt log (e_rdu er) (tb (rdu_rom r));
  do m6 <- mem_encrypt log (e_mu er) (tb (mu_rom r));
  do m7 <- mem_encrypt log (e_pcu er) (tb (pcu_rom r));
  Some {| v_cycle := v_cycle v; v_debug := d; v_rom_bits := v_rom_bits v; v_rom_size := v_rom_size v;
          v_rom := ERoms m4 m1 m2 m3 m5 m6 m7;
          v_regs := v_regs v; v_ram_bits := v_ram_bits v; v_ram_size := v_ram_size v; v_ram := v_ram v;
          v_pc := v_pc v; v_pcp := v_pcp v |}.
(** interpreter.rs:361-376 *)
Definition init_registers (v : vm) (data : list Z) : option vm :=
  do m <- mem_encrypt log (v_regs v) data;
  Some {| v_cycle := v_cycle v; v_debug := v_debug v; v_rom_bits := v_rom_bits v; v_rom_size := v_rom_size v;
          v_rom := v_rom v; v_regs := m; v_ram_bits := v_ram_bits v; v_ram_size := v_ram_size v; v_ram := v_ram v;
          v_pc := v_pc v; v_pcp := v_pcp v |}.
(** interpreter.rs:378-399 *)
Definition ram_encrypt (v : vm) (data : list Z) : option vm :=
  assert (length data <=? m_size (v_ram v));
  do d <- match v_debug v with Some d => do d' <- set_ram d data; Some (Some d') | None => Some None end;
  do m <- mem_encrypt log (v_ram v) data;
  Some {| v_cycle := v_cycle v; v_debug := d; v_rom_bits := v_rom_bits v; v_rom_size := v_rom_size v;
          v_rom := v_rom v; v_regs := v_regs v; v_ram_bits := v_ram_bits v; v_ram_size := v_ram_size v; v_ram := m;
          v_pc := v_pc v; v_pcp := v_pcp v |}.
(** interpreter.rs:401-416 *)
Definition ram_decrypt (v : vm) (data : list Z) : option (list Z) :=
  assert (length data =? m_size (v_ram v)); mem_decrypt (v_ram v) data.
End Client.
