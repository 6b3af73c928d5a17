(** * What the encrypted VM computes, on plain words

    [xcycle] is a word-level description of a cycle of the encrypted VM, exact
    for every program (including what is wrong or surprising about it); it is
    written without bit planes, rotations, circuits, threads or schedules, and
    with the specifications [rd_spec] and [pc_spec] of the ISA. *)
Require Import ZArith List Bool.
Require Import Verif.Word Verif.Isa Verif.Codec Verif.EvalSpec Verif.EvalPlain Verif.DebugVM Verif.Bdd Verif.Glwe Verif.Par
  Verif.EncMem Verif.MemSpec Verif.Prepare Verif.EncVM.
Import ListNotations.
Open Scope Z_scope.

(** a prepared integer holds the word [w] *)
Definition prepared (l : list bool) (w : Z) : Prop := length l = 32%nat /\ pack_bits l = w.

(** ** the operations *)
(** the value of RD operation [o]: the ISA's, except that LB does not extend the sign *)
Definition rd_enc (o : rd_op) (imm x y pc ram : Z) : option Z :=
  rd_spec (match o with RLB => RLBU | _ => o end) imm x y pc ram.
(** the operation selected by an id: the one with that id, or none *)
Definition by_id {O} (id : O -> Z) (k : Z) (ops : list O) : option O := find (fun o => id o =? k) ops.
Definition rd_sel (k : Z) (imm x y pc ram : Z) : Z :=
  match by_id rd_id k RD_RV32I with
  | Some o => match rd_enc o imm x y pc ram with Some v => v | None => 0 end
  | None => 0
  end.
Definition ram_sel (k : Z) (y ram off : Z) : Z :=
  match by_id ram_id k RAM_LIST with Some o => ram_eval o y ram off | None => 0 end.
(** the pc circuit sees 20 bits of the immediate *)
Definition pc_sel (k : Z) (imm x y pc : Z) : Z :=
  match by_id pc_id k PC_LIST with Some o => pc_spec o (to_word (signed 20 imm)) x y pc | None => 0 end.

(** ** the machine *)
Record xvm := XVM {
  x_cycle : Z; x_rom : roms; x_regs : list Z; x_ram : list Z;
  x_pc : Z;       (* the encrypted pc *)
  x_last : Z }.   (* the pc the last cycle worked with *)

(** the decoded fields of one cycle; [rb], [mb]: address bits of ROM and RAM *)
Record fields := Fields {
  f_pc : Z; f_imm : Z; f_rs1 : Z; f_rs2 : Z; f_rd : Z; f_rdu : Z; f_mu : Z; f_pcu : Z;
  f_x : Z; f_y : Z; f_addr : Z; f_slot : nat; f_loaded : Z }.
Definition xfields (rb mb : nat) (s : xvm) : fields :=
  let pc := if x_cycle s =? 0 then x_last s else x_pc s mod 2 ^ (Z.of_nat rb + 2) in
  let k := Z.to_nat (pc / 4) in
  let r := x_rom s in
  let imm := nth k (imm_rom r) 0 in
  let x := nth (Z.to_nat (nth k (rs1_rom r) 0 mod 32)) (x_regs s) 0 in
  let y := nth (Z.to_nat (nth k (rs2_rom r) 0 mod 32)) (x_regs s) 0 in
  let addr := to_word (imm + x - 2 ^ 18) in
  let slot := Z.to_nat (addr / 4 mod 2 ^ Z.of_nat mb) in
  {| f_pc := pc; f_imm := imm; f_rs1 := nth k (rs1_rom r) 0; f_rs2 := nth k (rs2_rom r) 0;
     f_rd := nth k (rd_rom r) 0; f_rdu := nth k (rdu_rom r) 0; f_mu := nth k (mu_rom r) 0;
     f_pcu := nth k (pcu_rom r) 0; f_x := x; f_y := y; f_addr := addr; f_slot := slot;
     f_loaded := nth slot (x_ram s) 0 |}.
Definition f_result (f : fields) : Z := rd_sel (f_rdu f mod 32) (f_imm f) (f_x f) (f_y f) (f_pc f) (f_loaded f).
Definition f_stored (f : fields) : Z := ram_sel (f_mu f mod 4) (f_y f) (f_loaded f) (f_addr f mod 4).
Definition xcycle (rb mb : nat) (s : xvm) : xvm :=
  let f := xfields rb mb s in
  {| x_cycle := to_word (x_cycle s + 1); x_rom := x_rom s;
     x_regs := put_word (put_word (x_regs s) (Z.to_nat (f_rd f mod 32)) (f_result f)) 0 0;
     x_ram := put_word (x_ram s) (f_slot f) (f_stored f);
     x_pc := pc_sel (f_pcu f mod 16) (f_imm f) (f_x f) (f_y f) (f_pc f);
     x_last := f_pc f |}.
Fixpoint xcycles (rb mb n : nat) (s : xvm) : xvm :=
  match n with O => s | S n' => xcycles rb mb n' (xcycle rb mb s) end.

(** ** the shadow VM's assertions, on words *)
Definition check (on : bool) (d : option dvm) (st : dvm -> option dvm) (same : dvm -> bool) : option (option dvm) :=
  match d with
  | Some v => if on then do v' <- st v; assert (same v'); Some (Some v') else Some d
  | None => Some None
  end.
Definition xdebug (rb mb : nat) (on : bool) (s : xvm) (d : option dvm) : option (option dvm) :=
  let f := xfields rb mb s in
  let s' := xcycle rb mb s in
  do d1 <- check on d read_instructions (fun v => let l := lat v in
      (f_pc f =? dpc v) && (f_imm f =? imm l) && (f_rs1 f =? rs1_addr l) && (f_rs2 f =? rs2_addr l) &&
      (f_rd f =? rd_addr l) && (f_rdu f =? rdu l) && (f_mu f =? mu l) && (f_pcu f =? pcu l));
  do d2 <- check on d1 read_registers (fun v => (f_x f =? rs1_val (lat v)) && (f_y f =? rs2_val (lat v)));
  do d3 <- check on d2 read_ram (fun v => (f_addr f =? ram_addr (lat v)) && (f_loaded f =? ram_val (lat v)));
  do d4 <- check on d3 (update_registers RD_RV32I) (fun v =>
      (f_result f =? rd_val (lat v)) && eqb_list (x_regs s') (dregs v));
  do d5 <- check on d4 update_ram (fun v => (f_stored f =? ram_val (lat v)) && eqb_list (x_ram s') (dram v));
  check on d5 update_pc (fun v => x_pc s' =? dpc v).

(** ** when a VM state shows a machine state *)
Definition rom_holds (log : nat) (er : eroms poly) (r : roms) : Prop :=
  holds log (e_imm er) (imm_rom r) /\ holds log (e_rs1 er) (rs1_rom r) /\ holds log (e_rs2 er) (rs2_rom r) /\
  holds log (e_rd er) (rd_rom r) /\ holds log (e_rdu er) (rdu_rom r) /\ holds log (e_mu er) (mu_rom r) /\
  holds log (e_pcu er) (pcu_rom r).
Definition rom_len (n : nat) (r : roms) : Prop :=
  length (imm_rom r) = n /\ length (rs1_rom r) = n /\ length (rs2_rom r) = n /\ length (rd_rom r) = n /\
  length (rdu_rom r) = n /\ length (mu_rom r) = n /\ length (pcu_rom r) = n.
(** RAM has [2^mb] words, ROM at most [2^rb] entries, both with byte addresses
    of at most 32 bits; every pc operation is one of the nine. *)
Definition shows (log rb mb : nat) (v : evm poly bool (list Z)) (s : xvm) : Prop :=
  rom_holds log (v_rom v) (x_rom s) /\ rom_len (v_rom_size v) (x_rom s) /\
  bit_len_pred (Z.of_nat (v_rom_size v)) = Some rb /\ v_rom_bits v = rb /\ (rb <= 30)%nat /\
  Forall (fun k => In (k mod 16) (map pc_id PC_LIST)) (pcu_rom (x_rom s)) /\
  holds log (v_regs v) (x_regs s) /\ length (x_regs s) = 32%nat /\
  holds log (v_ram v) (x_ram s) /\ length (x_ram s) = (2 ^ mb)%nat /\ v_ram_size v = (2 ^ mb)%nat /\
  v_ram_bits v = mb /\ (mb <= 30)%nat /\
  enc_of (v_pc v) (x_pc s) /\ prepared (v_pcp v) (x_last s) /\
  v_cycle v = x_cycle s /\ 0 <= x_cycle s < 4294967296 /\
  (x_cycle s = 0 -> x_last s / 4 < 2 ^ Z.of_nat rb).

(** schedules of the fifteen parallel regions of a cycle *)
Definition env_ok (e : env) : Prop :=
  (forall i, (i < 15)%nat -> i <> 7%nat -> i <> 10%nat -> par_order (n_threads e) 32 (sched e i)) /\
  par_order (n_threads e) 58 (sched e 7) /\ par_order (n_threads e) 64 (sched e 10).

(** ** what the owner of the key sees *)
Definition dec_regs (v : evm poly bool (list Z)) : option (list Z) := mem_decrypt (v_regs v) (repeat 0 32).
Definition dec_ram (v : evm poly bool (list Z)) : option (list Z) := ram_decrypt v (repeat 0 (v_ram_size v)).
Definition dec_pc (v : evm poly bool (list Z)) : Z := decrypt_word (v_pc v).

(** ** following the shadow VM *)
(** the pc the next cycle starts from *)
Definition x_next (s : xvm) : Z := if x_cycle s =? 0 then x_last s else x_pc s.
Definition follows (mb : nat) (s : xvm) (d : dvm) : Prop :=
  x_rom s = drom d /\ x_regs s = dregs d /\ x_ram s = dram d /\ x_next s = dpc d /\ ram_size d = 2 ^ Z.of_nat mb.
(** The instruction the shadow VM is about to execute is one the encrypted VM
    evaluates like the shadow: LB only of bytes below 128 (its sign extension is
    missing), jumps and branches only with an offset of 20 bits (the pc circuit
    reads no more). *)
Definition agrees_on (d : dvm) : Prop :=
  let k := Z.to_nat (dpc d / 4) in
  let r := drom d in
  let imm := nth k (imm_rom r) 0 in
  let x := nth (Z.to_nat (nth k (rs1_rom r) 0)) (dregs d) 0 in
  (nth k (rdu_rom r) 0 = rd_id RLB ->
   byte 0 (nth (Z.to_nat (to_word (imm + x - 2 ^ 18) / 4 mod ram_size d)) (dram d) 0) < 128) /\
  (nth k (pcu_rom r) 0 <> pc_id PNONE -> imm = to_word (signed 20 imm)).
Fixpoint agrees (n : nat) (d : dvm) : Prop :=
  match n with
  | O => True
  | S n' => agrees_on d /\ forall d', dcycle RD_RV32I d = Some d' -> agrees n' d'
  end.

(** ** loading *)
(** [Interpreter::new] or [new_with_debug], then [instructions_encrypt_sk] and
    [ram_encrypt_sk] (compiler/src/interpreter.rs:327-397) *)
Definition load (log : nat) (dbg debug : bool) (rom_words ram_words : nat) (p : parser) (ram : list Z)
    : option (evm poly bool (list Z)) :=
  do v <- evm_new (Ideal log) debug rom_words ram_words;
  do v <- instructions_encrypt log dbg v p;
  ram_encrypt log v ram.
(** the tables of a program, zero beyond its end *)
Definition pad_roms (n : nat) (r : roms) : roms :=
  {| imm_rom := table n (imm_rom r); rs1_rom := table n (rs1_rom r); rs2_rom := table n (rs2_rom r);
     rd_rom := table n (rd_rom r); rdu_rom := table n (rdu_rom r); mu_rom := table n (mu_rom r);
     pcu_rom := table n (pcu_rom r) |}.
(** the machine it starts as *)
Definition xstart (rom_words ram_words : nat) (r : roms) (ram : list Z) : xvm :=
  {| x_cycle := 0; x_rom := pad_roms rom_words r; x_regs := repeat 0 32;
     x_ram := table ram_words ram; x_pc := 0; x_last := 0 |}.
