(** * Scratch space of a whole cycle

    Every block of a cycle of the encrypted VM works in the same scratch
    space, one after the other.  This file models the space only, as
    [Scratch] does for the memory operations: a function takes the bytes
    available and is [None] if it panics for lack of space (or because
    there are no threads).

    How much the library's operations need is not in /repo and is a
    parameter ([cycle_costs]); for its multi-threaded operations that is a
    function of the number of threads.  Simplified as in [Scratch]: one
    thread stands for all, the alignment of pieces taken is ignored; words
    of all kinds have the same layout (they have: interpreter.rs:183-247
    allocates them from the same infos). *)
Require Import ZArith List Bool.
From Verif Require Import Word Codec EvalPlain Scratch.
Import ListNotations.
Open Scope Z_scope.

Record cycle_costs := {
  y_rom : costs;               (* the memories: the seven ROMs, *)
  y_reg : costs;               (* the registers, *)
  y_ram : costs;               (* the RAM *)
  y_prepare : Z -> Z -> Z;     (* prepare_custom_multi_thread of that many bits by that many threads *)
  y_bits : Z;                  (* fhe_uint_prepare_tmp_bytes for one thread *)
  y_ggsw : Z; y_lwe : Z;       (* take_ggsw, take_lwe *)
  y_bit_lwe : Z; y_cbt : Z; y_fill : Z; (* get_bit_lwe, execute_to_constant, prepare *)
  y_word : Z; y_pack : Z;      (* a word of `take_glwe_slice`; FheUint::pack *)
  y_offset : Z -> Z; y_pcu : Z -> Z;    (* execute_bdd_circuit_multi_thread of the two circuits *)
  y_alu : rd_op -> Z -> Z;     (* the multi-threaded circuit of an operation *)
  y_identity : Z -> Z;         (* identity_multi_thread *)
  y_zero_byte : Z; y_sext : Z; y_splice8 : Z; y_splice16 : Z;
  y_blind : Z -> Z;            (* glwe_blind_selection by that many bits *)
  y_decrypt_bits : Z; y_decrypt : Z; y_noise : Z (* the comparison with the debug VM *) }.

(** prepare.rs:55-127 *)
Definition prepare_multiple_space (y : cycle_costs) (threads avail : Z) : option unit :=
  let size := y_bits y in
  do _ <- need avail (threads * size) ;
  do _ <- chunked threads ;
  do a <- take size (y_ggsw y) ;
  do b <- take a (y_lwe y) ;
  do _ <- need b (y_bit_lwe y) ;
  do _ <- need b (y_cbt y) ;
  need b (y_fill y).
(** ram_offset.rs:41-53, pc_update.rs:56-67: the 32 bits are taken first; the circuit and the
    packing use the rest. *)
Definition circuit_space (y : cycle_costs) (circuit avail : Z) : option unit :=
  do a <- take avail (32 * y_word y) ;
  do _ <- need a circuit ;
  need a (y_pack y).
(** rd_update.rs:109-163 *)
Definition rd_space (y : cycle_costs) (o : rd_op) (threads avail : Z) : option unit :=
  match o with
  | RNONE | RLW => Some tt
  | RLB | RLBU =>
      do _ <- need avail (y_zero_byte y) ; do _ <- need avail (y_zero_byte y) ; need avail (y_zero_byte y)
  | RLH =>
      do _ <- need avail (y_zero_byte y) ; do _ <- need avail (y_zero_byte y) ; need avail (y_sext y)
  | RLHU => do _ <- need avail (y_zero_byte y) ; need avail (y_zero_byte y)
  | RMUL | RMULH | RMULHSU | RMULHU | RDIV | RDIVU | RREM | RREMU => None
  | _ => need avail (y_alu y o threads)
  end.
(** ram_update.rs:76-113 *)
Definition ram_space (y : cycle_costs) (o : ram_op) (avail : Z) : option unit :=
  match o with
  | MNONE | MSW => Some tt
  | MSB => do _ <- need avail (y_splice8 y) ; need avail (y_blind y 2)
  | MSH => do _ <- need avail (y_splice16 y) ; need avail (y_blind y 2)
  end.

Fixpoint in_turn (l : list (option unit)) : option unit :=
  match l with [] => Some tt | o :: l' => do _ <- o ; in_turn l' end.

(** The comparisons with the debug VM: interpreter.rs:778-888 and the ends of the other blocks. *)
Definition checks_space (y : cycle_costs) (prepared : bool) (avail : Z) : option unit :=
  do _ <- (if prepared then need avail (y_decrypt_bits y) else Some tt) ;
  do _ <- need avail (y_decrypt y) ;
  need avail (y_noise y).

(** interpreter.rs:662-776 *)
Definition instruction_space (y : cycle_costs) (threads avail : Z) : option unit :=
  do _ <- in_turn (repeat (read_stateless_space (y_rom y) threads avail) 7) ;
  prepare_multiple_space y threads avail.
(** interpreter.rs:922-957 *)
Definition registers_space (y : cycle_costs) (threads avail : Z) : option unit :=
  do _ <- in_turn (repeat (read_stateless_space (y_reg y) threads avail) 2) ;
  prepare_multiple_space y threads avail.
(** interpreter.rs:1017-1055 *)
Definition read_ram_space (y : cycle_costs) (log ram_bits threads avail : Z) : option unit :=
  do _ <- circuit_space y (y_offset y threads) avail ;
  do _ <- need avail (y_prepare y (ram_bits + 2) threads) ;
  read_statefull_space (y_ram y) log ram_bits threads avail.
(** interpreter.rs:1126-1194; the operations are 29, so five bits select *)
Definition update_registers_space (y : cycle_costs) (log reg_bits threads avail : Z) : option unit :=
  do _ <- in_turn (map (fun o => rd_space y o threads avail) RD_RV32I) ;
  do _ <- need avail (y_blind y 5) ;
  do _ <- need avail (y_prepare y 32 threads) ;
  do _ <- need avail (y_identity y threads) ;
  do _ <- write_space (y_reg y) log reg_bits threads avail ;
  zero_space (y_reg y) threads avail.
(** interpreter.rs:1268-1341; the operations are four, so two bits select *)
Definition update_ram_space (y : cycle_costs) (log ram_bits threads avail : Z) : option unit :=
  do _ <- in_turn (map (fun o => ram_space y o avail) [MNONE; MSB; MSH; MSW]) ;
  do _ <- need avail (y_blind y 2) ;
  do _ <- need avail (y_prepare y 32 threads) ;
  do _ <- need avail (y_identity y threads) ;
  read_statefull_rev_space (y_ram y) log ram_bits threads avail.

(** interpreter.rs:533-614.  [first]: the cycle counter is zero; [keyed]: the secret key is
    there and so is the debug VM. *)
Definition cycle_space (y : cycle_costs) (log rom_bits reg_bits ram_bits : Z) (first keyed : bool) (threads avail : Z) : option unit :=
  let check b := if keyed then checks_space y b avail else Some tt in
  do _ <- (if first then Some tt else need avail (y_prepare y (rom_bits + 2) threads)) ;
  do _ <- instruction_space y threads avail ;
  do _ <- check true ;
  do _ <- registers_space y threads avail ;
  do _ <- check false ;
  do _ <- read_ram_space y log ram_bits threads avail ;
  do _ <- check false ;
  do _ <- update_registers_space y log reg_bits threads avail ;
  do _ <- check false ;
  do _ <- update_ram_space y log ram_bits threads avail ;
  do _ <- check false ;
  do _ <- circuit_space y (y_pcu y threads) avail ;
  check false.

(** A run of the host program: [2 ^ 24] bytes for each thread, once, for all cycles
    (compiler/src/interpreter.rs:121-139).  With overflow checks the product panics when it
    wraps; without it wraps. *)
Fixpoint cycles_space (y : cycle_costs) (log rom_bits reg_bits ram_bits : Z) (first keyed : bool) (threads avail : Z) (n : nat) : option unit :=
  match n with
  | O => Some tt
  | S n => do _ <- cycle_space y log rom_bits reg_bits ram_bits first keyed threads avail ;
           cycles_space y log rom_bits reg_bits ram_bits false keyed threads avail n
  end.
Definition host_space (y : cycle_costs) (log rom_bits reg_bits ram_bits : Z) (chk keyed : bool) (threads : Z) (cycles : nat) : option unit :=
  let bytes := 2 ^ 24 * threads in
  assert (negb chk || (bytes <? 2 ^ 64));
  cycles_space y log rom_bits reg_bits ram_bits true keyed threads (bytes mod 2 ^ 64) cycles.
(** benches/cycle.rs:154: [2 ^ 28] bytes whatever the number of threads. *)
Definition bench_space (y : cycle_costs) (log rom_bits reg_bits ram_bits : Z) (threads : Z) (cycles : nat) : option unit :=
  cycles_space y log rom_bits reg_bits ram_bits true false threads (2 ^ 28) cycles.
