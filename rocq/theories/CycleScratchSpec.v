(** * What a cycle needs, counted from outside

    The demands of a cycle, as a list of amounts of bytes each of which must fit into the
    scratch space, and the conditions that no amount of scratch space can make up for. *)
Require Import ZArith List Bool.
From Verif Require Import Codec Scratch CycleScratch.
Import ListNotations.
Open Scope Z_scope.

(** The operations that are evaluated by a circuit of the library. *)
Definition circuits : list rd_op :=
  [RLUI; RAUIPC; RADDI; RSLTI; RSLTIU; RXORI; RORI; RANDI; RSLLI; RSRLI; RSRAI; RADD; RSUB; RSLL; RSLT; RSLTU; RXOR;
   RSRL; RSRA; ROR; RAND; RJAL; RJALR].

(** What one plane of a memory is given when it is written. *)
Definition plane (c : costs) (large : bool) : Z :=
  Z.max (Z.max (k_trace c + Z.max (k_glwe c) (k_normalize c)) (k_retrieval c)) (if large then k_rotation c else 0).

Definition demands (y : cycle_costs) (log rom_bits reg_bits ram_bits : Z) (first keyed : bool) (t : Z) : list Z :=
  let stateless c := 32 * k_word c + Z.max (t * Z.max (k_select c) (k_rotation c)) (k_pack c) in
  [ (* reading the instruction *)
    stateless (y_rom y); t * y_bits y;
    (* reading the registers *)
    stateless (y_reg y);
    (* reading the RAM *)
    32 * y_word y + Z.max (y_offset y t) (y_pack y);
    y_prepare y (ram_bits + 2) t;
    32 * k_word (y_ram y) + Z.max (t * (if log <? ram_bits then Z.max (k_retrieval (y_ram y)) (k_rotation (y_ram y)) else k_retrieval (y_ram y))) (k_pack (y_ram y));
    (* the registers *)
    y_zero_byte y; y_sext y; y_blind y 5; y_prepare y 32 t; y_identity y t;
    t * (plane (y_reg y) (log <? reg_bits) + k_word (y_reg y));
    t * (Z.max (k_rotate (y_reg y)) (k_trace (y_reg y)) + k_glwe (y_reg y));
    (* the RAM *)
    y_splice8 y; y_splice16 y; y_blind y 2;
    t * (plane (y_ram y) (log <? ram_bits) + k_word (y_ram y));
    (* the pc *)
    32 * y_word y + Z.max (y_pcu y t) (y_pack y) ] ++
  map (fun o => y_alu y o t) circuits ++
  (if first then [] else [y_prepare y (rom_bits + 2) t]) ++
  (if keyed then [y_decrypt_bits y; y_decrypt y; y_noise y] else []).

(** The share of a thread is fixed by the code; it must be enough for what the thread does. *)
Definition shares_suffice (y : cycle_costs) (log reg_bits ram_bits : Z) : Prop :=
  y_ggsw y + y_lwe y + Z.max (Z.max (y_bit_lwe y) (y_cbt y)) (y_fill y) <= y_bits y /\
  (log < ram_bits \/ k_rotation (y_ram y) <= k_retrieval (y_ram y)) /\
  k_bit (y_ram y) <= plane (y_ram y) (log <? ram_bits) /\ k_rotation (y_ram y) <= plane (y_ram y) (log <? ram_bits) /\
  k_bit (y_reg y) <= plane (y_reg y) (log <? reg_bits) /\ k_rotation (y_reg y) <= plane (y_reg y) (log <? reg_bits).

(** Sizes are not negative; [t] threads need at most [t] times what one needs. *)
Definition sized (c : costs) : Prop :=
  0 <= k_glwe c /\ 0 <= k_word c /\ 0 <= k_select c /\ 0 <= k_rotation c /\ 0 <= k_retrieval c /\
  0 <= k_trace c /\ 0 <= k_normalize c /\ 0 <= k_rotate c /\ 0 <= k_bit c /\ 0 <= k_pack c.
Definition sane (y : cycle_costs) : Prop :=
  sized (y_rom y) /\ sized (y_reg y) /\ sized (y_ram y) /\
  0 <= y_bits y /\ 0 <= y_ggsw y /\ 0 <= y_lwe y /\ 0 <= y_bit_lwe y /\ 0 <= y_cbt y /\ 0 <= y_fill y /\
  0 <= y_word y /\ 0 <= y_pack y /\ (forall t, 0 <= y_offset y t) /\ (forall t, 0 <= y_pcu y t).
Definition scales (f : Z -> Z) : Prop := forall t, 1 <= t -> f t <= t * f 1.
Definition scalable (y : cycle_costs) : Prop :=
  (forall bits, scales (y_prepare y bits)) /\ scales (y_offset y) /\ scales (y_pcu y) /\
  (forall o, scales (y_alu y o)) /\ scales (y_identity y).
