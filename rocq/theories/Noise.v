(** * Ciphertexts with noise

    [Ideal] treats a ciphertext as its message.  A real ciphertext decrypts to a
    phase: the message, scaled by [delta], plus an error, modulo [q].  Here an
    implementation of the library signature is described by how far each
    primitive may move the phase of its result away from the exact value; the
    bounds are worst-case bounds on every coefficient.  Nothing is assumed about
    what a bootstrap returns for an input whose error exceeds [tau]. *)
Require Import ZArith List Bool.
Require Import Verif.Word Verif.Codec Verif.EvalPlain Verif.Bdd Verif.CircPcUpdate Verif.Glwe Verif.Par Verif.EncMem Verif.MemSpec
  Verif.DebugVM Verif.EncVM Verif.EncSpec.
Import ListNotations.
Open Scope Z_scope.

(** [x] is within [b] of [y] on the torus of circumference [q] *)
Definition tnear (q b x y : Z) : Prop := exists k, Z.abs (x - y - k * q) <= b.

(** what each primitive adds to the error *)
Record noise := Noise {
  n_rot : Z; n_trace : Z; n_add : Z; n_sub : Z;  (* glwe_rotate, glwe_trace, glwe_add, glwe_sub *)
  n_crot : Z; n_cswap : Z;                       (* rotation and swap under an encrypted bit *)
  n_retrieve : Z; n_pack : Z; n_bit : Z;         (* blind retriever, FheUint::pack, get_bit_glwe *)
  n_fresh : Z;                                   (* result of a circuit or of FheUint::identity *)
  n_select : Z; n_bytes : Z }.                   (* blind selection; zero_byte, sext, splice *)
Definition noise_pos (z : noise) : Prop :=
  0 <= n_rot z /\ 0 <= n_trace z /\ 0 <= n_add z /\ 0 <= n_sub z /\ 0 <= n_crot z /\ 0 <= n_cswap z /\
  0 <= n_retrieve z /\ 0 <= n_pack z /\ 0 <= n_bit z /\ 0 <= n_fresh z /\ 0 <= n_select z /\ 0 <= n_bytes z.

(** [delta]: scale of a message; [q]: modulus; [tau]: the error a bootstrap tolerates *)
Record torus := Torus { t_q : Z; t_delta : Z; t_tau : Z }.
(** a message takes [q / delta >= 2] values; [tau] is less than half their distance *)
Definition torus_ok (t : torus) : Prop :=
  0 < t_delta t /\ 2 * t_delta t <= t_q t /\ (t_q t) mod (t_delta t) = 0 /\ 0 <= t_tau t /\ 2 * t_tau t < t_delta t.

Section Impl.
Context {C P F : Type}.
Variables (log : nat) (t : torus) (z : noise).
Variables (phase : C -> poly) (fphase : F -> list Z) (pbit : P -> bool).
Notation q := (t_q t).
Notation d := (t_delta t).
Definition pnear (b : Z) (x y : poly) : Prop := forall i, (i < ring log)%nat -> tnear q b (nth i x 0) (nth i y 0).
Definition fnear (b : Z) (x y : list Z) : Prop := forall i, (i < 32)%nat -> tnear q b (nth i x 0) (nth i y 0).

(** An implementation [N] with this noise.  Circuits are only required to work
    on inputs for which their gates are defined (they always are on 32-bit
    words). *)
Record noisy (N : alg C P F) : Prop := {
  y_log : log_n N = log;
  y_pos : noise_pos z;
  y_len : forall c, length (phase c) = ring log;
  y_flen : forall f, length (fphase f) = 32%nat;
  y_rot : forall k c, pnear (n_rot z) (phase (a_rot N k c)) (rotate log k (phase c));
  y_trace : forall c, pnear (n_trace z) (phase (a_trace N c)) (const_poly log (nth 0 (phase c) 0));
  y_add : forall c e, pnear (n_add z) (phase (a_add N c e)) (padd (phase c) (phase e));
  y_sub : forall c e, pnear (n_sub z) (phase (a_sub N c e)) (psub (phase c) (phase e));
  y_crot : forall p k c,
    pnear (n_crot z) (phase (a_crot N p k c)) (if pbit p then rotate log k (phase c) else phase c);
  y_cswap1 : forall p c e,
    pnear (n_cswap z) (phase (fst (a_cswap N p c e))) (if pbit p then phase e else phase c);
  y_cswap2 : forall p c e,
    pnear (n_cswap z) (phase (snd (a_cswap N p c e))) (if pbit p then phase c else phase e);
  y_retrieve : forall ps cs,
    pnear (n_retrieve z) (phase (a_retrieve N ps cs)) (nth (bits_val (map pbit ps)) (map phase cs) []);
  y_pack : forall cs, length cs = 32%nat ->
    fnear (n_pack z) (fphase (a_pack N cs)) (map (fun c => nth 0 (phase c) 0) cs);
  y_bit : forall f i, (i < 32)%nat ->
    pnear (n_bit z) (phase (a_bit N f i)) (const_poly log (nth i (fphase f) 0));
  y_boot : forall f i (b : bool), (i < 32)%nat ->
    tnear q (t_tau t) (nth i (fphase f) 0) (d * Z.b2z b) -> pbit (a_boot N f i) = b;
  y_pzero : pbit (a_pzero N) = false;
  y_fzero : fnear 0 (fphase (a_fzero N)) (repeat 0 32);
  y_select : forall m ps,
    fnear (n_select z) (fphase (a_select N m ps))
      (match find_key (bits_val (map pbit ps)) m with Some f => fphase f | None => repeat 0 32 end);
  y_ident : forall ps, length ps = 32%nat ->
    fnear (n_fresh z) (fphase (a_ident N ps)) (map (fun p => d * Z.b2z (pbit p)) ps);
  y_circ2 : forall k a b w,
    circ2_word k (pack_bits (map pbit a)) (pack_bits (map pbit b)) = Some w ->
    fnear (n_fresh z) (fphase (a_circ2 N k a b)) (map (Z.mul d) (fhe_of_word w));
  y_pcup : forall o a b p i w,
    eval_circuit pc_update_circuit (inp_pc (pack_bits (map pbit o)) (pack_bits (map pbit a)) (pack_bits (map pbit b))
      (pack_bits (map pbit p)) (pack_bits (map pbit i))) = Some w ->
    fnear (n_fresh z) (fphase (a_pcup N o a b p i)) (map (Z.mul d) (fhe_of_word w));
  y_zero_byte : forall k f, fnear (n_bytes z) (fphase (a_zero_byte N k f)) (zero_byte k (fphase f));
  y_sext : forall k f, fnear (n_bytes z) (fphase (a_sext N k f)) (sext_byte k (fphase f));
  y_splice8 : forall i j f g, fnear (n_bytes z) (fphase (a_splice8 N i j f g)) (splice 8 i j (fphase f) (fphase g));
  y_splice16 : forall i j f g, fnear (n_bytes z) (fphase (a_splice16 N i j f g)) (splice 16 i j (fphase f) (fphase g)) }.

(** ** encryptions with an error of at most [b] *)
Definition cnear (b : Z) (c : C) (m : poly) : Prop :=
  length m = ring log /\ pnear b (phase c) (map (Z.mul d) m).
Definition banear (b : Z) (x : bitarray C) (y : bitarray poly) : Prop :=
  ba_bits x = ba_bits y /\ Forall2 (cnear b) (ba_data x) (ba_data y).
Definition mnear (b : Z) (x : memory C) (y : memory poly) : Prop :=
  m_size x = m_size y /\ m_bits x = m_bits y /\ m_state x = m_state y /\
  Forall2 (banear b) (m_planes x) (m_planes y).
(** memory [m] encrypts the words [ws]; [f] encrypts the word [w]; the bits
    [ps] are encryptions of those of [w] *)
Definition nholds (b : Z) (m : memory C) (ws : list Z) : Prop := exists y, holds log y ws /\ mnear b m y.
Definition nenc (b : Z) (f : F) (w : Z) : Prop := is_word w /\ fnear b (fphase f) (map (Z.mul d) (fhe_of_word w)).
Definition nprepared (ps : list P) (w : Z) : Prop := prepared (map pbit ps) w.

(** the VM state [v] encrypts the machine state [s]; compare [shows] *)
Record bounds := Bounds { b_rom : Z; b_regs : Z; b_ram : Z; b_pc : Z }.
Definition nrom (b : Z) (er : eroms C) (r : roms) : Prop :=
  nholds b (e_imm er) (imm_rom r) /\ nholds b (e_rs1 er) (rs1_rom r) /\ nholds b (e_rs2 er) (rs2_rom r) /\
  nholds b (e_rd er) (rd_rom r) /\ nholds b (e_rdu er) (rdu_rom r) /\ nholds b (e_mu er) (mu_rom r) /\
  nholds b (e_pcu er) (pcu_rom r).
Definition nshows (rb mb : nat) (b : bounds) (v : evm C P F) (s : xvm) : Prop :=
  nrom (b_rom b) (v_rom v) (x_rom s) /\ rom_len (v_rom_size v) (x_rom s) /\
  bit_len_pred (Z.of_nat (v_rom_size v)) = Some rb /\ v_rom_bits v = rb /\ (rb <= 30)%nat /\
  Forall (fun k => In (k mod 16) (map pc_id PC_LIST)) (pcu_rom (x_rom s)) /\
  nholds (b_regs b) (v_regs v) (x_regs s) /\ length (x_regs s) = 32%nat /\
  nholds (b_ram b) (v_ram v) (x_ram s) /\ length (x_ram s) = (2 ^ mb)%nat /\ v_ram_size v = (2 ^ mb)%nat /\
  v_ram_bits v = mb /\ (mb <= 30)%nat /\
  nenc (b_pc b) (v_pc v) (x_pc s) /\ nprepared (v_pcp v) (x_last s) /\
  v_cycle v = x_cycle s /\ 0 <= x_cycle s < 4294967296 /\
  (x_cycle s = 0 -> x_last s / 4 < 2 ^ Z.of_nat rb).

(** ciphertexts [v] of the ideal machine state [w] *)
Definition encrypts (b : bounds) (v : evm C P F) (w : evm poly bool (list Z)) : Prop :=
  mnear (b_rom b) (e_imm (v_rom v)) (e_imm (v_rom w)) /\ mnear (b_rom b) (e_rs1 (v_rom v)) (e_rs1 (v_rom w)) /\
  mnear (b_rom b) (e_rs2 (v_rom v)) (e_rs2 (v_rom w)) /\ mnear (b_rom b) (e_rd (v_rom v)) (e_rd (v_rom w)) /\
  mnear (b_rom b) (e_rdu (v_rom v)) (e_rdu (v_rom w)) /\ mnear (b_rom b) (e_mu (v_rom v)) (e_mu (v_rom w)) /\
  mnear (b_rom b) (e_pcu (v_rom v)) (e_pcu (v_rom w)) /\
  mnear (b_regs b) (v_regs v) (v_regs w) /\ mnear (b_ram b) (v_ram v) (v_ram w) /\
  fnear (b_pc b) (fphase (v_pc v)) (map (Z.mul d) (v_pc w)) /\ map pbit (v_pcp v) = v_pcp w /\
  v_cycle v = v_cycle w /\ v_debug v = v_debug w /\ v_rom_bits v = v_rom_bits w /\ v_rom_size v = v_rom_size w /\
  v_ram_bits v = v_ram_bits w /\ v_ram_size v = v_ram_size w.

(** ** the error a cycle adds *)
(** address bits that rotate within a polynomial, and that choose a polynomial *)
Definition cols (bits : nat) : Z := Z.of_nat (min log bits).
Definition rows (bits : nat) : Z := Z.of_nat (bits - log).
(** a word read without changing the memory *)
Definition e_read (bits : nat) : Z := n_retrieve z + cols bits * n_crot z + n_pack z.
(** bringing the addressed word to the front, or back *)
Definition e_move (bits : nat) : Z := rows bits * n_cswap z + cols bits * n_crot z.
(** replacing it by the bits of a fresh word *)
Definition e_put : Z := n_trace z + n_sub z + n_add z + (n_fresh z + n_bit z).
(** clearing word 0 *)
Definition e_clear : Z := 2 * n_rot z + n_trace z + n_sub z.
Definition grow_regs : Z := 2 * e_move 5 + e_put + e_clear.
Definition grow_ram (mb : nat) : Z := 2 * e_move mb + e_put.

(** The error stays within the tolerance of every bootstrap of a cycle: program
    fields, register values, RAM address and pc, the value for the destination
    register (an arithmetic result or a loaded word), the value for RAM (the
    loaded word, the stored register, or one spliced into the other). *)
Definition budget (rb mb : nat) (b : bounds) : Prop :=
  let tau := t_tau t in
  let loaded := b_ram b + e_move mb + n_pack z in
  let reg := b_regs b + e_read 5 in
  b_rom b + e_read rb <= tau /\ reg <= tau /\ b_pc b <= tau /\
  n_fresh z + n_select z <= tau /\ loaded + 3 * n_bytes z + n_select z <= tau /\
  loaded + n_bytes z + 2 * n_select z <= tau /\ reg + n_bytes z + 2 * n_select z <= tau.
(** bounds after [n] cycles; the pc is fresh *)
Definition after (mb : nat) (n : nat) (b : bounds) : bounds :=
  match n with
  | O => b
  | _ => {| b_rom := b_rom b; b_regs := b_regs b + Z.of_nat n * grow_regs;
            b_ram := b_ram b + Z.of_nat n * grow_ram mb; b_pc := n_fresh z |}
  end.

(** ** decryption: round the phase to a multiple of [delta] (memory.rs:486-507,
    where the coefficient is decoded to an integer) *)
Definition decode (x : Z) : Z := ((x + d / 2) / d) mod (q / d).
Definition open_ba (x : bitarray C) : bitarray poly := BitArray (map (fun c => map decode (phase c)) (ba_data x)) (ba_bits x).
Definition open_mem (m : memory C) : memory poly := Memory (map open_ba (m_planes m)) (m_size m) (m_bits m) (m_state m).
Definition open_vm (v : evm C P F) : evm poly bool (list Z) :=
  let r := v_rom v in
  {| v_cycle := v_cycle v; v_debug := v_debug v; v_rom_bits := v_rom_bits v; v_rom_size := v_rom_size v;
     v_rom := ERoms (open_mem (e_imm r)) (open_mem (e_rs1 r)) (open_mem (e_rs2 r)) (open_mem (e_rd r))
                (open_mem (e_rdu r)) (open_mem (e_mu r)) (open_mem (e_pcu r));
     v_regs := open_mem (v_regs v); v_ram_bits := v_ram_bits v; v_ram_size := v_ram_size v; v_ram := open_mem (v_ram v);
     v_pc := map decode (fphase (v_pc v)); v_pcp := map pbit (v_pcp v) |}.
End Impl.
