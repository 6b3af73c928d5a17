(** * Shadow-VM parts of C11, C12, C13, C15, C18, C43; C47, C48 *)
Require Import ZArith Lia Bool List Znumtheory.
From Verif Require Import Word Isa Codec DecodeSpec EvalPlain EvalSpec TestRunSpec TestRunFacts
  DebugVM DebugSpec DebugFacts DebugStep RunSpec RunFacts DebugLoad PropTest.
Import ListNotations.
Open Scope Z_scope.

(** C47.  One cycle on a supported instruction is one ISA step. *)
Theorem C47_shadow_step_is_isa :
  forall (base : Z) (s : dvm) (m : mach) (i : instr),
    dvm_ok s -> base_ok base (ram_size s) -> dshows base s m -> legal i ->
    entry_is (drom s) (Z.to_nat (Z.shiftr (dpc s) 2)) i -> dsupported base (ram_size s) i m ->
    exists s', dcycle RD_RV32I s = Some s' /\ dvm_ok s' /\ dshows base s' (isa_step i m) /\ dstatic s s'.
Proof. exact dcycle_step. Qed.
Print Assumptions C47_shadow_step_is_isa.
Theorem C47_shadow_runs_are_isa :
  forall (base : Z) (prog : list Z) (n : nat) (s : dvm) (m : mach),
    dvm_ok s -> base_ok base (ram_size s) -> dshows base s m -> tables_hold (drom s) prog -> Forall word prog ->
    along (dsupported base (ram_size s)) prog n m ->
    exists s' m', isa_run prog n m = Some m' /\ dcycles RD_RV32I n s = Some s' /\
      dvm_ok s' /\ dshows base s' m' /\ dstatic s s'.
Proof. exact dcycles_isa. Qed.
Print Assumptions C47_shadow_runs_are_isa.
(** the state set up by the loader satisfies the hypotheses *)
Theorem C47_boot :
  forall dbg prog ram base, Forall word prog -> Forall (accepted dbg) prog -> Forall word ram -> (0 < length ram)%nat ->
    Z.of_nat (length ram) < 2 ^ 32 ->
    exists s, boot dbg prog ram = Some s /\ dvm_ok s /\ ram_size s = Z.of_nat (length ram) /\ dram s = ram /\
      tables_hold (drom s) prog /\ dshows base s (start base ram).
Proof. exact boot_ok. Qed.
Print Assumptions C47_boot.
Definition ex_ram : list Z := [1; 2; 3; 4].
Lemma ex_base : base_ok (2 ^ 18) 4.
Proof. unfold base_ok. repeat split; try lia. Qed.
Example C47_case :
  along (dsupported (2 ^ 18) 4) (asm ex_prog) 7 (start (2 ^ 18) ex_ram) /\
  exists s s', boot true (asm ex_prog) ex_ram = Some s /\ dcycles RD_RV32I 7 s = Some s' /\
    dpc s' = 12 /\ nth_error (dregs s') 3 = Some 0xFFFFFFFD /\ dram s' = [1; 0xFFFFFFFD; 3; 4].
Proof.
  split; [steps|]. do 2 eexists. split; [vm_compute; reflexivity|]. split; [vm_compute; reflexivity|]. vm_compute. auto.
Qed.

(** C48.  Reference VM and shadow VM in lock step. *)
Theorem C48_shadow_equals_reference :
  forall (chk : bool) (base : Z) (prog : list Z) (n : nat) (s : T.vm) (d : dvm) (m : mach),
    vm_ok s -> dvm_ok d -> shows s m -> dshows base d m ->
    T.offset (T.ram s) = base -> T.size (T.ram s) = 4 * ram_size d -> base_ok base (ram_size d) ->
    rom_holds (T.rom s) prog -> tables_hold (drom d) prog -> Forall word prog ->
    along (fun i m => t_fine chk (T.ram s) i m /\ dsupported base (ram_size d) i m) prog n m ->
    exists s' d' m', T.run_n chk n s = Some s' /\ dcycles RD_RV32I n d = Some d' /\ isa_run prog n m = Some m' /\
      shows s' m' /\ dshows base d' m' /\
      T.pc s' = dpc d' /\ T.registers s' = dregs d' /\ T.offset (T.ram s') = base /\
      T.data (T.ram s') = ram_bytes (dram d').
Proof. exact lockstep. Qed.
Print Assumptions C48_shadow_equals_reference.
(** both machines on the loop of C16, over the RAM of C16 *)
Definition ex_words : list Z := repeat 0x07070707 4%nat.
Example C48_case :
  exists d, boot true (asm ex_prog) ex_words = Some d /\ T.size (T.ram ex_vm) = 4 * ram_size d /\ base_ok (T.offset (T.ram ex_vm)) (ram_size d) /\
    along (fun i m => t_fine true (T.ram ex_vm) i m /\ dsupported (2 ^ 18) (ram_size d) i m) (asm ex_prog) 7 ex_mach /\
    exists s' d', T.run_n true 7 ex_vm = Some s' /\ dcycles RD_RV32I 7 d = Some d' /\
      T.pc s' = 12 /\ dpc d' = 12 /\ T.registers s' = dregs d' /\ T.data (T.ram s') = ram_bytes (dram d').
Proof.
  eexists. split; [vm_compute; reflexivity|]. split; [reflexivity|]. split; [exact ex_base|]. split; [steps|].
  do 2 eexists. split; [vm_compute; reflexivity|]. split; [vm_compute; reflexivity|]. vm_compute. auto.
Qed.

(** C11, shadow VM.  Full statement: the value written by a load is
    [do_load k (m_mem m) (ea m rs1 off)] for every in-range address.  False: *)
Theorem C11_subword_refuted :
  exists base s m prog k rd rs1 off s',
    dvm_ok s /\ base_ok base (ram_size s) /\ dshows base s m /\ tables_hold (drom s) prog /\ Forall word prog /\
    fetch prog (m_pc m) = Some (LOAD k rd rs1 off) /\
    base <= ea m rs1 off < base + 4 * ram_size s /\ ld_size k = 1 /\
    dcycle RD_RV32I s = Some s' /\
    nth_error (dregs s') (Z.to_nat rd) <> Some (get (m_rf (isa_step (LOAD k rd rs1 off) m)) rd).
Proof.
  set (prog := asm [LOAD LBU 1 0 1]). set (ram := [0x0201; 0; 0; 0]).
  assert (HF : Forall word prog) by (apply asm_words; repeat constructor; cbn; unfold reg; lia).
  assert (HA : Forall (accepted true) prog) by (apply asm_accepted; repeat constructor; cbn; unfold reg; lia).
  assert (HW : Forall word ram) by (repeat constructor; unfold word; lia).
  destruct (boot_ok true prog ram 0 HF HA HW ltac:(cbn; lia) ltac:(cbn; lia)) as (s & B & Ok & Rs & Dr & Th & Sh).
  exists 0, s, (start 0 ram), prog, LBU, 1, 0, 1.
  vm_compute in B. injection B as <-. eexists.
  split; [exact Ok|]. split.
  { unfold base_ok. rewrite Rs. cbn [length ram]. repeat split; try (cbn; lia). right.
    split; [exists (2 ^ 28); reflexivity|exists (- 2 ^ 14); reflexivity]. }
  split; [exact Sh|]. split; [exact Th|]. split; [exact HF|].
  split; [reflexivity|]. split; [split; [vm_compute; discriminate|vm_compute; reflexivity]|]. split; [reflexivity|].
  split; [vm_compute; reflexivity|]. vm_compute. discriminate.
Qed.
Print Assumptions C11_subword_refuted.
(** What every in-range load returns: the two low address bits are ignored. *)
Theorem C11_load_ignores_low_bits :
  forall (base : Z) (s : dvm) (m : mach) k rd rs1 off,
    dvm_ok s -> base_ok base (ram_size s) -> dshows base s m -> legal (LOAD k rd rs1 off) ->
    entry_is (drom s) (Z.to_nat (Z.shiftr (dpc s) 2)) (LOAD k rd rs1 off) ->
    base <= ea m rs1 off < base + 4 * ram_size s ->
    exists s', dcycle RD_RV32I s = Some s' /\
      (forall q, reg q -> nth_error (dregs s') (Z.to_nat q) =
         Some (get (put (m_rf m) rd (do_load k (m_mem m) (ea m rs1 off - ea m rs1 off mod 4))) q)).
Proof. exact dcycle_load. Qed.
Print Assumptions C11_load_ignores_low_bits.
(** so the statement holds for word-aligned addresses *)
Theorem C11_aligned_loads_partial :
  forall (base : Z) (s : dvm) (m : mach) k rd rs1 off,
    dvm_ok s -> base_ok base (ram_size s) -> dshows base s m -> legal (LOAD k rd rs1 off) ->
    entry_is (drom s) (Z.to_nat (Z.shiftr (dpc s) 2)) (LOAD k rd rs1 off) ->
    base <= ea m rs1 off < base + 4 * ram_size s -> ea m rs1 off mod 4 = 0 ->
    exists s', dcycle RD_RV32I s = Some s' /\
      (forall q, reg q -> nth_error (dregs s') (Z.to_nat q) =
         Some (get (put (m_rf m) rd (do_load k (m_mem m) (ea m rs1 off))) q)).
Proof.
  intros base s m k rd rs1 off H1 H2 H3 H4 H5 H6 H7.
  destruct (dcycle_load base s m k rd rs1 off H1 H2 H3 H4 H5 H6) as (s' & C & R).
  rewrite H7, Z.sub_0_r in R. exists s'. auto.
Qed.
Print Assumptions C11_aligned_loads_partial.

(** C12, shadow VM. *)
Theorem C12_shadow_x0 :
  forall ops n s s', nth_error (dregs s) 0 = Some 0 -> dcycles ops n s = Some s' -> nth_error (dregs s') 0 = Some 0.
Proof. exact dcycles_x0. Qed.
Print Assumptions C12_shadow_x0.

(** C13, shadow VM, for arbitrary table contents: without a store id nothing
    changes, with one only the word at the computed index. *)
Theorem C13_shadow_frame :
  forall ops s s', 0 < ram_size s -> dcycle ops s = Some s' ->
    exists imm rs1 mu x j,
      nth_error (imm_rom (drom s)) (Z.to_nat (Z.shiftr (dpc s) 2)) = Some imm /\
      nth_error (rs1_rom (drom s)) (Z.to_nat (Z.shiftr (dpc s) 2)) = Some rs1 /\
      nth_error (mu_rom (drom s)) (Z.to_nat (Z.shiftr (dpc s) 2)) = Some mu /\
      nth_error (dregs s) (Z.to_nat rs1) = Some x /\
      Z.of_nat j = Z.shiftr (to_word (x + imm - 2 ^ 18)) 2 mod ram_size s /\
      (mu = 0 -> dram s' = dram s) /\
      (forall k, k <> j -> nth_error (dram s') k = nth_error (dram s) k).
Proof. exact dcycle_ram. Qed.
Print Assumptions C13_shadow_frame.
(** Byte precision fails for a half-word store at an odd address: bytes that
    are not addressed are cleared. *)
Theorem C13_shadow_store_refuted :
  exists base s m prog i s' a,
    dvm_ok s /\ base_ok base (ram_size s) /\ dshows base s m /\ tables_hold (drom s) prog /\ Forall word prog /\
    fetch prog (m_pc m) = Some i /\ m_mem (isa_step i m) a = m_mem m a /\
    base <= a < base + 4 * ram_size s /\
    dcycle RD_RV32I s = Some s' /\
    (forall w, nth_error (dram s') (Z.to_nat ((a - base) / 4)) = Some w -> byte ((a - base) mod 4) w <> m_mem m a).
Proof.
  set (prog := asm [STORE SH 0 0 1]). set (ram := [0x09080706; 0; 0; 0]).
  assert (HF : Forall word prog) by (apply asm_words; repeat constructor; cbn; unfold reg; lia).
  assert (HA : Forall (accepted true) prog) by (apply asm_accepted; repeat constructor; cbn; unfold reg; lia).
  assert (HW : Forall word ram) by (repeat constructor; unfold word; lia).
  destruct (boot_ok true prog ram 0 HF HA HW ltac:(cbn; lia) ltac:(cbn; lia)) as (s & B & Ok & Rs & Dr & Th & Sh).
  exists 0, s, (start 0 ram), prog, (STORE SH 0 0 1).
  vm_compute in B. injection B as <-. eexists. exists 0.
  split; [exact Ok|]. split.
  { unfold base_ok. rewrite Rs. cbn [length ram]. repeat split; try (cbn; lia). right.
    split; [exists (2 ^ 28); reflexivity|exists (- 2 ^ 14); reflexivity]. }
  split; [exact Sh|]. split; [exact Th|]. split; [exact HF|].
  split; [reflexivity|]. split; [reflexivity|]. split; [split; [vm_compute; discriminate|vm_compute; reflexivity]|].
  split; [vm_compute; reflexivity|]. intros w H. vm_compute in H. injection H as <-. vm_compute. discriminate.
Qed.
Print Assumptions C13_shadow_store_refuted.

(** C15, shadow VM. *)
Theorem C15_shadow_in_range :
  forall s a, 0 < ram_size s -> exists k, ram_index s a = Some k /\ Z.of_nat k < ram_size s.
Proof. exact ram_index_bound. Qed.
Print Assumptions C15_shadow_in_range.
Theorem C15_shadow_wraps :
  forall s imm x imm' x',
    0 < ram_size s -> (4 * ram_size s | 2 ^ 32) -> (4 * ram_size s | (x + imm) - (x' + imm')) ->
    ram_index s (to_word (x + imm - 2 ^ 18)) = ram_index s (to_word (x' + imm' - 2 ^ 18)).
Proof. exact ram_index_wrap. Qed.
Print Assumptions C15_shadow_wraps.
Example C15_case :
  forall s, ram_size s = 1024 ->
    ram_index s (to_word (0x3FFFC + 0 - 2 ^ 18)) = Some 1023%nat /\ ram_index s (to_word (0x40FFC + 0 - 2 ^ 18)) = Some 1023%nat.
Proof. intros s H. unfold ram_index. rewrite H. vm_compute. auto. Qed.

(** C18, shadow VM. *)
Theorem C18_shadow_split :
  forall ops n k s, dcycles ops (n + k) s = match dcycles ops n s with Some s' => dcycles ops k s' | None => None end.
Proof. exact dcycles_add. Qed.
Print Assumptions C18_shadow_split.

(** C43, shadow VM: an RV32M instruction stops it. *)
Theorem C43_shadow_refuses_rv32m :
  forall s o rd rs1 rs2,
    entry_is (drom s) (Z.to_nat (Z.shiftr (dpc s) 2)) (OPM o rd rs1 rs2) -> dcycle RD_RV32I s = None.
Proof. exact dcycle_opm. Qed.
Print Assumptions C43_shadow_refuses_rv32m.
