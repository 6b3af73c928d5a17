(** * Properties C06, C16, C17, C46 and the reference-VM parts of C12, C13, C18 *)
Require Import ZArith Lia Bool List.
From Verif Require Import Word Isa Codec DecodeSpec EvalSpec ListFacts TestSpec TestDecode TestRunSpec TestRunFacts
  TestStep RunSpec RunFacts.
Import ListNotations.
Open Scope Z_scope.

(** C06.  [t_imm_is t imm]: the decoded 32-bit immediate [imm] denotes the
    immediate carried by the reference VM's instruction. *)
Theorem C06_decoders_agree :
  forall (dbg : bool) (w : Z) (t : T.inst),
    word w -> T.decode_inst w = Some t -> accepted dbg w ->
    exists imm, decoded dbg w (t_ops t) (t_regs t) imm /\ t_imm_is t imm.
Proof. exact decoders_agree. Qed.
Print Assumptions C06_decoders_agree.
Example C06_case :
  T.decode_inst 0xFE62FCE3 = Some (T.BGEU 5 6 0xFFFFFFF8) /\ get_imm true 0xFE62FCE3 = Some 0xFFFFFFF8 /\
  T.decode_inst 0x000012B7 = Some (T.LUI 5 4096) /\ get_imm true 0x000012B7 = Some 1.
Proof. vm_compute. auto. Qed.

(** C46. *)
Theorem C46_reference_accepts_exactly :
  forall w, word w -> (T.decode_inst w <> None <-> legal_word w \/ t_lenient w).
Proof. exact t_accepts. Qed.
Print Assumptions C46_reference_accepts_exactly.
Theorem C46_legal_decodes :
  forall i, legal i -> T.decode_inst (encode i) = Some (t_of i).
Proof. exact decode_of_legal. Qed.
Print Assumptions C46_legal_decodes.

(** The specification's own decoder is the inverse of its encoder. *)
Theorem C46_isa_of :
  forall w i, word w -> (isa_of w = Some i <-> legal i /\ encode i = w).
Proof.
  intros w i Hw. split; [apply DecodeFacts.isa_of_sound; exact Hw|]. intros [Hl <-]. apply isa_of_complete. exact Hl.
Qed.
Print Assumptions C46_isa_of.
(** MULHU is legal; SLLI with a bit set above the shift amount is not RV32IM but accepted; a
    load of width 3 is refused. *)
Example C46_case :
  isa_of (encode (OPM MULHU 5 6 7)) = Some (OPM MULHU 5 6 7) /\ T.decode_inst (encode (OPM MULHU 5 6 7)) = Some (T.MULHU 6 7 5) /\
  (t_lenient 0x02029093 /\ isa_of 0x02029093 = None /\ T.decode_inst 0x02029093 = Some (T.SLLI 5 1 0)) /\
  T.decode_inst 0x0002B083 = None.
Proof.
  split; [vm_compute; reflexivity|]. split; [vm_compute; reflexivity|]. split; [|vm_compute; reflexivity].
  split; [left; vm_compute; repeat split; congruence|]. split; vm_compute; reflexivity.
Qed.

(** C16.  One step from any well-formed state whose ROM holds the program:
    either the ISA's next state, or a panic, and the panic happens exactly for
    a refused alignment, a trapping division, or (with overflow checks) a pc
    running off the end of the address space. *)
Theorem C16_step_is_isa :
  forall (chk : bool) (prog : list Z) (s : T.vm) (m : mach) (i : instr),
    vm_ok s -> shows s m -> rom_holds (T.rom s) prog -> Forall word prog ->
    fetch prog (m_pc m) = Some i -> stays_in (T.ram s) i m ->
    (exists s', T.run chk s = Some s' /\ (vm_ok s' /\ shows s' (isa_step i m) /\ static s s') /\
       ~ (refused i m \/ pc_overflow chk i m \/ div_trap i m)) \/
    (T.run chk s = None /\ (refused i m \/ pc_overflow chk i m \/ div_trap i m)).
Proof. exact run_step. Qed.
Print Assumptions C16_step_is_isa.
(** Any number of steps. *)
Theorem C16_runs_are_isa :
  forall (chk : bool) (prog : list Z) (n : nat) (s : T.vm) (m : mach),
    vm_ok s -> shows s m -> rom_holds (T.rom s) prog -> Forall word prog ->
    along (t_fine chk (T.ram s)) prog n m ->
    exists s' m', isa_run prog n m = Some m' /\ T.run_n chk n s = Some s' /\
      vm_ok s' /\ shows s' m' /\ static s s'.
Proof. exact run_n_isa. Qed.
Print Assumptions C16_runs_are_isa.

(** A loop body that stores, loads back sign-extended and branches backwards. *)
Definition ex_prog : list instr :=
  [Isa.LUI 2 64; OPI ADDI 1 0 (-3); STORE SW 2 1 4; LOAD LH 3 2 4; BRANCH LT 1 0 (-4); OPR ADD 4 3 1].
Definition ex_io : T.io_info := {| T.start_addr := 2 ^ 18; T.io_size := 0 |}.
Definition ex_vm : T.vm :=
  {| T.registers := repeat 0 32%nat;
     T.rom := {| T.data := image (asm ex_prog); T.offset := 0; T.size := 24 |};
     T.ram := {| T.data := repeat 7 16%nat; T.offset := 2 ^ 18; T.size := 16 |};
     T.pc := 0; T.input_info := ex_io; T.output_info := ex_io; T.max_cycles := 9%nat |}.
Definition ex_mach : mach := {| m_pc := 0; m_rf := fun _ => 0; m_mem := fun _ => 7 |}.
Lemma ex_ok : vm_ok ex_vm /\ shows ex_vm ex_mach /\ rom_holds (T.rom ex_vm) (asm ex_prog) /\ Forall word (asm ex_prog).
Proof.
  split; [|split; [|split]].
  - split; [reflexivity|]. split; [|split; [reflexivity|split; [cbn; unfold word; lia|]]].
    + apply Forall_forall. intros x H. apply repeat_spec in H. unfold word. lia.
    + split; [cbn [T.offset T.ram ex_vm]; lia|]. split; [cbn [T.size T.ram ex_vm]; lia|].
      split; [cbn [T.size T.offset T.ram ex_vm]; lia|]. split; [reflexivity|].
      apply Forall_forall. intros x H. apply repeat_spec in H. unfold is_byte. lia.
  - split; [reflexivity|]. split.
    + intros r Hr. cbn [T.registers ex_vm ex_mach m_rf]. unfold get. replace (if r =? 0 then 0 else 0) with 0 by (destruct (r =? 0); reflexivity).
      unfold reg in Hr. destruct (nth_error (repeat 0 32) (Z.to_nat r)) eqn:E.
      * apply nth_error_In, repeat_spec in E. congruence.
      * apply nth_error_None in E. rewrite repeat_length in E. lia.
    + intros a Ha. cbn [T.ram T.data ex_vm m_mem ex_mach T.offset].
      unfold in_region in Ha. cbn [T.ram ex_vm T.offset T.size] in Ha.
      destruct (nth_error (repeat 7 16) (Z.to_nat (a - 2 ^ 18))) eqn:E.
      * apply nth_error_In, repeat_spec in E. congruence.
      * apply nth_error_None in E. rewrite repeat_length in E. lia.
  - unfold rom_holds. vm_compute. repeat split; congruence.
  - apply asm_words. repeat constructor; cbn; unfold reg; lia.
Qed.
Lemma along_step (P : instr -> mach -> Prop) prog n i m : fetch prog (m_pc m) = Some i -> P i m -> along P prog n (isa_step i m) ->
  along P prog (S n) m.
Proof. intros. exists i. auto. Qed.
Ltac steps := repeat (eapply along_step; [vm_compute; reflexivity|repeat split; vm_compute; intuition congruence|]); exact I.
Example C16_case :
  vm_ok ex_vm /\ shows ex_vm ex_mach /\ rom_holds (T.rom ex_vm) (asm ex_prog) /\ Forall word (asm ex_prog) /\
  along (t_fine true (T.ram ex_vm)) (asm ex_prog) 7 ex_mach /\
  exists s', T.run_n true 7 ex_vm = Some s' /\ T.pc s' = 12 /\
    nth_error (T.registers s') 3 = Some 0xFFFFFFFD /\ nth_error (T.data (T.ram s')) 5 = Some 255.
Proof.
  destruct ex_ok as (A & B & C & D). do 4 (split; [assumption|]). split.
  - steps.
  - eexists. split; [vm_compute; reflexivity|]. vm_compute. auto.
Qed.

(** C17.  Full statement: for [o] a division, the step succeeds and writes
    [alu_mop o x y] for every [x], [y].  False: *)
Theorem C17_division_refuted :
  exists (s : T.vm) (m : mach) (prog : list Z) o rd rs1 rs2,
    vm_ok s /\ shows s m /\ rom_holds (T.rom s) prog /\ Forall word prog /\
    fetch prog (m_pc m) = Some (OPM o rd rs1 rs2) /\
    T.run false s = None /\ T.run true s = None.
Proof.
  exists {| T.registers := repeat 0 32%nat;
            T.rom := {| T.data := image (asm [OPM DIVU 1 0 0]); T.offset := 0; T.size := 4 |};
            T.ram := T.ram ex_vm; T.pc := 0; T.input_info := ex_io; T.output_info := ex_io; T.max_cycles := 1%nat |},
         ex_mach, (asm [OPM DIVU 1 0 0]), DIVU, 1, 0, 0.
  destruct ex_ok as ((A1 & A2 & A3 & A4 & A5) & (B1 & B2 & B3) & _).
  split; [split; [exact A1|split; [exact A2|split; [exact A3|split; [exact A4|exact A5]]]]|].
  split; [split; [exact B1|split; [exact B2|exact B3]]|].
  split; [vm_compute; repeat split; congruence|].
  split; [apply asm_words; repeat constructor; cbn; unfold reg; lia|]. vm_compute. auto.
Qed.
Print Assumptions C17_division_refuted.
(** The panics are exactly the zero divisors and the signed overflow
    (whatever the build profile); all other divisions give the ISA value. *)
Theorem C17_division_partial :
  forall (prog : list Z) (s : T.vm) (m : mach) o rd rs1 rs2,
    vm_ok s -> shows s m -> rom_holds (T.rom s) prog -> Forall word prog ->
    fetch prog (m_pc m) = Some (OPM o rd rs1 rs2) ->
    let x := get (m_rf m) rs1 in let y := get (m_rf m) rs2 in
    let traps := match o with
                 | DIV | REM => y = 0 \/ (x = 2 ^ 31 /\ y = 2 ^ 32 - 1)
                 | DIVU | REMU => y = 0
                 | _ => False end in
    (traps /\ T.run false s = None) \/
    (~ traps /\ exists s', T.run false s = Some s' /\
       shows s' {| m_pc := to_word (m_pc m + 4); m_rf := put (m_rf m) rd (alu_mop o x y); m_mem := m_mem m |}).
Proof.
  intros prog s m o rd rs1 rs2 H1 H2 H3 H4 H5 x y traps.
  assert (E : (refused (OPM o rd rs1 rs2) m \/ pc_overflow false (OPM o rd rs1 rs2) m \/ div_trap (OPM o rd rs1 rs2) m) <-> traps).
  { unfold refused, pc_overflow, div_trap, traps. fold x y.
    split; [intros [[]|[[? _]|H]]; [discriminate|]|intros H; right; right]; destruct o; tauto. }
  destruct (run_step false prog s m _ H1 H2 H3 H4 H5 I) as [(s' & R & (_ & G & _) & N)|[R N]].
  - right. split; [tauto|]. exists s'. split; [exact R|exact G].
  - left. tauto.
Qed.
Print Assumptions C17_division_partial.
Example C17_case : alu_mop DIV 7 0 = 2 ^ 32 - 1 /\ alu_mop REM (2 ^ 31) (2 ^ 32 - 1) = 0 /\ alu_mop REMU 9 0 = 9.
Proof. vm_compute. auto. Qed.

(** C12, reference VM: after any positive number of steps from any state, and
    after any number of steps from the initial state, x0 is zero. *)
Theorem C12_reference_x0 :
  forall (chk : bool) (n : nat) (s s' : T.vm),
    nth_error (T.registers s) 0 = Some 0 \/ n <> O -> T.run_n chk n s = Some s' ->
    nth_error (T.registers s') 0 = Some 0.
Proof.
  intros chk n s s' [H|H] E; [exact (run_n_x0 chk n s s' H E)|].
  destruct n as [|n]; [congruence|]. cbn [T.run_n] in E.
  destruct (T.run chk s) as [s1|] eqn:R; [|discriminate].
  exact (run_n_x0 chk n s1 s' (run_x0 chk s s1 R) E).
Qed.
Print Assumptions C12_reference_x0.
Theorem C12_reference_init :
  forall chk ro rs rd ao az ad inp out n s, T.init chk ro rs rd ao az ad inp out n = Some s ->
    nth_error (T.registers s) 0 = Some 0.
Proof. exact init_x0. Qed.
Print Assumptions C12_reference_init.

(** C13, reference VM: for any ROM content.  [at_pos] gives the position of an
    address in the RAM vector (modulo the RAM size). *)
Theorem C13_reference_frame :
  forall (chk : bool) (s s' : T.vm), T.run chk s = Some s' ->
    exists w i, T.read_word chk (T.rom s) (T.pc s) = Some w /\ T.decode_inst w = Some i /\
      match t_store i with
      | None => T.ram s' = T.ram s
      | Some (n, rs1, imm) => exists x, T.register s rs1 = Some x /\
          T.offset (T.ram s') = T.offset (T.ram s) /\ T.size (T.ram s') = T.size (T.ram s) /\
          length (T.data (T.ram s')) = length (T.data (T.ram s)) /\
          forall j, (forall k, 0 <= k < n -> ~ at_pos chk (T.ram s) (wadd x imm + k) j) ->
            nth_error (T.data (T.ram s')) j = nth_error (T.data (T.ram s)) j
      end.
Proof. exact run_ram. Qed.
Print Assumptions C13_reference_frame.

(** C18, reference VM. *)
Theorem C18_reference_split :
  forall chk n k s, T.run_n chk (n + k) s = match T.run_n chk n s with Some s' => T.run_n chk k s' | None => None end.
Proof. exact run_n_add. Qed.
Print Assumptions C18_reference_split.
