(** * Start of a guest (C50) and its trap instruction (C51) *)
Require Import ZArith List Bool Lia.
Require Import Verif.Word Verif.Isa Verif.RunSpec Verif.TestRunSpec Verif.LoadSpec Verif.Startup.
Require Verif.Bits Verif.RunFacts Verif.TestDecode Verif.DecodeSpec Verif.Codec Verif.EncVM Verif.EncSpec Verif.EncLoad Verif.EncRun Verif.PropEnc Verif.PropTest Verif.PropHalt.
Import ListNotations.
Open Scope Z_scope.

Lemma fetch_at prog k i : legal i -> nth_error prog k = Some (encode i) -> fetch prog (4 * Z.of_nat k) = Some i.
Proof.
  intros L N. unfold fetch. rewrite Z.mul_comm, Z.mod_mul by lia. cbn [Z.eqb]. rewrite Z.div_mul, Nat2Z.id, N by lia.
  apply TestDecode.isa_of_complete. exact L.
Qed.
Lemma signed_eq12 d : signed 12 d = d - 2 ^ 12 * ((d + 2 ^ 11) / 2 ^ 12).
Proof.
  unfold signed, low. change (12 - 1) with 11.
  pose proof (Z.div_mod d (2 ^ 12) ltac:(lia)) as D. pose proof (Z.mod_pos_bound d (2 ^ 12) ltac:(lia)) as B.
  set (q := d / 2 ^ 12) in *. set (r := d mod 2 ^ 12) in *.
  destruct (Z.ltb_spec r (2 ^ 11)).
  - replace ((d + 2 ^ 11) / 2 ^ 12) with q; [lia|]. apply Z.div_unique with (r := r + 2 ^ 11); lia.
  - replace ((d + 2 ^ 11) / 2 ^ 12) with (q + 1); [lia|]. apply Z.div_unique with (r := r + 2 ^ 11 - 2 ^ 12); lia.
Qed.
(** AUIPC and ADDI with the two parts of [sym - a] give [sym] *)
Lemma pcrel_sum a sym : word sym -> to_word (to_word (a + pcrel_hi (sym - a) * 2 ^ 12) + pcrel_lo (sym - a)) = sym.
Proof.
  intros W. unfold pcrel_hi, pcrel_lo. rewrite signed_eq12. set (h := (sym - a + 2 ^ 11) / 2 ^ 12). unfold to_word.
  rewrite Zplus_mod_idemp_l. pose proof (Z.div_mod h (2 ^ 20) ltac:(lia)) as D. set (u := h mod 2 ^ 20) in *. set (q := h / 2 ^ 20) in *.
  replace (a + u * 2 ^ 12 + (sym - a - 2 ^ 12 * h)) with (sym + (- q) * 2 ^ 32).
  - rewrite Z.mod_add by lia. apply Z.mod_small. exact W.
  - rewrite D. change (2 ^ 32) with (2 ^ 12 * 2 ^ 20). ring.
Qed.
Lemma la_legal rd sym a : reg rd -> Forall legal (la rd sym a).
Proof.
  intros R. unfold la. apply Forall_cons; [|apply Forall_cons; [|apply Forall_nil]]; cbn [legal].
  - split; [exact R|]. unfold pcrel_hi. apply Z.mod_pos_bound. lia.
  - split; [exact R|]. split; [exact R|]. unfold pcrel_lo. apply (Bits.signed_range 12). lia.
Qed.

(** the machine after the start block: the listed registers are set, nothing else changes *)
Definition started (gp sp main : Z) (m m' : mach) : Prop :=
  m_pc m' = main /\ m_mem m' = m_mem m /\
  get (m_rf m') 3 = gp /\ get (m_rf m') 2 = sp /\ get (m_rf m') 8 = sp /\ get (m_rf m') 1 = 32 /\
  forall r, r <> 1 -> r <> 2 -> r <> 3 -> r <> 8 -> get (m_rf m') r = get (m_rf m) r.

Lemma get_put rf r v x : get (put rf r v) x = if x =? 0 then 0 else if x =? r then v else get rf x.
Proof. unfold get at 1, put. destruct (x =? 0); reflexivity. Qed.
Lemma get_0 rf : get rf 0 = 0. Proof. reflexivity. Qed.
Section Start.
Variables (gp sp main : Z) (rest : list Z) (m : mach).
Hypothesis (Hgp : word gp) (Hsp : word sp) (Hmain : 0 <= main < 2 ^ 18) (Heven : main mod 4 = 0) (Hpc : m_pc m = 0).
Notation prog := (start_code gp sp main ++ rest).
Lemma jal_legal : legal (JAL 1 (main - 28)).
Proof.
  cbn [legal]. unfold reg. split; [lia|]. split; [lia|].
  pose proof (Z.div_mod main 4 ltac:(lia)). replace (main - 28) with ((2 * (main / 4) - 14) * 2) by lia. apply Z.mod_mul. lia.
Qed.
Definition m1 := isa_step (AUIPC 3 (pcrel_hi (gp - 0))) m.
Definition m2 := isa_step (OPI ADDI 3 3 (pcrel_lo (gp - 0))) m1.
Definition m3 := isa_step (AUIPC 2 (pcrel_hi (sp - 8))) m2.
Definition m4 := isa_step (OPI ADDI 2 2 (pcrel_lo (sp - 8))) m3.
Definition m5 := isa_step (OPI ADDI 8 2 0) m4.
Definition m6 := isa_step (BRANCH GE 0 10 8) m5.
Definition m7 := isa_step (JAL 1 (main - 28)) m6.
Lemma pc1 : m_pc m1 = 4. Proof. unfold m1. cbn [isa_step m_pc]. rewrite Hpc. reflexivity. Qed.
Lemma pc2 : m_pc m2 = 8. Proof. unfold m2. cbn [isa_step m_pc]. rewrite pc1. reflexivity. Qed.
Lemma pc3 : m_pc m3 = 12. Proof. unfold m3. cbn [isa_step m_pc]. rewrite pc2. reflexivity. Qed.
Lemma pc4 : m_pc m4 = 16. Proof. unfold m4. cbn [isa_step m_pc]. rewrite pc3. reflexivity. Qed.
Lemma pc5 : m_pc m5 = 20. Proof. unfold m5. cbn [isa_step m_pc]. rewrite pc4. reflexivity. Qed.
Lemma rf2 r : get (m_rf m2) r = if r =? 3 then gp else get (m_rf m) r.
Proof.
  unfold m2, m1. cbn [isa_step m_rf]. rewrite !get_put. cbn [Z.eqb Pos.eqb alu_iop]. rewrite Hpc.
  pose proof (pcrel_sum 0 gp Hgp) as S. rewrite S.
  destruct (Z.eqb_spec r 0) as [->|]; [reflexivity|]. destruct (Z.eqb_spec r 3); reflexivity.
Qed.
Lemma rf4 r : get (m_rf m4) r = if r =? 2 then sp else if r =? 3 then gp else get (m_rf m) r.
Proof.
  unfold m4, m3. cbn [isa_step m_rf]. rewrite !get_put. cbn [Z.eqb Pos.eqb alu_iop]. rewrite pc2, (pcrel_sum 8 sp Hsp), rf2.
  destruct (Z.eqb_spec r 0) as [->|]; [reflexivity|]. destruct (Z.eqb_spec r 2); reflexivity.
Qed.
Lemma rf5 r : get (m_rf m5) r = if r =? 8 then sp else if r =? 2 then sp else if r =? 3 then gp else get (m_rf m) r.
Proof.
  unfold m5. cbn [isa_step m_rf]. rewrite !get_put. rewrite !rf4. cbn [Z.eqb Pos.eqb alu_iop].
  destruct (Z.eqb_spec r 0) as [->|]; [reflexivity|]. destruct (Z.eqb_spec r 8); [|reflexivity].
  rewrite Z.add_0_r. unfold to_word. apply Z.mod_small. exact Hsp.
Qed.
Lemma taken6 : taken GE (get (m_rf m5) 0) (get (m_rf m5) 10) = (s32 (get (m_rf m) 10) <=? 0).
Proof. rewrite !rf5. reflexivity. Qed.
Lemma code_words : Forall word prog <-> Forall word rest.
Proof.
  assert (H : Forall word (start_code gp sp main)).
  { unfold start_code. repeat (apply Forall_app; split); try (apply RunFacts.asm_words); try (apply la_legal; unfold reg; lia);
      try (apply Forall_cons; [|apply Forall_nil]); try apply jal_legal; try (cbn [legal]; unfold reg; repeat split; try lia; reflexivity);
      unfold word, UNIMP; lia. }
  split; intros K; [apply Forall_app in K; tauto|apply Forall_app; auto].
Qed.
Lemma fetch_code k i : nth_error (start_code gp sp main) k = Some (encode i) -> legal i -> fetch prog (4 * Z.of_nat k) = Some i.
Proof.
  intros N L. apply fetch_at; [exact L|]. rewrite nth_error_app1; [exact N|]. apply nth_error_Some. congruence.
Qed.
Lemma steps6 : fetch prog (m_pc m) = Some (AUIPC 3 (pcrel_hi (gp - 0))) /\
  fetch prog (m_pc m1) = Some (OPI ADDI 3 3 (pcrel_lo (gp - 0))) /\
  fetch prog (m_pc m2) = Some (AUIPC 2 (pcrel_hi (sp - 8))) /\
  fetch prog (m_pc m3) = Some (OPI ADDI 2 2 (pcrel_lo (sp - 8))) /\
  fetch prog (m_pc m4) = Some (OPI ADDI 8 2 0) /\
  fetch prog (m_pc m5) = Some (BRANCH GE 0 10 8).
Proof.
  rewrite Hpc, pc1, pc2, pc3, pc4, pc5.
  assert (R3 : reg 3) by (unfold reg; lia). assert (R2 : reg 2) by (unfold reg; lia).
  pose proof (la_legal 3 gp 0 R3) as L3. pose proof (la_legal 2 sp 8 R2) as L2.
  assert (A3 := Forall_inv L3). assert (B3 := Forall_inv (Forall_inv_tail L3)).
  assert (A2 := Forall_inv L2). assert (B2 := Forall_inv (Forall_inv_tail L2)).
  split; [apply (fetch_code 0); [reflexivity|exact A3]|]. split; [apply (fetch_code 1); [reflexivity|exact B3]|].
  split; [apply (fetch_code 2); [reflexivity|exact A2]|]. split; [apply (fetch_code 3); [reflexivity|exact B2]|].
  split; [apply (fetch_code 4)|apply (fetch_code 5)]; try reflexivity; cbn [legal]; unfold reg; repeat split; try lia; reflexivity.
Qed.
End Start.

(** C50.  Started at address 0 with x10 not positive (both VMs start with all
    registers zero), the block sets gp, sp, fp and ra, changes no other register
    and no memory, and arrives at _start_rust after seven instructions, all of
    them supported by the encrypted VM. *)
Theorem C50_start :
  forall gp sp main rest m off,
    word gp -> word sp -> 0 <= main < 2 ^ 18 -> main mod 4 = 0 -> m_pc m = 0 -> s32 (get (m_rf m) 10) <= 0 ->
    exists m', isa_run (start_code gp sp main ++ rest) 7 m = Some m' /\ started gp sp main m m' /\
      along (supported off) (start_code gp sp main ++ rest) 7 m.
Proof.
  intros gp sp main rest m off Hgp Hsp Hm He Hpc H10.
  destruct (steps6 gp sp main rest m Hpc) as (F0 & F1 & F2 & F3 & F4 & F5).
  pose proof (taken6 gp sp m Hgp Hsp Hpc) as TK. rewrite (proj2 (Z.leb_le _ _) H10) in TK.
  assert (P6 : m_pc (m6 gp sp m) = 28). { unfold m6. cbn [isa_step m_pc]. rewrite TK, pc5 by exact Hpc. reflexivity. }
  assert (F6 : fetch (start_code gp sp main ++ rest) (m_pc (m6 gp sp m)) = Some (JAL 1 (main - 28))).
  { rewrite P6. apply (fetch_code gp sp main rest 7); [reflexivity|apply jal_legal; auto]. }
  assert (P7 : m_pc (m7 gp sp main m) = main).
  { unfold m7. cbn [isa_step m_pc]. rewrite P6. replace (28 + (main - 28)) with main by lia. apply Z.mod_small. lia. }
  exists (m7 gp sp main m). split; [|split].
  - cbn [isa_run]. rewrite F0. fold (m1 gp m). rewrite F1. fold (m2 gp m). rewrite F2. fold (m3 gp sp m). rewrite F3. fold (m4 gp sp m).
    rewrite F4. fold (m5 gp sp m). rewrite F5. fold (m6 gp sp m). rewrite F6. reflexivity.
  - assert (R7 : forall r, get (m_rf (m7 gp sp main m)) r = if r =? 0 then 0 else if r =? 1 then 32 else get (m_rf (m5 gp sp m)) r).
    { intros r. unfold m7. cbn [isa_step m_rf]. rewrite get_put, P6. unfold m6. cbn [isa_step m_rf].
      destruct (r =? 0) eqn:E0; [reflexivity|]. destruct (r =? 1); [reflexivity|]. unfold get at 1. rewrite E0. reflexivity. }
    split; [exact P7|]. split; [reflexivity|]. rewrite !R7, !rf5 by assumption. cbn [Z.eqb Pos.eqb].
    repeat split. intros r H1 H2 H3 H8. rewrite R7, rf5 by assumption.
    destruct (Z.eqb_spec r 0) as [->|]; [reflexivity|]. destruct (Z.eqb_spec r 1); [contradiction|].
    destruct (Z.eqb_spec r 8); [contradiction|]. destruct (Z.eqb_spec r 2); [contradiction|].
    destruct (Z.eqb_spec r 3); [contradiction|]. reflexivity.
  - cbn [along]. exists (AUIPC 3 (pcrel_hi (gp - 0))). split; [exact F0|]. split; [exact I|]. fold (m1 gp m).
    eexists. split; [exact F1|]. split; [exact I|]. fold (m2 gp m). eexists. split; [exact F2|]. split; [exact I|]. fold (m3 gp sp m).
    eexists. split; [exact F3|]. split; [exact I|]. fold (m4 gp sp m). eexists. split; [exact F4|]. split; [exact I|]. fold (m5 gp sp m).
    eexists. split; [exact F5|]. split; [cbn [supported]; fold (m6 gp sp m); rewrite P6; reflexivity|]. fold (m6 gp sp m).
    eexists. split; [exact F6|]. split; [cbn [supported]; fold (m7 gp sp main m); rewrite P7; split; [lia|exact He]|]. exact I.
Qed.
Print Assumptions C50_start.
(** With x10 positive it arrives at the trap word instead, where the RISC-V
    machine stops. *)
Theorem C50_start_refuses_arguments :
  forall gp sp main rest m,
    word gp -> word sp -> m_pc m = 0 -> 0 < s32 (get (m_rf m) 10) ->
    isa_run (start_code gp sp main ++ rest) 7 m = None /\
    exists m', isa_run (start_code gp sp main ++ rest) 6 m = Some m' /\ m_pc m' = 24.
Proof.
  intros gp sp main rest m Hgp Hsp Hpc H10.
  destruct (steps6 gp sp main rest m Hpc) as (F0 & F1 & F2 & F3 & F4 & F5).
  pose proof (taken6 gp sp m Hgp Hsp Hpc) as TK. rewrite (proj2 (Z.leb_gt _ _) H10) in TK.
  assert (P6 : m_pc (m6 gp sp m) = 24). { unfold m6. cbn [isa_step m_pc]. rewrite TK, pc5 by exact Hpc. reflexivity. }
  assert (R : isa_run (start_code gp sp main ++ rest) 6 m = Some (m6 gp sp m)).
  { cbn [isa_run]. rewrite F0. fold (m1 gp m). rewrite F1. fold (m2 gp m). rewrite F2. fold (m3 gp sp m). rewrite F3. fold (m4 gp sp m).
    rewrite F4. fold (m5 gp sp m). rewrite F5. fold (m6 gp sp m). reflexivity. }
  split; [|exists (m6 gp sp m); auto].
  change 7%nat with (6 + 1)%nat. rewrite PropHalt.isa_run_add, R. cbn [isa_run]. rewrite P6. reflexivity.
Qed.
Print Assumptions C50_start_refuses_arguments.
(** the values of the linker script: stack at the end of RAM, gp 2048 above the
    start of .data (here 64 bytes into RAM), _start_rust right behind the block *)
Example C50_case :
  let m := {| m_pc := 0; m_rf := fun _ => 0; m_mem := fun _ => 0 |} in
  exists m', isa_run (start_code (2 ^ 18 + 64 + 2048) (2 ^ 18 + 4096) 36 ++ asm [JAL 0 0]) 7 m = Some m' /\
    m_pc m' = 36 /\ get (m_rf m') 2 = 0x41000 /\ get (m_rf m') 3 = 0x40840 /\ get (m_rf m') 8 = 0x41000 /\
    PropHalt.finished (start_code (2 ^ 18 + 64 + 2048) (2 ^ 18 + 4096) 36 ++ asm [JAL 0 0]) m'.
Proof. cbv zeta. eexists. split; [reflexivity|]. vm_compute. auto 10. Qed.

(** C51.  The block ends in a trap word, so that a [main] that returns stops
    the machine.  The reference VM stops at every word with the SYSTEM opcode
    (it panics), in every state. *)
Theorem C51_reference_stops :
  forall chk s w n, T.read_word chk (T.rom s) (T.pc s) = Some w -> w mod 128 = 0x73 -> T.run_n chk (S n) s = None.
Proof.
  intros chk s w n R E. cbn [T.run_n]. unfold T.run. rewrite R.
  assert (O : T.extract_bits w 7 = 0x73).
  { unfold T.extract_bits. change (shl32 1 7 - 1) with (Z.ones 7). rewrite Z.land_ones by lia. exact E. }
  replace (T.decode_inst w) with (@None T.inst); [reflexivity|]. symmetry. unfold T.decode_inst. rewrite O. reflexivity.
Qed.
Print Assumptions C51_reference_stops.
(** Full statement: the encrypted VM stops there, too (its state no longer
    changes).  False: it steps over the word ([C43_system_is_nop], for every
    state) and runs into _start_rust, which lies behind it, a second time.  The
    program below counts in RAM how often its [main] is called and returns; the
    count, and so the output, depends on the number of cycles. *)
Definition count_prog : list Z :=
  start_code (2 ^ 18) (2 ^ 18 + 16) 36 ++ asm [LOAD LW 5 2 (-4); OPI ADDI 5 5 1; STORE SW 2 5 (-4); JALR 0 1 0].
Definition count_vm : T.vm :=
  {| T.registers := repeat 0 32; T.pc := 0;
     T.rom := {| T.data := image count_prog; T.offset := 0; T.size := 52 |};
     T.ram := {| T.data := repeat 0 16; T.offset := 2 ^ 18; T.size := 16 |};
     T.input_info := {| T.start_addr := 2 ^ 18; T.io_size := 0 |};
     T.output_info := {| T.start_addr := 2 ^ 18; T.io_size := 0 |}; T.max_cycles := 11%nat |}.
Theorem C51_encrypted_refuted :
  exists p v0 v1 v2 s m,
    EncRun.fits false 13 4 2 count_prog [0; 0; 0; 0] /\ nth_error count_prog 8 = Some UNIMP /\
    Codec.parser_add_all true Codec.parser_new count_prog = Some p /\ EncSpec.load 1 true false 13 4 p [0; 0; 0; 0] = Some v0 /\
    PropEnc.ex_run None 11 v0 = Some v1 /\ EncSpec.dec_pc v1 = 32 /\ EncSpec.dec_ram v1 = Some [0; 0; 0; 1] /\
    PropEnc.ex_run None 5 v1 = Some v2 /\ EncSpec.dec_pc v2 = 32 /\ EncSpec.dec_ram v2 = Some [0; 0; 0; 2] /\
    T.run_n true 11 count_vm = Some s /\ T.pc s = 32 /\ T.run_n true 12 count_vm = None /\
    isa_run count_prog 11 {| m_pc := 0; m_rf := fun _ => 0; m_mem := fun _ => 0 |} = Some m /\ m_pc m = 32 /\ fetch count_prog 32 = None.
Proof.
  do 6 eexists. split; [PropEnc.fits_tac|]. split; [reflexivity|]. split; [vm_compute; reflexivity|]. split; [vm_compute; reflexivity|].
  split; [vm_compute; reflexivity|]. split; [vm_compute; reflexivity|]. split; [vm_compute; reflexivity|].
  split; [vm_compute; reflexivity|]. split; [vm_compute; reflexivity|]. split; [vm_compute; reflexivity|].
  split; [vm_compute; reflexivity|]. split; [vm_compute; reflexivity|]. split; [vm_compute; reflexivity|].
  split; [reflexivity|]. split; vm_compute; reflexivity.
Qed.
Print Assumptions C51_encrypted_refuted.
