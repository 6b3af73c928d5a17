(** * A complete program, for every input (example for C37, C49, C50, C53)

    Startup code, a main that reads a word from the input section, adds one,
    writes it to the output section and loops, linked with the repository's
    script. *)
Require Import ZArith List Bool Lia.
Require Import Verif.Word Verif.Isa Verif.EvalSpec Verif.RunSpec Verif.TestRunSpec Verif.EncVM Verif.Loader Verif.LoadSpec Verif.Startup Verif.Link Verif.LinkFacts.
Require Verif.Bits Verif.RunFacts Verif.DecodeSpec Verif.EncSpec Verif.PropLoad Verif.PropHalt Verif.PropStart Verif.PropLink.
Import ListNotations.
Open Scope Z_scope.

Definition main_code : list instr := [LUI 5 0x40; LOAD LW 6 5 0; OPI ADDI 6 6 1; STORE SW 5 6 4; JAL 0 0].
Definition add_one : objects :=
  Objects (start_code (2 ^ 18 + 8 + 0x800) stack_start 36 ++ asm main_code) [0; 0; 0; 0] [0; 0; 0; 0] [] [] 0.
Definition add_one_elf : elf := match link add_one with Some e => e | None => Elf [] [] None None end.
Lemma add_one_link : link add_one = Some add_one_elf.
Proof. vm_compute. reflexivity. Qed.
Lemma add_one_ok : objects_ok add_one.
Proof.
  unfold objects_ok, add_one. cbn [o_text o_inp o_out o_ro o_data o_bss].
  repeat match goal with |- _ /\ _ => split end; try discriminate; try lia; try (repeat apply Forall_cons; try apply Forall_nil; unfold is_byte; lia); try apply Forall_nil.
  apply PropStart.code_words; [lia|reflexivity|].
  apply RunFacts.asm_words. repeat apply Forall_cons; try apply Forall_nil; cbn [legal]; unfold reg; repeat split; try lia; reflexivity.
Qed.
(** the little-endian word of four bytes, and the bytes of a word *)
Definition value (t : list Z) : Z := nth 0 t 0 + 256 * nth 1 t 0 + 65536 * nth 2 t 0 + 16777216 * nth 3 t 0.
Definition bytes_of (w : Z) : list Z := [w mod 256; w / 256 mod 256; w / 65536 mod 256; w / 16777216 mod 256].

Lemma main_run (m : mach) (t : list Z) : Forall is_byte t -> length t = 4%nat -> m_pc m = 36 ->
  (forall i, (i < 4)%nat -> m_mem m (2 ^ 18 + Z.of_nat i) = nth i t 0) ->
  exists m', isa_run (o_text add_one) 4 m = Some m' /\ along (supported (2 ^ 18)) (o_text add_one) 4 m /\
    PropHalt.finished (o_text add_one) m' /\
    map (fun i => m_mem m' (2 ^ 18 + 4 + Z.of_nat i)) (seq 0 4) = bytes_of ((value t + 1) mod 2 ^ 32).
Proof.
  intros HB HL Hpc HM.
  assert (F36 : fetch (o_text add_one) 36 = Some (LUI 5 0x40)) by (vm_compute; reflexivity).
  assert (F40 : fetch (o_text add_one) 40 = Some (LOAD LW 6 5 0)) by (vm_compute; reflexivity).
  assert (F44 : fetch (o_text add_one) 44 = Some (OPI ADDI 6 6 1)) by (vm_compute; reflexivity).
  assert (F48 : fetch (o_text add_one) 48 = Some (STORE SW 5 6 4)) by (vm_compute; reflexivity).
  assert (F52 : fetch (o_text add_one) 52 = Some (JAL 0 0)) by (vm_compute; reflexivity).
  set (p := o_text add_one) in *. clearbody p.
  set (a1 := isa_step (LUI 5 0x40) m). set (a2 := isa_step (LOAD LW 6 5 0) a1).
  set (a3 := isa_step (OPI ADDI 6 6 1) a2). set (a4 := isa_step (STORE SW 5 6 4) a3).
  assert (P1 : m_pc a1 = 40) by (unfold a1; cbn [isa_step m_pc]; rewrite Hpc; reflexivity).
  assert (P2 : m_pc a2 = 44) by (unfold a2; cbn [isa_step m_pc]; rewrite P1; reflexivity).
  assert (P3 : m_pc a3 = 48) by (unfold a3; cbn [isa_step m_pc]; rewrite P2; reflexivity).
  assert (P4 : m_pc a4 = 52) by (unfold a4; cbn [isa_step m_pc]; rewrite P3; reflexivity).
  assert (R1 : get (m_rf a1) 5 = 2 ^ 18) by reflexivity.
  assert (E1 : ea a1 5 0 = 2 ^ 18) by (unfold ea; rewrite R1; reflexivity).
  assert (V : get (m_rf a2) 6 = value t /\ get (m_rf a2) 5 = 2 ^ 18 /\ m_mem a2 = m_mem m).
  { unfold a2. cbn [isa_step m_rf m_mem do_load]. rewrite !PropStart.get_put. cbn [Z.eqb Pos.eqb]. rewrite R1. split; [|split; reflexivity].
    change (to_word (2 ^ 18 + 0)) with (2 ^ 18). unfold ld32, ld16, ld8.
    change (to_word (2 ^ 18)) with (2 ^ 18 + Z.of_nat 0). change (to_word (2 ^ 18 + 1)) with (2 ^ 18 + Z.of_nat 1).
    change (to_word (2 ^ 18 + 2)) with (2 ^ 18 + Z.of_nat 2). change (to_word (2 ^ 18 + 2 + 1)) with (2 ^ 18 + Z.of_nat 3).
    change (m_mem a1) with (m_mem m). rewrite !HM by lia. unfold value. change (2 ^ 8) with 256. change (2 ^ 16) with 65536. ring. }
  destruct V as (V6 & V5 & VM).
  assert (W6 : get (m_rf a3) 6 = (value t + 1) mod 2 ^ 32 /\ get (m_rf a3) 5 = 2 ^ 18 /\ m_mem a3 = m_mem m).
  { unfold a3. cbn [isa_step m_rf m_mem]. rewrite !PropStart.get_put. cbn [Z.eqb Pos.eqb alu_iop]. rewrite V6, V5, VM.
    split; [|split; reflexivity]. unfold to_word. f_equal. }
  destruct W6 as (W6 & W5 & WM).
  assert (E3 : ea a3 5 4 = 2 ^ 18 + 4) by (unfold ea; rewrite W5; reflexivity).
  exists a4. split; [|split; [|split]].
  - cbn [isa_run]. rewrite Hpc, F36. fold a1. rewrite P1, F40. fold a2. rewrite P2, F44. fold a3. rewrite P3, F48. fold a4. reflexivity.
  - cbn [along]. rewrite Hpc. exists (LUI 5 0x40). split; [exact F36|]. split; [exact I|]. fold a1.
    exists (LOAD LW 6 5 0). split; [rewrite P1; exact F40|]. split.
    { cbn [supported]. rewrite E1. unfold RAM_SIZE. cbn [ld_size]. repeat split; try lia; try reflexivity; discriminate. }
    fold a2. exists (OPI ADDI 6 6 1). split; [rewrite P2; exact F44|]. split; [exact I|]. fold a3.
    exists (STORE SW 5 6 4). split; [rewrite P3; exact F48|]. split; [|exact I].
    cbn [supported]. rewrite E3. unfold RAM_SIZE. cbn [st_size]. repeat split; try lia; try reflexivity.
  - unfold PropHalt.finished. rewrite P4. exact F52.
  - unfold a4. cbn [isa_step m_mem do_store]. rewrite W5, W6, WM. set (w := (value t + 1) mod 2 ^ 32).
    change (to_word (2 ^ 18 + 4)) with (2 ^ 18 + 4). unfold st32, st16, st8.
    change (to_word (2 ^ 18 + 4)) with (2 ^ 18 + 4). change (to_word (2 ^ 18 + 4 + 1)) with (2 ^ 18 + 5).
    change (to_word (2 ^ 18 + 4 + 2)) with (2 ^ 18 + 6). change (to_word (2 ^ 18 + 4 + 2 + 1)) with (2 ^ 18 + 7).
    cbn [seq map]. unfold bytes_of. change (2 ^ 8) with 256. change (2 ^ 16) with 65536.
    repeat f_equal. cbn. rewrite Z.div_div by lia. reflexivity.
Qed.

Lemma add_one_words : Forall (fun w => legal_word w \/ DecodeSpec.lenient w) (o_text add_one).
Proof.
  assert (L : forall l, Forall legal l -> Forall (fun w => legal_word w \/ DecodeSpec.lenient w) (asm l)).
  { intros l F. unfold asm. apply Forall_map. eapply Forall_impl; [|exact F]. intros i Hi. left. exists i. auto. }
  assert (U : Forall (fun w => legal_word w \/ DecodeSpec.lenient w) [UNIMP]).
  { apply Forall_cons; [|apply Forall_nil]. right. right. right. vm_compute. reflexivity. }
  unfold add_one, o_text, start_code. repeat (apply Forall_app; split); try exact U; apply L; try (apply PropStart.la_legal; unfold reg; lia);
    repeat apply Forall_cons; try apply Forall_nil; cbn [legal]; unfold reg; repeat split; try lia; reflexivity.
Qed.

(** For every four input bytes, every number of cycles from eleven up, every
    build profile and every environment of the cycles, the reference VM and the
    encrypted VM both output the bytes of the input plus one. *)
Theorem C53_program_correct :
  forall log dbg chk debug tape k es,
    Forall is_byte tape -> length tape = 4%nat ->
    length es = (11 + k)%nat -> Forall EncSpec.env_ok es -> Z.of_nat (11 + k) < 2 ^ 32 ->
    exists ph tv0 tv tv' ev ev',
      from_elf chk add_one_elf = Some ph /\
      test_vm chk ph (11 + k) = Some tv0 /\ T.read_input_tape chk tv0 tape = Some tv /\ T.execute chk tv = Some tv' /\
      encrypted_vm log dbg chk debug ph tape (11 + k) = Some ev /\ enc_execute log chk es ev = Some ev' /\
      T.output_tape chk tv' = Some (bytes_of ((value tape + 1) mod 2 ^ 32)) /\
      enc_output chk ev' = Some (bytes_of ((value tape + 1) mod 2 ^ 32)).
Proof.
  intros log dbg chk debug tape k es HB HL Hn Henv Hc.
  pose proof add_one_ok as OK. pose proof add_one_link as LK.
  destruct (linked_loads chk add_one add_one_elf OK LK) as (ph & HP). exists ph.
  pose proof (linked_offset chk _ _ OK LK ph HP) as OFF. destruct (linked_infos chk _ _ OK LK ph HP) as (I1 & I2).
  change (out_at add_one) with (2 ^ 18 + 4) in I2. change (len (o_out add_one)) with 4 in I2. change (len (o_inp add_one)) with 4 in I1.
  set (m0 := boot_machine ph tape).
  destruct (PropStart.C50_start (2 ^ 18 + 8 + 0x800) stack_start 36 (asm main_code) m0 (2 ^ 18)) as (m7 & S1 & S2 & S3);
    [unfold word; lia|unfold word, stack_start, RAM_ORIGIN, RAM_LEN; lia|lia|reflexivity|reflexivity|change (0 <= 0); lia|].
  change (start_code (2 ^ 18 + 8 + 0x800) stack_start 36 ++ asm main_code) with (o_text add_one) in *.
  destruct S2 as (PC7 & M7 & _).
  destruct (main_run m7 tape HB HL PC7) as (m11 & R1 & R2 & R3 & R4).
  { intros i Hi. rewrite M7. unfold m0, boot_machine, boot_mem. cbn [m_mem]. rewrite I1. cbn [T.start_addr].
    replace (2 ^ 18 + Z.of_nat i - 2 ^ 18) with (Z.of_nat i) by lia. rewrite HL.
    destruct (Z.leb_spec 0 (Z.of_nat i)); [|lia]. destruct (Z.ltb_spec (Z.of_nat i) (Z.of_nat 4)); [|lia]. cbn [andb].
    rewrite Nat2Z.id. rewrite (nth_error_nth' tape 0) by lia. reflexivity. }
  destruct (PropHalt.C49_output_settles log dbg chk debug add_one_elf ph (o_text add_one) tape 11 m11 k es)
    as (tv0 & tv & tv' & ev & ev' & A & B & C & D & E & O1 & O2); auto.
  - exact (linked_ok _ _ OK LK).
  - apply (linked_rom chk _ _ OK LK ph HP).
  - apply OK.
  - exact add_one_words.
  - discriminate.
  - unfold input_fits, RAM_SIZE. rewrite OFF, I1. cbn [T.start_addr T.io_size]. lia.
  - unfold output_fits, RAM_SIZE. rewrite OFF, I2. cbn [T.start_addr T.io_size]. lia.
  - rewrite OFF. lia.
  - rewrite OFF. exists 0. lia.
  - rewrite OFF. change 11%nat with (7 + 4)%nat. eapply PropHalt.along_add; [exact S1|exact S3|exact R2].
  - change 11%nat with (7 + 4)%nat. rewrite PropHalt.isa_run_add. fold m0. rewrite S1. exact R1.
  - exists tv0, tv, tv', ev, ev'. assert (O : output_of ph m11 = bytes_of ((value tape + 1) mod 2 ^ 32)).
    { unfold output_of. rewrite I2. cbn [T.start_addr T.io_size]. exact R4. }
    rewrite O in O1, O2. repeat match goal with |- _ /\ _ => split end; assumption.
Qed.
Print Assumptions C53_program_correct.
