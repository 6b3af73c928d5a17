(** From an image to equal outputs (proofs). *)
Require Import ZArith Lia Bool List Arith.
Require Import ZifyBool.
Require Import Verif.Word Verif.Isa Verif.Bits Verif.Codec Verif.DecodeSpec Verif.DecodeFacts Verif.DecodeAccept Verif.EvalSpec Verif.EvalFacts
  Verif.ListFacts Verif.TestRunSpec Verif.TestRunFacts Verif.IsaSplit Verif.DebugVM Verif.DebugSpec Verif.DebugFacts Verif.DebugStep Verif.DebugLoad
  Verif.RunSpec Verif.RunFacts
  Verif.Glwe Verif.EncMem Verif.MemSpec Verif.EncVM Verif.Loader Verif.LoadSpec Verif.LoadFacts Verif.LoadRun.
Require Verif.CircFacts Verif.EncSpec Verif.EncCycle Verif.EncTrack Verif.EncLoad Verif.EncRun.
Import ListNotations.
Open Scope Z_scope.
Ltac Zify.zify_post_hook ::= idtac.

(** what the encrypted VM asks for beyond [dsupported] *)
Definition efine (i : instr) (m : mach) : Prop :=
  match i with
  | LOAD LB _ rs1 off => m_mem m (ea m rs1 off) < 128
  | JAL _ off => - 2 ^ 19 <= off < 2 ^ 19
  | _ => True
  end.
Lemma word20 off : - 2 ^ 19 <= off < 2 ^ 19 -> to_word off = to_word (signed 20 (to_word off)).
Proof. intros H. rewrite CircFacts.signed20_word, CircFacts.signed20_id by exact H. reflexivity. Qed.

Lemma agrees_here base prog d m i : dvm_ok d -> base_ok base (ram_size d) -> dshows base d m -> tables_hold (drom d) prog ->
  legal i -> fetch prog (m_pc m) = Some i -> dsupported base (ram_size d) i m -> efine i m -> EncSpec.agrees_on d.
Proof.
  intros Hd HB Hs Ht Hl Hf HS HE.
  assert (EN : entry_is (drom d) (Z.to_nat (Z.shiftr (dpc d) 2)) i).
  { apply (fetch_entry _ prog); auto; [apply Hd|]. destruct Hs as [-> _]. exact Hf. }
  rewrite Z.shiftr_div_pow2 in EN by lia. change (2 ^ 2) with 4 in EN.
  unfold EncSpec.agrees_on. cbv zeta. set (k := Z.to_nat (dpc d / 4)) in *. unfold entry_is in EN.
  destruct (legal_regs i Hl) as (R1 & _). unfold r_rs1 in R1.
  destruct (regs_of i) as [[rs2 rs1] rd] eqn:ER. destruct (ops_of i) as [[o1 o2] o3] eqn:EO. cbn [fst snd] in R1.
  destruct EN as (E1 & E2 & _ & _ & E5 & _ & E7).
  rewrite (nth_error_nth _ _ 0 E1), (nth_error_nth _ _ 0 E2), (nth_error_nth _ _ 0 E5), (nth_error_nth _ _ 0 E7).
  destruct Hs as (_ & Hr & Hm). rewrite (nth_error_nth _ _ 0 (Hr rs1 R1)). split.
  - intros E. assert (K : exists r1 a, i = LOAD LB rd r1 a /\ r1 = rs1).
    { destruct i; cbn in EO, ER; injection EO as <- <- <-; injection ER as <- <- <-;
        try discriminate E; try (destruct o; discriminate E). destruct k0; try discriminate E. eauto. }
    destruct K as (r1 & a & -> & ->). cbn [dsupported efine] in HS, HE. destruct HS as (S1 & S2 & S3).
    set (ad := ea m rs1 a) in *. change (ld_size LB) with 1 in S2.
    assert (HA : to_word (imm_of (LOAD LB rd rs1 a) + get (m_rf m) rs1 - 2 ^ 18) = to_word (ad - 2 ^ 18)).
    { cbn [imm_of]. unfold ad, ea, to_word. rewrite Zminus_mod_idemp_l.
      replace (a mod 2 ^ 32 + get (m_rf m) rs1 - 2 ^ 18) with (a mod 2 ^ 32 + (get (m_rf m) rs1 - 2 ^ 18)) by lia.
      rewrite Zplus_mod_idemp_l. f_equal. lia. }
    rewrite HA. destruct (addr_in base (ram_size d) _ ad HB ltac:(lia) eq_refl) as (X1 & X2 & X3).
    rewrite Z.shiftr_div_pow2 in X1 by lia. change (2 ^ 2) with 4 in X1. rewrite X1.
    destruct Hd as (_ & _ & _ & _ & HL & _).
    destruct (Hm ad ltac:(lia)) as (w & W1 & W2). rewrite (nth_error_nth _ _ 0 W1).
    rewrite <- X3, S3 in W2. lia.
  - intros E. destruct i; cbn in EO; injection EO as <- <- <-; try (exfalso; apply E; reflexivity); cbn [imm_of];
      apply word20; cbn [legal efine] in Hl, HE; lia.
Qed.
Lemma along_agrees base prog n : forall d m, dvm_ok d -> base_ok base (ram_size d) -> dshows base d m ->
  tables_hold (drom d) prog -> Forall word prog ->
  along (fun i m => dsupported base (ram_size d) i m /\ efine i m) prog n m -> EncSpec.agrees n d.
Proof.
  induction n as [|n IH]; intros d m Hd HB Hs Ht HF Ha; [exact I|]. destruct Ha as (i & Hf & (F1 & F2) & Ha).
  pose proof (fetch_legal _ _ _ HF Hf) as Hl. cbn [EncSpec.agrees]. split; [eapply agrees_here; eauto|]. intros d' C.
  assert (HE : entry_is (drom d) (Z.to_nat (Z.shiftr (dpc d) 2)) i).
  { apply (fetch_entry _ prog); auto; [apply Hd|]. destruct Hs as [-> _]. exact Hf. }
  destruct (dcycle_step base d m i Hd HB Hs Hl HE F1) as (s1 & C' & O1 & S1 & (T1 & T2 & _)).
  assert (s1 = d') by congruence. subst s1. apply (IH d' (isa_step i m)); rewrite ?T1, ?T2; auto.
Qed.

(** [supported] gives what each VM needs *)
Lemma supported_fine chk base off prog n : base = off -> forall m,
  4 * Z.of_nat (length prog) < 2 ^ 32 -> forall mem, T.offset mem = off -> T.size mem = RAM_SIZE ->
  along (supported off) prog n m ->
  along (fun i m => (t_fine chk mem i m /\ dsupported base 1024 i m) /\ efine i m) prog n m.
Proof.
  intros -> m HL mem HO HS. revert m. induction n as [|n IH]; intros m Ha; [exact I|]. destruct Ha as (i & Hf & F & Ha).
  exists i. split; [exact Hf|]. split; [|apply IH; exact Ha].
  assert (PC : ~ pc_overflow chk i m).
  { intros (_ & _ & H). destruct (fetch_inv _ _ _ Hf) as (E & w & HN & _).
    apply nth_error_Some_lt in HN. pose proof (Z.div_mod (m_pc m) 4 ltac:(lia)). lia. }
  unfold t_fine, stays_in, in_region. rewrite HO, HS.
  destruct i; cbn [supported] in F; cbn [refused div_trap dsupported efine]; unfold RAM_SIZE in *.
  - tauto.
  - tauto.
  - split; [|tauto]. repeat split; auto; tauto || lia.
  - split; [|tauto]. repeat split; auto; tauto || lia.
  - split; [|tauto]. repeat split; auto; tauto || lia.
  - destruct F as (F1 & F2 & F3 & F4). assert (M2 : ea m rs1 off0 mod 2 = 0).
    { pose proof (Z.div_mod (ea m rs1 off0) 4 ltac:(lia)) as D. rewrite F3 in D.
      rewrite D. replace (4 * (ea m rs1 off0 / 4) + 0) with ((2 * (ea m rs1 off0 / 4)) * 2) by lia. apply Z.mod_mul. lia. }
    destruct k; cbn [ld_size] in *; repeat split; auto; try lia; try tauto.
  - destruct F as (F1 & F2 & F3). destruct k; cbn [st_size] in *; repeat split; auto; try lia; try tauto.
  - tauto.
  - tauto.
  - tauto.
  - contradiction.
Qed.

Section Run.
Variables (log : nat) (dbg chk debug : bool) (e : elf) (ph : phantom) (prog : list Z) (tape : list Z).
Notation off := (b_offset (boot_ram ph)).
Hypothesis (HE : elf_ok e) (HP : from_elf chk e = Some ph).
Hypothesis (HI : b_data (boot_rom ph) = image prog) (HL : Forall word prog) (HA : Forall (accepted dbg) prog) (HN : prog <> []).
Hypothesis (HB : Forall is_byte tape) (HF : input_fits ph tape).

Lemma prog_len : 4 * Z.of_nat (length prog) = b_size (boot_rom ph) /\ 4 * Z.of_nat (length prog) < 2 ^ 32.
Proof.
  destruct (rom_facts chk e ph HE HP) as (A & B & C & D). unfold is_u32 in C.
  rewrite HI, image_ram_bytes, length_ram_bytes in B. lia.
Qed.
Lemma prog_words : chunks4 (b_data (boot_rom ph)) = prog.
Proof. rewrite HI, image_ram_bytes. apply chunks4_ram_bytes. exact HL. Qed.
Lemma prog_rom_ok : rom_ok ph dbg.
Proof.
  destruct prog_len as [A B]. unfold rom_ok. rewrite prog_words. split; [|split; [|exact HA]].
  - destruct prog; [contradiction|cbn [length] in A; lia].
  - rewrite <- A, Z.mul_comm. apply Z.mod_mul. lia.
Qed.

Lemma boot_mem_ram a : off <= a < off + RAM_SIZE ->
  nth_error (input_ram ph tape) (Z.to_nat (a - off)) = Some (boot_mem ph tape a).
Proof.
  intros Ha. destruct (input_ram_ok chk e ph HE HP tape HF HB) as (L & _ & N). rewrite N. unfold with_tape, boot_mem, ram_at. cbv zeta.
  destruct HF as (F1 & F2 & F3). destruct (ram_facts chk e ph HE HP) as (R1 & R2 & R3 & R4 & _).
  replace ((T.start_addr (inp_info ph) - off <=? Z.of_nat (Z.to_nat (a - off))) &&
    (Z.of_nat (Z.to_nat (a - off)) <? T.start_addr (inp_info ph) - off + Z.of_nat (length tape)))
    with ((0 <=? a - T.start_addr (inp_info ph)) && (a - T.start_addr (inp_info ph) <? Z.of_nat (length tape))) by lia.
  destruct ((0 <=? a - T.start_addr (inp_info ph)) && (a - T.start_addr (inp_info ph) <? Z.of_nat (length tape))) eqn:B.
  - replace (Z.to_nat (a - off) - Z.to_nat (T.start_addr (inp_info ph) - off))%nat with (Z.to_nat (a - T.start_addr (inp_info ph))) by lia.
    destruct (nth_error_lt _ tape (Z.to_nat (a - T.start_addr (inp_info ph))) ltac:(lia)) as [b Hb]. rewrite Hb. reflexivity.
  - replace (off <=? a) with true by lia.
    destruct (nth_error_lt _ (b_data (boot_ram ph)) (Z.to_nat (a - off)) ltac:(lia)) as [b Hb]. rewrite Hb. reflexivity.
Qed.

Hypothesis (HO : off + RAM_SIZE <= 2 ^ 32) (HD : (RAM_SIZE | off - 2 ^ 18)).

Lemma base_fine : base_ok off 1024.
Proof.
  destruct (ram_facts chk e ph HE HP) as ((R1 & _) & _). unfold RAM_SIZE in *. unfold base_ok.
  repeat split; try lia. right. split; [exists 1048576; reflexivity|exact HD].
Qed.
Lemma test_shows n : vm_ok (test_start ph tape n) /\ shows (test_start ph tape n) (boot_machine ph tape) /\
  rom_holds (T.rom (test_start ph tape n)) prog.
Proof.
  destruct (input_ram_ok chk e ph HE HP tape HF HB) as (L & FB & _). destruct (ram_facts chk e ph HE HP) as ((R1 & _) & _).
  split; [|split].
  - unfold vm_ok, mem_ok. cbn [test_start T.registers T.pc T.ram T.offset T.size T.data]. unfold RAM_SIZE in *.
    repeat match goal with |- _ /\ _ => split end; try reflexivity; try lia; auto.
    + apply Forall_forall. intros x Hx. apply repeat_spec in Hx. subst x. unfold word. lia.
    + unfold word. lia.
  - unfold shows. cbn [test_start T.registers T.pc T.ram boot_machine m_pc m_rf m_mem]. split; [reflexivity|]. split.
    + intros r Hr. rewrite zero_regs by exact Hr. unfold get. destruct (r =? 0); reflexivity.
    + intros a Ha. unfold in_region in Ha. cbn [T.offset T.size T.data] in *. apply boot_mem_ram. lia.
  - destruct prog_len as [A B]. unfold RunSpec.rom_holds. cbn [test_start T.rom T.offset T.size T.data].
    repeat split; auto; lia.
Qed.
Notation rom_words := (Z.to_nat (Z.shiftr (b_size (boot_rom ph)) 2)).
Notation ram := (chunks4 (input_ram ph tape)).
Lemma start_shows r : fill dbg prog = Some r ->
  let d := EncLoad.dstart rom_words (2 ^ 10) r ram in
  dvm_ok d /\ ram_size d = 1024 /\ tables_hold (drom d) prog /\ dshows off d (boot_machine ph tape).
Proof.
  intros FI. destruct (ram_chunks chk e ph HE HP tape HF HB) as (D1 & D2 & D3).
  assert (RS : ram_size (EncLoad.dstart rom_words (2 ^ 10) r ram) = 1024) by reflexivity.
  destruct (fill_tables dbg prog r HL FI) as (Ht & _).
  cbv zeta. split; [|split; [exact RS|split; [exact Ht|]]].
  - unfold dvm_ok. rewrite RS. cbn [EncLoad.dstart dregs dpc dram]. rewrite D1.
    repeat match goal with |- _ /\ _ => split end; try reflexivity; try lia; auto.
    + apply Forall_forall. intros x Hx. apply repeat_spec in Hx. subst x. unfold word. lia.
    + unfold word. lia.
  - unfold dshows. cbn [EncLoad.dstart dregs dpc dram boot_machine m_pc m_rf m_mem]. split; [reflexivity|]. split.
    + intros q Hq. rewrite zero_regs by exact Hq. unfold get. destruct (q =? 0); reflexivity.
    + intros a Ha. rewrite D1 in Ha. change (4 * Z.of_nat (2 ^ 10)) with RAM_SIZE in Ha.
      assert (0 <= (a - off) / 4 < 1024) by (unfold RAM_SIZE in Ha; split; [apply Z.div_pos; lia|apply Z.div_lt_upper_bound; lia]).
      destruct (nth_error_lt _ ram (Z.to_nat ((a - off) / 4))) as [w Hw]; [rewrite D1; change (2 ^ 10)%nat with (Z.to_nat 1024); lia|].
      exists w. split; [exact Hw|]. pose proof (boot_mem_ram a Ha) as BM. rewrite <- D3 in BM.
      rewrite (nth_ram_bytes_Z _ _ w) in BM by (auto; lia). congruence.
Qed.

Lemma same_output n es : length es = n -> Forall EncSpec.env_ok es -> Z.of_nat n < 2 ^ 32 -> output_fits ph ->
  along (supported off) prog n (boot_machine ph tape) ->
  exists tv0 tv tv' ev ev' m',
    test_vm chk ph n = Some tv0 /\ T.read_input_tape chk tv0 tape = Some tv /\ T.execute chk tv = Some tv' /\
    encrypted_vm log dbg chk debug ph tape n = Some ev /\ enc_execute log chk es ev = Some ev' /\
    isa_run prog n (boot_machine ph tape) = Some m' /\
    T.output_tape chk tv' = Some (output_of ph m') /\ enc_output chk ev' = Some (output_of ph m').
Proof.
  intros Hn Henv Hc (OF1 & OF2) Hal.
  destruct (test_boot chk e ph HE HP tape n HF) as (tv0 & T0 & T1).
  destruct (enc_boot chk e ph HE HP log dbg debug tape n prog_rom_ok HF HB) as (ev & EV).
  destruct (enc_boot_inv chk e ph HE HP log dbg debug tape n ev EV HB) as (OK & _ & BO & O1 & O2 & O3 & O4).
  destruct (rom_bits chk e ph HE HP (proj1 OK) (proj1 (proj2 OK))) as (rb & RB & Hrb).
  pose proof (enc_fits chk e ph HE HP dbg debug tape rb OK HF HB RB Hrb) as FT.
  destruct (EncRun.boots_shows _ _ _ _ _ _ _ _ _ FT BO) as (r & FI & S & DB).
  pose proof prog_words as CW. rewrite CW in FI.
  destruct (start_shows r FI) as (DO & DR & DT & DS). set (d := EncLoad.dstart rom_words (2 ^ 10) r ram) in *.
  destruct (test_shows n) as (VO & VS & VR).
  destruct prog_len as [PL1 PL2].
  pose proof (supported_fine chk off off prog n eq_refl (boot_machine ph tape) PL2 (T.ram (test_start ph tape n)) eq_refl eq_refl Hal) as Hal'.
  destruct (lockstep chk off prog n (test_start ph tape n) d (boot_machine ph tape) VO DO VS DS)
    as (s' & d' & m' & R1 & R2 & R3 & R4 & R5 & R6); auto; rewrite ?DR; auto.
  { apply base_fine. }
  { eapply along_impl; [|exact Hal']. cbv beta. tauto. }
  assert (AG : EncSpec.agrees n d).
  { apply (along_agrees off prog n d (boot_machine ph tape)); auto; rewrite ?DR; [apply base_fine|].
    eapply along_impl; [|exact Hal']. cbv beta. tauto. }
  pose proof (rom_chunks chk e ph HE HP (proj1 (proj2 OK))) as (C1 & _). rewrite CW in C1.
  destruct (ram_chunks chk e ph HE HP tape HF HB) as (D1 & D2 & D3).
  pose proof (EncLoad.start_follows rom_words prog dbg r ram 10 HL FI C1 D1 ltac:(lia)) as FO. fold d in FO.
  set (sk := if debug then Some secret_key else None).
  assert (K : EncCycle.key_ok log sk debug) by apply EncCycle.key_when.
  destruct (EncTrack.follows_run log rb 10 sk debug chk es K Henv (ev_vm ev) _ d d' S FO) as (v' & E' & S' & FO' & _);
    rewrite ?Hn; auto.
  { right. rewrite DB. destruct debug; auto. }
  set (ev' := {| ev_vm := v'; ev_out := ev_out ev; ev_offset := ev_offset ev; ev_max := ev_max ev; ev_debug := ev_debug ev |}).
  exists tv0, (test_start ph tape n), s', ev, ev', m'.
  assert (X1 : enc_execute log chk es ev = Some ev').
  { unfold enc_execute. rewrite O3, Hn, Nat.eqb_refl, O4. fold sk. rewrite E'. unfold ev'. rewrite O4, O3. reflexivity. }
  assert (RW : T.registers s' = dregs d' /\ T.data (T.ram s') = ram_bytes (dram d')) by (destruct R6 as (_ & ? & _ & ?); auto).
  pose proof (run_n_isa chk prog n (test_start ph tape n) (boot_machine ph tape) VO VS VR HL) as RI.
  destruct RI as (s2 & m2 & I1 & I2 & I3 & I4 & I5).
  { eapply along_impl; [|exact Hal']. cbv beta. tauto. }
  assert (s2 = s') by congruence. assert (m2 = m') by congruence. subst s2 m2.
  destruct (ram_facts chk e ph HE HP) as ((U1 & U2) & U3 & U4 & U5 & U6 & U7).
  repeat match goal with |- _ /\ _ => split end; auto.
  - destruct I5 as (J1 & (J2 & J3) & J4 & J5 & J6). unfold T.output_tape, output_of. rewrite J5. cbn [test_start T.output_info].
    apply mapM_some. intros i Hi. apply in_seq in Hi. destruct U7 as (W1 & W2). unfold is_u32 in *.
    destruct (read_byte_ok chk (T.ram s') (m_mem m') (T.start_addr (out_info ph) + Z.of_nat i)) as [RB' _]; [apply I3|apply I4| |].
    + unfold in_region. rewrite J2, J3. cbn [test_start T.ram T.offset T.size]. lia.
    + rewrite RB'. unfold ld8. rewrite to_word_small by (unfold word; lia). reflexivity.
  - assert (DEC : EncSpec.dec_ram v' = Some (dram d')).
    { rewrite (EncTrack.shows_ram _ _ _ _ _ S'). destruct FO' as (_ & _ & Q & _). rewrite Hn in Q. rewrite Hn, Q. reflexivity. }
    assert (LD : length (dram d') = 1024%nat).
    { destruct S' as (_ & _ & _ & _ & _ & _ & _ & _ & _ & S10 & _). destruct FO' as (_ & _ & Q & _). rewrite <- Q, S10. reflexivity. }
    assert (VS' : v_ram_size v' = 1024%nat).
    { destruct S' as (_ & _ & _ & _ & _ & _ & _ & _ & _ & _ & S11 & _). rewrite S11. reflexivity. }
    rewrite (enc_output_eq chk ev' (dram d')); cbn [ev' ev_vm ev_out ev_offset]; rewrite ?O1, ?O2; auto.
    f_equal. unfold output_of. apply map_ext_in. intros i Hi. apply in_seq in Hi. cbv zeta.
    destruct U7 as (W1 & W2). unfold is_u32 in *.
    rewrite (Z.mod_small (T.start_addr (out_info ph) + Z.of_nat i - off) RAM_SIZE) by lia. set (a := T.start_addr (out_info ph) + Z.of_nat i) in *.
    destruct R5 as (_ & _ & M). destruct (M a) as (w & M1 & M2); [rewrite LD; change (4 * Z.of_nat 1024) with RAM_SIZE; lia|].
    rewrite (nth_error_nth _ _ 0 M1). congruence.
Qed.
End Run.
