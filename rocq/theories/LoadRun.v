(** Starting and running both VMs from an image (proofs). *)
Require Import ZArith Lia Bool List Arith.
Require Import ZifyBool.
Require Import Verif.Word Verif.Isa Verif.Bits Verif.Codec Verif.DecodeSpec Verif.DecodeFacts Verif.DecodeAccept Verif.EvalSpec Verif.EvalFacts
  Verif.ListFacts Verif.TestRunSpec Verif.TestRunFacts Verif.IsaSplit Verif.DebugVM Verif.DebugSpec Verif.DebugStep Verif.RunSpec Verif.RunFacts
  Verif.Glwe Verif.EncMem Verif.MemSpec Verif.EncVM Verif.Loader Verif.LoadSpec Verif.LoadFacts.
Require Verif.EncSpec Verif.EncCycle Verif.EncTrack Verif.EncLoad Verif.EncRun.
Import ListNotations.
Open Scope Z_scope.
Ltac Zify.zify_post_hook ::= idtac.

(** RAM with the tape in place *)
Definition input_ram (ph : phantom) (tape : list Z) : list Z :=
  let lo := T.start_addr (inp_info ph) - b_offset (boot_ram ph) in
  firstn (Z.to_nat lo) (b_data (boot_ram ph)) ++ tape ++ skipn (Z.to_nat lo + length tape) (b_data (boot_ram ph)).

Section Image.
Variables (chk : bool) (e : elf) (ph : phantom).
Hypothesis (HE : elf_ok e) (HP : from_elf chk e = Some ph).
Notation off := (b_offset (boot_ram ph)).
Notation lo := (T.start_addr (inp_info ph) - off).

Lemma ram_facts : is_u32 off /\ b_size (boot_ram ph) = RAM_SIZE /\ Z.of_nat (length (b_data (boot_ram ph))) = RAM_SIZE /\
  Forall is_byte (b_data (boot_ram ph)) /\ info_ok (inp_info ph) /\ info_ok (out_info ph).
Proof. pose proof (from_elf_ok chk e ph HE HP). tauto. Qed.
Lemma rom_facts : b_offset (boot_rom ph) = 0 /\ b_size (boot_rom ph) = Z.of_nat (length (b_data (boot_rom ph))) /\
  is_u32 (b_size (boot_rom ph)) /\ Forall is_byte (b_data (boot_rom ph)).
Proof.
  destruct (from_elf_ok chk e ph HE HP) as ((txt & _ & _ & _ & _ & A & B & C & D & F & _) & _).
  rewrite B, D. auto.
Qed.

Lemma input_range tape : input_fits ph tape ->
  range_from chk (T.start_addr (inp_info ph)) (T.io_size (inp_info ph)) off = Some (lo, lo + Z.of_nat (length tape)).
Proof.
  intros (F1 & F2 & F3). destruct ram_facts as (R1 & _ & _ & _ & (I1 & I2) & _). rewrite range_ok by assumption.
  rewrite F1. f_equal. f_equal. lia.
Qed.
Lemma input_copy tape : input_fits ph tape ->
  copy_into (b_data (boot_ram ph)) lo (lo + Z.of_nat (length tape)) tape = Some (input_ram ph tape).
Proof.
  intros (F1 & F2 & F3). destruct ram_facts as (R1 & R2 & R3 & _). unfold copy_into.
  replace ((lo <=? lo + Z.of_nat (length tape)) && (lo + Z.of_nat (length tape) <=? Z.of_nat (length (b_data (boot_ram ph)))) &&
    (Z.of_nat (length tape) =? lo + Z.of_nat (length tape) - lo)) with true by lia.
  unfold input_ram. repeat f_equal. lia.
Qed.
Lemma input_ram_ok tape : input_fits ph tape -> Forall is_byte tape ->
  Z.of_nat (length (input_ram ph tape)) = RAM_SIZE /\ Forall is_byte (input_ram ph tape) /\
  forall i, nth_error (input_ram ph tape) i = with_tape (b_data (boot_ram ph)) lo tape i.
Proof.
  intros HF HB. pose proof (input_copy tape HF) as C. destruct HF as (F1 & F2 & F3). destruct ram_facts as (R1 & R2 & R3 & R4 & _).
  destruct (copy_some _ _ _ _ _ C) as (C1 & C2 & C3 & C4); [lia|]. split; [lia|]. split; [|exact C4].
  eapply copy_Forall; [exact C|lia|exact R4|exact HB].
Qed.
(** inversions *)
Lemma copy_input_inv lo' hi' tape ram : Z.of_nat (length tape) = T.io_size (inp_info ph) ->
  range_from chk (T.start_addr (inp_info ph)) (T.io_size (inp_info ph)) off = Some (lo', hi') ->
  copy_into (b_data (boot_ram ph)) lo' hi' tape = Some ram -> input_fits ph tape.
Proof.
  intros L R C. destruct ram_facts as (R1 & R2 & R3 & R4 & (I1 & I2) & _). unfold RAM_SIZE in *.
  assert (0 <= lo') by (eapply range_lo; [|exact R]; unfold is_u32 in *; lia).
  destruct (copy_some _ _ _ _ _ C) as (C1 & C2 & _); [assumption|].
  assert (HL : lo' <= 2 ^ 34) by lia.
  destruct (range_some chk _ _ _ _ _ I1 I2 R1 HL R) as (Q1 & Q2 & Q3).
  unfold input_fits, RAM_SIZE. lia.
Qed.

(** ** the reference VM *)
Lemma load_fresh o sz data : 0 <= sz -> Z.of_nat (length data) = sz ->
  T.load_memory chk (T.mem_new o sz) o data = Some {| T.data := data; T.offset := o; T.size := sz |}.
Proof.
  intros H L. unfold T.load_memory. cbn [T.offset T.size T.data T.mem_new]. rewrite usub_ok by lia. rewrite Z.sub_diag.
  cbn [Z.add Z.to_nat firstn app plus]. rewrite repeat_length.
  replace (Z.of_nat (length data) <=? Z.of_nat (Z.to_nat sz)) with true by lia.
  rewrite skipn_all2, app_nil_r by (rewrite repeat_length; lia). reflexivity.
Qed.
Lemma test_vm_eq n : test_vm chk ph n = Some {| T.registers := repeat 0 32;
    T.rom := {| T.data := b_data (boot_rom ph); T.offset := 0; T.size := b_size (boot_rom ph) |};
    T.ram := {| T.data := b_data (boot_ram ph); T.offset := off; T.size := RAM_SIZE |};
    T.pc := 0; T.input_info := inp_info ph; T.output_info := out_info ph; T.max_cycles := n |}.
Proof.
  destruct rom_facts as (A & B & C & D). destruct ram_facts as (R1 & R2 & R3 & R4 & _). unfold is_u32 in *.
  unfold test_vm, T.init. rewrite A. rewrite load_fresh by lia. rewrite load_fresh by (rewrite ?R2; unfold RAM_SIZE in *; lia).
  rewrite R2. reflexivity.
Qed.
Definition test_start (tape : list Z) (n : nat) : T.vm := {| T.registers := repeat 0 32;
    T.rom := {| T.data := b_data (boot_rom ph); T.offset := 0; T.size := b_size (boot_rom ph) |};
    T.ram := {| T.data := input_ram ph tape; T.offset := off; T.size := RAM_SIZE |};
    T.pc := 0; T.input_info := inp_info ph; T.output_info := out_info ph; T.max_cycles := n |}.
Lemma test_boot tape n : input_fits ph tape -> exists tv0, test_vm chk ph n = Some tv0 /\
  T.read_input_tape chk tv0 tape = Some (test_start tape n).
Proof.
  intros HF. eexists. split; [apply test_vm_eq|]. unfold T.read_input_tape. cbn [T.input_info T.ram T.rom T.registers T.pc T.with_cpu].
  pose proof (input_copy tape HF) as C. destruct HF as (F1 & F2 & F3). destruct ram_facts as (R1 & R2 & R3 & R4 & _).
  rewrite F1, Z.eqb_refl. unfold T.load_memory. cbn [T.offset T.data]. rewrite usub_ok by assumption.
  replace (lo + Z.of_nat (length tape) <=? Z.of_nat (length (b_data (boot_ram ph)))) with true by lia. reflexivity.
Qed.
Lemma test_boot_inv tape n tv0 tv : test_vm chk ph n = Some tv0 -> T.read_input_tape chk tv0 tape = Some tv -> input_fits ph tape.
Proof.
  rewrite test_vm_eq. intros [= <-]. unfold T.read_input_tape. cbn [T.input_info T.ram].
  destruct (Z.eqb_spec (Z.of_nat (length tape)) (T.io_size (inp_info ph))) as [L|]; [|discriminate].
  unfold T.load_memory. cbn [T.offset T.data]. destruct (T.usub chk (T.start_addr (inp_info ph)) off) as [s|] eqn:U; [|discriminate].
  destruct (Z.leb_spec (s + Z.of_nat (length tape)) (Z.of_nat (length (b_data (boot_ram ph))))) as [HS|]; [|discriminate]. intros _.
  destruct ram_facts as (R1 & R2 & R3 & R4 & (I1 & I2) & _). unfold RAM_SIZE, is_u32 in *.
  destruct (Z.le_gt_cases off (T.start_addr (inp_info ph))) as [HO|HO].
  - rewrite usub_ok in U by assumption. assert (s = lo) by congruence. unfold input_fits, RAM_SIZE. lia.
  - apply usub_wrap in U; lia.
Qed.

(** ** the encrypted VM *)
Notation ws := (chunks4 (b_data (boot_rom ph))).
Notation rom_words := (Z.to_nat (Z.shiftr (b_size (boot_rom ph)) 2)).
Definition rom_ok (dbg : bool) : Prop :=
  0 < b_size (boot_rom ph) /\ b_size (boot_rom ph) mod 4 = 0 /\ Forall (accepted dbg) ws.

Lemma rom_chunks : b_size (boot_rom ph) mod 4 = 0 ->
  length ws = rom_words /\ Forall word ws /\ ram_bytes ws = b_data (boot_rom ph) /\ Z.of_nat (4 * rom_words) = b_size (boot_rom ph).
Proof.
  intros M. destruct rom_facts as (A & B & C & D). unfold is_u32 in *.
  pose proof (Z.div_mod (b_size (boot_rom ph)) 4 ltac:(lia)) as DM. rewrite Z.shiftr_div_pow2 by lia. change (2 ^ 2) with 4.
  assert (0 <= b_size (boot_rom ph) / 4) by (apply Z.div_pos; lia).
  destruct (chunks4_bytes (Z.to_nat (b_size (boot_rom ph) / 4)) (b_data (boot_rom ph))) as (X & Y & W); [lia|exact D|].
  repeat split; auto. lia.
Qed.
Lemma ram_chunks tape : input_fits ph tape -> Forall is_byte tape ->
  length (chunks4 (input_ram ph tape)) = (2 ^ 10)%nat /\ Forall word (chunks4 (input_ram ph tape)) /\
  ram_bytes (chunks4 (input_ram ph tape)) = input_ram ph tape.
Proof.
  intros HF HB. destruct (input_ram_ok tape HF HB) as (L & F & _). unfold RAM_SIZE in L.
  change (2 ^ 10)%nat with (Z.to_nat 1024). apply chunks4_bytes; [lia|exact F].
Qed.
Lemma rom_bits : 0 < b_size (boot_rom ph) -> b_size (boot_rom ph) mod 4 = 0 ->
  exists rb, bit_len_pred (Z.of_nat rom_words) = Some rb /\ (rb <= 30)%nat.
Proof.
  intros P M. destruct rom_chunks as (_ & _ & _ & E); [exact M|]. destruct rom_facts as (_ & _ & C & _). unfold is_u32 in C.
  set (n := Z.of_nat rom_words) in *. assert (0 < n <= 2 ^ 30) by lia. unfold bit_len_pred.
  destruct (Z.leb_spec n 0); [lia|]. eexists. split; [reflexivity|]. destruct (Z.eqb_spec n 1); [lia|].
  assert (Z.log2 (n - 1) < 30) by (apply Z.log2_lt_pow2; lia). lia.
Qed.
Lemma enc_fits dbg debug tape rb : rom_ok dbg -> input_fits ph tape -> Forall is_byte tape ->
  bit_len_pred (Z.of_nat rom_words) = Some rb -> (rb <= 30)%nat ->
  EncRun.fits debug rom_words rb 10 ws (chunks4 (input_ram ph tape)).
Proof.
  intros (O1 & O2 & O3) HF HB RB Hrb. destruct (rom_chunks O2) as (C1 & C2 & C3 & C4). destruct (ram_chunks tape HF HB) as (D1 & D2 & D3).
  unfold EncRun.fits. rewrite C1, D1. repeat match goal with |- _ /\ _ => split end; auto. lia.
Qed.
Lemma load_1024 log dbg debug p ram : EncSpec.load log dbg debug rom_words (Z.to_nat (Z.shiftr (b_size (boot_ram ph)) 2)) p ram =
  EncSpec.load log dbg debug rom_words (2 ^ 10) p ram.
Proof. destruct ram_facts as (_ & R2 & _). rewrite R2. reflexivity. Qed.

Lemma enc_boot log dbg debug tape n : rom_ok dbg -> input_fits ph tape -> Forall is_byte tape ->
  exists ev, encrypted_vm log dbg chk debug ph tape n = Some ev.
Proof.
  intros OK HF HB. destruct (rom_bits (proj1 OK) (proj1 (proj2 OK))) as (rb & RB & Hrb).
  pose proof (enc_fits dbg debug tape rb OK HF HB RB Hrb) as FT. destruct OK as (O1 & O2 & O3).
  destruct (EncRun.boots_exists log dbg debug rom_words rb 10 ws _ FT O3) as (v0 & p & P & L).
  destruct rom_facts as (A & B & C & D).
  unfold encrypted_vm. rewrite <- B, O2. cbn [Z.eqb]. rewrite P. rewrite (proj1 HF), Z.eqb_refl.
  rewrite (input_range tape HF), (input_copy tape HF), load_1024, L. eexists. reflexivity.
Qed.
Lemma enc_boot_inv log dbg debug tape n ev : encrypted_vm log dbg chk debug ph tape n = Some ev -> Forall is_byte tape ->
  rom_ok dbg /\ input_fits ph tape /\
  EncRun.boots log dbg debug rom_words 10 ws (chunks4 (input_ram ph tape)) (ev_vm ev) /\
  ev_out ev = out_info ph /\ ev_offset ev = off /\ ev_max ev = n /\ ev_debug ev = debug.
Proof.
  intros H HB. destruct rom_facts as (A & B & C & D). unfold encrypted_vm in H. rewrite <- B in H.
  destruct (Z.eqb_spec (b_size (boot_rom ph) mod 4) 0) as [M|]; [|discriminate].
  destruct (parser_add_all dbg parser_new ws) as [p|] eqn:P; [|discriminate].
  cbv zeta in H. destruct (Z.eqb_spec (Z.of_nat (length tape)) (T.io_size (inp_info ph))) as [L|]; [|discriminate].
  destruct (range_from chk (T.start_addr (inp_info ph)) (T.io_size (inp_info ph)) off) as [[lo' hi']|] eqn:R; [|discriminate].
  destruct (copy_into (b_data (boot_ram ph)) lo' hi' tape) as [ram|] eqn:CI; [|discriminate].
  rewrite load_1024 in H. cbv beta iota in H.
  destruct (EncSpec.load log dbg debug rom_words (2 ^ 10) p (chunks4 ram)) as [v|] eqn:LD; [|discriminate].
  injection H as <-. cbn [ev_vm ev_out ev_offset ev_max ev_debug].
  pose proof (copy_input_inv _ _ _ _ L R CI) as HF.
  rewrite (input_range tape HF) in R. assert (E1 : lo' = lo) by congruence. assert (E2 : hi' = lo + Z.of_nat (length tape)) by congruence.
  subst lo' hi'. rewrite (input_copy tape HF) in CI. assert (ram = input_ram ph tape) by congruence. subst ram.
  split; [|split; [exact HF|split; [exists p; auto|auto]]].
  split; [|split; [exact M|]].
  - destruct (Z.lt_ge_cases 0 (b_size (boot_rom ph))) as [|N]; [assumption|exfalso].
    unfold EncSpec.load, evm_new in LD. assert (E : rom_words = 0%nat).
    { unfold is_u32 in C. replace (b_size (boot_rom ph)) with 0 by lia. reflexivity. }
    rewrite E in LD. cbn in LD. discriminate LD.
  - apply (proj1 (parser_iff dbg ws)). eauto.
Qed.
End Image.

(** ** same program, same RAM *)
Lemma read_word_words chk rom ws k w : T.offset rom = 0 -> T.size rom = 4 * Z.of_nat (length ws) -> T.data rom = ram_bytes ws ->
  4 * Z.of_nat (length ws) <= 2 ^ 32 -> Forall word ws -> nth_error ws k = Some w ->
  T.read_word chk rom (4 * Z.of_nat k) = Some w.
Proof.
  intros R1 R2 R3 R4 HF HN. pose proof (nth_error_Some_lt _ _ _ _ HN) as Hlt. set (pc := 4 * Z.of_nat k).
  set (mm := fun a => match nth_error (ram_bytes ws) (Z.to_nat a) with Some b => b | None => 0 end).
  assert (B : forall j, 0 <= j < 4 -> nth_error (ram_bytes ws) (Z.to_nat (pc + j)) = Some (byte j w)).
  { intros j Hj. replace (Z.to_nat (pc + j)) with (4 * k + Z.to_nat j)%nat by (unfold pc; lia).
    rewrite (nth_ram_bytes _ _ w) by (auto; lia). rewrite Z2Nat.id by lia. reflexivity. }
  assert (HR : in_region rom pc 4) by (unfold in_region, pc; lia).
  rewrite (read_word_ok chk rom mm pc); [| | |exact HR|unfold pc; rewrite Z.mul_comm; apply Z.mod_mul; lia].
  - assert (L8 : forall j, 0 <= j < 4 -> ld8 mm (pc + j) = byte j w).
    { intros j Hj. unfold ld8. rewrite to_word_small by (unfold word; unfold in_region in HR; lia).
      unfold mm. rewrite B by lia. reflexivity. }
    pose proof (L8 0 ltac:(lia)) as L0. rewrite Z.add_0_r in L0.
    unfold ld32, ld16. replace (pc + 2 + 1) with (pc + 3) by lia. rewrite L0, !L8 by lia.
    f_equal. apply bytes_word. exact (nth_error_Forall _ _ _ _ _ HF HN).
  - unfold mem_ok. rewrite R1, R2, R3, length_ram_bytes. repeat split; try lia. apply bytes_ram_bytes.
  - intros a Ha. rewrite R3. unfold mm. rewrite R1, Z.sub_0_r.
    destruct (nth_error_lt _ (ram_bytes ws) (Z.to_nat a)) as [b Hb]; [|rewrite Hb; reflexivity].
    rewrite length_ram_bytes. unfold in_region in Ha. lia.
Qed.
Lemma fill_row dbg : forall ws r k w, fill dbg ws = Some r -> nth_error ws k = Some w -> row_of dbg r k w.
Proof.
  induction ws as [|h t IH]; intros r k w F N; [destruct k; discriminate|]. cbn [fill] in F. unfold components in F.
  destruct (get_imm dbg h) as [im|] eqn:I; [|discriminate].
  destruct (get_registers dbg h) as [[[rs2 rs1] rd]|] eqn:R; [|discriminate].
  destruct (get_opid dbg h) as [[[o1 o2] o3]|] eqn:O; [|discriminate].
  destruct (fill dbg t) as [r'|] eqn:FT; [|discriminate]. injection F as <-. destruct k as [|k].
  - cbn in N. injection N as <-. exists o1, o2, o3, rs2, rs1, rd, im. cbn. unfold decoded. auto 12.
  - exact (IH r' k w eq_refl N).
Qed.
Lemma pad_full_roms dbg ws r n : Forall word ws -> fill dbg ws = Some r -> length ws = n -> EncSpec.pad_roms n r = r.
Proof. intros W F L. destruct (EncLoad.fill_rows dbg ws W r F) as [_ RL]. rewrite L in RL. apply EncLoad.pad_full. exact RL. Qed.
Lemma shows_rom log rb mb v s : EncSpec.shows log rb mb v s -> dec_rom v = Some (EncSpec.x_rom s).
Proof.
  intros ((H1 & H2 & H3 & H4 & H5 & H6 & H7) & (L1 & L2 & L3 & L4 & L5 & L6 & L7) & _). unfold dec_rom. cbv zeta.
  rewrite (EncCycle.decrypt_all log _ _ _ H1 L1), (EncCycle.decrypt_all log _ _ _ H2 L2), (EncCycle.decrypt_all log _ _ _ H3 L3),
    (EncCycle.decrypt_all log _ _ _ H4 L4), (EncCycle.decrypt_all log _ _ _ H5 L5), (EncCycle.decrypt_all log _ _ _ H6 L6),
    (EncCycle.decrypt_all log _ _ _ H7 L7). destruct (EncSpec.x_rom s); reflexivity.
Qed.

Lemma same_start log dbg chk debug e ph tape n ev tv0 tv : elf_ok e -> from_elf chk e = Some ph -> Forall is_byte tape ->
  encrypted_vm log dbg chk debug ph tape n = Some ev -> test_vm chk ph n = Some tv0 -> T.read_input_tape chk tv0 tape = Some tv ->
  exists r ram, dec_rom (ev_vm ev) = Some r /\ EncSpec.dec_ram (ev_vm ev) = Some ram /\
    (forall k, 4 * Z.of_nat k < b_size (boot_rom ph) ->
       exists w, T.read_word chk (T.rom tv) (4 * Z.of_nat k) = Some w /\ row_of dbg r k w) /\
    T.offset (T.ram tv) = ev_offset ev /\ T.data (T.ram tv) = ram_bytes ram /\ length ram = 1024%nat /\
    (forall i, nth_error (T.data (T.ram tv)) i =
       with_tape (b_data (boot_ram ph)) (T.start_addr (inp_info ph) - b_offset (boot_ram ph)) tape i).
Proof.
  intros HE HP HB EV TV0 TV.
  destruct (enc_boot_inv chk e ph HE HP log dbg debug tape n ev EV HB) as (OK & HF & BO & O1 & O2 & _).
  destruct (test_boot chk e ph HE HP tape n HF) as (tv0' & T1 & T2). assert (tv0' = tv0) by congruence. subst tv0'.
  assert (tv = test_start ph tape n) by congruence. subst tv. clear T1 T2 TV TV0.
  destruct (rom_bits chk e ph HE HP (proj1 OK) (proj1 (proj2 OK))) as (rb & RB & Hrb).
  pose proof (enc_fits chk e ph HE HP dbg debug tape rb OK HF HB RB Hrb) as FT.
  destruct (EncRun.boots_shows _ _ _ _ _ _ _ _ _ FT BO) as (r & FI & S & _).
  destruct (rom_chunks chk e ph HE HP (proj1 (proj2 OK))) as (C1 & C2 & C3 & C4).
  destruct (ram_chunks chk e ph HE HP tape HF HB) as (D1 & D2 & D3).
  destruct (input_ram_ok chk e ph HE HP tape HF HB) as (_ & _ & N).
  destruct (rom_facts chk e ph HE HP) as (A1 & A2 & A3 & A4). unfold is_u32 in A3.
  exists r, (chunks4 (input_ram ph tape)).
  assert (X : EncSpec.x_ram (EncSpec.xstart (Z.to_nat (Z.shiftr (b_size (boot_rom ph)) 2)) (2 ^ 10) r (chunks4 (input_ram ph tape)))
              = chunks4 (input_ram ph tape)).
  { cbn [EncSpec.x_ram EncSpec.xstart]. apply EncLoad.table_full. exact D1. }
  repeat match goal with |- _ /\ _ => split end.
  - rewrite (shows_rom _ _ _ _ _ S). cbn [EncSpec.x_rom EncSpec.xstart]. f_equal. exact (pad_full_roms dbg _ r _ C2 FI C1).
  - rewrite (EncTrack.shows_ram _ _ _ _ _ S), X. reflexivity.
  - intros k Hk. destruct (nth_error_lt _ (chunks4 (b_data (boot_rom ph))) k) as [w Hw]; [lia|]. exists w. split.
    + apply (read_word_words chk _ (chunks4 (b_data (boot_rom ph)))); auto; cbn [test_start T.rom T.offset T.size T.data]; lia || auto.
    + exact (fill_row dbg _ _ _ _ FI Hw).
  - cbn [test_start T.ram T.offset]. congruence.
  - cbn [test_start T.ram T.data]. auto.
  - rewrite D1. reflexivity.
  - cbn [test_start T.ram T.data]. exact N.
Qed.

(** ** output *)
Lemma mapM_some A B (f : A -> option B) g l : (forall x, In x l -> f x = Some (g x)) -> T.mapM f l = Some (map g l).
Proof.
  induction l as [|x l IH]; intros H; cbn [T.mapM map]; [reflexivity|].
  rewrite (H x (or_introl eq_refl)), IH; [reflexivity|]. intros y Hy. apply H. right. exact Hy.
Qed.
Lemma flat_word_bytes ws : flat_map word_bytes ws = ram_bytes ws.
Proof. unfold ram_bytes. induction ws as [|w ws IH]; [reflexivity|]. cbn [flat_map]. rewrite word_bytes_le, IH. reflexivity. Qed.
Lemma enc_output_eq chk s ws : v_ram_size (ev_vm s) = 1024%nat -> EncSpec.dec_ram (ev_vm s) = Some ws -> length ws = 1024%nat ->
  info_ok (ev_out s) -> 0 <= ev_offset s <= T.start_addr (ev_out s) ->
  enc_output chk s = Some (map (fun i => let a := (T.start_addr (ev_out s) + Z.of_nat i - ev_offset s) mod RAM_SIZE in
      byte (a mod 4) (nth (Z.to_nat (a / 4)) ws 0)) (seq 0 (Z.to_nat (T.io_size (ev_out s))))).
Proof.
  intros HS HD HL (I1 & I2) HO. unfold enc_output. change (Z.to_nat (Z.shiftr RAM_SIZE 2)) with (Z.to_nat 1024).
  unfold EncSpec.dec_ram in HD. rewrite HS in HD. change (Z.to_nat 1024) with 1024%nat. rewrite HD. cbv zeta.
  apply mapM_some. intros i Hi. apply in_seq in Hi. unfold is_u32 in *.
  rewrite uadd_ok by (unfold is_u32; lia). rewrite usub_ok by lia.
  set (a := (T.start_addr (ev_out s) + Z.of_nat i - ev_offset s) mod RAM_SIZE).
  assert (HA : 0 <= a < RAM_SIZE) by (apply Z.mod_pos_bound; unfold RAM_SIZE; lia). unfold RAM_SIZE in HA.
  assert (0 <= a / 4 < 1024) by (split; [apply Z.div_pos; lia|apply Z.div_lt_upper_bound; lia]).
  destruct (nth_error_lt _ ws (Z.to_nat (a / 4)) ltac:(lia)) as [w Hw]. rewrite flat_word_bytes.
  rewrite (nth_ram_bytes_Z _ _ w) by (auto; lia). rewrite (nth_error_nth _ _ 0 Hw). reflexivity.
Qed.
