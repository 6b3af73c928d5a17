(** * C61: what the reference VM computes for every program and every state *)
Require Import ZArith Lia Bool List Arith.
Require Import ZifyBool.
From Verif Require Import Word Isa EvalSpec EvalFacts ListFacts TestSpec TestRunSpec TestRunFacts RunSpec RefSpec RefFacts.
From Verif Require TestVM.
Import ListNotations.
Open Scope Z_scope.
Ltac Zify.zify_post_hook ::= idtac.

(** One step from any well-formed state, whatever the ROM contains: the exact
    machine's step, and a panic exactly where that has none. *)
Theorem C61_reference_step :
  forall (chk : bool) (s : T.vm) (m : mach) (rom : Z -> Z),
    vm_ok s -> shows s m -> mem_ok (T.rom s) -> shows_mem (T.rom s) rom ->
    match T.run chk s, ref_step chk (reg_of (T.rom s)) (reg_of (T.ram s)) rom m with
    | Some s', Some m' => vm_ok s' /\ shows s' m' /\ static s s'
    | None, None => True
    | _, _ => False
    end.
Proof. exact run_agree. Qed.
Print Assumptions C61_reference_step.
(** Any number of steps. *)
Theorem C61_reference_runs :
  forall (chk : bool) (n : nat) (s : T.vm) (m : mach) (rom : Z -> Z),
    vm_ok s -> shows s m -> mem_ok (T.rom s) -> shows_mem (T.rom s) rom ->
    match T.run_n chk n s, ref_run chk (reg_of (T.rom s)) (reg_of (T.ram s)) rom n m with
    | Some s', Some m' => vm_ok s' /\ shows s' m' /\ static s s'
    | None, None => True
    | _, _ => False
    end.
Proof. intros chk n s m rom H1 H2 H3 H4. exact (runs_agree chk (T.rom s) rom n s m H1 H2 eq_refl H3 H4). Qed.
Print Assumptions C61_reference_runs.

(** On legal words the exact machine's decoder is the manual's. *)
Lemma f7_bits w : fld 25 25 w = fld 31 25 w mod 2 /\ fld 30 30 w = fld 31 25 w / 32 mod 2.
Proof.
  unfold fld. change (25 - 25 + 1) with 1. change (30 - 30 + 1) with 1. change (31 - 25 + 1) with 7. change (2 ^ 1) with 2. split.
  - change (2 ^ 7) with (2 * 64). rewrite Z.rem_mul_r by lia. rewrite Z.mul_comm, Z.mod_add by lia. rewrite Z.mod_mod by lia. reflexivity.
  - change (2 ^ 30) with (2 ^ 25 * 32). rewrite <- Z.div_div by lia. set (q := w / 2 ^ 25).
    change (2 ^ 7) with (32 * 4). rewrite Z.rem_mul_r by lia. rewrite Z.add_comm, Z.mul_comm, Z.div_add_l by lia.
    rewrite (Z.div_small (q mod 32)) by (apply Z.mod_pos_bound; lia). rewrite Z.add_0_r.
    change 4 with (2 * 2). rewrite Z.rem_mul_r by lia. rewrite Z.mul_comm, Z.mod_add by lia. rewrite Z.mod_mod by lia. reflexivity.
Qed.
Theorem C61_legal_words :
  forall w i, isa_of w = Some i -> ref_of w = Some i.
Proof.
  intros w i E. unfold ref_of. cbv zeta. destruct (f7_bits w) as [-> ->].
  destruct (Z.eqb_spec (fld 6 0 w) 19) as [H|H]; [|destruct (Z.eqb_spec (fld 6 0 w) 51) as [H'|H']; [|exact E]].
  - destruct (Z.eqb_spec (fld 14 12 w) 1) as [H1|H1].
    + unfold isa_of in E. rewrite H, H1 in E. cbv zeta in E. cbn [Z.eqb Pos.eqb] in E. destruct (fld 31 25 w =? 0); congruence.
    + destruct (Z.eqb_spec (fld 14 12 w) 5) as [H5|H5]; [|exact E].
      unfold isa_of in E. rewrite H, H5 in E. cbv zeta in E. cbn [Z.eqb Pos.eqb] in E.
      destruct (Z.eqb_spec (fld 31 25 w) 0) as [Q|Q]; [rewrite Q; exact E|].
      destruct (Z.eqb_spec (fld 31 25 w) 32) as [Q'|Q']; [rewrite Q'; exact E|discriminate].
  - unfold isa_of in E. rewrite H' in E. cbv zeta in E. cbn [Z.eqb Pos.eqb] in E.
    destruct (Z.eqb_spec (fld 31 25 w) 0) as [Q|Q]; [rewrite Q|
      destruct (Z.eqb_spec (fld 31 25 w) 32) as [Q2|Q2]; [rewrite Q2|
        destruct (Z.eqb_spec (fld 31 25 w) 1) as [Q3|Q3]; [rewrite Q3|discriminate]]];
      change (0 mod 2) with 0; change (32 mod 2) with 0; change (1 mod 2) with 1;
      change (0 / 32 mod 2) with 0; change (32 / 32 mod 2) with 1; change (1 / 32 mod 2) with 0; cbn [Z.eqb Pos.eqb];
      repeat match type of E with context [if ?a =? ?b then _ else _] => destruct (Z.eqb_spec a b) as [?|?]; try discriminate end;
      repeat match goal with |- context [if ?a =? ?b then _ else _] => destruct (Z.eqb_spec a b) as [?|?]; try lia end; exact E.
Qed.
Print Assumptions C61_legal_words.

(** C64, reference VM: an M instruction in either build. *)
Theorem C64_reference_rv32m :
  forall (chk : bool) (s : T.vm) (m : mach) (rom : Z -> Z) o rd rs1 rs2,
    vm_ok s -> shows s m -> mem_ok (T.rom s) -> shows_mem (T.rom s) rom ->
    m_pc m mod 4 = 0 -> in_region (T.rom s) (m_pc m) 4 -> isa_of (ld32 rom (m_pc m)) = Some (OPM o rd rs1 rs2) ->
    let x := get (m_rf m) rs1 in let y := get (m_rf m) rs2 in
    let trap := (chk && (2 ^ 32 <=? m_pc m + 4)) ||
                match o with
                | DIV | REM => (y =? 0) || ((x =? 2 ^ 31) && (y =? 2 ^ 32 - 1))
                | DIVU | REMU => y =? 0
                | _ => false
                end in
    match T.run chk s with
    | None => trap = true
    | Some s' => trap = false /\
        shows s' {| m_pc := to_word (m_pc m + 4); m_rf := put (m_rf m) rd (alu_mop o x y); m_mem := m_mem m |}
    end.
Proof.
  intros chk s m rom o rd rs1 rs2 H1 H2 H3 H4 H5 H6 H8 x y trap.
  pose proof (C61_reference_step chk s m rom H1 H2 H3 H4) as A.
  pose proof H3 as (M0 & M1 & M2 & M3 & M4). unfold in_region in H6. unfold reg_of in A. cbn [fst snd] in A.
  assert (B : ref_step chk (T.offset (T.rom s), T.size (T.rom s)) (T.offset (T.ram s), T.size (T.ram s)) rom m =
    if trap then None else Some {| m_pc := to_word (m_pc m + 4); m_rf := put (m_rf m) rd (alu_mop o x y); m_mem := m_mem m |}).
  { unfold ref_step. cbn [fst snd]. rewrite H5. change (0 =? 0) with true. cbn [negb]. rewrite orb_false_r.
    replace (m_pc m <? T.offset (T.rom s)) with false by lia. rewrite andb_false_r.
    assert (E : ld32 (alias (T.offset (T.rom s)) (T.size (T.rom s)) rom) (m_pc m) = ld32 rom (m_pc m)).
    { assert (L8 : forall k, 0 <= k <= 3 -> ld8 (alias (T.offset (T.rom s)) (T.size (T.rom s)) rom) (m_pc m + k) = ld8 rom (m_pc m + k)).
      { intros k Hk. unfold ld8, alias. rewrite to_word_small by (unfold word; lia). f_equal. unfold home.
        replace (T.offset (T.rom s) <=? m_pc m + k) with true by lia. rewrite Z.mod_small by lia. lia. }
      unfold ld32, ld16. pose proof (L8 0 ltac:(lia)) as L0. rewrite Z.add_0_r in L0.
      replace (m_pc m + 2 + 1) with (m_pc m + 3) by lia. rewrite L0, !L8 by lia. reflexivity. }
    rewrite E. rewrite (C61_legal_words _ _ H8). cbn [traps effect isa_step]. fold x y. unfold trap.
    destruct o; rewrite ?orb_false_r; try reflexivity; rewrite orb_comm; reflexivity. }
  rewrite B in A. destruct (T.run chk s) as [s'|], trap; tauto.
Qed.
Print Assumptions C64_reference_rv32m.
(** [-7 / 2], a division by zero and the overflow, in both builds *)
Definition ex_div (o : mop) (x y : Z) : T.vm :=
  let io := {| T.start_addr := 256; T.io_size := 0 |} in
  {| T.registers := [0; x; y] ++ repeat 0 29%nat;
     T.rom := {| T.data := image [encode (OPM o 3 1 2)]; T.offset := 0; T.size := 4 |};
     T.ram := {| T.data := repeat 7 16%nat; T.offset := 256; T.size := 16 |};
     T.pc := 0; T.input_info := io; T.output_info := io; T.max_cycles := 9%nat |}.
Example C64_case : forall chk,
  (exists s, T.run chk (ex_div DIV (2 ^ 32 - 7) 2) = Some s /\ nth_error (T.registers s) 3 = Some (2 ^ 32 - 3) /\ T.pc s = 4) /\
  T.run chk (ex_div DIV 7 0) = None /\ T.run chk (ex_div REMU 7 0) = None /\ T.run chk (ex_div REM (2 ^ 31) (2 ^ 32 - 1)) = None /\
  alu_mop DIV 7 0 = 2 ^ 32 - 1.
Proof.
  intros [|]; (split; [eexists; split; [vm_compute; reflexivity|vm_compute; auto]|repeat split; vm_compute; reflexivity]).
Qed.

(** ** A whole session *)
Lemma usub_self chk a : T.usub chk a a = Some 0.
Proof. unfold T.usub. rewrite Z.leb_refl. f_equal. lia. Qed.
Lemma skipn_rep A (x : A) n : forall k, skipn k (repeat x n) = repeat x (n - k).
Proof. induction n as [|n IH]; intros [|k]; cbn; auto. Qed.
Lemma nth_rep A (x : A) n : forall k, (k < n)%nat -> nth_error (repeat x n) k = Some x.
Proof. induction n as [|n IH]; intros [|k] H; cbn; auto; try lia. apply IH. lia. Qed.
Lemma Forall_rep A (P : A -> Prop) x n : P x -> Forall P (repeat x n).
Proof. intro H. apply Forall_forall. intros y Y. apply repeat_spec in Y. now subst. Qed.
Lemma load_new chk off sz d : 0 <= off -> 0 < sz -> off + sz <= 2 ^ 32 -> Forall is_byte d ->
  match T.load_memory chk (T.mem_new off sz) off d with
  | Some m => Z.of_nat (length d) <= sz /\ T.offset m = off /\ T.size m = sz /\ mem_ok m /\ shows_mem m (bytes_from off d)
  | None => sz < Z.of_nat (length d)
  end.
Proof.
  intros H0 H1 H2 F. unfold T.load_memory. cbn [T.offset T.mem_new T.data T.size]. rewrite usub_self, repeat_length, Z2Nat.id by lia.
  destruct (Z.leb_spec (0 + Z.of_nat (length d)) sz) as [L|L]; [|lia]. cbn [Z.to_nat firstn app Nat.add].
  rewrite skipn_rep. split; [lia|]. cbn [T.offset T.size]. split; [reflexivity|]. split; [reflexivity|]. split.
  - unfold mem_ok. cbn [T.offset T.size T.data]. rewrite app_length, repeat_length. repeat split; try lia.
    apply Forall_app. split; [exact F|]. apply Forall_rep. unfold is_byte. lia.
  - intros a Ha. unfold in_region in Ha. cbn [T.offset T.size T.data] in *. unfold bytes_from.
    destruct (Z.leb_spec off a); [|lia]. cbn [andb]. destruct (Z.ltb_spec a (off + Z.of_nat (length d))).
    + rewrite nth_error_app1 by lia. apply nth_error_nth'. lia.
    + rewrite nth_error_app2 by lia. apply nth_rep. lia.
Qed.
Lemma load_tape chk m d a tape : mem_ok m -> word a -> Forall is_byte tape -> shows_mem m (bytes_from (T.offset m) d) ->
  match T.load_memory chk m a tape with
  | Some m' => T.offset m <= a /\ a + Z.of_nat (length tape) <= T.offset m + T.size m /\
      T.offset m' = T.offset m /\ T.size m' = T.size m /\ mem_ok m' /\ shows_mem m' (start_mem (T.offset m) d a tape)
  | None => ~ (T.offset m <= a /\ a + Z.of_nat (length tape) <= T.offset m + T.size m)
  end.
Proof.
  intros M A F S. pose proof M as (H0 & H1 & H2 & H3 & H4). unfold word in A. unfold T.load_memory.
  unfold T.usub. destruct (Z.leb_spec (T.offset m) a) as [L|L].
  2:{ destruct chk; [lia|]. assert (U : 2 ^ 63 <= u64 (a - T.offset m)).
      { unfold u64. change 18446744073709551616 with (2 ^ 64). rewrite <- (Z.mod_add _ 1) by lia. rewrite Z.mod_small by lia. lia. }
      destruct (Z.leb_spec (u64 (a - T.offset m) + Z.of_nat (length tape)) (Z.of_nat (length (T.data m)))); lia. }
  rewrite H3. destruct (Z.leb_spec (a - T.offset m + Z.of_nat (length tape)) (T.size m)) as [Q|Q]; [|lia].
  split; [lia|]. split; [lia|]. cbn [T.offset T.size T.data]. split; [reflexivity|]. split; [reflexivity|].
  assert (LF : length (firstn (Z.to_nat (a - T.offset m)) (T.data m)) = Z.to_nat (a - T.offset m)) by (rewrite firstn_length; lia).
  split.
  - unfold mem_ok. cbn [T.offset T.size T.data]. rewrite !app_length, LF, skipn_length. repeat split; try lia.
    assert (F2 : Forall is_byte (firstn (Z.to_nat (a - T.offset m)) (T.data m) ++ skipn (Z.to_nat (a - T.offset m)) (T.data m))) by (rewrite firstn_skipn; exact H4).
    apply Forall_app in F2. destruct F2 as (F2 & F3). apply Forall_app. split; [exact F2|]. apply Forall_app. split; [exact F|].
    apply Forall_forall. intros x Hx. rewrite Forall_forall in H4. apply H4.
    rewrite <- (firstn_skipn (Z.to_nat (a - T.offset m) + length tape)). apply in_or_app. auto.
  - intros b Hb. unfold in_region in Hb. cbn [T.offset T.size T.data] in *. unfold start_mem.
    pose proof (S b ltac:(unfold in_region; lia)) as SB.
    destruct (Z.leb_spec a b); cbn [andb].
    2:{ rewrite nth_error_app1 by lia. rewrite <- SB.
        rewrite <- (firstn_skipn (Z.to_nat (a - T.offset m)) (T.data m)) at 2. rewrite nth_error_app1 by lia. reflexivity. }
    rewrite nth_error_app2 by lia. rewrite LF. destruct (Z.ltb_spec b (a + Z.of_nat (length tape))).
    + rewrite nth_error_app1 by lia. unfold bytes_from. destruct (Z.leb_spec a b); [|lia].
      destruct (Z.ltb_spec b (a + Z.of_nat (length tape))); [|lia]. cbn [andb].
      replace (Z.to_nat (b - T.offset m) - Z.to_nat (a - T.offset m))%nat with (Z.to_nat (b - a)) by lia. apply nth_error_nth'. lia.
    + rewrite nth_error_app2 by lia. rewrite <- SB.
      rewrite <- (firstn_skipn (Z.to_nat (a - T.offset m) + length tape) (T.data m)) at 2.
      rewrite nth_error_app2 by (rewrite firstn_length; lia). f_equal. rewrite firstn_length. lia.
Qed.
Lemma out_ok chk m mm start n : mem_ok m -> shows_mem m mm -> 0 <= start -> start + Z.of_nat n < 2 ^ 33 ->
  T.mapM (fun i => T.read_byte chk m (start + Z.of_nat i)) (seq 0 n) = tape_out chk (reg_of m) start n mm.
Proof.
  intros M S H0 H1. unfold tape_out. cbn [reg_of fst snd].
  assert (R : forall k, (k < n)%nat -> low_ok chk m (start + Z.of_nat k) ->
             T.read_byte chk m (start + Z.of_nat k) = Some (mm (home (T.offset m) (T.size m) (start + Z.of_nat k)))).
  { intros k Hk L. unfold T.read_byte. pose proof (write_idx chk m (start + Z.of_nat k) M ltac:(lia) L) as I.
    destruct (T.usub chk (start + Z.of_nat k) (T.offset m)); [|discriminate]. rewrite I. apply (at_home m mm _ M S). }
  destruct n as [|n].
  { cbn. rewrite andb_false_r. reflexivity. }
  change (Nat.eqb (Datatypes.S n) 0) with false. cbn [negb]. rewrite andb_true_r.
  destruct (chk && (start <? T.offset m)) eqn:C.
  - cbn [seq T.mapM]. apply andb_true_iff in C. destruct C as (-> & C).
    destruct (read_low true m (start + Z.of_nat 0)) as (-> & _); [|reflexivity]. unfold low_ok. intros [|]; [discriminate|lia].
  - assert (L : forall k, low_ok chk m (start + Z.of_nat k)) by (intro k; unfold low_ok; destruct chk; [right|auto]; cbn in C; lia).
    assert (G : forall l, (forall k, In k l -> (k < Datatypes.S n)%nat) -> T.mapM (fun i => T.read_byte chk m (start + Z.of_nat i)) l =
                Some (map (fun k => mm (home (T.offset m) (T.size m) (start + Z.of_nat k))) l)).
    { induction l as [|k l IH]; intro Hl; [reflexivity|]. cbn [T.mapM map]. rewrite R by (auto; apply Hl; left; reflexivity).
      rewrite IH by (intros; apply Hl; right; auto). reflexivity. }
    apply G. intros k Hk. apply in_seq in Hk. lia.
Qed.

(** The whole use of the reference VM as [Phantom::test_vm] and a caller do it:
    create, give the input, execute, read the output. *)
Definition session (chk : bool) (ro ra : region) (rom_data ram_data : list Z) (inp out : T.io_info) (cycles : nat) (tape : list Z)
    : option (list Z) :=
  do s <- T.init chk (fst ro) (snd ro) rom_data (fst ra) (snd ra) ram_data inp out cycles;
  do s1 <- T.read_input_tape chk s tape;
  do s2 <- T.execute chk s1;
  T.output_tape chk s2.
Definition region_ok (r : region) : Prop := 0 <= fst r /\ 0 < snd r /\ fst r + snd r <= 2 ^ 32.
Definition io (i : T.io_info) : Z * Z := (T.start_addr i, T.io_size i).

Theorem C61_session_exact :
  forall (chk : bool) (ro ra : region) (rom_data ram_data : list Z) (inp out : T.io_info) (cycles : nat) (tape : list Z),
    region_ok ro -> region_ok ra -> Forall is_byte rom_data -> Forall is_byte ram_data -> Forall is_byte tape ->
    word (T.start_addr inp) -> word (T.start_addr out) -> word (T.io_size out) ->
    session chk ro ra rom_data ram_data inp out cycles tape =
    ref_session chk ro ra rom_data ram_data (io inp) (io out) cycles tape.
Proof.
  intros chk [ro1 ro2] [ra1 ra2] rd md inp out n tape (A1 & A2 & A3) (B1 & B2 & B3) F1 F2 F3 WI WO WS. cbn [fst snd] in *.
  unfold session, ref_session, T.init. cbn [fst snd io].
  pose proof (load_new chk ro1 ro2 rd A1 A2 A3 F1) as R1.
  destruct (T.load_memory chk (T.mem_new ro1 ro2) ro1 rd) as [rom|].
  2:{ destruct (Z.leb_spec (Z.of_nat (length rd)) ro2); [lia|]. reflexivity. }
  destruct R1 as (L1 & O1 & S1 & M1 & H1). destruct (Z.leb_spec (Z.of_nat (length rd)) ro2); [|lia].
  pose proof (load_new chk ra1 ra2 md B1 B2 B3 F2) as R2.
  destruct (T.load_memory chk (T.mem_new ra1 ra2) ra1 md) as [ram|].
  2:{ destruct (Z.leb_spec (Z.of_nat (length md)) ra2); [lia|]. reflexivity. }
  destruct R2 as (L2 & O2 & S2 & M2 & H2). destruct (Z.leb_spec (Z.of_nat (length md)) ra2); [|lia]. cbn [andb].
  unfold T.read_input_tape. cbn [T.input_info].
  destruct (Z.eqb_spec (Z.of_nat (length tape)) (T.io_size inp)) as [EL|EL]; [|reflexivity].
  cbn [T.ram]. rewrite <- O2 in H2. pose proof (load_tape chk ram md (T.start_addr inp) tape M2 WI F3 H2) as R3. rewrite O2, S2, EL in R3.
  destruct (T.load_memory chk ram (T.start_addr inp) tape) as [ram'|].
  2:{ destruct (Z.leb_spec ra1 (T.start_addr inp)); [|reflexivity].
      destruct (Z.leb_spec (T.start_addr inp + T.io_size inp) (ra1 + ra2)); [tauto|]. reflexivity. }
  destruct R3 as (Q1 & Q2 & O3 & S3 & M3 & H3).
  destruct (Z.leb_spec ra1 (T.start_addr inp)); [|lia]. destruct (Z.leb_spec (T.start_addr inp + T.io_size inp) (ra1 + ra2)); [|lia]. cbn [andb].
  unfold T.execute, T.with_cpu. cbn [T.max_cycles T.registers T.pc T.rom T.input_info T.output_info].
  set (s0 := {| T.registers := repeat 0 32; T.rom := rom; T.ram := ram'; T.pc := 0; T.input_info := inp; T.output_info := out; T.max_cycles := n |}).
  set (m0 := {| m_pc := 0; m_rf := fun _ => 0; m_mem := start_mem ra1 md (T.start_addr inp) tape |}).
  assert (OK : vm_ok s0).
  { split; [reflexivity|]. split; [apply (Forall_rep _ word 0 32); unfold word; lia|]. split; [reflexivity|].
    split; [unfold word; cbn [T.pc s0]; lia|exact M3]. }
  assert (SH : shows s0 m0).
  { split; [reflexivity|]. split; [|exact H3]. intros r Hr. unfold reg in Hr. cbn [T.registers s0 m_rf m0].
    transitivity (Some 0); [apply (nth_rep _ 0 32); lia|]. unfold get. destruct (r =? 0); reflexivity. }
  pose proof (C61_reference_runs chk n s0 m0 (bytes_from ro1 rd) OK SH M1 H1) as RR.
  change (T.rom s0) with rom in RR. change (T.ram s0) with ram' in RR. unfold reg_of in RR. rewrite O1, S1, O3, S3 in RR.
  destruct (T.run_n chk n s0) as [s2|], (ref_run chk (ro1, ro2) (ra1, ra2) (bytes_from ro1 rd) n m0) as [m2|]; cbn in RR; try tauto.
  destruct RR as ((_ & _ & _ & _ & MK) & (_ & _ & SK) & ST). destruct ST as (_ & (T1 & T2) & _ & T4 & _). cbn [T.ram s0] in T1, T2.
  unfold T.output_tape. rewrite T4. cbn [T.output_info s0]. unfold word in *.
  rewrite (out_ok chk (T.ram s2) (m_mem m2)); auto; try lia. unfold reg_of. rewrite T1, T2, O3, S3. reflexivity.
Qed.
Print Assumptions C61_session_exact.

(** A program with words that are no RV32IM instructions (SLL with funct7 = 2), a
    store to address 4, below the RAM region, which lands at 260, an output region beyond its end, and a pc that runs off the
    end of the ROM and continues at its start. *)
Definition ex_rom : list Z := image ([encode (OPI ADDI 1 1 5); 0x041090B3 (* sll x1, x1, x1 with funct7 = 2 *)] ++
  map encode [STORE SW 0 1 4]).
Example C61_case :
  let io1 := {| T.start_addr := 256; T.io_size := 1 |} in let io2 := {| T.start_addr := 356; T.io_size := 4 |} in
  isa_of 0x041090B3 = None /\ ref_of 0x041090B3 = Some (OPR SLL 1 1 1) /\
  session false (0, 12) (256, 96) ex_rom [] io1 io2 3 [7] = Some [160; 0; 0; 0] /\
  session false (0, 12) (256, 96) ex_rom [] io1 io2 6 [7] = Some [160; 20; 0; 0] /\
  session true (0, 12) (256, 96) ex_rom [] io1 io2 3 [7] = None.
Proof. vm_compute. auto. Qed.
