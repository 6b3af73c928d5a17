(** * Runs of the reference VM and of the shadow VM (proofs) *)
Require Import ZArith Lia Bool List Arith.
Require Import ZifyBool.
From Verif Require Import Word Isa Bits Codec DecodeSpec DecodeFacts DecodeAccept EvalPlain EvalSpec EvalFacts ListFacts
  TestSpec TestRunSpec TestRunFacts TestStep IsaSplit DebugVM DebugSpec DebugFacts DebugStep RunSpec.
Import ListNotations.
Open Scope Z_scope.
Ltac Zify.zify_post_hook ::= idtac.

(** ** Little-endian images *)
Lemma nth_ram_bytes l : forall k w j, nth_error l k = Some w -> (j < 4)%nat ->
  nth_error (ram_bytes l) (4 * k + j) = Some (byte (Z.of_nat j) w).
Proof.
  induction l as [|h t IH]; intros [|k] w j H Hj; try discriminate.
  - injection H as ->. destruct j as [|[|[|[|]]]]; try lia; reflexivity.
  - cbn in H. replace (4 * S k + j)%nat with (4 + (4 * k + j))%nat by lia. cbn [ram_bytes flat_map].
    unfold le_bytes at 1. cbn [app plus nth_error]. apply IH; auto.
Qed.
Lemma length_ram_bytes l : length (ram_bytes l) = (4 * length l)%nat.
Proof. unfold ram_bytes. induction l; cbn [flat_map length]; [reflexivity|]. rewrite app_length, IHl. cbn. lia. Qed.
Lemma bytes_ram_bytes l : Forall is_byte (ram_bytes l).
Proof.
  unfold ram_bytes. induction l as [|h t IH]; cbn [flat_map]; [constructor|]. apply Forall_app. split; [|exact IH].
  repeat constructor; apply byte_range.
Qed.
Lemma image_ram_bytes prog : image prog = ram_bytes prog.
Proof. reflexivity. Qed.
Lemma nth_ram_bytes_Z l a w : 0 <= a -> nth_error l (Z.to_nat (a / 4)) = Some w ->
  nth_error (ram_bytes l) (Z.to_nat a) = Some (byte (a mod 4) w).
Proof.
  intros Ha H. pose proof (Z.mod_pos_bound a 4 ltac:(lia)). pose proof (Z.div_mod a 4 ltac:(lia)).
  assert (0 <= a / 4) by (apply Z.div_pos; lia).
  replace (Z.to_nat a) with (4 * Z.to_nat (a / 4) + Z.to_nat (a mod 4))%nat by lia.
  rewrite (nth_ram_bytes _ _ _ _ H) by lia. rewrite Z2Nat.id by lia. reflexivity.
Qed.

(** ** Fetch *)
Lemma asm_words l : Forall legal l -> Forall word (asm l).
Proof. intros H. apply Forall_map. eapply Forall_impl; [|exact H]. intros i Hl. apply (decode_legal true i Hl). Qed.
Lemma asm_accepted dbg l : Forall legal l -> Forall (accepted dbg) (asm l).
Proof.
  intros H. apply Forall_map. eapply Forall_impl; [|exact H]. intros i Hl. destruct (decode_legal dbg i Hl) as [_ D].
  do 3 eexists. exact D.
Qed.
Lemma fetch_inv prog pc i : fetch prog pc = Some i ->
  pc mod 4 = 0 /\ exists w, nth_error prog (Z.to_nat (pc / 4)) = Some w /\ isa_of w = Some i.
Proof.
  unfold fetch. destruct (Z.eqb_spec (pc mod 4) 0); [|discriminate].
  destruct (nth_error prog (Z.to_nat (pc / 4))) as [w|]; [|discriminate]. eauto.
Qed.
Lemma fetch_isa prog pc i w : Forall word prog -> nth_error prog (Z.to_nat (pc / 4)) = Some w -> isa_of w = Some i ->
  legal i /\ encode i = w.
Proof. intros HF HN. apply isa_of_sound. exact (nth_error_Forall _ _ _ _ _ HF HN). Qed.
Lemma fetch_word chk rom prog pc i :
  rom_holds rom prog -> Forall word prog -> word pc -> fetch prog pc = Some i ->
  T.read_word chk rom pc = Some (encode i).
Proof.
  intros (R1 & R2 & R3 & R4) HW Hpc Hf'. destruct (fetch_inv _ _ _ Hf') as (E & w & Hf & Hi).
  destruct (fetch_isa _ _ _ _ HW Hf Hi) as [Hl Hw]. rewrite Hw. rewrite <- Hw in Hf. clear Hf' Hi.
  pose proof (nth_error_Some_lt _ _ _ _ Hf) as Hlt.
  pose proof (Z.div_mod pc 4 ltac:(lia)) as D. rewrite E in D. unfold word in Hpc.
  assert (0 <= pc / 4) by (apply Z.div_pos; lia).
  set (mm := fun a => match nth_error (image prog) (Z.to_nat a) with Some b => b | None => 0 end).
  assert (B : forall j, 0 <= j < 4 -> nth_error (image prog) (Z.to_nat (pc + j)) = Some (byte j (encode i))).
  { intros j Hj. rewrite image_ram_bytes.
    assert (E1 : (pc + j) / 4 = pc / 4) by (symmetry; apply Z.div_unique with j; lia).
    assert (E2 : (pc + j) mod 4 = j) by (symmetry; apply Z.mod_unique with (pc / 4); lia).
    rewrite (nth_ram_bytes_Z _ _ (encode i)); [rewrite E2; reflexivity|lia|].
    rewrite E1, Hf. reflexivity. }
  assert (HR : in_region rom pc 4) by (unfold in_region; lia).
  rewrite (read_word_ok chk rom mm pc); [| | |exact HR|exact E].
  - assert (L8 : forall j, 0 <= j < 4 -> ld8 mm (pc + j) = byte j (encode i)).
    { intros j Hj. unfold ld8. rewrite to_word_small by (unfold word; unfold in_region in HR; lia).
      unfold mm. rewrite B by lia. reflexivity. }
    pose proof (L8 0 ltac:(lia)) as L0. rewrite Z.add_0_r in L0.
    unfold ld32, ld16. replace (pc + 2 + 1) with (pc + 3) by lia. rewrite L0, !L8 by lia.
    rewrite <- Hw. f_equal. apply bytes_word. apply (decode_legal true i Hl).
  - unfold mem_ok. rewrite R1, R2, R3, image_ram_bytes, length_ram_bytes.
    repeat split; try lia. apply bytes_ram_bytes.
  - intros a Ha. rewrite R3. unfold mm. rewrite R1, Z.sub_0_r.
    destruct (nth_error_lt _ (image prog) (Z.to_nat a)) as [b Hb]; [|rewrite Hb; reflexivity].
    rewrite image_ram_bytes, length_ram_bytes. unfold in_region in Ha. lia.
Qed.

(** ** Reference VM *)
Lemma stays_in_same mem mem' i m : same_region mem mem' -> stays_in mem i m -> stays_in mem' i m.
Proof. intros H. destruct i; cbn [stays_in]; auto; apply in_region_same; exact H. Qed.
Lemma along_impl (P Q : instr -> mach -> Prop) prog n : (forall i m, P i m -> Q i m) ->
  forall m, along P prog n m -> along Q prog n m.
Proof. intros H. induction n; intros m; cbn; auto. intros (i & A & B & C). exists i. auto. Qed.
Lemma fetch_legal prog pc i : Forall word prog -> fetch prog pc = Some i -> legal i.
Proof.
  intros HF H. destruct (fetch_inv _ _ _ H) as (_ & w & HN & HI). apply (fetch_isa _ _ _ _ HF HN HI).
Qed.
Lemma static_refl s : static s s.
Proof. unfold static. auto 10 using same_region_refl. Qed.
Lemma static_trans a b c : static a b -> static b c -> static a c.
Proof.
  unfold static, same_region. intros (A1 & A2 & A3 & A4 & A5) (B1 & B2 & B3 & B4 & B5).
  repeat split; try congruence; destruct A2, B2; congruence.
Qed.

Lemma run_step chk prog s m i :
  vm_ok s -> shows s m -> rom_holds (T.rom s) prog -> Forall word prog ->
  fetch prog (m_pc m) = Some i -> stays_in (T.ram s) i m ->
  outcome s (T.run chk s) (isa_step i m) (refused i m \/ pc_overflow chk i m \/ div_trap i m).
Proof.
  intros Hok Hsh Hrom Hleg Hf Hin. pose proof (fetch_legal _ _ _ Hleg Hf) as Hl.
  rewrite (run_fin chk s i Hl).
  - apply exec_step; auto.
  - apply (fetch_word chk _ prog); auto; [apply Hok|]. destruct Hsh as [-> _]. exact Hf.
Qed.

Lemma run_n_isa chk prog n : forall s m,
  vm_ok s -> shows s m -> rom_holds (T.rom s) prog -> Forall word prog ->
  along (t_fine chk (T.ram s)) prog n m ->
  exists s' m', isa_run prog n m = Some m' /\ T.run_n chk n s = Some s' /\ vm_ok s' /\ shows s' m' /\ static s s'.
Proof.
  induction n as [|n IH]; intros s m Hok Hsh Hrom Hleg Hal.
  - exists s, m. cbn. auto using static_refl.
  - destruct Hal as (i & Hf & (F1 & F2 & F3 & F4) & Hal).
    destruct (run_step chk prog s m i Hok Hsh Hrom Hleg Hf F1) as [(s1 & R & (G1 & G2 & G3) & _)|[_ C]]; [|tauto].
    destruct (IH s1 (isa_step i m)) as (s' & m' & I1 & I2 & I3 & I4 & I5); auto.
    + destruct G3 as [-> _]. exact Hrom.
    + eapply along_impl; [|exact Hal]. intros i' m1 (X1 & X2). split; [|exact X2].
      eapply stays_in_same; [|exact X1]. apply G3.
    + exists s', m'. cbn [isa_run T.run_n]. rewrite Hf, R. repeat split; try (apply I3 || apply I4); auto.
      apply (static_trans _ _ _ G3 I5).
      all: apply (static_trans _ _ _ G3 I5).
Qed.

Lemma run_n_add chk n k : forall s, T.run_n chk (n + k) s = do s' <- T.run_n chk n s; T.run_n chk k s'.
Proof.
  induction n as [|n IH]; intros s; cbn [plus T.run_n]; [reflexivity|].
  destruct (T.run chk s); [apply IH|reflexivity].
Qed.

(** x0 *)
Lemma run_x0 chk s s' : T.run chk s = Some s' -> nth_error (T.registers s') 0 = Some 0.
Proof.
  unfold T.run. destruct (T.read_word chk (T.rom s) (T.pc s)); [|discriminate].
  destruct (T.decode_inst z); [|discriminate]. destruct (T.exec chk s i) as [s1|]; [|discriminate].
  destruct (set_nth (T.registers s1) 0 0) as [r|] eqn:E; [|discriminate].
  intros H. injection H as <-. cbn [T.registers T.with_cpu]. rewrite (set_nth_nth _ _ _ _ _ _ E). reflexivity.
Qed.
Lemma run_n_x0 chk n : forall s s', nth_error (T.registers s) 0 = Some 0 ->
  T.run_n chk n s = Some s' -> nth_error (T.registers s') 0 = Some 0.
Proof.
  induction n as [|n IH]; intros s s' H E; cbn [T.run_n] in E; [congruence|].
  destruct (T.run chk s) as [s1|] eqn:R; [|discriminate]. eapply IH; [|exact E]. eapply run_x0; eauto.
Qed.
Lemma init_x0 chk a b c d e f g h n s : T.init chk a b c d e f g h n = Some s ->
  nth_error (T.registers s) 0 = Some 0.
Proof.
  unfold T.init. destruct (T.load_memory _ _ _ _); [|discriminate].
  destruct (T.load_memory _ _ _ _); [|discriminate]. intros H. injection H as <-. reflexivity.
Qed.

(** frame: which bytes of RAM a step may change, for any ROM content *)
Definition t_store (i : T.inst) : option (Z * Z * Z) :=
  match i with
  | T.SB rs1 _ imm => Some (1, rs1, imm)
  | T.SH rs1 _ imm => Some (2, rs1, imm)
  | T.SW rs1 _ imm => Some (4, rs1, imm)
  | _ => None
  end.
(** position in the data vector of address [a] *)
Definition at_pos (chk : bool) (mem : T.memory) (a : Z) (j : nat) : Prop :=
  (T.offset mem <= a /\ j = Z.to_nat ((a - T.offset mem) mod T.size mem)) \/
  (a < T.offset mem /\ chk = false /\ j = Z.to_nat (((a - T.offset mem) mod 2 ^ 64) mod T.size mem)).

Lemma set_byte_pos chk mem a p j v mem' q :
  T.usub chk a (T.offset mem) = Some p -> T.index mem p = Some j -> T.set_byte mem j v = Some mem' ->
  T.offset mem' = T.offset mem /\ T.size mem' = T.size mem /\ length (T.data mem') = length (T.data mem) /\
  at_pos chk mem a j /\ (q <> j -> nth_error (T.data mem') q = nth_error (T.data mem) q).
Proof.
  intros H1 H2 H3. unfold T.set_byte in H3. destruct (set_nth (T.data mem) j v) as [d|] eqn:E; [|discriminate].
  injection H3 as <-. cbn [T.offset T.size T.data]. rewrite (set_nth_length _ _ _ _ _ E).
  repeat split; auto.
  - unfold T.usub in H1. unfold T.index in H2. destruct (T.size mem =? 0); [discriminate|]. injection H2 as <-.
    unfold at_pos. destruct (Z.leb_spec (T.offset mem) a); [injection H1 as <-; left; auto|].
    destruct chk; [discriminate|]. injection H1 as <-. right. auto.
  - intros Hq. rewrite (set_nth_nth _ _ _ _ _ _ E). destruct (Nat.eqb_spec q j); [tauto|reflexivity].
Qed.

Definition frame (chk : bool) (mem mem' : T.memory) (a n : Z) : Prop :=
  T.offset mem' = T.offset mem /\ T.size mem' = T.size mem /\ length (T.data mem') = length (T.data mem) /\
  forall j, (forall k, 0 <= k < n -> ~ at_pos chk mem (a + k) j) ->
    nth_error (T.data mem') j = nth_error (T.data mem) j.
Lemma frame_refl chk mem a n : frame chk mem mem a n.
Proof. unfold frame. auto. Qed.
Lemma write_nth_frame chk mem mem1 mem' a n v i : 0 <= i < n -> frame chk mem mem1 a n ->
  T.write_nth chk v a (Some mem1) i = Some mem' -> frame chk mem mem' a n.
Proof.
  intros Hi (F1 & F2 & F3 & F4) H. unfold T.write_nth in H.
  destruct (T.usub chk (a + i) (T.offset mem1)) as [p|] eqn:E1; [|discriminate].
  destruct (T.index mem1 p) as [k|] eqn:E2; [|discriminate].
  pose proof (set_byte_pos chk mem1 (a + i) p k _ mem' 0%nat E1 E2 H) as (G1 & G2 & G3 & G4 & _).
  unfold frame. repeat split; try congruence. intros j Hj.
  pose proof (set_byte_pos chk mem1 (a + i) p k _ mem' j E1 E2 H) as (_ & _ & _ & _ & G5).
  rewrite G5; [apply F4; exact Hj|]. intros ->. apply (Hj i Hi). unfold at_pos in *. rewrite F1, F2 in G4. exact G4.
Qed.
Lemma write_frame chk mem mem' a v l n : (forall i, In i l -> 0 <= i < n) ->
  forall mem1, frame chk mem mem1 a n ->
  fold_left (T.write_nth chk v a) l (Some mem1) = Some mem' -> frame chk mem mem' a n.
Proof.
  intros Hl. induction l as [|i t IH]; intros mem1 HF H; cbn [fold_left] in H.
  - injection H as <-. exact HF.
  - destruct (T.write_nth chk v a (Some mem1) i) as [mem2|] eqn:E.
    + eapply IH; [intros; apply Hl; right; auto| |exact H].
      eapply write_nth_frame; [|exact HF|exact E]. apply Hl. left. reflexivity.
    + exfalso. clear -H. induction t; cbn in H; [discriminate|auto].
Qed.
Lemma set_rd_ram chk s rd v s' : T.set_rd chk s rd v = Some s' -> T.ram s' = T.ram s.
Proof.
  unfold T.set_rd. destruct (set_nth _ _ _); [|discriminate]. destruct (T.pc4 _ _); [|discriminate].
  intros H. injection H as <-. reflexivity.
Qed.
Lemma link_ram chk s rd v s' : T.link chk s rd v = Some s' -> T.ram s' = T.ram s.
Proof.
  unfold T.link. destruct (_ =? 0); [|discriminate]. destruct (set_nth _ _ _); [|discriminate].
  intros H. injection H as <-. reflexivity.
Qed.
Lemma branch_ram chk s b v s' : T.branch chk s b v = Some s' -> T.ram s' = T.ram s.
Proof.
  unfold T.branch. destruct b.
  - destruct (_ =? 0); [|discriminate]. intros H. injection H as <-. reflexivity.
  - destruct (T.pc4 _ _); [|discriminate]. intros H. injection H as <-. reflexivity.
Qed.
Lemma stored_ram chk s om s' : T.stored chk s om = Some s' -> om = Some (T.ram s').
Proof.
  unfold T.stored. destruct om; [|discriminate]. destruct (T.pc4 _ _); [|discriminate].
  intros H. injection H as <-. reflexivity.
Qed.

Lemma exec_ram chk s i s' : T.exec chk s i = Some s' ->
  match t_store i with
  | None => T.ram s' = T.ram s
  | Some (n, rs1, imm) => exists x, T.register s rs1 = Some x /\ frame chk (T.ram s) (T.ram s') (wadd x imm) n
  end.
Proof.
  intros H. destruct i; cbn [t_store]; cbn [T.exec] in H;
    repeat match type of H with
    | T.set_rd _ _ _ _ = Some _ => exact (set_rd_ram _ _ _ _ _ H)
    | T.link _ _ _ _ = Some _ => exact (link_ram _ _ _ _ _ H)
    | T.branch _ _ _ _ = Some _ => exact (branch_ram _ _ _ _ _ H)
    | T.stored _ _ _ = Some _ => fail 1
    | (match ?e with Some _ => _ | None => None end) = Some _ => destruct e eqn:?; [|discriminate H]
    | (if ?e then _ else None) = Some _ => destruct e eqn:?; [|discriminate H]
    | (let _ := _ in _) = _ => cbv zeta in H
    end.
  - apply stored_ram in H. eexists. split; [reflexivity|]. unfold T.write_byte in H.
    destruct (T.usub _ _ _) as [p|] eqn:E1; [|discriminate]. destruct (T.index _ _) as [k|] eqn:E2; [|discriminate].
    pose proof (set_byte_pos _ _ _ _ _ _ _ 0%nat E1 E2 H) as (G1 & G2 & G3 & G4 & _).
    unfold frame. repeat split; auto. intros j Hj.
    pose proof (set_byte_pos _ _ _ _ _ _ _ j E1 E2 H) as (_ & _ & _ & _ & G5).
    apply G5. intros ->. apply (Hj 0 ltac:(lia)). rewrite Z.add_0_r. exact G4.
  - apply stored_ram in H. eexists. split; [reflexivity|].
    eapply write_frame; [|apply frame_refl|exact H]. cbn. intuition lia.
  - apply stored_ram in H. eexists. split; [reflexivity|].
    eapply write_frame; [|apply frame_refl|exact H]. cbn. intuition lia.
Qed.
Lemma run_ram chk s s' : T.run chk s = Some s' ->
  exists w i, T.read_word chk (T.rom s) (T.pc s) = Some w /\ T.decode_inst w = Some i /\
  match t_store i with
  | None => T.ram s' = T.ram s
  | Some (n, rs1, imm) => exists x, T.register s rs1 = Some x /\ frame chk (T.ram s) (T.ram s') (wadd x imm) n
  end.
Proof.
  unfold T.run. destruct (T.read_word chk (T.rom s) (T.pc s)) as [w|]; [|discriminate].
  destruct (T.decode_inst w) as [i|] eqn:Ed; [|discriminate]. destruct (T.exec chk s i) as [s1|] eqn:E; [|discriminate].
  destruct (set_nth (T.registers s1) 0 0) as [r|]; [|discriminate]. intros H. injection H as <-.
  exists w, i. split; [reflexivity|]. split; [exact Ed|]. cbn [T.ram T.with_cpu]. apply exec_ram. exact E.
Qed.

(** ** Shadow VM *)
Lemma dstatic_refl s : dstatic s s. Proof. unfold dstatic. auto. Qed.
Lemma dstatic_trans a b c : dstatic a b -> dstatic b c -> dstatic a c.
Proof. unfold dstatic. intuition congruence. Qed.

Lemma fetch_entry r prog pc i : tables_hold r prog -> 0 <= pc -> fetch prog pc = Some i ->
  entry_is r (Z.to_nat (Z.shiftr pc 2)) i.
Proof.
  intros H Hp Hf. destruct (fetch_inv _ _ _ Hf) as (_ & w & HN & HI).
  rewrite Z.shiftr_div_pow2 by lia. exact (H _ _ _ HN HI).
Qed.

Lemma dcycles_isa base prog n : forall s m,
  dvm_ok s -> base_ok base (ram_size s) -> dshows base s m -> tables_hold (drom s) prog -> Forall word prog ->
  along (dsupported base (ram_size s)) prog n m ->
  exists s' m', isa_run prog n m = Some m' /\ dcycles RD_RV32I n s = Some s' /\
    dvm_ok s' /\ dshows base s' m' /\ dstatic s s'.
Proof.
  induction n as [|n IH]; intros s m Hok HB Hsh Ht Hleg Hal.
  - exists s, m. cbn. auto using dstatic_refl.
  - destruct Hal as (i & Hf & F1 & Hal). pose proof (fetch_legal _ _ _ Hleg Hf) as Hl.
    assert (HE : entry_is (drom s) (Z.to_nat (Z.shiftr (dpc s) 2)) i).
    { apply (fetch_entry _ prog); auto; [apply Hok|]. destruct Hsh as [-> _]. exact Hf. }
    destruct (dcycle_step base s m i Hok HB Hsh Hl HE F1) as (s1 & C & O1 & S1 & T1).
    destruct T1 as (T1 & T2 & T3 & T4).
    destruct (IH s1 (isa_step i m)) as (s' & m' & I1 & I2 & I3 & I4 & I5); rewrite ?T1, ?T2; auto.
    exists s', m'. cbn [isa_run dcycles]. rewrite Hf, C. split; [exact I1|]. split; [exact I2|].
    split; [exact I3|]. split; [exact I4|]. apply (dstatic_trans s s1 s'); [unfold dstatic; auto|exact I5].
Qed.

Lemma dcycles_add ops n k : forall s, dcycles ops (n + k) s = do s' <- dcycles ops n s; dcycles ops k s'.
Proof.
  induction n as [|n IH]; intros s; cbn [plus dcycles]; [reflexivity|].
  destruct (dcycle ops s); [apply IH|reflexivity].
Qed.

(** what any successful cycle does, whatever the tables hold *)
Ltac inv_some H :=
  repeat match type of H with
  | (match ?e with Some _ => _ | None => None end) = Some _ => destruct e eqn:?; [|discriminate H]
  | (if ?e then _ else None) = Some _ => destruct e eqn:?; [|discriminate H]
  end.
Lemma dcycle_inv ops s s' : dcycle ops s = Some s' ->
  exists k_imm k_rs1 k_rs2 k_rd k_rdu k_mu k_pcu x y w j v r w' p,
    let pos := Z.to_nat (Z.shiftr (dpc s) 2) in
    nth_error (imm_rom (drom s)) pos = Some k_imm /\ nth_error (rs1_rom (drom s)) pos = Some k_rs1 /\
    nth_error (rs2_rom (drom s)) pos = Some k_rs2 /\ nth_error (rd_rom (drom s)) pos = Some k_rd /\
    nth_error (rdu_rom (drom s)) pos = Some k_rdu /\ nth_error (mu_rom (drom s)) pos = Some k_mu /\
    nth_error (pcu_rom (drom s)) pos = Some k_pcu /\
    nth_error (dregs s) (Z.to_nat k_rs1) = Some x /\ nth_error (dregs s) (Z.to_nat k_rs2) = Some y /\
    ram_index s (addr_of k_imm x) = Some j /\ nth_error (dram s) j = Some w /\
    (do m <- build_map rd_id (fun o => rd_eval o k_imm x y (dpc s) w) ops []; lookup k_rdu m) = Some v /\
    set_nth (dregs s) (Z.to_nat k_rd) v = Some r /\ set_nth r 0 0 = Some (dregs s') /\
    (do m <- build_map ram_id (fun o => Some (ram_eval o y w (Z.land (addr_of k_imm x) 3))) RAM_LIST []; lookup k_mu m)
      = Some w' /\ set_nth (dram s) j w' = Some (dram s') /\
    (do m <- build_map pc_id (fun o => Some (pc_eval o k_imm x y (dpc s))) PC_LIST []; lookup k_pcu m) = Some p /\
    dpc s' = p /\ drom s' = drom s /\ ram_size s' = ram_size s /\ rom_size s' = rom_size s.
Proof.
  intros H. unfold dcycle in H. inv_some H.
  unfold read_instructions in Heqo. inv_some Heqo. injection Heqo as <-.
  unfold read_registers in Heqo0. cbn [lat with_lat rs1_addr rs2_addr dregs] in Heqo0. inv_some Heqo0. injection Heqo0 as <-.
  unfold read_ram in Heqo1. cbn [lat with_lat rs1_val imm dram dregs] in Heqo1. inv_some Heqo1. injection Heqo1 as <-.
  unfold update_registers in Heqo2. cbn [lat with_lat dregs dram dpc rs1_val rs2_val ram_val imm rdu rd_addr] in Heqo2.
  inv_some Heqo2. injection Heqo2 as <-.
  unfold update_ram in Heqo3. cbn [lat with_lat dregs dram dpc rs1_val rs2_val ram_val imm mu ram_addr] in Heqo3.
  inv_some Heqo3. injection Heqo3 as <-.
  unfold update_pc in H. cbn [lat with_lat dregs dram dpc rs1_val rs2_val ram_val imm pcu] in H.
  inv_some H. injection H as <-.
  unfold ram_index in *. cbn [with_lat ram_size] in *.
  rewrite Heqo0 in Heqo17. injection Heqo17 as <-. fold (addr_of z z6) in *.
  do 15 eexists. cbv zeta. cbn [dregs dram dpc drom ram_size rom_size].
  repeat match goal with |- _ /\ _ => split end; try eassumption; try reflexivity.
  all: try match goal with E : build_map _ _ _ _ = Some _ |- match build_map _ _ _ _ with _ => _ end = _ =>
    rewrite E; eassumption end.
Qed.

Lemma dcycle_x0 ops s s' : dcycle ops s = Some s' -> nth_error (dregs s') 0 = Some 0.
Proof.
  intros H. apply dcycle_inv in H.
  destruct H as (k_imm & k_rs1 & k_rs2 & k_rd & k_rdu & k_mu & k_pcu & x & y & w & j & v & r & w' & p & H).
  cbv zeta in H. repeat match type of H with _ /\ _ => destruct H as [? H] end.
  match goal with E : set_nth _ 0 0 = Some _ |- _ => rewrite (set_nth_nth _ _ _ _ _ _ E) end. reflexivity.
Qed.
Lemma dcycles_x0 ops n : forall s s', nth_error (dregs s) 0 = Some 0 -> dcycles ops n s = Some s' ->
  nth_error (dregs s') 0 = Some 0.
Proof.
  induction n as [|n IH]; intros s s' H E; cbn [dcycles] in E; [congruence|].
  destruct (dcycle ops s) as [s1|] eqn:R; [|discriminate]. eapply IH; [|exact E]. eapply dcycle_x0; eauto.
Qed.

(** RAM frame: only the word at the computed index may change, and only when
    the table entry names a store *)
Lemma addr_of_plain imm x : addr_of imm x = to_word (x + imm - 2 ^ 18).
Proof.
  unfold addr_of, wsub, wadd, u32, to_word. change (shl32 1 18) with (2 ^ 18). change 4294967296 with (2 ^ 32).
  rewrite Zminus_mod_idemp_l. f_equal. lia.
Qed.
Lemma dcycle_ram ops s s' : 0 < ram_size s -> dcycle ops s = Some s' ->
  exists imm rs1 mu x j,
    nth_error (imm_rom (drom s)) (Z.to_nat (Z.shiftr (dpc s) 2)) = Some imm /\
    nth_error (rs1_rom (drom s)) (Z.to_nat (Z.shiftr (dpc s) 2)) = Some rs1 /\
    nth_error (mu_rom (drom s)) (Z.to_nat (Z.shiftr (dpc s) 2)) = Some mu /\
    nth_error (dregs s) (Z.to_nat rs1) = Some x /\
    Z.of_nat j = Z.shiftr (to_word (x + imm - 2 ^ 18)) 2 mod ram_size s /\
    (mu = 0 -> dram s' = dram s) /\
    (forall k, k <> j -> nth_error (dram s') k = nth_error (dram s) k).
Proof.
  intros Hs H. apply dcycle_inv in H.
  destruct H as (k_imm & k_rs1 & k_rs2 & k_rd & k_rdu & k_mu & k_pcu & x & y & w & j & v & r & w' & p & H).
  cbv zeta in H. destruct H as (H1 & H2 & H3 & H4 & H5 & H6 & H7 & H8 & H9 & H10 & H11 & H12 & H13 & H14 & H15 & H16 & H17 & H18).
  exists k_imm, k_rs1, k_mu, x, j. do 4 (split; [assumption|]).
  split; [|split].
  - unfold ram_index in H10. destruct (Z.eqb_spec (ram_size s) 0); [discriminate|]. injection H10 as <-.
    rewrite addr_of_plain. rewrite Z2Nat.id; [reflexivity|]. apply Z.mod_pos_bound. exact Hs.
  - intros ->. destruct (ram_map MNONE y w (Z.land (addr_of k_imm x) 3)) as (m & M1 & M2). rewrite M1 in H15.
    change (ram_id MNONE) with 0 in M2. rewrite M2 in H15. injection H15 as <-. cbn [ram_eval] in H16.
    rewrite (set_nth_same _ _ _ _ H11) in H16. congruence.
  - intros k Hk. rewrite (set_nth_nth _ _ _ _ _ _ H16). destruct (Nat.eqb_spec k j); [tauto|reflexivity].
Qed.

(** ** Loading the tables *)
Lemma fill_tables dbg : forall prog r, Forall word prog -> fill dbg prog = Some r ->
  tables_hold r prog /\ length (imm_rom r) = length prog.
Proof.
  induction prog as [|w prog IH]; intros r HW F; cbn [fill] in F.
  - injection F as <-. split; [|reflexivity]. intros [|k] w i H; discriminate.
  - inversion HW as [|? ? Hw HW']; subst. destruct (components dbg w) as [[[[[[[im rs1] rs2] rd] a] b] c]|] eqn:C; [|discriminate].
    destruct (fill dbg prog) as [r'|] eqn:F'; [|discriminate]. injection F as <-. destruct (IH r' HW' eq_refl) as [Ht HL].
    split; [|cbn [imm_rom length]; rewrite HL; reflexivity].
    intros [|k] w' i HN HI; cbn in HN.
    + assert (w' = w) by congruence. subst w'. destruct (isa_of_sound w i Hw HI) as [Hl <-].
      destruct (decode_legal dbg i Hl) as (_ & D1 & D2 & D3). unfold components in C. rewrite D1, D2, D3 in C.
      unfold entry_is. destruct (regs_of i) as [[q2 q1] qd]. destruct (ops_of i) as [[o1 o2] o3]. injection C as <- <- <- <- <- <- <-.
      cbn. auto 10.
    + specialize (Ht k w' i HN HI). unfold entry_is in *. destruct (regs_of i) as [[? ?] ?]. destruct (ops_of i) as [[? ?] ?].
      cbn [imm_rom rs1_rom rs2_rom rd_rom rdu_rom mu_rom pcu_rom nth_error]. exact Ht.
Qed.
Lemma fill_some dbg prog : Forall (accepted dbg) prog -> exists r, fill dbg prog = Some r.
Proof.
  induction 1 as [|w prog (o & rg & im & D1 & D2 & D3) _ (r & F)]; cbn [fill]; [eauto|].
  unfold components. rewrite D1, D2, D3. destruct rg as [[? ?] ?], o as [[? ?] ?]. rewrite F. eauto.
Qed.
Lemma set_instructions_ok dbg s prog p : Forall word prog ->
  length (imm_rom (drom s)) = length prog ->
  parser_add_all dbg parser_new prog = Some p ->
  exists s', set_instructions dbg s p = Some s' /\ tables_hold (drom s') prog /\ dpc s' = dpc s /\ dregs s' = dregs s /\ dram s' = dram s /\ ram_size s' = ram_size s /\ rom_size s' = rom_size s.
Proof.
  intros HF HL HP. destruct (fill_some dbg prog) as [r F]; [apply parser_iff; eauto|].
  destruct (parser_add_all_entries _ _ _ _ HP) as (imms & inss & _ & L1 & L2 & P1 & P2 & P3).
  cbn [parser_new p_imm p_ins p_raw app] in P1, P2, P3. unfold set_instructions. rewrite P2, P3, L2, HL.
  rewrite Nat.eqb_refl, Nat.leb_refl, firstn_all, F. destruct (fill_tables dbg prog r HF F) as (Ht & _).
  eexists. split; [reflexivity|]. cbn [dpc drom dregs dram ram_size rom_size]. auto 10.
Qed.

(** M operations panic: their ids are not in the evaluated list *)
Lemma opm_not_in o : ~ In (rd_id (mop_id o)) (map rd_id RD_RV32I).
Proof. destruct o; cbn; intuition discriminate. Qed.
Lemma dcycle_opm s o rd rs1 rs2 :
  entry_is (drom s) (Z.to_nat (Z.shiftr (dpc s) 2)) (OPM o rd rs1 rs2) -> dcycle RD_RV32I s = None.
Proof.
  intros HE. destruct (dcycle RD_RV32I s) as [s'|] eqn:E; [exfalso|reflexivity].
  apply dcycle_inv in E. destruct E as (k_imm & k_rs1 & k_rs2 & k_rd & k_rdu & k_mu & k_pcu & x & y & w & j & v & r & w' & p & H).
  cbv zeta in H. destruct H as (H1 & H2 & H3 & H4 & H5 & H6 & H7 & H8 & H9 & H10 & H11 & H12 & _).
  unfold entry_is in HE. cbn [regs_of ops_of] in HE. destruct HE as (_ & _ & _ & _ & E5 & _).
  rewrite E5 in H5. injection H5 as <-.
  destruct (build_map rd_id _ RD_RV32I []) as [m|] eqn:B; [|discriminate].
  rewrite (build_map_out _ _ _ _ _ (opm_not_in o) _ _ B) in H12. discriminate.
Qed.

(** ** The two machines side by side *)
Definition same_state (base : Z) (s : T.vm) (d : dvm) : Prop :=
  T.pc s = dpc d /\ T.registers s = dregs d /\ T.offset (T.ram s) = base /\ T.data (T.ram s) = ram_bytes (dram d).

Lemma shows_same base s d m : vm_ok s -> dvm_ok d -> shows s m -> dshows base d m ->
  T.offset (T.ram s) = base -> T.size (T.ram s) = 4 * ram_size d -> same_state base s d.
Proof.
  intros (L1 & _ & _ & _ & Hm) (L2 & _ & _ & _ & Lr & _) (P1 & R1 & M1) (P2 & R2 & M2) Ho Hs.
  repeat split; auto; [congruence| |].
  - apply nth_error_ext. intros n. destruct (Nat.lt_ge_cases n 32).
    + specialize (R1 (Z.of_nat n)). specialize (R2 (Z.of_nat n)). rewrite Nat2Z.id in *.
      rewrite R1, R2 by (unfold reg; lia). reflexivity.
    + rewrite !(proj2 (nth_error_None _ _)) by lia. reflexivity.
  - destruct Hm as (O1 & O2 & O3 & O4 & O5).
    apply nth_error_ext. intros n. destruct (Z_lt_ge_dec (Z.of_nat n) (4 * ram_size d)).
    + specialize (M1 (base + Z.of_nat n)). rewrite Ho in M1. replace (base + Z.of_nat n - base) with (Z.of_nat n) in M1 by lia.
      rewrite Nat2Z.id in M1. rewrite M1 by (unfold in_region; lia).
      destruct (M2 (base + Z.of_nat n) ltac:(lia)) as (w & N & V).
      replace (base + Z.of_nat n - base) with (Z.of_nat n) in * by lia. rewrite V.
      rewrite <- (Nat2Z.id n) at 2. symmetry. apply nth_ram_bytes_Z; [lia|exact N].
    + rewrite !(proj2 (nth_error_None _ _)); [reflexivity|rewrite length_ram_bytes; lia|lia].
Qed.
Lemma along_and (P Q : instr -> mach -> Prop) prog n : forall m,
  along P prog n m -> along Q prog n m -> along (fun i m => P i m /\ Q i m) prog n m.
Proof.
  induction n as [|n IH]; intros m; cbn; auto. intros (i & A & B & C) (i' & A' & B' & C').
  rewrite A in A'. injection A' as <-. exists i. auto.
Qed.
Lemma lockstep chk base prog n s d m :
  vm_ok s -> dvm_ok d -> shows s m -> dshows base d m ->
  T.offset (T.ram s) = base -> T.size (T.ram s) = 4 * ram_size d -> base_ok base (ram_size d) ->
  rom_holds (T.rom s) prog -> tables_hold (drom d) prog -> Forall word prog ->
  along (fun i m => t_fine chk (T.ram s) i m /\ dsupported base (ram_size d) i m) prog n m ->
  exists s' d' m', T.run_n chk n s = Some s' /\ dcycles RD_RV32I n d = Some d' /\ isa_run prog n m = Some m' /\
    shows s' m' /\ dshows base d' m' /\ same_state base s' d'.
Proof.
  intros Hs Hd Ss Sd Ho Hz HB Hr Ht HF Ha.
  destruct (run_n_isa chk prog n s m Hs Ss Hr HF) as (s' & m' & I1 & I2 & I3 & I4 & I5).
  { eapply along_impl; [|exact Ha]. cbv beta. tauto. }
  destruct (dcycles_isa base prog n d m Hd HB Sd Ht HF) as (d' & m2 & J1 & J2 & J3 & J4 & J5).
  { eapply along_impl; [|exact Ha]. cbv beta. tauto. }
  rewrite I1 in J1. injection J1 as <-. exists s', d', m'. repeat (split; [assumption|]).
  apply (shows_same base s' d' m'); auto.
  - destruct I5 as (_ & (E & _) & _). congruence.
  - destruct I5 as (_ & (_ & E) & _). destruct J5 as (_ & E' & _). congruence.
Qed.
