(** * What a shadow-VM load returns, and where RAM accesses go (proofs) *)
Require Import ZArith Lia Bool List Arith.
Require Import ZifyBool.
From Verif Require Import Word Isa Bits Codec DecodeSpec DecodeFacts EvalPlain EvalSpec EvalFacts ListFacts
  TestRunSpec TestRunFacts TestStep IsaSplit DebugVM DebugSpec DebugFacts DebugStep RunSpec RunFacts.
Import ListNotations.
Open Scope Z_scope.
Ltac Zify.zify_post_hook ::= idtac.

Lemma load_bytes k mm a w imm x y pc : word w -> 0 <= a -> a + 4 <= 2 ^ 32 ->
  (forall j, 0 <= j < 4 -> mm (a + j) = byte j w) ->
  rd_spec (ldk_id k) imm x y pc w = Some (do_load k mm a).
Proof.
  intros Hw Ha Ha' H.
  assert (L8 : forall j, 0 <= j < 4 -> ld8 mm (a + j) = byte j w).
  { intros j Hj. unfold ld8. rewrite to_word_small by (unfold word; lia). auto. }
  pose proof (L8 0 ltac:(lia)) as L0. rewrite Z.add_0_r in L0.
  destruct k; cbn [ldk_id rd_spec do_load]; f_equal; unfold ld32, ld16;
    replace (a + 2 + 1) with (a + 3) by lia; rewrite ?L0, ?L8 by lia;
    rewrite ?bytes_word, ?bytes_half by auto; reflexivity.
Qed.

Lemma dcycle_load base s m k rd rs1 off :
  dvm_ok s -> base_ok base (ram_size s) -> dshows base s m -> legal (LOAD k rd rs1 off) ->
  entry_is (drom s) (Z.to_nat (Z.shiftr (dpc s) 2)) (LOAD k rd rs1 off) ->
  base <= ea m rs1 off < base + 4 * ram_size s ->
  exists s', dcycle RD_RV32I s = Some s' /\
    (forall q, reg q -> nth_error (dregs s') (Z.to_nat q) =
       Some (get (put (m_rf m) rd (do_load k (m_mem m) (ea m rs1 off - ea m rs1 off mod 4))) q)).
Proof.
  intros (HL & HF & H0 & Hpc & Hram & Hrs & HFr) HB (Spc & Sreg & Smem) Hl HE Hin.
  set (i := LOAD k rd rs1 off) in *. destruct (legal_regs i Hl) as (R1 & R2 & R3).
  pose proof (legal_imm i Hl) as Himm.
  set (x := get (m_rf m) (r_rs1 i)). set (y := get (m_rf m) (r_rs2 i)).
  assert (Wx : word x) by (eapply nth_error_Forall; [exact HF|apply Sreg; exact R1]).
  assert (Wy : word y) by (eapply nth_error_Forall; [exact HF|apply Sreg; exact R2]).
  set (A := addr_of (imm_of i) x). set (e := to_word (x + s32 (imm_of i))).
  assert (HA : A = to_word (e - 2 ^ 18)) by (apply addr_of_word; exact Himm).
  assert (Ee : e = ea m rs1 off) by (symmetry; apply (load_ea i m Hl)). rewrite <- Ee in *.
  destruct (addr_in base (ram_size s) A e HB Hin HA) as (X1 & X2 & X3).
  pose proof (Z.mod_pos_bound (Z.shiftr A 2) (ram_size s) ltac:(lia)) as HI.
  assert (Hk : ram_index s A = Some (Z.to_nat (Z.shiftr A 2 mod ram_size s))).
  { unfold ram_index. destruct (Z.eqb_spec (ram_size s) 0); [lia|reflexivity]. }
  destruct (nth_error_lt _ (dram s) (Z.to_nat (Z.shiftr A 2 mod ram_size s)) ltac:(lia)) as [w Hw].
  assert (Ww : word w) by (eapply nth_error_Forall; eauto).
  destruct (dcycle_eq s i (o_rd i) (o_ram i) (o_pc i) (r_rs2 i) (r_rs1 i) (r_rd i) x y w
              (Z.to_nat (Z.shiftr A 2 mod ram_size s)))
    as (v & r & r' & d & s' & V & G1 & G2 & G3 & C & P1 & P2 & _);
    [exact HE|reflexivity|reflexivity|apply rd_in_list; reflexivity|apply Sreg; exact R1|apply Sreg; exact R2
    |exact Hk|exact Hw|unfold reg in R3; lia|].
  exists s'. split; [exact C|].
  set (a := e - e mod 4). pose proof (Z.mod_pos_bound e 4 ltac:(lia)) as B4.
  assert (Eab : a - base = 4 * ((e - base) / 4)).
  { unfold a. rewrite X3. pose proof (div4_lt (e - base)). lia. }
  destruct HB as (Hn & Hb0 & Hbn & HB').
  assert (HQ : 0 <= (e - base) / 4 < ram_size s).
  { split; [apply Z.div_pos; lia|apply Z.div_lt_upper_bound; lia]. }
  assert (V' : rd_spec (o_rd i) (imm_of i) x y (m_pc m) w = Some (do_load k (m_mem m) a)).
  { apply load_bytes; auto; try lia. intros j Hj.
    destruct (Smem (a + j) ltac:(lia)) as (w' & N & Vb).
    assert (E1 : (a + j - base) / 4 = (e - base) / 4) by (symmetry; apply Z.div_unique with j; lia).
    assert (E2 : (a + j - base) mod 4 = j) by (symmetry; apply Z.mod_unique with ((e - base) / 4); lia).
    rewrite E1, <- X1, Hw in N. injection N as <-. rewrite E2 in Vb. exact Vb. }
  assert (Wpc : word (m_pc m)) by (rewrite <- Spc; exact Hpc). rewrite Spc in V.
  rewrite (rd_eval_rv32i _ _ _ _ _ _ _ Himm Wx Wy Wpc Ww V') in V. injection V as <-.
  pose proof (word_rd_spec _ _ _ _ _ _ _ Wx Wy Ww V') as Wv.
  destruct (regs_put _ _ _ _ _ _ HL HF R3 Wv Sreg G1 G2) as (_ & _ & _ & Q4).
  rewrite P2. exact Q4.
Qed.

(** ** Indices *)
Lemma ram_index_bound s a : 0 < ram_size s ->
  exists k, ram_index s a = Some k /\ Z.of_nat k < ram_size s.
Proof.
  intros H. unfold ram_index. destruct (Z.eqb_spec (ram_size s) 0); [lia|]. eexists. split; [reflexivity|].
  pose proof (Z.mod_pos_bound (Z.shiftr a 2) (ram_size s) H). lia.
Qed.
Lemma ram_index_wrap s imm x imm' x' :
  0 < ram_size s -> (4 * ram_size s | 2 ^ 32) -> (4 * ram_size s | (x + imm) - (x' + imm')) ->
  ram_index s (to_word (x + imm - 2 ^ 18)) = ram_index s (to_word (x' + imm' - 2 ^ 18)).
Proof.
  intros Hn [q Hq] [p Hp]. unfold ram_index. destruct (ram_size s =? 0); [reflexivity|]. f_equal. f_equal.
  rewrite !Z.shiftr_div_pow2 by lia. change (2 ^ 2) with 4. set (n := ram_size s) in *.
  assert (M : forall a, (to_word a / 4) mod n = (a / 4) mod n).
  { intros a. unfold to_word. rewrite (Z.mod_eq a (2 ^ 32)) by lia. rewrite Hq at 1.
    replace (a - q * (4 * n) * (a / 2 ^ 32)) with (a + (- (q * n * (a / 2 ^ 32))) * 4) by ring.
    rewrite Z.div_add by lia. replace (- (q * n * (a / 2 ^ 32))) with ((- (q * (a / 2 ^ 32))) * n) by ring.
    apply Z.mod_add. lia. }
  rewrite !M. replace (x + imm - 2 ^ 18) with (x' + imm' - 2 ^ 18 + (p * n) * 4) by lia.
  rewrite Z.div_add by lia. apply Z.mod_add. lia.
Qed.

(** ** Start state *)
(** the calls made by [new_with_debug], [instructions_encrypt_sk] and
    [ram_encrypt_sk] on the shadow (fhevm/src/interpreter.rs:118-126, 277, 394) *)
Definition boot (dbg : bool) (prog : list Z) (ram : list Z) : option dvm :=
  do p <- parser_add_all dbg parser_new prog;
  do s <- set_instructions dbg (dvm_new (length prog) (length ram)) p;
  set_ram s ram.
Definition mem_of (base : Z) (d : list Z) (a : Z) : Z :=
  match nth_error d (Z.to_nat ((a - base) / 4)) with Some w => byte ((a - base) mod 4) w | None => 0 end.
Definition start (base : Z) (d : list Z) : mach := {| m_pc := 0; m_rf := fun _ => 0; m_mem := mem_of base d |}.

Lemma dshows_mem_of base d : dshows_mem base d (mem_of base d).
Proof.
  intros a Ha. unfold mem_of.
  assert (0 <= (a - base) / 4 < Z.of_nat (length d)).
  { split; [apply Z.div_pos; lia|apply Z.div_lt_upper_bound; lia]. }
  destruct (nth_error_lt _ d (Z.to_nat ((a - base) / 4)) ltac:(lia)) as [w Hw]. rewrite Hw. eauto.
Qed.
Lemma zero_regs r : reg r -> nth_error (repeat 0 32%nat) (Z.to_nat r) = Some 0.
Proof.
  intros Hr. unfold reg in Hr. destruct (nth_error (repeat 0 32) (Z.to_nat r)) eqn:E.
  - apply nth_error_In, repeat_spec in E. congruence.
  - apply nth_error_None in E. rewrite repeat_length in E. lia.
Qed.
Lemma boot_ok dbg prog ram base : Forall word prog -> Forall (accepted dbg) prog -> Forall word ram -> (0 < length ram)%nat ->
  Z.of_nat (length ram) < 2 ^ 32 ->
  exists s, boot dbg prog ram = Some s /\ dvm_ok s /\ ram_size s = Z.of_nat (length ram) /\ dram s = ram /\
    tables_hold (drom s) prog /\ dshows base s (start base ram).
Proof.
  intros HF HA HR H0 Hn. unfold boot.
  destruct (proj2 (DecodeAccept.parser_iff dbg prog) HA) as [p Hp]. rewrite Hp.
  destruct (set_instructions_ok dbg (dvm_new (length prog) (length ram)) prog p HF) as (s & S & Ht & E1 & E2 & E3 & E4 & E5);
    [cbn; apply repeat_length|exact Hp|]. rewrite S.
  assert (E4' : ram_size s = Z.of_nat (length ram)).
  { rewrite E4. cbn. unfold u32. apply Z.mod_small. lia. }
  unfold set_ram. rewrite E3. cbn [dram dvm_new]. rewrite repeat_length, Nat.eqb_refl.
  eexists. split; [reflexivity|]. split; [|split; [exact E4'|split; [reflexivity|split; [exact Ht|]]]].
  - unfold dvm_ok. cbn [dregs dpc dram ram_size]. rewrite E1, E2, E4'.
    repeat split; auto; try (cbn; lia).
    apply Forall_forall. intros z Hz. apply repeat_spec in Hz. unfold word. lia.
  - split; [exact E1|]. split; [|apply dshows_mem_of]. cbn [dregs]. rewrite E2. intros r Hr.
    cbn [dregs dvm_new start m_rf]. rewrite zero_regs by exact Hr. unfold get. destruct (r =? 0); reflexivity.
Qed.
