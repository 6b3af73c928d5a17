(** * One shadow-VM cycle is one ISA step (proofs) *)
Require Import ZArith Lia Bool List Arith.
Require Import ZifyBool.
From Verif Require Import Word Isa Bits Codec DecodeSpec DecodeFacts EvalPlain EvalSpec EvalFacts ListFacts
  DebugVM TestRunSpec TestRunFacts TestStep IsaSplit DebugSpec DebugFacts.
Import ListNotations.
Open Scope Z_scope.
Ltac Zify.zify_post_hook ::= idtac.

Lemma div4_lt z : z - 4 * (z / 4) = z mod 4.
Proof. rewrite Z.mod_eq; lia. Qed.

(** writing a naturally aligned store into its word *)
Lemma dshows_mem_store base d d' mm o y e w :
  dshows_mem base d mm -> Forall word d -> word y ->
  base <= e < base + 4 * Z.of_nat (length d) -> aligned o ((e - base) mod 4) ->
  nth_error d (Z.to_nat ((e - base) / 4)) = Some w ->
  set_nth d (Z.to_nat ((e - base) / 4)) (ram_eval o y w ((e - base) mod 4)) = Some d' ->
  dshows_mem base d' (fun a => if (e <=? a) && (a <? e + store_size o) then byte (a - e) y else mm a).
Proof.
  intros Hd HF Hy He Ha Hw Hset a Hra. rewrite (set_nth_length _ _ _ _ _ Hset) in Hra.
  rewrite (set_nth_nth _ _ _ _ _ _ Hset).
  assert (Ww : word w) by (eapply nth_error_Forall; eauto).
  pose proof (div4_lt (e - base)) as D1. pose proof (div4_lt (a - base)) as D2.
  pose proof (Z.mod_pos_bound (e - base) 4 ltac:(lia)) as B1.
  pose proof (Z.mod_pos_bound (a - base) 4 ltac:(lia)) as B2.
  assert (0 <= (a - base) / 4) by (apply Z.div_pos; lia).
  assert (0 <= (e - base) / 4) by (apply Z.div_pos; lia).
  assert (Hfit : (e - base) mod 4 + store_size o <= 4 \/ o = MNONE).
  { destruct o; cbn [aligned store_size] in *; auto; left; [lia| |lia].
    assert ((e - base) mod 4 <> 3) by (intros E; rewrite E in Ha; discriminate). lia. }
  destruct (Nat.eqb_spec (Z.to_nat ((a - base) / 4)) (Z.to_nat ((e - base) / 4))) as [E|E].
  - eexists. split; [reflexivity|]. rewrite ram_eval_bytes by auto. unfold in_store.
    destruct (Hd a Hra) as (w' & N & V). rewrite E, Hw in N. injection N as <-.
    assert ((a - base) / 4 = (e - base) / 4) by lia.
    replace ((e <=? a) && (a <? e + store_size o)) with
      (((e - base) mod 4 <=? (a - base) mod 4) && ((a - base) mod 4 <? (e - base) mod 4 + store_size o)) by lia.
    destruct (((e - base) mod 4 <=? (a - base) mod 4) && _); [f_equal; lia|exact V].
  - destruct (Hd a Hra) as (w' & N & V). exists w'. split; [exact N|].
    replace ((e <=? a) && (a <? e + store_size o)) with false; [exact V|].
    symmetry. assert ((a - base) / 4 <> (e - base) / 4) by (intro X; apply E; rewrite X; reflexivity).
    destruct Hfit as [Hfit| ->]; [|cbn [store_size]; lia]. lia.
Qed.

Lemma dshows_mem_ext base d mm mm' : (forall a, mm a = mm' a) -> dshows_mem base d mm -> dshows_mem base d mm'.
Proof. intros H Hd a Ha. destruct (Hd a Ha) as (w & N & V). exists w. rewrite <- H. auto. Qed.

(** a load sees the bytes of the word at its index *)
Lemma dshows_mem_sees base d m k rd rs1 off w :
  base_ok base (Z.of_nat (length d)) -> dshows_mem base d (m_mem m) ->
  dsupported base (Z.of_nat (length d)) (LOAD k rd rs1 off) m ->
  nth_error d (Z.to_nat ((ea m rs1 off - base) / 4)) = Some w ->
  (ea m rs1 off - base) mod 4 = 0 ->
  sees (LOAD k rd rs1 off) m w.
Proof.
  intros (Hn & Hb & Hbn & _) Hd (S1 & S2 & S3) Hw He. cbn [sees]. split; [lia|].
  intros j Hj. assert (ld_size k <= 4) by (destruct k; cbn; lia).
  destruct (Hd (ea m rs1 off + j) ltac:(lia)) as (w' & N & V).
  pose proof (div4_lt (ea m rs1 off - base)) as D1.
  assert (E1 : (ea m rs1 off + j - base) / 4 = (ea m rs1 off - base) / 4).
  { symmetry. apply Z.div_unique with j; lia. }
  assert (E2 : (ea m rs1 off + j - base) mod 4 = j).
  { symmetry. apply Z.mod_unique with ((ea m rs1 off - base) / 4); lia. }
  rewrite E1, Hw in N. injection N as <-. rewrite E2 in V. exact V.
Qed.

(** registers after writing [rd] and zeroing x0 *)
Lemma regs_put regs r r' rf rd v :
  length regs = 32%nat -> Forall word regs -> reg rd -> word v ->
  (forall q, reg q -> nth_error regs (Z.to_nat q) = Some (get rf q)) ->
  set_nth regs (Z.to_nat rd) v = Some r -> set_nth r 0 0 = Some r' ->
  length r' = 32%nat /\ Forall word r' /\ nth_error r' 0 = Some 0 /\
  forall q, reg q -> nth_error r' (Z.to_nat q) = Some (get (put rf rd v) q).
Proof.
  intros HL HF Hrd Hv HG H1 H2.
  split; [rewrite (set_nth_length _ _ _ _ _ H2), (set_nth_length _ _ _ _ _ H1); exact HL|].
  split.
  { eapply set_nth_Forall; [exact H2| |unfold word; lia]. eapply set_nth_Forall; eauto. }
  split; [rewrite (set_nth_nth _ _ _ _ _ _ H2); reflexivity|].
  intros q Hq. rewrite (set_nth_nth _ _ _ _ _ _ H2), (set_nth_nth _ _ _ _ _ _ H1), HG by exact Hq.
  unfold reg in *. unfold put. unfold get at 2.
  destruct (Nat.eqb_spec (Z.to_nat q) 0), (Z.eqb_spec q 0); try lia; [reflexivity|].
  destruct (Nat.eqb_spec (Z.to_nat q) (Z.to_nat rd)), (Z.eqb_spec q rd); try lia; reflexivity.
Qed.

Lemma word_pc_spec o imm x y pc : word (pc_spec o imm x y pc).
Proof.
  unfold pc_spec. destruct o; try apply to_word_word;
    try (match goal with |- word (if ?c then _ else _) => destruct c end; apply to_word_word).
  pose proof (to_word_word (x + s32 imm)) as H. set (t := to_word _) in *. clearbody t. unfold word in *.
  pose proof (Z.mod_pos_bound t 2 ltac:(lia)). pose proof (Z.mod_le t 2 ltac:(lia) ltac:(lia)). lia.
Qed.
Lemma word_byte k w : word (byte k w).
Proof. pose proof (byte_range k w). unfold word. lia. Qed.
Lemma word_alu_iop o x i : word x -> word (alu_iop o x i).
Proof.
  intros. destruct o; cbn [alu_iop]; try apply to_word_word; try apply word_bool;
    [apply word_lxor|apply word_lor|apply word_land]; auto; apply to_word_word.
Qed.
Lemma word_alu_shop o x i : word x -> 0 <= i -> word (alu_shop o x i).
Proof. intros. destruct o; cbn [alu_shop]; try apply to_word_word. apply word_div; auto. Qed.
Lemma word_alu_rop o x y : word x -> word y -> word (alu_rop o x y).
Proof.
  intros. assert (0 <= y mod 32) by (apply Z.mod_pos_bound; lia).
  destruct o; cbn [alu_rop]; try apply to_word_word; try apply word_bool; auto using word_lxor, word_lor, word_land, word_div.
Qed.
Lemma word_rd_spec o imm x y pc ram v :
  word x -> word y -> word ram -> rd_spec o imm x y pc ram = Some v -> word v.
Proof.
  intros Hx Hy Hr H. assert (0 <= imm mod 32) by (apply Z.mod_pos_bound; lia).
  destruct o; try discriminate H; injection H as <-; try apply to_word_word; try apply word_bool;
    auto using word_byte, word_lxor, word_lor, word_land, word_div, to_word_word.
  - unfold word; lia.
  - apply word_div; auto. apply Z.mod_pos_bound. lia.
  - pose proof (Z.mod_pos_bound ram (2 ^ 16) ltac:(lia)). unfold word. lia.
Qed.

Lemma load_ea i m : match i with LOAD _ _ rs1 off | STORE _ rs1 _ off =>
    legal i -> ea m rs1 off = to_word (get (m_rf m) (r_rs1 i) + s32 (imm_of i)) | _ => True end.
Proof.
  destruct i; auto; intros Hl; cbn in Hl; unfold r_rs1, ea; cbn [regs_of fst snd imm_of];
    rewrite s32_to_word by lia; reflexivity.
Qed.
Lemma not_mem_none i : match i with LOAD _ _ _ _ | STORE _ _ _ _ => True | _ => o_ram i = MNONE end.
Proof. destruct i; exact I || reflexivity. Qed.

Lemma addr_of_word imm x : word imm -> addr_of imm x = to_word (to_word (x + s32 imm) - 2 ^ 18).
Proof.
  intros H. rewrite (addr_of_ea _ _ imm) by (symmetry; apply to_word_small; exact H).
  rewrite to_word_sub. unfold to_word. destruct (s32_cases imm H) as [-> | ->]; [reflexivity|].
  replace (x + (imm - 2 ^ 32) - 2 ^ 18) with (x + imm - 2 ^ 18 + (-1) * 2 ^ 32) by ring.
  symmetry. apply Z.mod_add. lia.
Qed.

Lemma isa_ram_same i m mm : legal i -> o_ram i = MNONE -> (forall a, m_mem m a = mm a) ->
  forall a, m_mem (isa_step i m) a = mm a.
Proof.
  intros Hl Hn Hm a. destruct i; cbn [isa_step m_mem]; auto. destruct k; discriminate.
Qed.

Lemma dcycle_step base s m i :
  dvm_ok s -> base_ok base (ram_size s) -> dshows base s m -> legal i ->
  entry_is (drom s) (Z.to_nat (Z.shiftr (dpc s) 2)) i -> dsupported base (ram_size s) i m ->
  exists s', dcycle RD_RV32I s = Some s' /\ dvm_ok s' /\ dshows base s' (isa_step i m) /\ dstatic s s'.
Proof.
  intros (HL & HF & H0 & Hpc & Hram & Hrs & HFr) HB (Spc & Sreg & Smem) Hl HE Hsup.
  assert (Hopm : opm i = false) by (destruct i; auto; destruct Hsup).
  destruct (legal_regs i Hl) as (R1 & R2 & R3).
  pose proof (legal_imm i Hl) as Himm.
  set (x := get (m_rf m) (r_rs1 i)). set (y := get (m_rf m) (r_rs2 i)).
  assert (Wx : word x) by (eapply nth_error_Forall; [exact HF|apply Sreg; exact R1]).
  assert (Wy : word y) by (eapply nth_error_Forall; [exact HF|apply Sreg; exact R2]).
  set (A := addr_of (imm_of i) x).
  set (e := to_word (x + s32 (imm_of i))).
  assert (HA : A = to_word (e - 2 ^ 18)) by (apply addr_of_word; exact Himm).
  pose proof (Z.mod_pos_bound (Z.shiftr A 2) (ram_size s) ltac:(lia)) as HI.
  assert (Hk : ram_index s A = Some (Z.to_nat (Z.shiftr A 2 mod ram_size s))).
  { unfold ram_index. destruct (Z.eqb_spec (ram_size s) 0); [lia|reflexivity]. }
  destruct (nth_error_lt _ (dram s) (Z.to_nat (Z.shiftr A 2 mod ram_size s)) ltac:(lia)) as [w Hw].
  assert (Ww : word w) by (eapply nth_error_Forall; eauto).
  destruct (dcycle_eq s i (o_rd i) (o_ram i) (o_pc i) (r_rs2 i) (r_rs1 i) (r_rd i) x y w
              (Z.to_nat (Z.shiftr A 2 mod ram_size s)))
    as (v & r & r' & d & s' & V & G1 & G2 & G3 & C & P1 & P2 & P3 & P4 & P5 & P6);
    [exact HE|unfold o_rd, o_ram, o_pc; destruct (ops_of i) as [[? ?] ?]; reflexivity
    |unfold r_rd, r_rs1, r_rs2; destruct (regs_of i) as [[? ?] ?]; reflexivity
    |apply rd_in_list; exact Hopm|apply Sreg; exact R1|apply Sreg; exact R2|exact Hk|exact Hw
    |unfold reg in R3; lia|].
  assert (Hsees : sees i m w).
  { destruct i; try exact I. assert (Ee : e = ea m rs1 off) by (symmetry; apply (load_ea (LOAD k rd rs1 off) m Hl)).
    destruct (Hsup) as (S1 & S2 & S3).
    destruct (addr_in base (ram_size s) A e HB ltac:(rewrite Ee; destruct k; cbn [ld_size st_size] in S2; lia) HA) as (X1 & X2 & X3).
    rewrite Ee in *. apply (dshows_mem_sees base (dram s)); rewrite ?Hram; auto.
    - rewrite <- X1. exact Hw.
    - rewrite <- X3. exact S3. }
  destruct (isa_rd i m w Hl Hopm Ww Hsees) as (v' & V' & Greg).
  rewrite Spc in V. fold x y in V'.
  assert (Wpc : word (m_pc m)) by (rewrite <- Spc; exact Hpc).
  rewrite (rd_eval_rv32i _ _ _ _ _ _ v' Himm Wx Wy Wpc Ww V') in V. injection V as <-.
  pose proof (word_rd_spec _ _ _ _ _ _ _ Wx Wy Ww V') as Wv.
  destruct (regs_put _ _ _ _ _ _ HL HF R3 Wv Sreg G1 G2) as (Q1 & Q2 & Q3 & Q4).
  exists s'. split; [exact C|].
  rewrite pc_eval_spec, Spc in P1 by auto.
  assert (Hd : dshows_mem base d (m_mem (isa_step i m)) /\ length d = length (dram s) /\ Forall word d).
  { split; [|split; [exact (set_nth_length _ _ _ _ _ G3)|eapply set_nth_Forall; [exact G3|exact HFr|apply word_ram_eval; auto]]].
    assert (Hn : forall i', i' = i -> o_ram i' = MNONE -> dshows_mem base d (m_mem (isa_step i m))).
    { intros i' -> Hn. rewrite Hn in G3. cbn [ram_eval] in G3. rewrite (set_nth_same _ _ _ _ Hw) in G3.
      injection G3 as <-. eapply dshows_mem_ext; [|exact Smem]. intros a. symmetry.
      apply isa_ram_same; auto. }
    destruct i; try (eapply Hn; reflexivity). clear Hn.
    assert (Ee : e = ea m rs1 off) by (symmetry; apply (load_ea (STORE k rs1 rs2 off) m Hl)).
    destruct Hsup as (S1 & S2 & S3).
    destruct (addr_in base (ram_size s) A e HB ltac:(rewrite Ee; destruct k; cbn [ld_size st_size] in S2; lia) HA) as (X1 & X2 & X3).
    fold A in G3. rewrite land3, X2, X1 in G3. rewrite X1 in Hw.
    eapply dshows_mem_ext;
      [|refine (dshows_mem_store base (dram s) d _ _ y e w Smem HFr Wy _ _ Hw G3)].
    - intros a. symmetry. apply isa_ram; auto. destruct HB as (_ & _ & HB & _). lia.
    - rewrite Ee. rewrite Hram. destruct k; cbn [ld_size st_size] in S2; lia.
    - rewrite <- X3, Ee. destruct k; cbn [o_ram ops_of fst snd stk_id aligned st_size] in *; auto.
      rewrite <- Znumtheory.Zmod_div_mod; [exact S3|lia|lia|exists 2; reflexivity]. }
  destruct Hd as (D1 & D2 & D3). rewrite <- P3 in D1, D2, D3.
  split; [|split].
  - unfold dvm_ok. rewrite P2, P5, P1. repeat split; auto; try lia.
    apply word_pc_spec. apply word_pc_spec.
  - unfold dshows. rewrite P1, P2. split; [apply isa_pc; exact Hl|]. split; [|exact D1].
    intros q Hq. rewrite Q4 by exact Hq. rewrite Greg. reflexivity.
  - unfold dstatic. auto.
Qed.
