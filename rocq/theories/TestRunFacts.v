(** * One step of the reference VM (proofs) *)
Require Import ZArith Lia Bool List Arith.
Require Import ZifyBool.
From Verif Require Import Word Isa Bits EvalSpec EvalFacts ListFacts TestSpec TestRunSpec TestDecode.
From Verif Require TestVM.
Import ListNotations.
Open Scope Z_scope.
Ltac Zify.zify_post_hook ::= idtac.

Lemma usub_in chk m a n : in_region m a n -> T.usub chk a (T.offset m) = Some (a - T.offset m).
Proof.
  intros [H1 H2]. unfold T.usub. destruct (Z.leb_spec (T.offset m) a); [reflexivity|lia].
Qed.
Lemma index_in m i : 0 <= i < T.size m -> T.index m i = Some (Z.to_nat i).
Proof.
  intros H. unfold T.index. destruct (Z.eqb_spec (T.size m) 0); [lia|].
  rewrite Z.mod_small by lia. reflexivity.
Qed.
Lemma in_region_sub m a n i k : in_region m a n -> 0 <= i -> 0 <= k -> i + k <= n -> in_region m (a + i) k.
Proof. unfold in_region. lia. Qed.
Lemma to_word_in m a : mem_ok m -> in_region m a 1 -> to_word a = a.
Proof. unfold mem_ok, in_region. intros. apply to_word_small. unfold word. lia. Qed.

Lemma read_byte_ok chk m mm a : mem_ok m -> shows_mem m mm -> in_region m a 1 ->
  T.read_byte chk m a = Some (ld8 mm a) /\ is_byte (ld8 mm a).
Proof.
  intros Hm Hs Ha. unfold T.read_byte. rewrite (usub_in chk m a 1 Ha).
  unfold in_region in Ha. rewrite index_in by lia. pose proof (Hs a Ha) as E.
  unfold ld8. rewrite (to_word_in m a Hm Ha). split; [exact E|].
  destruct Hm as (_ & _ & _ & _ & HF). exact (nth_error_Forall _ _ _ _ _ HF E).
Qed.

Lemma read_nth_ok chk m mm a n i o : mem_ok m -> shows_mem m mm -> in_region m a n -> 0 <= i < n ->
  T.read_nth chk m a (Some o) i = Some (o + Z.shiftl (ld8 mm (a + i)) (i * 8)).
Proof.
  intros Hm Hs Ha Hi. unfold T.read_nth. rewrite (usub_in chk m a n Ha).
  assert (Hai : in_region m (a + i) 1) by (apply (in_region_sub m a n); auto; lia).
  pose proof (Hs _ Hai) as E. unfold in_region in Ha. destruct Hm as (H0 & H1 & H2 & H3 & HF) eqn:EM.
  unfold u64. rewrite Z.mod_small by lia. rewrite index_in by lia.
  replace (Z.to_nat (a + i - T.offset m)) with (Z.to_nat (a - T.offset m + i)) in E by (f_equal; lia).
  rewrite E. unfold ld8. rewrite (to_word_in m (a + i)); auto.
Qed.
Lemma read_half_ok chk m mm a : mem_ok m -> shows_mem m mm -> in_region m a 2 -> a mod 2 = 0 ->
  T.read_half chk m a = Some (ld16 mm a).
Proof.
  intros Hm Hs Ha He. unfold T.read_half. rewrite He. cbn [Z.eqb fold_left].
  rewrite !(read_nth_ok chk m mm a 2) by (auto; lia). f_equal. unfold ld16.
  rewrite !Z.shiftl_mul_pow2 by lia. rewrite Z.add_0_r. lia.
Qed.
Lemma read_word_ok chk m mm a : mem_ok m -> shows_mem m mm -> in_region m a 4 -> a mod 4 = 0 ->
  T.read_word chk m a = Some (ld32 mm a).
Proof.
  intros Hm Hs Ha He. unfold T.read_word. rewrite He. cbn [Z.eqb fold_left].
  rewrite !(read_nth_ok chk m mm a 4) by (auto; lia). f_equal. unfold ld32, ld16.
  rewrite !Z.shiftl_mul_pow2 by lia. rewrite Z.add_0_r.
  replace (a + 2 + 1) with (a + 3) by lia. lia.
Qed.

(** what is left unchanged by writes *)
Definition same_region (m m' : T.memory) : Prop := T.offset m' = T.offset m /\ T.size m' = T.size m.

Lemma set_byte_ok m mm a v b : mem_ok m -> shows_mem m mm -> in_region m a 1 -> v = b mod 2 ^ 8 ->
  exists m', T.set_byte m (Z.to_nat (a - T.offset m)) v = Some m' /\ mem_ok m' /\
    same_region m m' /\ shows_mem m' (st8 mm a b).
Proof.
  intros Hm Hs Ha Hv. pose proof (to_word_in m a Hm Ha) as Ht.
  destruct Hm as (H0 & H1 & H2 & H3 & HF). unfold in_region in Ha. unfold T.set_byte.
  destruct (set_nth_some _ (T.data m) (Z.to_nat (a - T.offset m)) v ltac:(lia)) as [d E]. rewrite E.
  eexists. split; [reflexivity|]. split; [|split; [split; reflexivity|]].
  - repeat split; cbn; auto.
    + rewrite (set_nth_length _ _ _ _ _ E). auto.
    + eapply set_nth_Forall; eauto. subst v. unfold is_byte. apply Z.mod_pos_bound. lia.
  - intros x Hx. unfold in_region in Hx. cbn in Hx |- *.
    rewrite (set_nth_nth _ _ _ _ _ _ E). unfold st8. rewrite Ht.
    destruct (Z.eqb_spec x a) as [->|N].
    + rewrite Nat.eqb_refl. congruence.
    + destruct (Nat.eqb_spec (Z.to_nat (x - T.offset m)) (Z.to_nat (a - T.offset m))); [lia|].
      apply Hs. unfold in_region. lia.
Qed.
Lemma in_region_same m m' a n : same_region m m' -> in_region m a n -> in_region m' a n.
Proof. unfold same_region, in_region. lia. Qed.

Lemma write_byte_ok chk m mm a v b : mem_ok m -> shows_mem m mm -> in_region m a 1 -> v = b mod 2 ^ 8 ->
  exists m', T.write_byte chk m a v = Some m' /\ mem_ok m' /\ same_region m m' /\ shows_mem m' (st8 mm a b).
Proof.
  intros Hm Hs Ha Hv. unfold T.write_byte. rewrite (usub_in chk m a 1 Ha).
  rewrite index_in by (unfold in_region in Ha; lia). apply set_byte_ok; auto.
Qed.
Lemma write_nth_ok chk m mm a n i v b : mem_ok m -> shows_mem m mm -> in_region m a n -> 0 <= i < n ->
  (v / 2 ^ (8 * i)) mod 2 ^ 8 = b mod 2 ^ 8 ->
  exists m', T.write_nth chk v a (Some m) i = Some m' /\ mem_ok m' /\ same_region m m' /\
    shows_mem m' (st8 mm (a + i) b).
Proof.
  intros Hm Hs Ha Hi Hb. unfold T.write_nth.
  assert (Hai : in_region m (a + i) 1) by (apply (in_region_sub m a n); auto; lia).
  rewrite (usub_in chk m (a + i) 1 Hai). rewrite index_in by (unfold in_region in Hai; lia).
  apply set_byte_ok; auto. rewrite land_ff, Z.shiftr_div_pow2 by lia. rewrite Z.mul_comm. exact Hb.
Qed.
Lemma mod_div_byte b k i : 0 <= i -> 8 * i + 8 <= k -> 0 <= k ->
  ((b mod 2 ^ k) / 2 ^ (8 * i)) mod 2 ^ 8 = (b / 2 ^ (8 * i)) mod 2 ^ 8.
Proof.
  intros. apply Z.bits_inj'. intros n Hn.
  destruct (Z_lt_ge_dec n 8).
  - rewrite !Z.mod_pow2_bits_low by lia. rewrite !Z.div_pow2_bits by lia.
    rewrite Z.mod_pow2_bits_low by lia. reflexivity.
  - rewrite !Z.mod_pow2_bits_high by lia. reflexivity.
Qed.

Lemma write_half_ok chk m mm a b : mem_ok m -> shows_mem m mm -> in_region m a 2 ->
  exists m', T.write_half chk m a (b mod 2 ^ 16) = Some m' /\ mem_ok m' /\ same_region m m' /\ shows_mem m' (st16 mm a b).
Proof.
  intros Hm Hs Ha. unfold T.write_half. cbn [fold_left].
  destruct (write_nth_ok chk m mm a 2 0 (b mod 2 ^ 16) b Hm Hs Ha ltac:(lia)) as (m1 & E1 & Hm1 & Hr1 & Hs1).
  { rewrite mod_div_byte by lia. rewrite Z.mul_0_r, Z.pow_0_r, Z.div_1_r. reflexivity. }
  rewrite E1. rewrite Z.add_0_r in Hs1.
  destruct (write_nth_ok chk m1 _ a 2 1 (b mod 2 ^ 16) (b / 2 ^ 8) Hm1 Hs1 (in_region_same _ _ _ _ Hr1 Ha) ltac:(lia)) as (m2 & E2 & Hm2 & Hr2 & Hs2).
  { rewrite mod_div_byte by lia. reflexivity. }
  exists m2. unfold same_region in *. repeat split; auto; lia || apply Hm2.
Qed.
Lemma write_word_ok chk m mm a b : mem_ok m -> shows_mem m mm -> in_region m a 4 ->
  exists m', T.write_word chk m a b = Some m' /\ mem_ok m' /\ same_region m m' /\ shows_mem m' (st32 mm a b).
Proof.
  intros Hm Hs Ha. unfold T.write_word. cbn [fold_left].
  destruct (write_nth_ok chk m mm a 4 0 b b Hm Hs Ha ltac:(lia)) as (m1 & E1 & Hm1 & Hr1 & Hs1).
  { rewrite Z.mul_0_r, Z.pow_0_r, Z.div_1_r. reflexivity. }
  rewrite E1. rewrite Z.add_0_r in Hs1.
  destruct (write_nth_ok chk m1 _ a 4 1 b (b / 2 ^ 8) Hm1 Hs1 (in_region_same _ _ _ _ Hr1 Ha) ltac:(lia) eq_refl) as (m2 & E2 & Hm2 & Hr2 & Hs2).
  rewrite E2. pose proof (in_region_same _ _ _ _ Hr2 (in_region_same _ _ _ _ Hr1 Ha)) as Ha2.
  destruct (write_nth_ok chk m2 _ a 4 2 b (b / 2 ^ 16) Hm2 Hs2 Ha2 ltac:(lia) eq_refl) as (m3 & E3 & Hm3 & Hr3 & Hs3).
  rewrite E3. pose proof (in_region_same _ _ _ _ Hr3 Ha2) as Ha3.
  destruct (write_nth_ok chk m3 _ a 4 3 b (b / 2 ^ 16 / 2 ^ 8) Hm3 Hs3 Ha3 ltac:(lia)) as (m4 & E4 & Hm4 & Hr4 & Hs4).
  { rewrite Z.div_div by lia. reflexivity. }
  exists m4. split; [exact E4|]. split; [exact Hm4|]. split; [unfold same_region in *; lia|].
  unfold st32, st16. replace (a + 2 + 1) with (a + 3) by lia. exact Hs4.
Qed.

(** registers *)
Lemma reg_get s m r : shows s m -> reg r -> T.register s r = Some (get (m_rf m) r).
Proof. intros (_ & H & _) Hr. apply H. exact Hr. Qed.
Lemma reg_word s m r : vm_ok s -> shows s m -> reg r -> word (get (m_rf m) r).
Proof.
  intros (_ & HF & _) (_ & H & _) Hr. eapply nth_error_Forall; [exact HF|apply H; exact Hr].
Qed.

(** the last line of [run]: x0 := 0 *)
Definition fin (o : option T.vm) : option T.vm :=
  do s' <- o; do r <- set_nth (T.registers s') 0 0;
  Some (T.with_cpu s' r (T.ram s') (T.pc s')).
Definition static (s s' : T.vm) : Prop :=
  T.rom s' = T.rom s /\ same_region (T.ram s) (T.ram s') /\
  T.input_info s' = T.input_info s /\ T.output_info s' = T.output_info s /\ T.max_cycles s' = T.max_cycles s.
Definition good (s : T.vm) (m' : mach) (s' : T.vm) : Prop := vm_ok s' /\ shows s' m' /\ static s s'.

Lemma same_region_refl m : same_region m m. Proof. split; reflexivity. Qed.

Lemma fin_regs s m rd v r mem p :
  vm_ok s -> shows s m -> reg rd -> word v -> word p ->
  set_nth (T.registers s) (Z.to_nat rd) v = Some r ->
  mem_ok mem -> same_region (T.ram s) mem -> forall mm, shows_mem mem mm ->
  exists s', fin (Some (T.with_cpu s r mem p)) = Some s' /\
    good s {| m_pc := p; m_rf := put (m_rf m) rd v; m_mem := mm |} s'.
Proof.
  intros (L & F & Z0 & PW & MO) (S1 & S2 & S3) Hrd Hv Hp E Hmem Hsame mm Hmm. unfold reg in *.
  unfold fin. cbn [T.registers T.with_cpu T.ram T.pc].
  pose proof (set_nth_length _ _ _ _ _ E) as L1.
  destruct (set_nth_some _ r 0%nat 0 ltac:(lia)) as [r' E']. rewrite E'.
  pose proof (set_nth_length _ _ _ _ _ E') as L2.
  eexists. split; [reflexivity|]. split; [|split; [|repeat split; cbn; apply Hsame]].
  - repeat split; cbn [T.registers T.with_cpu T.ram T.pc]; try lia; try apply Hp; try apply Hmem.
    + eapply set_nth_Forall; [exact E'| |unfold word; lia]. eapply set_nth_Forall; eauto.
    + rewrite (set_nth_nth _ _ _ _ _ _ E'). reflexivity.
  - split; [reflexivity|]. split; [|exact Hmm]. intros x Hx. unfold reg in Hx. cbn.
    rewrite (set_nth_nth _ _ _ _ _ _ E'), (set_nth_nth _ _ _ _ _ _ E).
    unfold get at 1. unfold put. 
    destruct (Nat.eqb_spec (Z.to_nat x) 0).
    + replace x with 0 by lia. reflexivity.
    + destruct (Z.eqb_spec x 0); [lia|]. destruct (Z.eqb_spec x rd).
      * subst. rewrite Nat.eqb_refl. reflexivity.
      * destruct (Nat.eqb_spec (Z.to_nat x) (Z.to_nat rd)); [lia|]. apply S2. exact Hx.
Qed.
Lemma fin_keep s m mem p :
  vm_ok s -> shows s m -> word p ->
  mem_ok mem -> same_region (T.ram s) mem -> forall mm, shows_mem mem mm ->
  exists s', fin (Some (T.with_cpu s (T.registers s) mem p)) = Some s' /\
    good s {| m_pc := p; m_rf := get (m_rf m); m_mem := mm |} s'.
Proof.
  intros Hok Hsh Hp Hmem Hsame mm Hmm. pose proof Hok as (L & F & Z0 & PW & MO).
  pose proof (set_nth_same _ _ _ _ Z0) as E.
  destruct (fin_regs s m 0 0 _ mem p Hok Hsh ltac:(unfold reg; lia) ltac:(unfold word; lia) Hp E Hmem Hsame mm Hmm)
    as (s' & Hs & G1 & (G2 & G3 & G4) & G5).
  exists s'. split; [exact Hs|]. split; [exact G1|]. split; [|exact G5].
  split; [exact G2|]. split; [|exact G4]. intros r Hr. rewrite (G3 r Hr). cbn. unfold put, get.
  destruct (Z.eqb_spec r 0); [reflexivity|]. reflexivity.
Qed.

Lemma pc4_cases chk p : word p ->
  (T.pc4 chk p = None /\ chk = true /\ 2 ^ 32 <= p + 4) \/
  (T.pc4 chk p = Some (to_word (p + 4)) /\ (chk = false \/ p + 4 < 2 ^ 32)).
Proof.
  intros H. unfold word in H. unfold T.pc4. destruct (Z.ltb_spec (p + 4) 4294967296).
  - right. split; [|lia]. f_equal. symmetry. apply to_word_small. unfold word. lia.
  - destruct chk; [left; repeat split; lia|right; auto].
Qed.
Lemma to_word_word x : word (to_word x).
Proof. apply Z.mod_pos_bound. lia. Qed.

(** outcome of an operation: success with state [m'], or panic with reason [P] *)
Definition outcome (s : T.vm) (o : option T.vm) (m' : mach) (P : Prop) : Prop :=
  (exists s', o = Some s' /\ good s m' s' /\ ~ P) \/ (o = None /\ P).

Lemma set_rd_out chk s m rd v (P : Prop) :
  vm_ok s -> shows s m -> reg rd -> word v ->
  (P <-> chk = true /\ 2 ^ 32 <= m_pc m + 4) ->
  outcome s (fin (T.set_rd chk s rd v))
    {| m_pc := to_word (m_pc m + 4); m_rf := put (m_rf m) rd v; m_mem := m_mem m |} P.
Proof.
  intros Hok Hsh Hrd Hv HP. pose proof Hok as (L & F & Z0 & PW & MO). pose proof Hsh as (S1 & S2 & S3).
  unfold T.set_rd. unfold reg in Hrd.
  destruct (set_nth_some _ (T.registers s) (Z.to_nat rd) v ltac:(lia)) as [r E]. rewrite E.
  rewrite <- S1. destruct (pc4_cases chk (T.pc s) PW) as [(-> & H)|(-> & H)].
  - right. split; [reflexivity|]. apply HP. rewrite <- S1. exact H.
  - left. destruct (fin_regs s m rd v r (T.ram s) (to_word (T.pc s + 4)) Hok Hsh Hrd Hv (to_word_word _) E MO
      (same_region_refl _) _ S3) as (s' & G & Gd).
    exists s'. split; [exact G|]. split; [exact Gd|]. rewrite HP, <- S1. intros [? ?]. destruct H; [congruence|lia].
Qed.
Lemma link_out chk s m rd t (P : Prop) :
  vm_ok s -> shows s m -> reg rd -> word t ->
  (P <-> t mod 4 <> 0) ->
  outcome s (fin (T.link chk s rd t))
    {| m_pc := t; m_rf := put (m_rf m) rd (to_word (m_pc m + 4)); m_mem := m_mem m |} P.
Proof.
  intros Hok Hsh Hrd Hv HP. pose proof Hok as (L & F & Z0 & PW & MO). pose proof Hsh as (S1 & S2 & S3).
  unfold T.link. unfold reg in Hrd. destruct (Z.eqb_spec (t mod 4) 0) as [H|H].
  - destruct (set_nth_some _ (T.registers s) (Z.to_nat rd) (wadd (T.pc s) 4) ltac:(lia)) as [r E]. rewrite E.
    left. rewrite <- S1. change (to_word (T.pc s + 4)) with (wadd (T.pc s) 4).
    destruct (fin_regs s m rd (wadd (T.pc s) 4) r (T.ram s) t Hok Hsh Hrd (to_word_word _) Hv E MO
      (same_region_refl _) _ S3) as (s' & G & Gd).
    exists s'. split; [exact G|]. split; [exact Gd|]. tauto.
  - right. split; [reflexivity|]. tauto.
Qed.
Lemma branch_out chk s m b off (P : Prop) :
  vm_ok s -> shows s m ->
  (P <-> (b = true /\ to_word (m_pc m + off) mod 4 <> 0) \/ (chk = true /\ b = false /\ 2 ^ 32 <= m_pc m + 4)) ->
  outcome s (fin (T.branch chk s b (to_word off)))
    {| m_pc := if b then to_word (m_pc m + off) else to_word (m_pc m + 4);
       m_rf := get (m_rf m); m_mem := m_mem m |} P.
Proof.
  intros Hok Hsh HP. pose proof Hok as (L & F & Z0 & PW & MO). pose proof Hsh as (S1 & S2 & S3).
  unfold T.branch.
  assert (HT : wadd (to_word off) (T.pc s) = to_word (m_pc m + off)).
  { rewrite <- S1. unfold wadd, u32, to_word. change 4294967296 with (2 ^ 32).
    rewrite Z.add_mod_idemp_l by lia. f_equal. lia. }
  rewrite HT. destruct b.
  - destruct (Z.eqb_spec (to_word (m_pc m + off) mod 4) 0) as [H|H].
    + left. destruct (fin_keep s m (T.ram s) (to_word (m_pc m + off)) Hok Hsh (to_word_word _) MO
        (same_region_refl _) _ S3) as (s' & G & Gd).
      exists s'. split; [exact G|]. split; [exact Gd|]. rewrite HP. intros [[? ?]|(? & ? & ?)]; congruence.
    + right. split; [reflexivity|]. rewrite HP. auto.
  - rewrite <- S1. destruct (pc4_cases chk (T.pc s) PW) as [(-> & H)|(-> & H)].
    + right. split; [reflexivity|]. rewrite HP, <- S1. right. tauto.
    + left. destruct (fin_keep s m (T.ram s) (to_word (T.pc s + 4)) Hok Hsh (to_word_word _) MO
        (same_region_refl _) _ S3) as (s' & G & Gd).
      exists s'. split; [exact G|]. split; [exact Gd|]. rewrite HP, <- S1.
      intros [[? ?]|(? & ? & ?)]; [congruence|]. destruct H; [congruence|lia].
Qed.
Lemma stored_out chk s m mem mm (P : Prop) :
  vm_ok s -> shows s m -> mem_ok mem -> same_region (T.ram s) mem -> shows_mem mem mm ->
  (P <-> chk = true /\ 2 ^ 32 <= m_pc m + 4) ->
  outcome s (fin (T.stored chk s (Some mem)))
    {| m_pc := to_word (m_pc m + 4); m_rf := get (m_rf m); m_mem := mm |} P.
Proof.
  intros Hok Hsh Hmem Hsame Hmm HP. pose proof Hok as (L & F & Z0 & PW & MO). pose proof Hsh as (S1 & S2 & S3).
  unfold T.stored. rewrite <- S1. destruct (pc4_cases chk (T.pc s) PW) as [(-> & H)|(-> & H)].
  - right. split; [reflexivity|]. apply HP. rewrite <- S1. exact H.
  - left. destruct (fin_keep s m mem (to_word (T.pc s + 4)) Hok Hsh (to_word_word _) Hmem Hsame mm Hmm) as (s' & G & Gd).
    exists s'. split; [exact G|]. split; [exact Gd|]. rewrite HP, <- S1. intros [? ?]. destruct H; [congruence|lia].
Qed.
