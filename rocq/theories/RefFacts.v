(** * The reference VM is the exact machine (proofs) *)
Require Import ZArith Lia Bool List Arith.
Require Import ZifyBool.
From Verif Require Import Word Isa Bits DecodeSpec DecodeFacts EvalSpec EvalFacts ListFacts TestSpec TestRunSpec TestDecode TestRunFacts TestStep RefSpec.
From Verif Require TestVM.
Import ListNotations.
Open Scope Z_scope.
Ltac Zify.zify_post_hook ::= idtac.

(** ** Decoding *)
Lemma bit_cases k w : fld k k w = 0 \/ fld k k w = 1.
Proof.
  unfold fld. replace (k - k + 1) with 1 by lia. change (2 ^ 1) with 2.
  pose proof (Z.mod_pos_bound (w / 2 ^ k) 2 ltac:(lia)). lia.
Qed.
Ltac ifs := repeat (match goal with |- context [if ?a =? ?b then _ else _] => destruct (Z.eqb_spec a b); try lia end).
Lemma ref_decode w : word w -> T.decode_inst w = option_map t_of (ref_of w).
Proof.
  intro W. unfold ref_of. cbv zeta. pose proof (f3_range w) as R3.
  assert (D : T.decode_inst w = option_map t_of (isa_of w) \/ fld 6 0 w = 19 \/ fld 6 0 w = 51).
  { destruct (isa_of w) as [i|] eqn:E; [left; apply decode_isa; auto|].
    destruct (T.decode_inst w) as [t|] eqn:F; [|auto].
    destruct (proj1 (t_accepts w W)) as [(i & L & <-)|L]; [congruence| |].
    - rewrite isa_of_complete in E by exact L. discriminate.
    - unfold t_lenient in L. right. intuition. }
  destruct (Z.eqb_spec (fld 6 0 w) 19) as [H|H].
  { destruct (Z.eqb_spec (fld 14 12 w) 1) as [H1|H1].
    { t_fields. rewrite H, H1. reflexivity. }
    destruct (Z.eqb_spec (fld 14 12 w) 5) as [H5|H5].
    { t_fields. rewrite H, H5. cbn [Z.eqb Pos.eqb]. destruct (bit_cases 30 w) as [->| ->]; reflexivity. }
    destruct (isa_of w) as [i|] eqn:E; [apply decode_isa; auto|]. exfalso.
    unfold isa_of in E. rewrite H in E. cbv zeta in E. cbn [Z.eqb Pos.eqb] in E.
    repeat match type of E with context [if ?a =? ?b then _ else _] => destruct (Z.eqb_spec a b); try discriminate; try lia end. }
  destruct (Z.eqb_spec (fld 6 0 w) 51) as [H'|H'].
  { t_fields. rewrite H'. cbn [Z.eqb Pos.eqb].
    destruct (bit_cases 25 w) as [->| ->]; destruct (bit_cases 30 w) as [->| ->]; cbn [Z.eqb Pos.eqb]; ifs; reflexivity. }
  destruct D as [D|[D|D]]; tauto.
Qed.
Lemma rng_reg hi lo w : hi - lo = 4 -> reg (fld hi lo w).
Proof. intros H. unfold reg, fld. rewrite H. apply Z.mod_pos_bound. lia. Qed.
Lemma ref_legal w i : word w -> ref_of w = Some i -> legal i.
Proof.
  intros W. unfold ref_of. cbv zeta. intro H.
  assert (L : isa_of w = Some i -> legal i) by (intro; now apply (isa_of_sound w i W)).
  destruct (fld 6 0 w =? 19).
  { destruct (fld 14 12 w =? 1); [|destruct (fld 14 12 w =? 5); [|auto]]; injection H as <-; cbn [legal];
    repeat split; try apply (rng_reg 11 7); try apply (rng_reg 19 15); try apply (rng_reg 24 20); reflexivity. }
  destruct (fld 6 0 w =? 51); [|auto].
  destruct (fld 25 25 w =? 1); injection H as <-; cbn [legal];
    repeat split; try apply (rng_reg 11 7); try apply (rng_reg 19 15); try apply (rng_reg 24 20); reflexivity.
Qed.

(** ** Memory *)
Lemma home_in m a : mem_ok m -> in_region m (home (T.offset m) (T.size m) a) 1.
Proof.
  intros (H0 & H1 & H2 & _). unfold in_region, home.
  match goal with |- context [?x mod T.size m] => pose proof (Z.mod_pos_bound x (T.size m) H1) end. lia.
Qed.
Definition h (m : T.memory) (a : Z) : Z := home (T.offset m) (T.size m) a.
Definition low_ok (chk : bool) (m : T.memory) (a : Z) : Prop := chk = false \/ T.offset m <= a.

Lemma index_pos m i : mem_ok m -> T.index m i = Some (Z.to_nat (i mod T.size m)).
Proof. intros (_ & H & _). unfold T.index. destruct (Z.eqb_spec (T.size m) 0); [lia|reflexivity]. Qed.
Lemma usub_low chk m a : ~ low_ok chk m a -> T.usub chk a (T.offset m) = None.
Proof.
  unfold low_ok, T.usub. intro H. destruct (Z.leb_spec (T.offset m) a); [tauto|]. destruct chk; [reflexivity|tauto].
Qed.
Lemma usub_ok chk m a : mem_ok m -> 0 <= a < 2 ^ 33 -> low_ok chk m a ->
  T.usub chk a (T.offset m) = Some (if T.offset m <=? a then a - T.offset m else a - T.offset m + 2 ^ 64).
Proof.
  intros (H0 & H1 & H2 & _) A L. unfold T.usub. destruct (Z.leb_spec (T.offset m) a); [reflexivity|].
  destruct chk; [destruct L; [discriminate|lia]|]. f_equal. unfold u64. change 18446744073709551616 with (2 ^ 64).
  rewrite <- (Z.mod_add _ 1) by lia. rewrite Z.mod_small by lia. lia.
Qed.
Lemma home_idx m a : h m a - T.offset m = (if T.offset m <=? a then a - T.offset m else a - T.offset m + 2 ^ 64) mod T.size m.
Proof. unfold h, home. lia. Qed.
(** the index a read of byte [j] uses *)
Lemma read_idx chk m a j : mem_ok m -> word a -> 0 <= j <= 3 -> low_ok chk m a ->
  (do x <- T.usub chk a (T.offset m); T.index m (u64 (x + j))) = Some (Z.to_nat (h m (a + j) - T.offset m)).
Proof.
  intros M A J L. rewrite usub_ok by (auto; unfold word in A; lia). rewrite index_pos by exact M. rewrite home_idx.
  f_equal. f_equal. f_equal. destruct M as (H0 & H1 & H2 & _). unfold word in A. unfold u64. change 18446744073709551616 with (2 ^ 64).
  destruct (Z.leb_spec (T.offset m) a); destruct (Z.leb_spec (T.offset m) (a + j)); try lia.
  all: first [rewrite Z.mod_small by lia; lia
    |replace (a - T.offset m + 2 ^ 64 + j) with (a + j - T.offset m + 1 * 2 ^ 64) by lia; rewrite Z.mod_add by lia; apply Z.mod_small; lia].
Qed.
Lemma write_idx chk m a : mem_ok m -> 0 <= a < 2 ^ 33 -> low_ok chk m a ->
  (do x <- T.usub chk a (T.offset m); T.index m x) = Some (Z.to_nat (h m a - T.offset m)).
Proof. intros M A L. rewrite usub_ok by auto. rewrite index_pos by exact M. rewrite home_idx. reflexivity. Qed.

Lemma at_home m mm a : mem_ok m -> shows_mem m mm ->
  nth_error (T.data m) (Z.to_nat (h m a - T.offset m)) = Some (mm (h m a)) /\ is_byte (mm (h m a)).
Proof.
  intros M S. pose proof (S _ (home_in m a M)) as E. fold (h m a) in E. split; [exact E|].
  destruct M as (_ & _ & _ & _ & F). exact (nth_error_Forall _ _ _ _ _ F E).
Qed.
Definition al (m : T.memory) (mm : Z -> Z) : Z -> Z := alias (T.offset m) (T.size m) mm.
Lemma al_ld8 m mm a : word a -> ld8 (al m mm) a = mm (h m a).
Proof. intro W. unfold ld8. rewrite to_word_small by exact W. reflexivity. Qed.

Lemma read_byte_al chk m mm a : mem_ok m -> shows_mem m mm -> word a -> low_ok chk m a ->
  T.read_byte chk m a = Some (ld8 (al m mm) a).
Proof.
  intros M S W L. unfold T.read_byte. pose proof (write_idx chk m a M ltac:(unfold word in W; lia) L) as I.
  destruct (T.usub chk a (T.offset m)); [|discriminate]. rewrite I, al_ld8 by exact W. apply at_home; auto.
Qed.
Lemma read_nth_al chk m mm a j o : mem_ok m -> shows_mem m mm -> word a -> word (a + j) -> 0 <= j <= 3 -> low_ok chk m a ->
  T.read_nth chk m a (Some o) j = Some (o + Z.shiftl (ld8 (al m mm) (a + j)) (j * 8)).
Proof.
  intros M S W W' J L. unfold T.read_nth. pose proof (read_idx chk m a j M W J L) as I.
  destruct (T.usub chk a (T.offset m)) as [x|]; [|discriminate]. rewrite I.
  destruct (at_home m mm (a + j) M S) as (E & _). rewrite E, al_ld8 by exact W'. reflexivity.
Qed.
Lemma al_byte m mm a : mem_ok m -> shows_mem m mm -> word a -> is_byte (ld8 (al m mm) a).
Proof. intros M S W. rewrite al_ld8 by exact W. apply at_home; auto. Qed.
Lemma read_half_al chk m mm a : mem_ok m -> shows_mem m mm -> word a -> low_ok chk m a -> a mod 2 = 0 ->
  T.read_half chk m a = Some (ld16 (al m mm) a) /\ 0 <= ld16 (al m mm) a < 2 ^ 16.
Proof.
  intros M S W L E. assert (W1 : word (a + 1)) by (unfold word in *; Z.div_mod_to_equations; lia).
  split.
  - unfold T.read_half. rewrite E. cbn [Z.eqb fold_left].
    rewrite !(read_nth_al chk m mm) by (auto; rewrite ?Z.add_0_r; auto; lia). f_equal. unfold ld16.
    rewrite !Z.shiftl_mul_pow2 by lia. rewrite Z.add_0_r. lia.
  - apply ld16_range; apply al_byte; auto.
Qed.
Lemma read_word_al chk m mm a : mem_ok m -> shows_mem m mm -> word a -> low_ok chk m a -> a mod 4 = 0 ->
  T.read_word chk m a = Some (ld32 (al m mm) a) /\ word (ld32 (al m mm) a).
Proof.
  intros M S W L E. assert (WJ : forall j, 0 <= j <= 3 -> word (a + j)) by (intros; unfold word in *; Z.div_mod_to_equations; lia).
  split.
  - unfold T.read_word. rewrite E. cbn [Z.eqb fold_left].
    rewrite !(read_nth_al chk m mm) by (auto; try apply WJ; lia). f_equal. unfold ld32, ld16.
    rewrite !Z.shiftl_mul_pow2 by lia. rewrite Z.add_0_r. replace (a + 2 + 1) with (a + 3) by lia. lia.
  - apply ld32_range; apply al_byte; auto; apply WJ; lia.
Qed.
Lemma read_low chk m a : ~ low_ok chk m a ->
  T.read_byte chk m a = None /\ T.read_half chk m a = None /\ T.read_word chk m a = None.
Proof.
  intro L. pose proof (usub_low chk m a L) as U. split; [|split].
  - unfold T.read_byte. now rewrite U.
  - unfold T.read_half. destruct (a mod 2 =? 0); [|reflexivity]. cbn [fold_left]. unfold T.read_nth at 2. now rewrite U.
  - unfold T.read_word. destruct (a mod 4 =? 0); [|reflexivity]. cbn [fold_left]. unfold T.read_nth at 4. now rewrite U.
Qed.

Lemma home_same m m' a : same_region m m' -> h m' a = h m a.
Proof. unfold same_region, h. intros [-> ->]. reflexivity. Qed.
Lemma low_same chk m m' a : same_region m m' -> low_ok chk m a -> low_ok chk m' a.
Proof. unfold same_region, low_ok. intros [-> _]. auto. Qed.
Lemma write_nth_al chk m mm a j v b : mem_ok m -> shows_mem m mm -> word a -> 0 <= j <= 3 -> low_ok chk m a ->
  (v / 2 ^ (8 * j)) mod 2 ^ 8 = b mod 2 ^ 8 ->
  exists m', T.write_nth chk v a (Some m) j = Some m' /\ mem_ok m' /\ same_region m m' /\ shows_mem m' (st8 mm (h m (a + j)) b).
Proof.
  intros M S W J L V. unfold T.write_nth.
  assert (L' : low_ok chk m (a + j)) by (unfold low_ok in *; destruct L; [left; auto|right; lia]).
  pose proof (write_idx chk m (a + j) M ltac:(unfold word in W; lia) L') as I.
  destruct (T.usub chk (a + j) (T.offset m)); [|discriminate]. rewrite I.
  apply set_byte_ok; auto; [apply home_in; exact M|].
  rewrite land_ff, Z.shiftr_div_pow2 by lia. rewrite Z.mul_comm. exact V.
Qed.
Lemma write_byte_al chk m mm a b : mem_ok m -> shows_mem m mm -> word a -> low_ok chk m a ->
  exists m', T.write_byte chk m a (b mod 2 ^ 8) = Some m' /\ mem_ok m' /\ same_region m m' /\ shows_mem m' (st8 mm (h m a) b).
Proof.
  intros M S W L. unfold T.write_byte. pose proof (write_idx chk m a M ltac:(unfold word in W; lia) L) as I.
  destruct (T.usub chk a (T.offset m)); [|discriminate]. rewrite I. apply set_byte_ok; auto. apply home_in; exact M.
Qed.
Ltac sr := unfold same_region in *; intuition congruence.
Lemma write_half_al chk m mm a b : mem_ok m -> shows_mem m mm -> word a -> low_ok chk m a ->
  exists m', T.write_half chk m a (b mod 2 ^ 16) = Some m' /\ mem_ok m' /\ same_region m m' /\
    shows_mem m' (alias_store (T.offset m) (T.size m) SH mm a b).
Proof.
  intros M S W L. unfold T.write_half. cbn [fold_left].
  destruct (write_nth_al chk m mm a 0 (b mod 2 ^ 16) b M S W ltac:(lia) L) as (m1 & E1 & M1 & R1 & S1).
  { rewrite mod_div_byte by lia. rewrite Z.mul_0_r, Z.pow_0_r, Z.div_1_r. reflexivity. }
  rewrite E1. rewrite Z.add_0_r in S1.
  destruct (write_nth_al chk m1 _ a 1 (b mod 2 ^ 16) (b / 2 ^ 8) M1 S1 W ltac:(lia) (low_same _ _ _ _ R1 L)) as (m2 & E2 & M2 & R2 & S2).
  { rewrite mod_div_byte by lia. reflexivity. }
  rewrite (home_same _ _ _ R1) in S2. exists m2. split; [exact E2|]. split; [exact M2|]. split; [sr|exact S2].
Qed.
Lemma write_word_al chk m mm a b : mem_ok m -> shows_mem m mm -> word a -> low_ok chk m a ->
  exists m', T.write_word chk m a b = Some m' /\ mem_ok m' /\ same_region m m' /\
    shows_mem m' (alias_store (T.offset m) (T.size m) SW mm a b).
Proof.
  intros M S W L. unfold T.write_word. cbn [fold_left].
  destruct (write_nth_al chk m mm a 0 b b M S W ltac:(lia) L) as (m1 & E1 & M1 & R1 & S1).
  { rewrite Z.mul_0_r, Z.pow_0_r, Z.div_1_r. reflexivity. }
  rewrite E1. rewrite Z.add_0_r in S1. pose proof (low_same _ _ _ _ R1 L) as L1.
  destruct (write_nth_al chk m1 _ a 1 b (b / 2 ^ 8) M1 S1 W ltac:(lia) L1 eq_refl) as (m2 & E2 & M2 & R2 & S2).
  rewrite E2. pose proof (low_same _ _ _ _ R2 L1) as L2.
  destruct (write_nth_al chk m2 _ a 2 b (b / 2 ^ 16) M2 S2 W ltac:(lia) L2 eq_refl) as (m3 & E3 & M3 & R3 & S3).
  rewrite E3. pose proof (low_same _ _ _ _ R3 L2) as L3.
  destruct (write_nth_al chk m3 _ a 3 b (b / 2 ^ 24) M3 S3 W ltac:(lia) L3 eq_refl) as (m4 & E4 & M4 & R4 & S4).
  exists m4. split; [exact E4|]. split; [exact M4|]. split; [sr|].
  rewrite (home_same _ _ _ R3), (home_same _ _ _ R2), (home_same _ _ _ R1) in S4.
  rewrite (home_same _ _ _ R2), (home_same _ _ _ R1) in S4. rewrite (home_same _ _ _ R1) in S4. exact S4.
Qed.
Lemma write_low chk m a v : ~ low_ok chk m a ->
  T.write_byte chk m a v = None /\ T.write_half chk m a v = None /\ T.write_word chk m a v = None.
Proof.
  intro L. assert (U : T.usub chk (a + 0) (T.offset m) = None) by (rewrite Z.add_0_r; apply usub_low; exact L). split; [|split].
  - unfold T.write_byte. rewrite Z.add_0_r in U. now rewrite U.
  - unfold T.write_half. cbn [fold_left]. unfold T.write_nth at 2. now rewrite U.
  - unfold T.write_word. cbn [fold_left]. unfold T.write_nth at 4. now rewrite U.
Qed.

(** ** One instruction *)
Definition agree (s : T.vm) (o : option T.vm) (q : option mach) : Prop :=
  match o, q with
  | Some s', Some m' => good s m' s'
  | None, None => True
  | _, _ => False
  end.
Lemma outcome_agree s o m' P (b : bool) : outcome s o m' P -> (b = true <-> P) -> agree s o (if b then None else Some m').
Proof.
  intros [(s' & -> & G & N)|(-> & HP)] B; destruct b; cbn; auto; try tauto. exfalso. destruct B as [_ B]. discriminate (B HP).
Qed.
Definition isa_like (i : instr) : Prop := match i with LOAD _ _ _ _ | STORE _ _ _ _ => False | _ => True end.
Lemma traps_isa chk off i m : isa_like i ->
  (traps chk off i m = true <-> refused i m \/ pc_overflow chk i m \/ div_trap i m).
Proof.
  intro I. unfold traps, refused, pc_overflow, sequential, div_trap.
  destruct i; cbn in I; try tauto; cbn [isa_step m_pc]; try destruct (taken _ _ _); try destruct o; cbn [isa_step m_pc];
    destruct chk; cbn [andb]; rewrite ?orb_true_iff, ?andb_true_iff, ?negb_true_iff, ?Z.leb_le, ?Z.eqb_eq, ?Z.eqb_neq, ?orb_false_r; intuition (try congruence; try discriminate; try lia).
Qed.
Lemma exec_agree chk s m i : vm_ok s -> shows s m -> legal i ->
  agree s (fin (T.exec chk s (t_of i)))
    (if traps chk (T.offset (T.ram s)) i m then None else Some (effect (T.offset (T.ram s)) (T.size (T.ram s)) i m)).
Proof.
  intros Hok Hsh Hl.
  assert (C : isa_like i \/ ~ isa_like i) by (destruct i; cbn; tauto).
  destruct C as [C|C].
  { replace (effect (T.offset (T.ram s)) (T.size (T.ram s)) i m) with (isa_step i m) by (destruct i; cbn in C; tauto || reflexivity).
    eapply outcome_agree; [apply (exec_step chk s m i); auto; destruct i; cbn in *; tauto|]. apply traps_isa; exact C. }
  assert (RG : forall r, reg r -> T.register s r = Some (get (m_rf m) r)) by (intros; apply reg_get; auto).
  pose proof Hok as (_ & _ & _ & HPW & Hmem). pose proof Hsh as (HPC & _ & Hsm).
  assert (EA : forall r o, wadd (get (m_rf m) r) (to_word o) = eff m r o) by (intros; apply wadd_tw).
  assert (WE : forall r o, word (eff m r o)) by (intros; apply to_word_word).
  set (over := chk && (2 ^ 32 <=? m_pc m + 4)).
  assert (OV : over = true <-> chk = true /\ 2 ^ 32 <= m_pc m + 4) by (unfold over; destruct chk; cbn [andb]; rewrite ?Z.leb_le; intuition congruence).
  assert (SR : forall rd v, reg rd -> word v -> agree s (fin (T.set_rd chk s rd v))
     (if over then None else Some {| m_pc := to_word (m_pc m + 4); m_rf := put (m_rf m) rd v; m_mem := m_mem m |})).
  { intros rd v Hr Hv. eapply outcome_agree; [apply set_rd_out; auto; apply iff_refl|exact OV]. }
  assert (SM : forall om mm, (exists m', om = Some m' /\ mem_ok m' /\ same_region (T.ram s) m' /\ shows_mem m' mm) ->
     agree s (fin (T.stored chk s om)) (if over then None else Some {| m_pc := to_word (m_pc m + 4); m_rf := get (m_rf m); m_mem := mm |})).
  { intros om mm (m' & -> & A & B & D). apply (outcome_agree s _ _ (chk = true /\ 2 ^ 32 <= m_pc m + 4)); [apply stored_out; auto; apply iff_refl|exact OV]. }
  assert (NM : agree s (fin (T.stored chk s None)) None) by exact I.
  destruct i; cbn in C; try tauto; cbn [legal] in Hl; destruct Hl as (L1 & L2 & L3).
  - (* loads *)
    set (a := eff m rs1 off) in *. specialize (WE rs1 off). fold a in WE.
    assert (LO : low_ok chk (T.ram s) a /\ chk && (a <? T.offset (T.ram s)) = false \/
                 ~ low_ok chk (T.ram s) a /\ chk && (a <? T.offset (T.ram s)) = true).
    { unfold low_ok. destruct chk; cbn [andb]; [|left; auto].
      destruct (Z.ltb_spec a (T.offset (T.ram s))); [right; split; auto; intros [|]; [discriminate|lia]|left; auto]. }
    unfold traps. cbn [effect]. fold a. cbv zeta. fold over.
    destruct LO as [(LO & ->)|(LO & ->)]; cbn [orb].
    + destruct k; cbn [t_of T.exec do_load orb]; rewrite RG, EA by auto; fold a; fold (al (T.ram s) (m_mem m)).
      * rewrite (read_byte_al chk _ _ a Hmem Hsm WE LO). pose proof (al_byte _ _ a Hmem Hsm WE) as R. unfold is_byte in R.
        rewrite sign_extend_spec by lia. apply SR; auto. apply to_word_word.
      * rewrite half_ok_spec. destruct (Z.eqb_spec (a mod 2) 0) as [H|H]; cbn [negb].
        -- replace (negb (a mod 4 =? 3)) with true by (Z.div_mod_to_equations; lia).
           destruct (read_half_al chk _ _ a Hmem Hsm WE LO H) as (-> & R). rewrite sign_extend_spec by lia.
           apply SR; auto. apply to_word_word.
        -- unfold T.read_half. destruct (Z.eqb_spec (a mod 2) 0); [lia|]. destruct (negb _); exact I.
      * destruct (Z.eqb_spec (a mod 4) 0) as [H|H]; cbn [negb]; [|exact I].
        destruct (read_word_al chk _ _ a Hmem Hsm WE LO H) as (-> & R). apply SR; auto.
      * rewrite (read_byte_al chk _ _ a Hmem Hsm WE LO). pose proof (al_byte _ _ a Hmem Hsm WE) as R. unfold is_byte in R.
        apply SR; auto. unfold word. lia.
      * rewrite half_ok_spec. destruct (Z.eqb_spec (a mod 2) 0) as [H|H]; cbn [negb].
        -- replace (negb (a mod 4 =? 3)) with true by (Z.div_mod_to_equations; lia).
           destruct (read_half_al chk _ _ a Hmem Hsm WE LO H) as (-> & R).
           apply SR; auto. unfold word. lia.
        -- unfold T.read_half. destruct (Z.eqb_spec (a mod 2) 0); [lia|]. destruct (negb _); exact I.
    + destruct (read_low chk (T.ram s) a LO) as (N1 & N2 & N3).
      destruct k; cbn [t_of T.exec]; rewrite RG, EA by auto; fold a; rewrite ?N1, ?N2, ?N3;
        try destruct (T.half_ok a); try destruct (a mod 4 =? 0); exact I.
  - (* stores *)
    set (a := eff m rs1 off) in *. specialize (WE rs1 off). fold a in WE.
    assert (LO : low_ok chk (T.ram s) a /\ chk && (a <? T.offset (T.ram s)) = false \/
                 ~ low_ok chk (T.ram s) a /\ chk && (a <? T.offset (T.ram s)) = true).
    { unfold low_ok. destruct chk; cbn [andb]; [|left; auto].
      destruct (Z.ltb_spec a (T.offset (T.ram s))); [right; split; auto; intros [|]; [discriminate|lia]|left; auto]. }
    unfold traps. cbn [effect]. fold a. cbv zeta. fold over.
    destruct LO as [(LO & ->)|(LO & ->)]; cbn [orb].
    + destruct k; cbn [t_of T.exec orb]; rewrite !RG, EA by auto; fold a.
      * rewrite ext8. apply SM. apply write_byte_al; auto.
      * rewrite half_ok_spec, ext16. destruct (Z.eqb_spec (a mod 4) 3) as [H|H]; cbn [negb orb]; [exact I|]. apply SM. apply write_half_al; auto.
      * destruct (Z.eqb_spec (a mod 4) 0) as [H|H]; cbn [negb orb]; [|exact I]. apply SM. apply write_word_al; auto.
    + destruct k; cbn [t_of T.exec]; rewrite !RG, EA by auto; fold a;
        match goal with |- context [T.stored _ _ (_ _ _ a ?v)] => destruct (write_low chk (T.ram s) a v LO) as (N1 & N2 & N3) end;
        rewrite ?N1, ?N2, ?N3; try destruct (T.half_ok a); try destruct (a mod 4 =? 0); exact I.
Qed.

Definition reg_of (m : T.memory) : region := (T.offset m, T.size m).
Lemma run_agree chk s m rom : vm_ok s -> shows s m -> mem_ok (T.rom s) -> shows_mem (T.rom s) rom ->
  agree s (T.run chk s) (ref_step chk (reg_of (T.rom s)) (reg_of (T.ram s)) rom m).
Proof.
  intros Hok Hsh Hr Hs. pose proof Hok as (_ & _ & _ & HPW & _). pose proof Hsh as (HPC & _ & _).
  unfold T.run, ref_step. cbn [fst snd reg_of]. rewrite <- HPC.
  destruct (Z.eqb_spec (T.pc s mod 4) 0) as [A|A].
  2:{ unfold T.read_word. destruct (Z.eqb_spec (T.pc s mod 4) 0); [lia|]. cbn [negb]. rewrite orb_true_r. exact I. }
  cbn [negb]. rewrite orb_false_r.
  assert (LO : low_ok chk (T.rom s) (T.pc s) /\ chk && (T.pc s <? T.offset (T.rom s)) = false \/
               ~ low_ok chk (T.rom s) (T.pc s) /\ chk && (T.pc s <? T.offset (T.rom s)) = true).
  { unfold low_ok. destruct chk; cbn [andb]; [|left; auto].
    destruct (Z.ltb_spec (T.pc s) (T.offset (T.rom s))); [right; split; auto; intros [|]; [discriminate|lia]|left; auto]. }
  destruct LO as [(LO & ->)|(LO & ->)].
  2:{ destruct (read_low chk (T.rom s) (T.pc s) LO) as (_ & _ & ->). exact I. }
  destruct (read_word_al chk (T.rom s) rom (T.pc s) Hr Hs HPW LO A) as (-> & W). fold (al (T.rom s) rom).
  rewrite (ref_decode _ W). destruct (ref_of (ld32 (al (T.rom s) rom) (T.pc s))) as [i|] eqn:E; [|exact I].
  cbn [option_map]. exact (exec_agree chk s m i Hok Hsh (ref_legal _ _ W E)).
Qed.

Lemma runs_agree chk ro rom n : forall s m, vm_ok s -> shows s m -> T.rom s = ro -> mem_ok ro -> shows_mem ro rom ->
  agree s (T.run_n chk n s) (ref_run chk (reg_of ro) (reg_of (T.ram s)) rom n m).
Proof.
  induction n as [|n IH]; intros s m Hok Hsh Er Hr Hs; subst ro.
  - cbn. split; [exact Hok|]. split; [exact Hsh|]. repeat split.
  - cbn [T.run_n ref_run]. pose proof (run_agree chk s m rom Hok Hsh Hr Hs) as A.
    destruct (T.run chk s) as [s1|], (ref_step chk (reg_of (T.rom s)) (reg_of (T.ram s)) rom m) as [m1|]; cbn in A; try tauto.
    destruct A as (A1 & A2 & B1 & B2 & B3). specialize (IH s1 m1 A1 A2 B1 Hr Hs).
    assert (ER : reg_of (T.ram s1) = reg_of (T.ram s)) by (unfold reg_of; destruct B2 as [-> ->]; reflexivity).
    rewrite ER in IH.
    destruct (T.run_n chk n s1) as [s2|], (ref_run chk (reg_of (T.rom s)) (reg_of (T.ram s)) rom n m1) as [m2|]; cbn in IH |- *; try tauto.
    destruct IH as (I1 & I2 & J1 & J2 & J3). split; [exact I1|]. split; [exact I2|].
    unfold static, same_region in *. intuition congruence.
Qed.
