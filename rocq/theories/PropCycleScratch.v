(** * C91, C92: the scratch space of a cycle *)
Require Import ZArith List Bool Lia.
From Verif Require Import Word Codec EvalPlain Scratch PropScratch CycleScratch CycleScratchSpec.
Import ListNotations.
Open Scope Z_scope.

Lemma need_iff : forall a n, need a n = Some tt <-> n <= a.
Proof. intros a n. unfold need. destruct (Z.leb_spec n a); split; intros; try congruence; lia. Qed.
Lemma bind_iff : forall (x y : option unit), (do _ <- x ; y) = Some tt <-> x = Some tt /\ y = Some tt.
Proof. intros [[]|] y; cbn; split; intros; try tauto; try discriminate; destruct H; discriminate. Qed.
Lemma take_iff : forall a n (f : Z -> option unit), (do b <- take a n ; f b) = Some tt <-> n <= a /\ f (a - n) = Some tt.
Proof. intros a n f. unfold take. destruct (Z.leb_spec n a); cbn; split; intros; try tauto; try discriminate. lia. Qed.
Lemma turn_iff : forall l, in_turn l = Some tt <-> Forall (fun o => o = Some tt) l.
Proof.
  induction l as [|o l IH]; cbn [in_turn]. { split; constructor. }
  rewrite bind_iff, IH, Forall_cons_iff. tauto.
Qed.
Lemma again_iff : forall o n, in_turn (repeat o (S n)) = Some tt <-> o = Some tt.
Proof.
  intros o n. rewrite turn_iff. split.
  - intros F. cbn in F. apply Forall_cons_iff in F. tauto.
  - intros E. apply Forall_forall. intros x I. apply repeat_spec in I. congruence.
Qed.

Lemma prepare_iff : forall y t a, sane y -> 1 <= t ->
  prepare_multiple_space y t a = Some tt <->
  t * y_bits y <= a /\ y_ggsw y + y_lwe y + Z.max (Z.max (y_bit_lwe y) (y_cbt y)) (y_fill y) <= y_bits y.
Proof.
  intros y t a (_ & _ & _ & S) T. unfold prepare_multiple_space. cbv zeta.
  rewrite bind_iff, need_iff. unfold chunked. destruct (Z.eqb_spec t 0); [lia|].
  rewrite take_iff; cbv beta. rewrite take_iff; cbv beta. rewrite !bind_iff, !need_iff.
  lia.
Qed.
Lemma circuit_iff : forall y k a, circuit_space y k a = Some tt <-> 32 * y_word y <= a /\ 32 * y_word y + Z.max k (y_pack y) <= a.
Proof. intros y k a. unfold circuit_space. rewrite take_iff; cbv beta. rewrite bind_iff, !need_iff. lia. Qed.
Lemma checks_iff : forall y b a, checks_space y b a = Some tt <-> (b = true -> y_decrypt_bits y <= a) /\ y_decrypt y <= a /\ y_noise y <= a.
Proof.
  intros y [|] a; unfold checks_space; rewrite !bind_iff, !need_iff; [tauto|].
  split; [intros H; split; [discriminate|tauto]|tauto].
Qed.
Lemma rd_iff : forall y t a, in_turn (map (fun o => rd_space y o t a) RD_RV32I) = Some tt <->
  Forall (fun n => n <= a) (map (fun o => y_alu y o t) circuits) /\ y_zero_byte y <= a /\ y_sext y <= a.
Proof.
  intros y t a. rewrite turn_iff. unfold RD_RV32I, circuits. cbn [map rd_space].
  rewrite !Forall_cons_iff, !bind_iff, !need_iff.
  split; intros H; decompose [and] H; repeat apply conj; auto using Forall_nil.
Qed.
Lemma ram_iff : forall y a, in_turn (map (fun o => ram_space y o a) [MNONE; MSB; MSH; MSW]) = Some tt <->
  y_splice8 y <= a /\ y_splice16 y <= a /\ y_blind y 2 <= a.
Proof.
  intros y a. rewrite turn_iff. cbn [map ram_space]. rewrite !Forall_cons_iff, !bind_iff, !need_iff.
  split; intros H; decompose [and] H; repeat apply conj; auto using Forall_nil.
Qed.

(** Exactly which scratch space is enough for a cycle. *)
Theorem C91_exact : forall y log rom_bits reg_bits ram_bits first keyed t a, sane y -> 1 <= t ->
  cycle_space y log rom_bits reg_bits ram_bits first keyed t a = Some tt <->
  shares_suffice y log reg_bits ram_bits /\ Forall (fun n => n <= a) (demands y log rom_bits reg_bits ram_bits first keyed t).
Proof.
  intros y l ob eb ab first keyed t a S T. pose proof S as (S1 & S2 & S3 & S4).
  unfold cycle_space, instruction_space, registers_space, read_ram_space, update_registers_space, update_ram_space. cbv zeta.
  rewrite !bind_iff, !again_iff, rd_iff, ram_iff, !circuit_iff, !prepare_iff, !need_iff by assumption.
  rewrite (C69_stateless (y_rom y)), (C69_stateless (y_reg y)), C69_statefull, C69_write, C69_zero, C69_rev by assumption.
  unfold demands, shares_suffice. cbv zeta. rewrite !Forall_app, !Forall_cons_iff.
  fold (plane_bytes (y_reg y) (if l <? eb then k_rotation (y_reg y) else 0)).
  fold (plane_bytes (y_ram y) (if l <? ab then k_rotation (y_ram y) else 0)).
  unfold plane. unfold plane_bytes.
  assert (W : forall k, 0 <= k -> 32 * y_word y + Z.max k (y_pack y) <= a -> 32 * y_word y <= a) by (intros; lia).
  assert (K0 : 0 <= y_offset y t) by apply S4. assert (K1 : 0 <= y_pcu y t) by apply S4.
  pose proof (W _ K0) as W0. pose proof (W _ K1) as W1. clear W K0 K1 S S1 S2 S3 S4.
  assert (D : forall b, (if keyed then checks_space y b a else Some tt) = Some tt <->
    (keyed = true -> (b = true -> y_decrypt_bits y <= a) /\ y_decrypt y <= a /\ y_noise y <= a)).
  { intros b. destruct keyed; [rewrite checks_iff; tauto|]. split; [discriminate|reflexivity]. }
  rewrite !D. clear D.
  assert (F : (if first then Some tt else need a (y_prepare y (ob + 2) t)) = Some tt <->
    Forall (fun n => n <= a) (if first then [] else [y_prepare y (ob + 2) t])).
  { destruct first; [split; [constructor|reflexivity]|]. rewrite need_iff, Forall_cons_iff. split; intros; [split; [assumption|constructor]|tauto]. }
  rewrite F. clear F.
  assert (G : Forall (fun n => n <= a) (if keyed then [y_decrypt_bits y; y_decrypt y; y_noise y] else []) <->
    (keyed = true -> y_decrypt_bits y <= a /\ y_decrypt y <= a /\ y_noise y <= a)).
  { destruct keyed; [|split; [discriminate|constructor]]. rewrite !Forall_cons_iff. split; intros H; repeat apply conj; try tauto; try constructor. }
  rewrite G. clear G.
  split; intros H; decompose [and] H; clear H; repeat apply conj; try assumption; try apply Forall_nil; try tauto.
Qed.
Print Assumptions C91_exact.

(** More space never hurts, and the first cycle needs least. *)
Lemma demands_up : forall y l ob eb ab first first' keyed t a b, a <= b -> (first = true -> first' = true) ->
  Forall (fun n => n <= a) (demands y l ob eb ab first keyed t) -> Forall (fun n => n <= b) (demands y l ob eb ab first' keyed t).
Proof.
  intros y l ob eb ab f f' k t a b L I F. apply Forall_impl with (P := fun n => n <= a); [intros; lia|].
  unfold demands in F |- *. cbv zeta in F |- *. rewrite !Forall_app in F |- *. destruct F as (F1 & F2 & F3 & F4).
  repeat apply conj; auto. destruct f'; [constructor|]. destruct f; [|exact F3]. specialize (I eq_refl). discriminate.
Qed.

(** The demands of [t] threads are at most [t] times those of one. *)
Lemma demands_scale : forall y l ob eb ab first keyed t a, sane y -> scalable y -> 1 <= t ->
  Forall (fun n => n <= a) (demands y l ob eb ab first keyed 1) ->
  Forall (fun n => n <= t * a) (demands y l ob eb ab first keyed t).
Proof.
  intros y l ob eb ab first keyed t a S C T F.
  destruct C as (C1 & C2 & C3 & C4 & C5). destruct S as (S1 & S2 & S3 & S4).
  assert (P : 0 <= a).
  { unfold demands in F. cbn [app] in F. apply Forall_cons_iff in F. destruct F as [F _]. cbv beta zeta in F. unfold sized in S1. lia. }
  assert (Kc : forall n, n <= a -> n <= t * a) by (intros; nia).
  assert (Kt : forall n, 1 * n <= a -> t * n <= t * a) by (intros; apply Z.mul_le_mono_nonneg_l; lia).
  assert (Kf : forall f, scales f -> f 1 <= a -> f t <= t * a).
  { intros f SC L. specialize (SC t T). assert (t * f 1 <= t * a) by (apply Z.mul_le_mono_nonneg_l; lia). lia. }
  assert (Kw : forall w m p, 0 <= w -> 0 <= p -> 32 * w + Z.max (1 * m) p <= a -> 32 * w + Z.max (t * m) p <= t * a).
  { intros w m p W Q L. assert (t * (32 * w + Z.max m p) <= t * a) by (apply Z.mul_le_mono_nonneg_l; lia).
    assert (t * m <= t * Z.max m p) by (apply Z.mul_le_mono_nonneg_l; lia).
    assert (p <= t * Z.max m p) by nia. assert (32 * w <= t * (32 * w)) by nia. lia. }
  assert (Kg : forall f w p, 0 <= w -> 0 <= p -> scales f -> 32 * w + Z.max (f 1) p <= a -> 32 * w + Z.max (f t) p <= t * a).
  { intros f w p W Q SC L. specialize (SC t T). specialize (Kw w (f 1) p W Q).
    replace (1 * f 1) with (f 1) in Kw by lia. specialize (Kw L). lia. }
  unfold demands in F |- *. cbv zeta in F |- *. rewrite !Forall_app, !Forall_cons_iff in F |- *.
  destruct F as (F1 & F2 & F3 & F4). decompose [and] F1. clear F1. unfold sized in *.
  repeat apply conj; try (apply Kc; assumption); try (apply Kt; assumption); try (apply (Kf _ (C1 _)); assumption);
    try (apply (Kf _ C5); assumption); try (apply Kw; [lia|lia|assumption]); try (apply Kg; [lia|lia|assumption|assumption]);
    try apply Forall_nil.
  - apply Forall_forall. intros x I. apply in_map_iff in I. destruct I as (o & <- & I). rewrite Forall_forall in F2.
    apply (Kf _ (C4 o)). apply F2. apply in_map_iff. exists o. auto.
  - destruct first; [constructor|]. apply Forall_cons_iff in F3. constructor; [|constructor]. apply (Kf _ (C1 _)). tauto.
  - destruct keyed; [|constructor]. rewrite !Forall_cons_iff in F4. repeat apply Forall_cons; try apply Forall_nil; apply Kc; tauto.
Qed.

(** Space that is enough for one thread is, times [t], enough for [t] threads. *)
Theorem C91_scales : forall y log rom_bits reg_bits ram_bits first keyed t a, sane y -> scalable y -> 1 <= t ->
  cycle_space y log rom_bits reg_bits ram_bits first keyed 1 a = Some tt ->
  cycle_space y log rom_bits reg_bits ram_bits first keyed t (t * a) = Some tt.
Proof.
  intros y l ob eb ab f k t a S C T H. apply C91_exact in H; [|exact S|lia]. apply C91_exact; [exact S|exact T|].
  destruct H as (H1 & H2). split; [exact H1|]. apply demands_scale; assumption.
Qed.
Print Assumptions C91_scales.

Lemma cycles_iff : forall y l ob eb ab keyed t a, sane y -> 1 <= t -> forall n first,
  cycles_space y l ob eb ab first keyed t a n = Some tt <->
  n = O \/ shares_suffice y l eb ab /\ Forall (fun d => d <= a) (demands y l ob eb ab (first && Nat.eqb n 1) keyed t).
Proof.
  intros y l ob eb ab k t a S T. induction n as [|n IH]; intros first; cbn [cycles_space]. { split; auto. }
  rewrite bind_iff, IH, C91_exact by assumption. clear IH. split.
  - intros ((H1 & H2) & H). right. split; [exact H1|]. destruct H as [-> | (_ & H)].
    { cbn. rewrite andb_true_r. exact H2. }
    cbn [andb] in H. apply demands_up with (first := false) (a := a); [lia|discriminate|exact H].
  - intros [? | (H1 & H2)]; [discriminate|]. split.
    + split; [exact H1|]. apply demands_up with (first := (first && Nat.eqb (Datatypes.S n) 1)%bool) (a := a); [lia| |exact H2].
      intros E. apply andb_prop in E. tauto.
    + destruct n as [|n]; [left; reflexivity|]. right. split; [exact H1|].
      cbn [andb]. replace (first && Nat.eqb (Datatypes.S (Datatypes.S n)) 1)%bool with false in H2 by (cbn; rewrite andb_false_r; reflexivity). exact H2.
Qed.

(** The host program: which programs run with the space it allocates. *)
Theorem C92_host_exact : forall y log rom_bits reg_bits ram_bits chk keyed t n, sane y -> 1 <= t ->
  host_space y log rom_bits reg_bits ram_bits chk keyed t n = Some tt <->
  (chk = true -> 2 ^ 24 * t < 2 ^ 64) /\
  (n = O \/ shares_suffice y log reg_bits ram_bits /\
            Forall (fun d => d <= (2 ^ 24 * t) mod 2 ^ 64) (demands y log rom_bits reg_bits ram_bits (Nat.eqb n 1) keyed t)).
Proof.
  intros y l ob eb ab chk k t n S T. unfold host_space. cbv zeta.
  assert (B : (negb chk || (2 ^ 24 * t <? 2 ^ 64))%bool = true <-> (chk = true -> 2 ^ 24 * t < 2 ^ 64)).
  { destruct chk; cbn [negb orb]; [rewrite Z.ltb_lt; tauto|]. split; [discriminate|reflexivity]. }
  destruct (negb chk || (2 ^ 24 * t <? 2 ^ 64))%bool.
  - rewrite cycles_iff by assumption. cbn [andb]. tauto.
  - split; [discriminate|]. intros (H & _). apply B in H. discriminate.
Qed.
Print Assumptions C92_host_exact.

(** What runs with one thread runs with any number, as long as the number of bytes does not
    overflow. *)
Theorem C92_threads : forall y log rom_bits reg_bits ram_bits chk keyed t n, sane y -> scalable y ->
  1 <= t -> 2 ^ 24 * t < 2 ^ 64 ->
  host_space y log rom_bits reg_bits ram_bits chk keyed 1 n = Some tt ->
  host_space y log rom_bits reg_bits ram_bits chk keyed t n = Some tt.
Proof.
  intros y l ob eb ab chk k t n S C T W H. apply C92_host_exact in H; [|exact S|lia]. apply C92_host_exact; [exact S|exact T|].
  destruct H as (_ & H). split; [intros _; exact W|]. destruct H as [H|(H1 & H2)]; [auto|right]. split; [exact H1|].
  rewrite Z.mod_small in H2 by lia. rewrite Z.mod_small by lia.
  replace (2 ^ 24 * t) with (t * (2 ^ 24 * 1)) by lia. apply demands_scale; assumption.
Qed.
Print Assumptions C92_threads.

(** The benchmark's space is as good as the host's up to sixteen threads. *)
Theorem C92_bench : forall y log rom_bits reg_bits ram_bits chk keyed t n, sane y -> 1 <= t <= 16 ->
  host_space y log rom_bits reg_bits ram_bits chk keyed t n = Some tt ->
  bench_space y log rom_bits reg_bits ram_bits t n = Some tt.
Proof.
  intros y l ob eb ab chk k t n S T H. apply C92_host_exact in H; [|exact S|lia]. apply cycles_iff; [exact S|lia|].
  destruct H as (_ & [H|(H1 & H2)]); [auto|right]. split; [exact H1|]. rewrite Z.mod_small in H2 by lia. cbn [andb].
  assert (D : Forall (fun d => d <= 2 ^ 28) (demands y l ob eb ab (Nat.eqb n 1) k t)).
  { apply demands_up with (first := Nat.eqb n 1) (a := 2 ^ 24 * t); [lia|auto|exact H2]. }
  unfold demands in D |- *. cbv zeta in D |- *. rewrite !Forall_app in D |- *. destruct D as (D1 & D2 & D3 & D4).
  repeat apply conj; auto.
Qed.
Print Assumptions C92_bench.

(** A library in which only preparing bits and storing words costs something. *)
Definition flat (word bits : Z) : cycle_costs :=
  let c := {| k_glwe := 0; k_word := word; k_select := 0; k_rotation := 0; k_retrieval := 0; k_trace := 0; k_normalize := 0; k_rotate := 0; k_bit := 0; k_pack := 0 |} in
  {| y_rom := c; y_reg := c; y_ram := c; y_prepare := fun _ t => t * bits; y_bits := bits; y_ggsw := 0; y_lwe := 0;
     y_bit_lwe := bits; y_cbt := bits; y_fill := bits; y_word := word; y_pack := 0; y_offset := fun _ => 0; y_pcu := fun _ => 0;
     y_alu := fun _ _ => 0; y_identity := fun _ => 0; y_zero_byte := 0; y_sext := 0; y_splice8 := 0; y_splice16 := 0;
     y_blind := fun _ => 0; y_decrypt_bits := 0; y_decrypt := 0; y_noise := 0 |}.
Lemma flat_sane : forall w b, 0 <= w -> 0 <= b -> sane (flat w b) /\ scalable (flat w b).
Proof.
  intros w b W B. unfold sane, sized, scalable, scales, flat. cbn -[Z.mul Z.le]. split.
  - repeat apply conj; intros; lia.
  - repeat apply conj; intros; lia.
Qed.
Lemma flat_shares : forall w b l eb ab, 0 <= w -> 0 <= b -> shares_suffice (flat w b) l eb ab.
Proof.
  intros w b l eb ab W B. unfold shares_suffice, flat, plane. cbn -[Z.mul Z.le Z.add Z.max Z.lt Z.ltb].
  destruct (l <? ab), (l <? eb); repeat apply conj; try lia; try (right; lia).
Qed.
Lemma flat_demands : forall w b l ob eb ab first keyed t a, 0 <= w -> 0 <= b -> 1 <= t -> 0 <= a ->
  Forall (fun d => d <= a) (demands (flat w b) l ob eb ab first keyed t) <-> 32 * w <= a /\ t * b <= a /\ t * w <= a.
Proof.
  intros w b l ob eb ab first keyed t a W B T A. unfold demands, flat, plane. cbv zeta.
  rewrite !Forall_app, !Forall_cons_iff. cbn -[Z.mul Z.le Z.add Z.max Z.lt Z.ltb circuits].
  assert (E1 : Forall (fun d => d <= a) (map (fun _ : rd_op => 0) circuits)).
  { apply Forall_forall. intros x I. apply in_map_iff in I. destruct I as (o & <- & _). exact A. }
  split.
  - intros (H & _). decompose [and] H. clear H. destruct (l <? ab); repeat apply conj; lia.
  - intros (H1 & H2 & H3). repeat apply conj; try lia; try assumption; try apply Forall_nil; try (destruct (l <? ab), (l <? eb); lia).
    + destruct first; [constructor|]. constructor; [lia|constructor].
    + destruct keyed; [|constructor]. repeat constructor; lia.
Qed.

(** The converse is false: the words that are collected before they are packed are 32 however
    many threads there are.  There are sizes with which every number of threads from two on runs
    and a single one does not. *)
Theorem C91_converse_refuted : exists y, sane y /\ scalable y /\
  forall log rom_bits reg_bits ram_bits chk keyed t n, (n > 0)%nat -> 2 <= t -> 2 ^ 24 * t < 2 ^ 64 ->
    host_space y log rom_bits reg_bits ram_bits chk keyed t n = Some tt /\
    host_space y log rom_bits reg_bits ram_bits chk keyed 1 n = None.
Proof.
  exists (flat (2 ^ 20) 1). destruct (flat_sane (2 ^ 20) 1) as (S & C); [lia|lia|]. split; [exact S|]. split; [exact C|].
  intros l ob eb ab chk k t n N T W. split.
  - apply C92_host_exact; [exact S|lia|]. split; [auto|right]. split; [apply flat_shares; lia|].
    rewrite Z.mod_small by lia. apply flat_demands; lia.
  - destruct (host_space _ l ob eb ab chk k 1 n) as [[]|] eqn:H; [|reflexivity].
    apply C92_host_exact in H; [|exact S|lia]. destruct H as (_ & [H|(_ & H)]); [lia|].
    rewrite Z.mod_small in H by lia. apply flat_demands in H; lia.
Qed.
Print Assumptions C91_converse_refuted.

(** With more than sixteen threads (the benchmark's default is 32) the benchmark's space does
    not follow: there are sizes with which the host program runs with any number of threads and
    the benchmark panics. *)
Theorem C92_bench_refuted : exists y, sane y /\ scalable y /\
  forall log rom_bits reg_bits ram_bits chk keyed t n, (n > 0)%nat -> 1 <= t -> 2 ^ 24 * t < 2 ^ 64 ->
    host_space y log rom_bits reg_bits ram_bits chk keyed t n = Some tt /\
    (bench_space y log rom_bits reg_bits ram_bits t n = None <-> 16 < t).
Proof.
  exists (flat 1 (2 ^ 24)). destruct (flat_sane 1 (2 ^ 24)) as (S & C); [lia|lia|]. split; [exact S|]. split; [exact C|].
  intros l ob eb ab chk k t n N T W. split.
  - apply C92_host_exact; [exact S|lia|]. split; [auto|right]. split; [apply flat_shares; lia|].
    rewrite Z.mod_small by lia. apply flat_demands; lia.
  - assert (I : bench_space (flat 1 (2 ^ 24)) l ob eb ab t n = Some tt <-> t <= 16).
    { unfold bench_space. rewrite cycles_iff by assumption. cbn [andb]. split.
      - intros [H|(_ & H)]; [lia|]. apply flat_demands in H; lia.
      - intros H. right. split; [apply flat_shares; lia|]. apply flat_demands; lia. }
    destruct (bench_space _ l ob eb ab t n) as [[]|].
    + split; [discriminate|]. intros H. assert (t <= 16) by (apply I; reflexivity). lia.
    + split; [|reflexivity]. intros _. destruct (Z_lt_le_dec 16 t) as [?|L]; [assumption|]. apply I in L. discriminate.
Qed.
Print Assumptions C92_bench_refuted.

(** In a release build the number of bytes wraps: with 2^40 threads nothing is allocated, and
    the first cycle panics if anything at all is needed; with overflow checks the product panics. *)
Theorem C92_wraps : forall y log rom_bits reg_bits ram_bits chk keyed n, sane y -> (n > 0)%nat -> 1 <= y_word y ->
  host_space y log rom_bits reg_bits ram_bits chk keyed (2 ^ 40) n = None.
Proof.
  intros y l ob eb ab chk k n S N W. destruct (host_space _ l ob eb ab chk k _ n) as [[]|] eqn:H; [|reflexivity].
  apply C92_host_exact in H; [|exact S|lia]. destruct H as (_ & [H|(_ & H)]); [lia|].
  change ((2 ^ 24 * 2 ^ 40) mod 2 ^ 64) with 0 in H. unfold demands in H. cbv zeta in H.
  rewrite !Forall_app, !Forall_cons_iff in H. destruct S as (_ & _ & _ & S). decompose [and] H. lia.
Qed.
Print Assumptions C92_wraps.

(** Cases: a cycle of four threads in memories larger and smaller than a ciphertext. *)
Definition ex_cycle : cycle_costs :=
  {| y_rom := ex_costs; y_reg := ex_costs; y_ram := ex_costs; y_prepare := fun b t => t * 700; y_bits := 700; y_ggsw := 100; y_lwe := 50;
     y_bit_lwe := 30; y_cbt := 500; y_fill := 20; y_word := 90; y_pack := 350; y_offset := fun t => Z.max t 0 * 200; y_pcu := fun t => Z.max t 0 * 200;
     y_alu := fun _ t => t * 200 + 10; y_identity := fun t => t * 100; y_zero_byte := 60; y_sext := 70; y_splice8 := 80; y_splice16 := 80;
     y_blind := fun b => 40 * b; y_decrypt_bits := 10; y_decrypt := 10; y_noise := 10 |}.
Lemma ex_sane : sane ex_cycle.
Proof.
  assert (E : sized ex_costs) by (repeat split; discriminate).
  unfold sane. do 3 (split; [exact E|]). cbn [ex_cycle y_bits y_ggsw y_lwe y_bit_lwe y_cbt y_fill y_word y_pack y_offset y_pcu]. repeat apply conj; intros; lia.
Qed.
Lemma ex_scalable : scalable ex_cycle.
Proof. unfold scalable, scales. cbn [ex_cycle y_prepare y_offset y_pcu y_alu y_identity]. repeat apply conj; intros; lia. Qed.
Example C91_case :
  cycle_space ex_cycle 4 8 5 8 false true 1 3380 = Some tt /\ cycle_space ex_cycle 4 8 5 8 false true 1 3379 = None /\
  cycle_space ex_cycle 4 8 5 8 false true 4 4880 = Some tt /\ cycle_space ex_cycle 4 8 5 8 false true 4 4879 = None /\
  cycle_space ex_cycle 4 8 5 4 false true 4 100000 = None /\
  host_space ex_cycle 4 8 5 8 true true 32 100 = Some tt.
Proof. repeat split; vm_compute; reflexivity. Qed.
Example C92_case :
  sane ex_cycle /\ scalable ex_cycle /\
  host_space ex_cycle 4 8 5 8 true true 1 100 = Some tt /\ host_space ex_cycle 4 8 5 8 true true 1000 100 = Some tt /\
  bench_space ex_cycle 4 8 5 8 16 100 = Some tt /\
  host_space ex_cycle 4 8 5 8 false true (2 ^ 40) 1 = None /\ host_space ex_cycle 4 8 5 8 true true (2 ^ 40) 0 = None.
Proof. split; [exact ex_sane|]. split; [exact ex_scalable|]. repeat split; vm_compute; reflexivity. Qed.
