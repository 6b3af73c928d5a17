(** * C65: registers given by the client *)
Require Import ZArith List Bool Lia.
Require Import Verif.Word Verif.Isa Verif.Codec Verif.DecodeSpec Verif.EvalSpec Verif.EvalPlain Verif.EvalFacts Verif.ListFacts
  Verif.DebugVM Verif.DebugSpec Verif.DebugFacts Verif.RunFacts Verif.Glwe Verif.EncMem Verif.MemSpec Verif.MemFacts Verif.MemOps Verif.MemClient Verif.EncVM Verif.EncSpec Verif.EncFacts
  Verif.EncCycle Verif.EncTrack Verif.EncLoad Verif.EncRun Verif.ExactSpec Verif.ExactFacts.
Require Verif.PropEnc Verif.PropExact.
Import ListNotations.
Ltac Zify.zify_post_hook ::= idtac.
Open Scope Z_scope.

(** the machine of [ExactSpec] started with the given registers *)
Definition q_start_with (regs ram : list Z) : qm :=
  {| q_cycle := 0; q_last := 0; q_pc := 0; q_rf := fun r => nth (Z.to_nat r) regs 0; q_ram := fun k => nth (Z.to_nat k) ram 0 |}.

Definition with_regs (s : xvm) (regs : list Z) : xvm :=
  {| x_cycle := x_cycle s; x_rom := x_rom s; x_regs := regs; x_ram := x_ram s; x_pc := x_pc s; x_last := x_last s |}.
Lemma init_ok log rb mb v s data : shows log rb mb v s -> (length data <= 32)%nat -> Forall word data ->
  exists v', init_registers log v data = Some v' /\ shows log rb mb v' (with_regs s (table 32 data)) /\ v_debug v' = v_debug v.
Proof.
  intros S L F. pose proof S as (S1 & S2 & S3 & S4 & S5 & S6 & S7 & S8 & S9).
  assert (F' : Forall is_word data) by (eapply Forall_impl; [|exact F]; intro; apply is_word_word).
  destruct (encrypt_short log (v_regs v) 32 data _ S7 S8 L F') as (m & E & H).
  unfold init_registers. rewrite E. eexists. split; [reflexivity|]. split; [|reflexivity].
  unfold shows, with_regs. cbn [v_debug v_ram v_rom v_rom_size v_cycle v_rom_bits v_regs v_ram_bits v_ram_size v_pc v_pcp x_cycle x_rom x_regs x_ram x_pc x_last].
  repeat (split; [assumption|]). split; [apply table_length; exact L|]. exact S9.
Qed.
Lemma table_nth n (xs : list Z) k : nth k (table n xs) 0 = nth k xs 0.
Proof.
  unfold table. destruct (le_lt_dec (length xs) k) as [H|H].
  - rewrite app_nth2, nth_repeat, nth_overflow by lia. reflexivity.
  - rewrite app_nth1 by lia. reflexivity.
Qed.
Lemma shows_decrypts log rb mb v s q : shows log rb mb v s -> same s q -> PropExact.decrypts mb v q.
Proof.
  intros S' (Q1 & Q2 & Q3 & Q4 & Q5 & Q6). assert (LM : length (x_ram s) = (2 ^ mb)%nat) by apply S'.
  split; [|split].
  - exists (x_regs s). split; [exact (shows_regs _ _ _ _ _ S')|]. split; [exact Q4|].
    intros k Hk. rewrite <- (Q5 k Hk). apply nth_error_nth'. unfold reg in Hk. lia.
  - exists (x_ram s). split; [exact (shows_ram _ _ _ _ _ S')|]. split; [exact LM|].
    intros k Hk. assert (Hk' : 0 <= k < Z.of_nat (length (x_ram s))) by (rewrite LM, pow_nat; exact Hk).
    rewrite <- (Q6 k Hk'). apply nth_error_nth'. lia.
  - rewrite (shows_pc _ _ _ _ _ S'). exact Q3.
Qed.

(** C65.  After [init_registers] with up to 32 words, the first of them zero, the
    VM is the exact machine started with them (missing ones zero). *)
Theorem C65_initial_registers :
  forall log dbg debug rom_words rb mb ws ram data v0 sk on chk es,
    fits debug rom_words rb mb ws ram -> boots log dbg debug rom_words mb ws ram v0 -> key_ok log sk on -> Forall env_ok es ->
    (length data <= 32)%nat -> Forall word data -> nth 0 data 0 = 0 ->
    exists v1, init_registers log v0 data = Some v1 /\
      forall v, ecycles (Ideal log) sk chk es v1 = Some v ->
        PropExact.decrypts mb v (q_run rb mb ws (length es) (q_start_with data ram)).
Proof.
  intros log dbg debug rom_words rb mb ws ram data v0 sk on chk es F B K HE L FD Z0.
  destruct (boots_shows _ _ _ _ _ _ _ _ _ F B) as (r & HF & S & _).
  destruct (init_ok _ _ _ _ _ data S L FD) as (v1 & I1 & S1 & _). exists v1. split; [exact I1|]. intros v E.
  pose proof (run_shows log sk on rb mb chk es K HE v1 _ v S1 E) as S'.
  destruct F as (F1 & F2 & F3 & F4 & F5 & F6 & F7 & F8).
  destruct (start_same rom_words (2 ^ mb) r ram F6) as (Q1 & Q2 & Q3 & Q4 & Q5 & Q6).
  apply (shows_decrypts _ _ _ _ _ _ S').
  apply (q_run_ok log rb mb rom_words dbg ws r F1 HF F2 sk on chk es K HE v1 _ (q_start_with data ram) v S1 eq_refl); [|exact E].
  unfold same, with_regs, q_start_with in *. cbn [x_cycle x_last x_pc x_regs x_ram q_cycle q_last q_pc q_rf q_ram] in *.
  split; [exact Q1|]. split; [exact Q2|]. split; [exact Q3|]. split; [apply table_length; exact L|]. split; [|exact Q6].
  intros k Hk. rewrite table_nth. unfold get. destruct (Z.eqb_spec k 0) as [->|N]; [exact Z0|reflexivity].
Qed.
Print Assumptions C65_initial_registers.
(** Without the key such a run completes as any other does. *)
Theorem C65_runs_complete :
  forall log dbg debug rom_words rb mb ws ram data v0 v1 chk es,
    fits debug rom_words rb mb ws ram -> boots log dbg debug rom_words mb ws ram v0 -> Forall env_ok es ->
    (length data <= 32)%nat -> Forall word data -> init_registers log v0 data = Some v1 ->
    chk = false \/ Z.of_nat (length es) < 2 ^ 32 -> exists v, ecycles (Ideal log) None chk es v1 = Some v.
Proof.
  intros log dbg debug rom_words rb mb ws ram data v0 v1 chk es F B HE L FD I C.
  destruct (boots_shows _ _ _ _ _ _ _ _ _ F B) as (r & HF & S & _).
  destruct (init_ok _ _ _ _ _ data S L FD) as (v1' & I1 & S1 & _). assert (v1' = v1) by congruence. subst v1'.
  assert (K : key_ok log None false) by (left; auto).
  destruct (run_succeeds log None false rb mb chk es K HE v1 _ S1 (or_introl eq_refl)) as (v & E & _); [|eauto].
  cbn [x_cycle with_regs xstart]. destruct C as [C|C]; [left; exact C|right; lia].
Qed.
Print Assumptions C65_runs_complete.

(** x0 is not protected: a program whose first instruction reads x0 sees the
    client's word.  It is cleared at the end of the first cycle. *)
Theorem C65_x0_refuted :
  exists data v0 v1 v, fits false 1 0 1 (map encode [OPI ADDI 1 0 1]) [0; 0] /\
    boots 1 true false 1 1 (map encode [OPI ADDI 1 0 1]) [0; 0] v0 /\
    init_registers 1 v0 data = Some v1 /\ PropEnc.ex_run None 1 v1 = Some v /\
    exists regs, dec_regs v = Some regs /\ nth 1 regs 0 <> 1.
Proof.
  exists [41]. destruct (PropEnc.ex_load false 1 1 [OPI ADDI 1 0 1] [0; 0]) as [v0|] eqn:E; [|vm_compute in E; discriminate].
  pose proof (PropEnc.ex_boots _ _ _ _ _ _ E) as B. vm_compute in E. injection E as <-.
  do 3 eexists. split; [PropEnc.fits_tac|]. split; [exact B|]. split; [vm_compute; reflexivity|]. split; [vm_compute; reflexivity|].
  eexists. split; [vm_compute; reflexivity|]. vm_compute. discriminate.
Qed.
Print Assumptions C65_x0_refuted.
Theorem C65_x0_cleared :
  forall log dbg debug rom_words rb mb ws ram data v0 v1 sk on chk es v,
    fits debug rom_words rb mb ws ram -> boots log dbg debug rom_words mb ws ram v0 -> key_ok log sk on -> Forall env_ok es ->
    (length data <= 32)%nat -> Forall word data -> init_registers log v0 data = Some v1 ->
    ecycles (Ideal log) sk chk es v1 = Some v -> es <> [] ->
    exists regs, dec_regs v = Some regs /\ nth 0 regs 0 = 0.
Proof.
  intros log dbg debug rom_words rb mb ws ram data v0 v1 sk on chk es v F B K HE L FD I E NE.
  destruct (boots_shows _ _ _ _ _ _ _ _ _ F B) as (r & HF & S & _).
  destruct (init_ok _ _ _ _ _ data S L FD) as (v1' & I1 & S1 & _). assert (v1' = v1) by congruence. subst v1'.
  pose proof (run_shows log sk on rb mb chk es K HE v1 _ v S1 E) as S'.
  eexists. split; [exact (shows_regs _ _ _ _ _ S')|]. destruct es as [|e es]; [congruence|]. cbn [length xcycles].
  assert (L32 : length (x_regs (with_regs (xstart rom_words (2 ^ mb) r ram) (table 32 data))) = 32%nat) by (apply table_length; exact L).
  apply xcycles_x0. split; [now apply xcycle_regs_length|now apply xcycle_x0].
Qed.
Print Assumptions C65_x0_cleared.

Lemma eqb_list_eq xs : forall ys, eqb_list xs ys = true -> xs = ys.
Proof. induction xs as [|x xs IH]; intros [|y ys] H; cbn in H; try discriminate; [reflexivity|]. apply andb_true_iff in H as [H1 H2]. apply Z.eqb_eq in H1. f_equal; auto. Qed.

(** The shadow VM is not told: with the debugging key, and two registers other
    than x0 not zero, no program gets through its first cycle. *)
Theorem C65_checked_runs_stop :
  forall log dbg rom_words rb mb ws ram data v0 v1 sk chk es i j,
    fits true rom_words rb mb ws ram -> boots log dbg true rom_words mb ws ram v0 -> key_ok log sk true -> Forall env_ok es ->
    (length data <= 32)%nat -> Forall word data -> init_registers log v0 data = Some v1 ->
    (0 < i < j)%nat -> nth i data 0 <> 0 -> nth j data 0 <> 0 -> es <> [] ->
    ecycles (Ideal log) sk chk es v1 = None.
Proof.
  intros log dbg rom_words rb mb ws ram data v0 v1 sk chk es i j F B K HE L FD I IJ Ni Nj NE.
  destruct (boots_shows _ _ _ _ _ _ _ _ _ F B) as (r & HF & S & D).
  destruct (init_ok _ _ _ _ _ data S L FD) as (v1' & I1 & S1 & D1). assert (v1' = v1) by congruence. subst v1'.
  destruct es as [|e es]; [congruence|]. inversion HE as [|? ? He HE']; subst. cbn [ecycles].
  set (s := with_regs (xstart rom_words (2 ^ mb) r ram) (table 32 data)) in *.
  destruct (cycle_ok log sk true e K He rb mb chk v1 s S1) as (mk & _ & ->). rewrite D1, D.
  enough (X : xdebug rb mb true s (Some (dstart rom_words (2 ^ mb) r ram)) = None) by (rewrite X; reflexivity).
  unfold xdebug. cbv zeta. set (f := xfields rb mb s). set (d0 := dstart rom_words (2 ^ mb) r ram).
  assert (J31 : (j < 32)%nat). { destruct (le_lt_dec 32 j) as [C|C]; [|exact C]. rewrite nth_overflow in Nj by lia. congruence. }
  unfold check at 1. cbv iota beta. destruct (read_instructions d0) as [d1|] eqn:E1; [|reflexivity]. cbv iota beta.
  match goal with |- context [if ?b then _ else None] => destruct b eqn:G1; [|reflexivity] end. cbv iota beta.
  unfold check at 1. cbv iota beta. destruct (read_registers d1) as [d2|] eqn:E2; [|reflexivity]. cbv iota beta.
  match goal with |- context [if ?b then _ else None] => destruct b; [|reflexivity] end. cbv iota beta.
  unfold check at 1. cbv iota beta. destruct (read_ram d2) as [d3|] eqn:E3; [|reflexivity]. cbv iota beta.
  match goal with |- context [if ?b then _ else None] => destruct b; [|reflexivity] end. cbv iota beta.
  unfold check at 1. cbv iota beta. destruct (update_registers RD_RV32I d3) as [d4|] eqn:E4; [|reflexivity]. cbv iota beta.
  enough (NEQ : eqb_list (x_regs (xcycle rb mb s)) (dregs d4) = false) by (rewrite NEQ, andb_false_r; reflexivity).
  destruct (eqb_list (x_regs (xcycle rb mb s)) (dregs d4)) eqn:EQ; [exfalso|reflexivity]. apply eqb_list_eq in EQ.
  assert (R1 : dregs d1 = repeat 0 32).
  { revert E1. unfold read_instructions. repeat match goal with |- context [nth_error ?a ?b] => destruct (nth_error a b); [|discriminate] end. intro E. injection E as <-. reflexivity. }
  assert (R2 : dregs d2 = dregs d1 /\ rd_addr (lat d2) = rd_addr (lat d1)).
  { revert E2. unfold read_registers. repeat match goal with |- context [nth_error ?a ?b] => destruct (nth_error a b); [|discriminate] end. intro E. injection E as <-. split; reflexivity. }
  assert (R3 : dregs d3 = dregs d2 /\ rd_addr (lat d3) = rd_addr (lat d2)).
  { revert E3. unfold read_ram. destruct (ram_index _ _); [|discriminate]. destruct (nth_error _ _); [|discriminate]. intro E. injection E as <-. split; reflexivity. }
  destruct R2 as [R2 A2], R3 as [R3 A3].
  assert (RD : f_rd f = rd_addr (lat d3)).
  { rewrite A3, A2. rewrite !andb_true_iff in G1. destruct G1 as ((((_ & G1) & _) & _) & _). apply Z.eqb_eq, G1. }
  revert E4. unfold update_registers. destruct (build_map _ _ _ _) as [bm|]; [|discriminate]. destruct (lookup _ _) as [w|]; [|discriminate].
  destruct (set_nth (dregs d3) _ w) as [ra|] eqn:SA; [|discriminate]. destruct (set_nth ra 0 0) as [rb'|] eqn:SB; [|discriminate].
  intro E. assert (DR : dregs d4 = rb') by (injection E as <-; reflexivity). clear E.
  rewrite R3, R2, R1 in SA. rewrite DR in EQ.
  pose proof (reg_index (f_rd f)) as RI.
  assert (N : forall k, (0 < k < 32)%nat -> nth k data 0 <> 0 -> k = Z.to_nat (rd_addr (lat d3))).
  { intros k Hk Nk. destruct (Nat.eq_dec k (Z.to_nat (rd_addr (lat d3)))) as [|NK]; [assumption|exfalso].
    pose proof (set_nth_nth _ _ _ _ _ k SA) as XA. pose proof (set_nth_nth _ _ _ _ _ k SB) as XB.
    rewrite (proj2 (Nat.eqb_neq _ _) NK) in XA. rewrite (proj2 (Nat.eqb_neq k 0)), XA in XB by lia.
    rewrite nth_error_repeat in XB by lia. apply nth_error_nth with (d := 0) in XB. rewrite <- EQ in XB.
    unfold xcycle in XB. cbn [x_regs] in XB. fold f in XB.
    assert (TL : length (x_regs s) = 32%nat) by (apply table_length; exact L).
    rewrite !put_word_nth in XB by (rewrite ?put_word_length; lia).
    rewrite (proj2 (Nat.eqb_neq k 0)) in XB by lia.
    assert (RR : f_rd f mod 32 = f_rd f).
    { pose proof (set_nth_lt _ _ _ _ _ SA) as LT. rewrite repeat_length in LT. 
      assert (0 <= f_rd f). { destruct S1 as (RH & _). destruct RH as (_ & _ & _ & RH & _). pose proof (holds_word _ _ _ (Z.to_nat (f_pc f / 4)) RH) as W. unfold word in W. exact (proj1 W). } apply Z.mod_small. lia. }
    rewrite RR, RD, (proj2 (Nat.eqb_neq _ _) NK) in XB. cbn [s with_regs x_regs] in XB. rewrite table_nth in XB. contradiction. }
  pose proof (N i ltac:(lia) Ni). pose proof (N j ltac:(lia) Nj). lia.
Qed.
Print Assumptions C65_checked_runs_stop.

(** A program adding two registers, with and without the debugging key. *)
Example C65_case :
  let run debug sk := do v0 <- PropEnc.ex_load debug 1 1 [OPR ADD 1 2 3] [0; 0]; do v1 <- init_registers 1 v0 [0; 9; 40; 2]; PropEnc.ex_run sk 1 v1 in
  (exists v regs, run true None = Some v /\ dec_regs v = Some regs /\ firstn 5 regs = [0; 42; 40; 2; 0]) /\
  run true (Some secret_key) = None.
Proof. cbv zeta. split; [|vm_compute; reflexivity]. do 2 eexists. split; [vm_compute; reflexivity|]. split; vm_compute; reflexivity. Qed.
