(** * Schedules and data flow of a cycle: C76, C77, C78 *)
Require Import ZArith List Bool Lia.
Require Import Verif.Word Verif.ListFacts Verif.Codec Verif.EvalPlain Verif.DebugVM Verif.Bdd Verif.Glwe Verif.Par Verif.ParFacts Verif.EncMem Verif.MemSpec
  Verif.Prepare Verif.EncEval Verif.EncVM Verif.EncSpec Verif.EncRun Verif.Flow Verif.Depend.
Require Verif.PropEnc Verif.PropMem.
Import ListNotations.

(** C76.  [full]: the memories have 32 planes, as those of every new VM do. *)
Theorem C76_schedules :
  forall C P F (A : alg C P F) sk chk es es' v,
    Forall env_ok es -> Forall env_ok es' -> length es = length es' -> full v ->
    ecycles A sk chk es v = ecycles A sk chk es' v.
Proof. intros. now apply same_cycles. Qed.
Print Assumptions C76_schedules.

Theorem C76_new_machine :
  forall C P F (A : alg C P F) debug rom_size ram_size v, evm_new A debug rom_size ram_size = Some v -> full v.
Proof.
  intros C P F A debug n m v E. unfold evm_new in E.
  assert (W : forall k x, mem_alloc A 32 k = Some x -> wide x).
  { intros k x. unfold mem_alloc, wide. intros Q. destruct (bit_len_pred (Z.of_nat k)); [|discriminate Q]. destruct (ba_alloc A k); [|discriminate Q].
    injection Q as <-. reflexivity. }
  destruct (mem_alloc A 32 n) as [r|] eqn:E1; [|discriminate]. destruct (mem_alloc A 32 32) as [g|] eqn:E2; [|discriminate].
  destruct (mem_alloc A 32 m) as [a|] eqn:E3; [|discriminate].
  destruct (bit_len_pred (Z.of_nat m)); [|discriminate]. destruct (bit_len_pred (Z.of_nat n)); [|discriminate].
  injection E as <-. unfold full. cbn [v_rom v_regs v_ram e_imm e_rs1 e_rs2 e_rd e_rdu e_mu e_pcu].
  repeat (apply Forall_cons; [eapply W; eassumption|]). apply Forall_nil.
Qed.
Print Assumptions C76_new_machine.
(** so has every machine that holds a program and data (the states of all runs, see EncTrack) *)
Theorem C76_loaded_machine : forall log rb mb v s, shows log rb mb v s -> full v.
Proof.
  intros log rb mb v s (H & _ & _ & _ & _ & _ & H8 & _ & H9 & _).
  assert (W : forall m ws, holds log m ws -> wide m) by (intros m ws (_ & _ & _ & _ & L & _); exact L).
  destruct H as (H1 & H2 & H3 & H4 & H5 & H6 & H7). unfold full. repeat (apply Forall_cons; [eapply W; eassumption|]). apply Forall_nil.
Qed.
Print Assumptions C76_loaded_machine.

(** three threads, each region's tasks in reverse order of the threads, against one thread *)
Definition back_order (t n : nat) : list task :=
  match thread_tasks t n with Some ts => concat (rev ts) | None => [] end.
Definition back_env (t : nat) : env :=
  {| n_threads := t; sched := fun i => back_order t (if Nat.eqb i 7 then 58 else if Nat.eqb i 10 then 64 else 32) |}.

Lemma interleave_back T (ls : list (list T)) : interleave ls (concat (rev ls)).
Proof.
  enough (H : forall ls post, Forall (fun l => l = []) post -> interleave (ls ++ post) (concat (rev ls)))
    by (rewrite <- (app_nil_r ls) at 1; apply H; constructor).
  clear. induction ls as [|l ls IH] using rev_ind; intros post HP; [now apply il_done|].
  rewrite rev_app_distr, <- app_assoc. cbn [rev app concat].
  induction l as [|x l IHl]; [apply IH; now constructor|]. cbn [app]. now apply il_step.
Qed.
Lemma back_env_ok t : In t [1; 2; 3; 7; 32] -> env_ok (back_env t).
Proof.
  intros H. split; [intros i _ H7 H10|split]; unfold back_env; cbn [n_threads sched];
    [rewrite (proj2 (Nat.eqb_neq _ _) H7), (proj2 (Nat.eqb_neq _ _) H10)|change (Nat.eqb 7 7) with true; cbv iota|change (Nat.eqb 10 7) with false; change (Nat.eqb 10 10) with true; cbv iota];
    unfold par_order, back_order; cbn [In] in H;
    repeat destruct H as [<-|H]; try contradiction;
    (eexists; split; [reflexivity|]; vm_compute thread_tasks; cbv iota; apply interleave_back).
Qed.
(** two cycles of a program with a store, on one thread and on 3 and 7 threads running backwards *)
Example C76_case :
  exists v0 v, full v0 /\ Forall env_ok [PropEnc.ex_env 2; PropEnc.ex_env 2] /\ Forall env_ok [back_env 3; back_env 7] /\
    ecycles (Ideal 1) (Some secret_key) true [PropEnc.ex_env 2; PropEnc.ex_env 2] v0 = Some v /\
    ecycles (Ideal 1) (Some secret_key) true [back_env 3; back_env 7] v0 = Some v /\
    dec_ram v = Some [7; 0]%Z.
Proof.
  destruct (PropEnc.ex_load true 2 1 [Isa.OPI Isa.ADDI 1 0 7; Isa.STORE Isa.SW 0 1 0] [1; 0]%Z) as [v0|] eqn:E; [|vm_compute in E; discriminate].
  assert (W : full v0).
  { pose proof (PropEnc.ex_boots _ _ _ _ _ _ E) as B.
    destruct (boots_shows 1 true true 2 1 1 (map Isa.encode [Isa.OPI Isa.ADDI 1 0 7; Isa.STORE Isa.SW 0 1 0]%Z) [1; 0]%Z v0) as (r & _ & S & _); [PropEnc.fits_tac|exact B|].
    eapply C76_loaded_machine; exact S. }
  assert (B : Forall env_ok [back_env 3; back_env 7]) by (repeat constructor; apply back_env_ok; cbn; tauto).
  pose proof (C76_schedules _ _ _ (Ideal 1) (Some secret_key) true _ _ v0 (PropEnc.ex_envs 2) B eq_refl W) as Q.
  change (repeat (PropEnc.ex_env 2) 2) with [PropEnc.ex_env 2; PropEnc.ex_env 2] in Q.
  assert (R : match ecycles (Ideal 1) (Some secret_key) true [PropEnc.ex_env 2; PropEnc.ex_env 2] v0 with Some v => dec_ram v | None => None end = Some [7; 0]%Z).
  { vm_compute in E. injection E as <-. vm_compute. reflexivity. }
  clear E. destruct (ecycles (Ideal 1) (Some secret_key) true [PropEnc.ex_env 2; PropEnc.ex_env 2] v0) as [v|] eqn:D; [|discriminate R].
  exists v0, v. exact (conj W (conj (PropEnc.ex_envs 2) (conj B (conj D (conj (eq_sym Q) R))))).
Qed.

(** ** the documented graph *)
(** What an edge list claims: the value at a node with incoming edges is
    determined by the values they come from.  For every library
    implementation, two machines with RAM of the same address width, and any
    two schedules. *)
Definition determines (edges : list (node * node)) (n : node) : Prop :=
  forall C P F (A : alg C P F) e1 e2 v1 v2 f1 f2,
    env_ok e1 -> env_ok e2 -> full v1 -> full v2 -> v_ram_bits v1 = v_ram_bits v2 ->
    flow_of A e1 v1 = Some f1 -> flow_of A e2 v2 = Some f2 ->
    (forall m, In (m, n) edges -> f1 m = f2 m) -> f1 n = f2 n.
Definition computed (n : node) : Prop := exists m, In (m, n) doc_edges.

(** The recorded values are those of the cycle, with or without a debugging key. *)
Theorem C77_recorded :
  forall C P F (A : alg C P F) sk e chk v v', ecycle A sk e chk v = Some v' ->
    exists fl, flow_of A e v = Some fl /\
      fl PC = VBits (v_pcp v') /\ fl ROM = VRom (v_rom v) /\ fl RAM = VMem (v_ram v) /\ fl REGISTERS = VMem (v_regs v) /\
      fl PC_AFTER = VWord (v_pc v') /\ fl RAM_AFTER = VMem (v_ram v') /\ fl REGISTERS_AFTER = VMem (v_regs v').
Proof. intros. eapply recorded; eauto. Qed.
Print Assumptions C77_recorded.

(** ** machines for the witnesses *)
Definition ex_mem (ws : list Z) : memory poly :=
  match mem_alloc (Ideal 1) 32 (length ws) with
  | Some m => match mem_encrypt 1 m ws with Some m' => m' | None => m end
  | None => Memory [] 0 0 false
  end.
(** a ROM with two equal or different entries (imm, rs1, rs2, rd, rdu, mu, pcu) *)
Definition entry := (Z * Z * Z * Z * Z * Z * Z)%type.
Definition ex_rom (a b : entry) : eroms poly :=
  let '(i, s1, s2, d, rdu, mu, pcu) := a in
  let '(i', s1', s2', d', rdu', mu', pcu') := b in
  ERoms (ex_mem [i; i']) (ex_mem [s1; s1']) (ex_mem [s2; s2']) (ex_mem [d; d']) (ex_mem [rdu; rdu']) (ex_mem [mu; mu']) (ex_mem [pcu; pcu']).
(** registers x1 .. x4 and 28 zeros behind them *)
Definition ex_vm (pc : Z) (a b : entry) (x1 x2 x3 x4 : Z) (ram : list Z) : evm poly bool (list Z) :=
  {| v_cycle := 0; v_debug := None; v_rom_bits := 1; v_rom_size := 2; v_rom := ex_rom a b;
     v_regs := ex_mem ([0; x1; x2; x3; x4]%Z ++ repeat 0%Z 27); v_ram_bits := 1; v_ram_size := 2; v_ram := ex_mem ram;
     v_pc := fhe_of_word 0; v_pcp := map (fun i => Z.testbit pc (Z.of_nat i)) (seq 0 32) |}.
Definition node_eq_dec (a b : node) : {a = b} + {a <> b}.
Proof. decide equality. Defined.
Definition val_eq_dec (a b : val poly bool (list Z)) : {a = b} + {a <> b}.
Proof.
  pose proof Z.eq_dec. pose proof Nat.eq_dec. pose proof Bool.bool_dec. pose proof (list_eq_dec Z.eq_dec).
  pose proof (list_eq_dec Bool.bool_dec).
  assert (D : forall a b : bitarray poly, {a = b} + {a <> b}) by (decide equality; apply list_eq_dec; assumption).
  assert (M : forall a b : memory poly, {a = b} + {a <> b}) by (decide equality; apply list_eq_dec; assumption).
  decide equality; try assumption; try (apply list_eq_dec; decide equality).
  decide equality.
Defined.
Definition flow1 (v : evm poly bool (list Z)) : option (node -> val poly bool (list Z)) := flow_of (Ideal 1) (PropEnc.ex_env 2) v.
Definition fullb (v : evm poly bool (list Z)) : bool :=
  let r := v_rom v in
  forallb (fun m => length (m_planes m) =? 32)%nat [e_imm r; e_rs1 r; e_rs2 r; e_rd r; e_rdu r; e_mu r; e_pcu r; v_regs v; v_ram v].
Lemma fullb_ok v : fullb v = true -> full v.
Proof. unfold fullb, full. intros H. apply Forall_forall. intros m Hm. rewrite forallb_forall in H. now apply Nat.eqb_eq, H. Qed.
(** the two machines agree on every source of [n] in [edges], and differ at [n] *)
Definition differ (edges : list (node * node)) (n : node) (v1 v2 : evm poly bool (list Z)) (o1 o2 : option (node -> val poly bool (list Z))) : bool :=
  (fullb v1 && fullb v2 && (v_ram_bits v1 =? v_ram_bits v2)%nat &&
   match o1, o2 with
   | Some f1, Some f2 =>
       forallb (fun mn => if node_eq_dec (snd mn) n then (if val_eq_dec (f1 (fst mn)) (f2 (fst mn)) then true else false) else true) edges &&
       (if val_eq_dec (f1 n) (f2 n) then false else true)
   | _, _ => false
   end)%bool.
Lemma shows_more_ok edges n v1 v2 : differ edges n v1 v2 (flow1 v1) (flow1 v2) = true -> ~ determines edges n.
Proof.
  unfold differ. intros H D. apply andb_prop in H as [H H1]. apply andb_prop in H as [H H2]. apply andb_prop in H as [H3 H4].
  destruct (flow1 v1) as [f1|] eqn:E1; [|discriminate]. destruct (flow1 v2) as [f2|] eqn:E2; [|discriminate].
  apply andb_prop in H1 as [H1 H5]. rewrite forallb_forall in H1.
  assert (Q : f1 n = f2 n).
  { apply (D _ _ _ (Ideal 1) (PropEnc.ex_env 2) (PropEnc.ex_env 2) v1 v2 f1 f2); auto using PropEnc.ex_env_ok, fullb_ok; [now apply Nat.eqb_eq|].
    intros m Hm. specialize (H1 _ Hm). cbn [fst snd] in H1. destruct (node_eq_dec n n); [|contradiction].
    destruct (val_eq_dec (f1 m) (f2 m)); [assumption|discriminate]. }
  destruct (val_eq_dec (f1 n) (f2 n)); [discriminate|contradiction].
Qed.

(** C77.  Full statement: [forall n, computed n -> determines doc_edges n].  False
    for the registers and for the RAM after the cycle, whose old contents (and,
    for the RAM, the address) the graph leaves out. *)
Theorem C77_documented_refuted :
  computed REGISTERS_AFTER /\ ~ determines doc_edges REGISTERS_AFTER /\ computed RAM_AFTER /\ ~ determines doc_edges RAM_AFTER.
Proof.
  split; [eexists; cbn; tauto|]. split; [|split; [eexists; cbn; tauto|]].
  - apply (shows_more_ok _ _ (ex_vm 0 (0, 1, 2, 3, 12, 0, 1) (0, 1, 2, 3, 12, 0, 1) 0 5 6 7 [9; 9]) (ex_vm 0 (0, 1, 2, 3, 12, 0, 1) (0, 1, 2, 3, 12, 0, 1) 0 5 6 8 [9; 9]))%Z.
    vm_compute. reflexivity.
  - apply (shows_more_ok _ _ (ex_vm 0 (0, 1, 2, 3, 12, 0, 1) (0, 1, 2, 3, 12, 0, 1) 0 5 6 7 [9; 9]) (ex_vm 0 (0, 1, 2, 3, 12, 0, 1) (0, 1, 2, 3, 12, 0, 1) 0 5 6 7 [9; 8]))%Z.
    vm_compute. reflexivity.
Qed.
Print Assumptions C77_documented_refuted.

(** Every other node is determined as documented. *)
Theorem C77_documented_partial :
  forall n, computed n -> n <> REGISTERS_AFTER -> n <> RAM_AFTER -> determines doc_edges n.
Proof.
  intros n HC N1 N2 C P F A e1 e2 v1 v2 f1 f2 H1 H2 W1 W2 HB F1 F2 HA.
  refine (graph_sound A e1 e2 v1 v2 f1 f2 H1 H2 W1 W2 HB F1 F2 n HC _).
  intros m Hm. apply in_app_or in Hm as [Hm|Hm]; [auto|]. cbn in Hm. intuition congruence.
Qed.
Print Assumptions C77_documented_partial.

(** C78: with the three missing edges the graph is sound, *)
Theorem C78_sound : forall n, computed n -> determines (doc_edges ++ more_edges) n.
Proof.
  intros n HC C P F A e1 e2 v1 v2 f1 f2 H1 H2 W1 W2 HB F1 F2 HA. exact (graph_sound A e1 e2 v1 v2 f1 f2 H1 H2 W1 W2 HB F1 F2 n HC HA).
Qed.
Print Assumptions C78_sound.

(** and no edge can be left out. *)
Definition edge_eq_dec (a b : node * node) : {a = b} + {a <> b}.
Proof. decide equality; apply node_eq_dec. Defined.
Definition without (e : node * node) : list (node * node) := remove edge_eq_dec e (doc_edges ++ more_edges).
Definition witnesses : list (evm poly bool (list Z) * evm poly bool (list Z)) :=
  let vm := fun pc a x1 x2 x4 ram => ex_vm pc a a x1 x2 6 x4 ram in
  let base := (0, 1, 2, 3, 12, 0, 1)%Z in
  [ (ex_vm 0 (0, 1, 2, 3, 12, 0, 1) (8, 2, 1, 4, 13, 1, 3) 3 5 6 7 [9; 9], ex_vm 4 (0, 1, 2, 3, 12, 0, 1) (8, 2, 1, 4, 13, 1, 3) 3 5 6 7 [9; 9]);
    (vm 0 base 3 5 7 [9; 9], vm 0 (8, 2, 1, 4, 13, 1, 3) 3 5 7 [9; 9]);
    (vm 0 (0, 1, 2, 3, 12, 0, 7) 0 5 7 [9; 9], vm 0 (0, 1, 2, 3, 12, 0, 7) 4 5 7 [9; 9]);
    (vm 0 (8, 1, 2, 3, 12, 3, 0) 4 4 7 [9; 9], vm 0 (8, 1, 2, 3, 12, 3, 0) 4 5 7 [9; 9]);
    (vm 0 base 0 5 7 [9; 9], vm 0 base 0 5 8 [9; 9]);
    (vm 0 (0, 1, 2, 3, 12, 3, 3) 0 5 7 [9; 9], vm 0 (4, 1, 2, 3, 12, 3, 3) 0 5 7 [9; 9]);
    (vm 0 (0, 1, 2, 3, 12, 3, 3) 0 5 7 [9; 8], vm 0 (4, 1, 2, 3, 12, 3, 3) 0 5 7 [9; 8]);
    (vm 0 (0, 1, 2, 3, 12, 1, 1) 0 5 7 [9; 9], vm 0 (1, 1, 2, 3, 12, 1, 1) 0 5 7 [9; 9]);
    (vm 0 base 0 5 7 [9; 9], vm 0 base 0 5 7 [8; 9]);
    (vm 0 base 0 5 7 [9; 9], vm 0 base 0 5 7 [9; 8]);
    (vm 0 base 0 5 7 [9; 9], vm 4 base 0 5 7 [9; 9]);
    (vm 0 base 0 5 7 [9; 9], vm 0 (0, 1, 2, 4, 12, 0, 1) 0 5 7 [9; 9]);
    (vm 0 base 0 5 7 [9; 9], vm 0 (0, 1, 2, 3, 13, 0, 1) 0 5 7 [9; 9]);
    (vm 0 base 0 5 7 [9; 9], vm 0 (0, 1, 2, 3, 12, 3, 1) 0 5 7 [9; 9]);
    (vm 0 (8, 1, 2, 3, 12, 0, 1) 0 5 7 [9; 9], vm 0 (8, 1, 2, 3, 12, 0, 3) 0 5 7 [9; 9]) ]%Z.
Definition runs := map (fun w => (w, (flow1 (fst w), flow1 (snd w)))) witnesses.
Theorem C78_exact :
  forall m n, In (m, n) (doc_edges ++ more_edges) -> ~ determines (without (m, n)) n.
Proof.
  assert (H : (let rs := runs in forallb (fun e => existsb (fun w => differ (without e) (snd e) (fst (fst w)) (snd (fst w)) (fst (snd w)) (snd (snd w))) rs)
                (doc_edges ++ more_edges)) = true) by (vm_compute; reflexivity).
  cbv zeta in H. rewrite forallb_forall in H. intros m n HE. specialize (H _ HE). apply existsb_exists in H as (w & Hw & H).
  unfold runs in Hw. apply in_map_iff in Hw as (p & <- & _). eapply shows_more_ok. exact H.
Qed.
Print Assumptions C78_exact.

(** In particular the next pc does not depend on the RAM: machines that differ in it
    only continue at the same pc. *)
Theorem C78_next_pc :
  forall C P F (A : alg C P F) sk sk' e e' chk chk' v1 v2 w1 w2, env_ok e -> env_ok e' -> full v1 -> full v2 ->
    v_ram_bits v1 = v_ram_bits v2 -> v_rom v1 = v_rom v2 -> v_regs v1 = v_regs v2 ->
    ecycle A sk e chk v1 = Some w1 -> ecycle A sk' e' chk' v2 = Some w2 -> v_pcp w1 = v_pcp w2 -> v_pc w1 = v_pc w2.
Proof.
  intros C P F A sk sk' e e' chk chk' v1 v2 w1 w2 He He' W1 W2 HB HR HG E1 E2 HP.
  destruct (C77_recorded _ _ _ _ _ _ _ _ _ E1) as (f1 & F1 & P1 & R1 & M1 & G1 & A1 & _).
  destruct (C77_recorded _ _ _ _ _ _ _ _ _ E2) as (f2 & F2 & P2 & R2 & M2 & G2 & A2 & _).
  assert (D : forall n, computed n -> (forall m, In (m, n) (doc_edges ++ more_edges) -> f1 m = f2 m) -> f1 n = f2 n).
  { intros n HC. exact (C78_sound n HC C P F A e e' v1 v2 f1 f2 He He' W1 W2 HB F1 F2). }
  assert (SP : f1 PC = f2 PC) by congruence. assert (SR : f1 ROM = f2 ROM) by congruence. assert (SG : f1 REGISTERS = f2 REGISTERS) by congruence.
  assert (go : forall n (l : list node), computed n -> (forall m, In (m, n) (doc_edges ++ more_edges) -> In m l) -> Forall (fun m => f1 m = f2 m) l -> f1 n = f2 n).
  { intros n l HC HI HF. apply D; auto. intros m Hm. rewrite Forall_forall in HF. auto. }
  assert (S1 : f1 IMM = f2 IMM) by (apply (go _ [PC; ROM]); [eexists; cbn; tauto|cbn; intuition congruence|auto]).
  assert (S2 : f1 RS1_INDEX = f2 RS1_INDEX) by (apply (go _ [PC; ROM]); [eexists; cbn; tauto|cbn; intuition congruence|auto]).
  assert (S3 : f1 RS2_INDEX = f2 RS2_INDEX) by (apply (go _ [PC; ROM]); [eexists; cbn; tauto|cbn; intuition congruence|auto]).
  assert (S4 : f1 PCU = f2 PCU) by (apply (go _ [PC; ROM]); [eexists; cbn; tauto|cbn; intuition congruence|auto]).
  assert (S5 : f1 RS1 = f2 RS1) by (apply (go _ [RS1_INDEX; REGISTERS]); [eexists; cbn; tauto|cbn; intuition congruence|auto]).
  assert (S6 : f1 RS2 = f2 RS2) by (apply (go _ [RS2_INDEX; REGISTERS]); [eexists; cbn; tauto|cbn; intuition congruence|auto]).
  assert (S7 : f1 NEW_PC_VAL = f2 NEW_PC_VAL) by (apply (go _ [IMM; RS1; RS2; PC; PCU]); [eexists; cbn; tauto|cbn; intuition congruence|auto 8]).
  assert (S8 : f1 PC_AFTER = f2 PC_AFTER) by (apply (go _ [NEW_PC_VAL]); [eexists; cbn; tauto|cbn; intuition congruence|auto]).
  rewrite A1, A2 in S8. now injection S8.
Qed.
Print Assumptions C78_next_pc.
(** a load from different memories: the registers differ, the next pc does not *)
Example C78_case :
  exists v1 v2 w1 w2, full v1 /\ full v2 /\ v_rom v1 = v_rom v2 /\ v_regs v1 = v_regs v2 /\
    ecycle (Ideal 1) None (PropEnc.ex_env 2) true v1 = Some w1 /\ ecycle (Ideal 1) None (PropEnc.ex_env 2) true v2 = Some w2 /\
    v_pcp w1 = v_pcp w2 /\ dec_regs w1 <> dec_regs w2 /\ dec_pc w1 = dec_pc w2.
Proof.
  exists (ex_vm 0 (0, 1, 2, 3, 26, 0, 1) (0, 1, 2, 3, 26, 0, 1) 0 5 6 7 [9; 9])%Z, (ex_vm 0 (0, 1, 2, 3, 26, 0, 1) (0, 1, 2, 3, 26, 0, 1) 0 5 6 7 [8; 9])%Z.
  do 2 eexists. split; [apply fullb_ok; vm_compute; reflexivity|]. split; [apply fullb_ok; vm_compute; reflexivity|].
  split; [reflexivity|]. split; [reflexivity|]. split; [vm_compute; reflexivity|]. split; [vm_compute; reflexivity|].
  split; [reflexivity|]. split; [vm_compute; discriminate|vm_compute; reflexivity].
Qed.
