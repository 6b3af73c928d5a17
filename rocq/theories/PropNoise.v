(** * Noise: C72, C73 *)
Require Import ZArith List Bool Lia.
Require Import Verif.Word Verif.Isa Verif.Codec Verif.EvalPlain Verif.DebugVM Verif.Bdd Verif.Glwe Verif.Par Verif.EncMem Verif.MemSpec
  Verif.EncVM Verif.EncSpec Verif.EncFacts Verif.EncCycle Verif.EncTrack Verif.EncLoad Verif.EncRun
  Verif.Noise Verif.NoiseFacts Verif.NoiseMem Verif.NoiseEval Verif.NoiseVM Verif.NoiseWorst.
Require Verif.PropEnc.
Import ListNotations.
Open Scope Z_scope.

(** C72.  [N] is any implementation of the library whose primitives keep within
    the noise bounds [z]; [v] are ciphertexts, with errors within [b], of a
    machine [w] loaded with a program.  If the errors after the whole run are
    still within the tolerance of a cycle's bootstraps, the run succeeds, the
    noiseless run does too, and the ciphertexts decrypt to its registers, RAM
    and pc. *)
Theorem C72_noise_budget :
  forall (C P F : Type) log t z (phase : C -> list Z) (fphase : F -> list Z) (pbit : P -> bool) (N : alg C P F)
    dbg debug rom_words rb mb ws ram w b v chk es,
    noisy log t z phase fphase pbit N -> torus_ok t ->
    fits debug rom_words rb mb ws ram -> boots log dbg debug rom_words mb ws ram w ->
    encrypts log t phase fphase pbit b v w ->
    Forall env_ok es -> Z.of_nat (length es) < 4294967296 ->
    b_pc b <= t_tau t -> budget log t z rb mb (after log z mb (length es) b) ->
    exists w' v' regs mem, ecycles (Ideal log) None chk es w = Some w' /\ ecycles N None chk es v = Some v' /\
      dec_regs w' = Some regs /\ dec_regs (open_vm t phase fphase pbit v') = Some regs /\
      dec_ram w' = Some mem /\ dec_ram (open_vm t phase fphase pbit v') = Some mem /\
      dec_pc (open_vm t phase fphase pbit v') = dec_pc w'.
Proof.
  intros C P F log t z phase fphase pbit N dbg debug rom_words rb mb ws ram w b v chk es HN T Fi B En He Hl Hp Hb.
  destruct (boots_shows _ _ _ _ _ _ _ _ _ Fi B) as (r & _ & S & _).
  pose proof (encrypts_nshows log t phase fphase pbit rb mb b v w _ En S) as NS.
  assert (Cy : x_cycle (xstart rom_words (2 ^ mb) r ram) = 0) by reflexivity.
  destruct (run_succeeds log None false rb mb chk es ltac:(left; auto) He w _ S (or_introl eq_refl)) as (w' & Ew & _).
  { right. rewrite Cy. lia. }
  pose proof (run_shows log None false rb mb chk es ltac:(left; auto) He w _ w' S Ew) as S'.
  destruct (n_cycles log t z phase fphase pbit N HN rb mb chk es b v _ NS He Hp Hb) as (v' & Ev & NS').
  { intros _. rewrite Cy. lia. }
  destruct (budget_open log t z phase fphase pbit N HN rb mb _ T Hb) as (O1 & O2 & O3 & O4).
  pose proof (open_vm_ok log t z phase fphase pbit N HN rb mb _ v' _ T NS' O1 O2 O3 O4) as SO.
  exists w', v'. do 2 eexists. split; [exact Ew|]. split; [exact Ev|].
  split; [exact (shows_regs _ _ _ _ _ S')|]. split; [exact (shows_regs _ _ _ _ _ SO)|].
  split; [exact (shows_ram _ _ _ _ _ S')|]. split; [exact (shows_ram _ _ _ _ _ SO)|].
  now rewrite (shows_pc _ _ _ _ _ S'), (shows_pc _ _ _ _ _ SO).
Qed.
Print Assumptions C72_noise_budget.

(** The hypothesis on the implementation can be met for any noise bounds: *)
Theorem C72_noisy_exists : forall log t z, torus_ok t -> noise_pos z ->
  exists (phase : list Z -> list Z) (fphase : list Z -> list Z) (pbit : bool -> bool) N,
    noisy log t z phase fphase pbit N.
Proof. intros. do 4 eexists. now apply worst_noisy. Qed.
Print Assumptions C72_noisy_exists.

(** every primitive moves every coefficient by one step; a message is 64 steps
    wide and takes four values (TorusPrecision(2)) *)
Definition ex_torus : torus := Torus 256 64 31.
Definition ex_noise : noise := Noise 1 1 1 1 1 1 1 1 1 1 1 1.
Definition ex_N : alg (list Z) bool (list Z) := Worst 3 ex_torus ex_noise.
Definition ex_code : list instr := [Isa.OPI ADDI 1 0 5; Isa.OPI ADDI 2 1 6].
Definition ex_w : option (evm poly bool (list Z)) :=
  do p <- parser_add_all true parser_new (map encode ex_code); load 3 true false 2 4 p [1; 2; 3; 4].
Lemma ex_w_boots w : ex_w = Some w -> boots 3 true false 2 2 (map encode ex_code) [1; 2; 3; 4] w.
Proof. unfold ex_w, boots. destruct (parser_add_all _ _ _) as [p|]; [|discriminate]. eauto. Qed.
Lemma ex_fits : fits false 2 1 2 (map encode ex_code) [1; 2; 3; 4].
Proof. PropEnc.fits_tac. Qed.
Lemma ex_torus_ok : torus_ok ex_torus.
Proof. vm_compute. intuition discriminate. Qed.
Lemma ex_noise_pos : noise_pos ex_noise.
Proof. vm_compute. intuition discriminate. Qed.
Definition ex_open : evm poly bool (list Z) -> evm poly bool (list Z) :=
  open_vm ex_torus (fit (ring 3)) (fit 32) (fun b : bool => b).
Example C72_case :
  noisy 3 ex_torus ex_noise (fit (ring 3)) (fit 32) (fun b : bool => b) ex_N /\ torus_ok ex_torus /\
  fits false 2 1 2 (map encode ex_code) [1; 2; 3; 4] /\ Forall env_ok (repeat (PropEnc.ex_env 2) 1) /\
  budget 3 ex_torus ex_noise 1 2 (after 3 ex_noise 2 1 (Bounds 0 0 0 0)) /\
  exists w v', boots 3 true false 2 2 (map encode ex_code) [1; 2; 3; 4] w /\
    encrypts 3 ex_torus (fit (ring 3)) (fit 32) (fun b : bool => b) (Bounds 0 0 0 0) (exact_vm ex_torus w) w /\
    ecycles ex_N None true (repeat (PropEnc.ex_env 2) 1) (exact_vm ex_torus w) = Some v' /\
    dec_ram (ex_open v') = Some [1; 2; 3; 4] /\ dec_pc (ex_open v') = 4 /\
    v_regs v' <> exact_mem ex_torus (open_mem ex_torus (fit (ring 3)) (v_regs v')).
Proof.
  split; [exact (worst_noisy _ _ _ ex_torus_ok ex_noise_pos)|]. split; [exact ex_torus_ok|]. split; [exact ex_fits|].
  split; [apply PropEnc.ex_envs|]. split; [vm_compute; intuition discriminate|].
  destruct ex_w as [w|] eqn:E; [|vm_compute in E; discriminate].
  pose proof (ex_w_boots _ E) as B. destruct (boots_shows _ _ _ _ _ _ _ _ _ ex_fits B) as (r & _ & S & _).
  pose proof (exact_encrypts ex_torus _ _ _ _ _ S) as En. clear S.
  exists w. destruct (ecycles ex_N None true (repeat (PropEnc.ex_env 2) 1) (exact_vm ex_torus w)) as [v'|] eqn:R;
    vm_compute in E; injection E as <-; vm_compute in R; [|discriminate].
  exists v'. split; [exact B|]. split; [exact En|]. split; [reflexivity|]. injection R as <-.
  split; [vm_compute; reflexivity|]. split; [vm_compute; reflexivity|]. vm_compute. discriminate.
Qed.

Definition ex_differ : bool :=
  match ex_w with
  | Some w =>
      match ecycles (Ideal 3) None true (repeat (PropEnc.ex_env 2) 3) w,
            ecycles ex_N None true (repeat (PropEnc.ex_env 2) 3) (exact_vm ex_torus w) with
      | Some w', Some v' =>
          match dec_regs w', dec_regs (ex_open v') with
          | Some a, Some b => (nth 3 a 0 =? 0) && (nth 3 b 0 =? 0xFFFFFFFF)
          | _, _ => false
          end
      | _, _ => false
      end
  | None => false
  end.
Lemma ex_differ_true : ex_differ = true.
Proof. vm_compute. reflexivity. Qed.

(** C73.  Full statement: a run whose first cycle is within the tolerance keeps
    decrypting correctly, however long it is.  False: a cycle moves the entries
    of the registers and of RAM forth and back without ever renewing them, so
    their errors add up.  Here x3, which no instruction mentions, is lost after
    three cycles. *)
Theorem C73_unbounded_runs_refuted :
  exists log t z (phase fphase : list Z -> list Z) (pbit : bool -> bool) (N : alg (list Z) bool (list Z))
    rom_words rb mb ws ram w b v es w' v',
    noisy log t z phase fphase pbit N /\ torus_ok t /\
    fits false rom_words rb mb ws ram /\ boots log true false rom_words mb ws ram w /\
    encrypts log t phase fphase pbit b v w /\ Forall env_ok es /\
    budget log t z rb mb (after log z mb 1 b) /\ b_pc b <= t_tau t /\
    ecycles (Ideal log) None true es w = Some w' /\ ecycles N None true es v = Some v' /\
    dec_regs (open_vm t phase fphase pbit v') <> dec_regs w'.
Proof.
  pose proof ex_differ_true as D. unfold ex_differ in D.
  destruct ex_w as [w|] eqn:E; [|discriminate].
  pose proof (ex_w_boots _ E) as B. destruct (boots_shows _ _ _ _ _ _ _ _ _ ex_fits B) as (r & _ & S & _).
  pose proof (exact_encrypts ex_torus _ _ _ _ _ S) as En. clear S E.
  set (es := repeat (PropEnc.ex_env 2) 3) in *.
  assert (He : Forall env_ok es) by apply PropEnc.ex_envs. clearbody es.
  destruct (ecycles (Ideal 3) None true es w) as [w'|] eqn:Q; [|discriminate].
  destruct (ecycles ex_N None true es (exact_vm ex_torus w)) as [v'|] eqn:R; [|discriminate].
  exists 3%nat, ex_torus, ex_noise, (fit (ring 3)), (fit 32), (fun b : bool => b), ex_N, 2%nat, 1%nat, 2%nat,
    (map encode ex_code), [1; 2; 3; 4], w, (Bounds 0 0 0 0), (exact_vm ex_torus w), es, w', v'.
  split; [exact (worst_noisy _ _ _ ex_torus_ok ex_noise_pos)|]. split; [exact ex_torus_ok|].
  split; [exact ex_fits|]. split; [exact B|]. split; [exact En|]. split; [exact He|].
  split; [vm_compute; intuition discriminate|]. split; [vm_compute; discriminate|].
  split; [exact Q|]. split; [exact R|].
  fold ex_open. intro Eq. rewrite Eq in D. destruct (dec_regs w') as [a|]; [|discriminate].
  apply andb_prop in D as [D1 D2]. apply Z.eqb_eq in D1, D2. rewrite D1 in D2. discriminate.
Qed.
Print Assumptions C73_unbounded_runs_refuted.
