(** Proofs about schedules and data flow of a whole cycle (C76, C77). *)
Require Import ZArith List Bool Lia.
Require Import Verif.Word Verif.ListFacts Verif.Codec Verif.EvalPlain Verif.DebugVM Verif.Bdd Verif.Glwe Verif.Par Verif.ParFacts Verif.EncMem Verif.MemOps Verif.MemClient Verif.MemSeq
  Verif.Prepare Verif.PrepFacts Verif.EncEval Verif.EncVM Verif.EncSpec Verif.RunFacts Verif.Flow.
Require Verif.PropMem.
Import ListNotations.
Open Scope nat_scope.

Definition wide {C} (m : memory C) : Prop := length (m_planes m) = 32.
(** every memory of the VM has 32 planes *)
Definition full {C P F} (v : evm C P F) : Prop :=
  Forall wide [e_imm (v_rom v); e_rs1 (v_rom v); e_rs2 (v_rom v); e_rd (v_rom v); e_rdu (v_rom v); e_mu (v_rom v); e_pcu (v_rom v); v_regs v; v_ram v].

Ltac sd := solve [assumption | lia | auto].

Section Dep.
Context {C P F : Type} (A : alg C P F).

Lemma region_len {B} t o (g : nat -> B -> option B) cells out :
  par_order t (length cells) o -> region t o g cells = Some out -> length out = length cells.
Proof.
  intros H E. unfold region in E. destruct (thread_tasks t (length cells)); [|discriminate].
  rewrite run_tasks_perm in E by (eapply par_order_perm; eauto). now apply mapi_o_nth in E as [L _].
Qed.
Lemma stateless_wide t o (m m' : memory C) a k x : par_order t 32 o -> wide m ->
  mem_read_stateless A t o m a k = Some (m', x) -> wide m'.
Proof.
  unfold wide, mem_read_stateless. intros H W E. inv_some E. injection E as <- _. cbn [m_planes].
  rewrite map_length. match goal with R : region _ _ _ _ = Some _ |- _ => apply region_len in R end;
    unfold with_out in *; rewrite map_length in *; [lia|]. now rewrite W.
Qed.
Lemma statefull_wide t o (m m' : memory C) a k x : par_order t 32 o -> wide m ->
  mem_read_statefull A t o m a k = Some (m', x) -> wide m'.
Proof.
  unfold wide, mem_read_statefull. intros H W E. inv_some E. injection E as <- _. cbn [m_planes].
  rewrite map_length. match goal with R : region _ _ _ _ = Some _ |- _ => apply region_len in R end;
    unfold with_out in *; rewrite map_length in *; [lia|]. now rewrite W.
Qed.
Lemma rev_wide t o (m m' : memory C) w a k : par_order t 32 o -> wide m ->
  mem_read_statefull_rev A t o m w a k = Some m' -> wide m'.
Proof.
  unfold wide, mem_read_statefull_rev. intros H W E. inv_some E. injection E as <-. cbn [m_planes].
  match goal with R : region _ _ _ _ = Some _ |- _ => apply region_len in R end; [lia|]. now rewrite W.
Qed.
Lemma write_wide t o (m m' : memory C) w a k : par_order t 32 o -> wide m ->
  mem_write A t o m w a k = Some m' -> wide m'.
Proof.
  unfold wide, mem_write. intros H W E. inv_some E. injection E as <-. cbn [m_planes].
  match goal with R : region _ _ _ _ = Some _ |- _ => apply region_len in R end; [lia|]. now rewrite W.
Qed.
Lemma zero_wide t o (m m' : memory C) a : par_order t 32 o -> wide m ->
  mem_zero A t o m a = Some m' -> wide m'.
Proof.
  unfold wide, mem_zero. intros H W E. inv_some E. injection E as <-. cbn [m_planes].
  match goal with R : region _ _ _ _ = Some _ |- _ => apply region_len in R end; [lia|]. now rewrite W.
Qed.

Lemma prepare_det t o res bits counts :
  length res = length counts -> length bits = length counts ->
  (forall r, In r res -> length r = 32) -> forallb (fun c => c <=? 32) counts = true ->
  par_order t (list_sum counts) o ->
  prepare_multiple A t o res bits counts = Some (map (fun wc => prepare_custom A (fst wc) (snd wc)) (combine bits counts)).
Proof.
  intros L1 L2 H32 Hc HP. destruct (prepare_multiple_ok A t o res bits counts L1 L2 H32 Hc HP) as (out & E & LO & N).
  rewrite E. f_equal. apply nth_ext with (d := []) (d' := []).
  - rewrite map_length, combine_length. lia.
  - intros i Hi. rewrite LO in Hi.
    destruct (nth_error_lt _ counts i Hi) as [c Hc']. destruct (nth_error_lt _ bits i) as [w Hw]; [lia|].
    rewrite (nth_error_nth _ _ _ (N i c w Hc' Hw)). symmetry. apply nth_error_nth.
    now rewrite nth_error_map, nth_error_combine, Hw, Hc'.
Qed.
Lemma fresh_32 n r : In r (fresh A n) -> length r = 32.
Proof. intros H. apply repeat_spec in H. subst. apply repeat_length. Qed.

Variable sk : option (secret C P F).

Lemma env_order e i : env_ok e -> i < 15 -> i <> 7 -> i <> 10 -> par_order (n_threads e) 32 (sched e i).
Proof. intros (H & _). apply H. Qed.

(** ** schedules *)
Section Two.
Variables (e e' : env).
Hypotheses (He : env_ok e) (He' : env_ok e').
Lemma same_stateless i (m : memory C) a k : i < 15 -> i <> 7 -> i <> 10 -> wide m ->
  mem_read_stateless A (n_threads e) (sched e i) m a k = mem_read_stateless A (n_threads e') (sched e' i) m a k.
Proof.
  intros H1 H2 H3 W. apply (PropMem.C34_schedule_irrelevant C P F A _ _ _ _ m a k (a_fzero A) 0); rewrite W; now apply env_order.
Qed.
Lemma same_statefull i (m : memory C) a k : i < 15 -> i <> 7 -> i <> 10 -> wide m ->
  mem_read_statefull A (n_threads e) (sched e i) m a k = mem_read_statefull A (n_threads e') (sched e' i) m a k.
Proof.
  intros H1 H2 H3 W. apply (PropMem.C34_schedule_irrelevant C P F A _ _ _ _ m a k (a_fzero A) 0); rewrite W; now apply env_order.
Qed.
Lemma same_rev i (m : memory C) w a k : i < 15 -> i <> 7 -> i <> 10 -> wide m ->
  mem_read_statefull_rev A (n_threads e) (sched e i) m w a k = mem_read_statefull_rev A (n_threads e') (sched e' i) m w a k.
Proof.
  intros H1 H2 H3 W. apply (PropMem.C34_schedule_irrelevant C P F A _ _ _ _ m a k w 0); rewrite W; now apply env_order.
Qed.
Lemma same_write i (m : memory C) w a k : i < 15 -> i <> 7 -> i <> 10 -> wide m ->
  mem_write A (n_threads e) (sched e i) m w a k = mem_write A (n_threads e') (sched e' i) m w a k.
Proof.
  intros H1 H2 H3 W. apply (PropMem.C34_schedule_irrelevant C P F A _ _ _ _ m a k w 0); rewrite W; now apply env_order.
Qed.
Lemma same_zero i (m : memory C) a : i < 15 -> i <> 7 -> i <> 10 -> wide m ->
  mem_zero A (n_threads e) (sched e i) m a = mem_zero A (n_threads e') (sched e' i) m a.
Proof.
  intros H1 H2 H3 W. apply (PropMem.C34_schedule_irrelevant C P F A _ _ _ _ m [] 0 (a_fzero A) a); rewrite W; now apply env_order.
Qed.
Lemma same_components d r pcp :
  Forall wide [e_imm r; e_rs1 r; e_rs2 r; e_rd r; e_rdu r; e_mu r; e_pcu r] ->
  read_components A sk e d r pcp = read_components A sk e' d r pcp.
Proof.
  intros W. do 7 (inversion_clear W as [|? ? W1 W']; rename W' into W; revert W1). intros W1 W2 W3 W4 W5 W6 W7.
  unfold read_components.
  rewrite (same_stateless 0), (same_stateless 1), (same_stateless 2), (same_stateless 3), (same_stateless 4), (same_stateless 5), (same_stateless 6) by sd.
  repeat match goal with |- context [match mem_read_stateless A ?t ?o ?m ?a ?k with _ => _ end] =>
    destruct (mem_read_stateless A t o m a k) as [[? ?]|]; [|reflexivity] end.
  change (bit_len_pred (Z.of_nat (length RD_RV32I))) with (Some 5). change (bit_len_pred (Z.of_nat (length RAM_LIST))) with (Some 2). cbv iota.
  rewrite !prepare_det; [reflexivity|..]; try reflexivity; try apply fresh_32; [apply He'|apply He].
Qed.
Lemma same_regs d regs p : wide regs -> read_regs A sk e d regs p = read_regs A sk e' d regs p.
Proof.
  intros W. unfold read_regs. rewrite (same_stateless 8) by sd.
  destruct (mem_read_stateless A (n_threads e') (sched e' 8) regs (p_rs1 p) 0) as [[r1 v1]|] eqn:E; [|reflexivity].
  apply stateless_wide in E; [|apply env_order; sd|auto]. rewrite (same_stateless 9) by sd.
  destruct (mem_read_stateless A (n_threads e') (sched e' 9) r1 (p_rs2 p) 0) as [[r2 v2]|]; [|reflexivity].
  rewrite !prepare_det; [reflexivity|..]; try reflexivity; try apply fresh_32; [apply He'|apply He].
Qed.
Lemma same_ram d ram bits p rs1 : wide ram -> read_ram_enc A sk e d ram bits p rs1 = read_ram_enc A sk e' d ram bits p rs1.
Proof.
  intros W. unfold read_ram_enc. destruct (prepare_low A _ _); [|reflexivity]. now rewrite (same_statefull 11) by sd.
Qed.
Lemma same_update_regs ops d regs p rs1 rs2 pcp x : wide regs ->
  update_regs A sk e ops d regs p rs1 rs2 pcp x = update_regs A sk e' ops d regs p rs1 rs2 pcp x.
Proof.
  intros W. unfold update_regs. destruct (eval_all _ _ _); [|reflexivity]. destruct (bit_len_pred _); [|reflexivity].
  destruct (blind_select _ _ _ _ _); [|reflexivity]. destruct (prepare_low _ _ _) as [q|]; [|reflexivity].
  rewrite (same_write 12) by sd.
  destruct (mem_write A (n_threads e') (sched e' 12) regs _ (p_rd p) 0) as [r1|] eqn:E; [|reflexivity].
  apply write_wide in E; [|apply env_order; sd|auto]. now rewrite (same_zero 13) by sd.
Qed.
Lemma same_update_ram d ram n p x y pa : wide ram ->
  update_ram_enc A sk e d ram n p x y pa = update_ram_enc A sk e' d ram n p x y pa.
Proof.
  intros W. unfold update_ram_enc. destruct (eval_all _ _ _); [|reflexivity]. destruct (bit_len_pred _); [|reflexivity].
  destruct (blind_select _ _ _ _ _); [|reflexivity]. destruct (prepare_low _ _ _) as [q|]; [|reflexivity].
  now rewrite (same_rev 14) by sd.
Qed.
End Two.

Lemma components_wide e d r pcp r' d' p : env_ok e -> Forall wide [e_imm r; e_rs1 r; e_rs2 r; e_rd r; e_rdu r; e_mu r; e_pcu r] ->
  read_components A sk e d r pcp = Some (r', d', p) ->
  Forall wide [e_imm r'; e_rs1 r'; e_rs2 r'; e_rd r'; e_rdu r'; e_mu r'; e_pcu r'].
Proof.
  intros He W. do 7 (inversion_clear W as [|? ? W1 W']; rename W' into W; revert W1). intros W1 W2 W3 W4 W5 W6 W7.
  unfold read_components.
  repeat match goal with |- context [match mem_read_stateless A ?t ?o ?m ?a ?k with _ => _ end] =>
    let E := fresh "E" in destruct (mem_read_stateless A t o m a k) as [[? ?]|] eqn:E; [|discriminate];
    apply stateless_wide in E; [|apply env_order; sd|assumption] end.
  change (bit_len_pred (Z.of_nat (length RD_RV32I))) with (Some 5). change (bit_len_pred (Z.of_nat (length RAM_LIST))) with (Some 2). cbv iota.
  destruct (prepare_multiple _ _ _ _ _ _) as [ps|]; [|discriminate].
  destruct (shadow _ _ _ _); [|discriminate].
  do 8 (destruct ps as [|? ps]; try discriminate). intros Q. injection Q as <- _ _. cbn.
  repeat (apply Forall_cons; [assumption|]). apply Forall_nil.
Qed.
Lemma regs_wide e d regs p regs' d' x q1 q2 : env_ok e -> wide regs ->
  read_regs A sk e d regs p = Some (regs', d', x, q1, q2) -> wide regs'.
Proof.
  intros He W. unfold read_regs.
  destruct (mem_read_stateless A (n_threads e) (sched e 8) regs (p_rs1 p) 0) as [[r1 v1]|] eqn:E; [|discriminate].
  apply stateless_wide in E; [|apply env_order; sd|auto].
  destruct (mem_read_stateless A (n_threads e) (sched e 9) r1 (p_rs2 p) 0) as [[r2 v2]|] eqn:E2; [|discriminate].
  apply stateless_wide in E2; [|apply env_order; sd|auto].
  destruct (prepare_multiple _ _ _ _ _ _) as [ps|]; [|discriminate]. destruct (shadow _ _ _ _); [|discriminate].
  do 3 (destruct ps as [|? ps]; try discriminate). intros Q. injection Q as <- _ _ _ _. assumption.
Qed.
Lemma ram_wide e d ram bits p rs1 ram' d' x pa : env_ok e -> wide ram ->
  read_ram_enc A sk e d ram bits p rs1 = Some (ram', d', x, pa) -> wide ram'.
Proof.
  intros He W. unfold read_ram_enc. destruct (prepare_low A _ _) as [q|]; [|discriminate].
  destruct (mem_read_statefull _ _ _ _ _ _) as [[m' v]|] eqn:E; [|discriminate].
  apply statefull_wide in E; [|apply env_order; sd|auto].
  destruct (shadow _ _ _ _); [|discriminate]. intros Q. injection Q as <- _ _ _. assumption.
Qed.
Lemma update_regs_wide e ops d regs p rs1 rs2 pcp x regs' d' : env_ok e -> wide regs ->
  update_regs A sk e ops d regs p rs1 rs2 pcp x = Some (regs', d') -> wide regs'.
Proof.
  intros He W. unfold update_regs. destruct (eval_all _ _ _); [|discriminate]. destruct (bit_len_pred _); [|discriminate].
  destruct (blind_select _ _ _ _ _); [|discriminate]. destruct (prepare_low _ _ _) as [q|]; [|discriminate].
  destruct (mem_write _ _ _ _ _ _ _) as [r1|] eqn:E; [|discriminate].
  apply write_wide in E; [|apply env_order; sd|auto].
  destruct (mem_zero _ _ _ _ _) as [r2|] eqn:E2; [|discriminate].
  apply zero_wide in E2; [|apply env_order; sd|auto].
  destruct (shadow _ _ _ _); [|discriminate]. intros Q. injection Q as <- _. assumption.
Qed.
Lemma update_ram_wide e d ram n p x y pa ram' d' : env_ok e -> wide ram ->
  update_ram_enc A sk e d ram n p x y pa = Some (ram', d') -> wide ram'.
Proof.
  intros He W. unfold update_ram_enc. destruct (eval_all _ _ _); [|discriminate]. destruct (bit_len_pred _); [|discriminate].
  destruct (blind_select _ _ _ _ _); [|discriminate]. destruct (prepare_low _ _ _) as [q|]; [|discriminate].
  destruct (mem_read_statefull_rev _ _ _ _ _ _ _) as [r1|] eqn:E; [|discriminate].
  apply rev_wide in E; [|apply env_order; sd|auto].
  destruct (shadow _ _ _ _); [|discriminate]. intros Q. injection Q as <- _. assumption.
Qed.

Lemma full_parts (v : evm C P F) : full v ->
  Forall wide [e_imm (v_rom v); e_rs1 (v_rom v); e_rs2 (v_rom v); e_rd (v_rom v); e_rdu (v_rom v); e_mu (v_rom v); e_pcu (v_rom v)] /\ wide (v_regs v) /\ wide (v_ram v).
Proof.
  unfold full. intros H. change ([?a;?b;?c;?d;?f;?g;?h;?i;?j]) with ([a;b;c;d;f;g;h] ++ [i;j]) in H.
  apply Forall_app in H as [H1 H2]. inversion_clear H2 as [|? ? A1 H3]. inversion_clear H3. auto.
Qed.
Lemma full_intro (v : evm C P F) : 
  Forall wide [e_imm (v_rom v); e_rs1 (v_rom v); e_rs2 (v_rom v); e_rd (v_rom v); e_rdu (v_rom v); e_mu (v_rom v); e_pcu (v_rom v)] -> wide (v_regs v) -> wide (v_ram v) -> full v.
Proof.
  intros H1 H2 H3. unfold full. change ([?a;?b;?c;?d;?f;?g;?h;?i;?j]) with ([a;b;c;d;f;g;h] ++ [i;j]).
  apply Forall_app. split; [assumption|]. repeat constructor; assumption.
Qed.

Lemma cycle_inv e chk v v' : ecycle A sk e chk v = Some v' ->
  exists pcp rom d1 p regs1 d2 x rs1 rs2 ram1 d3 loaded pa regs2 d4 ram2 d5 pc d6,
    (if (v_cycle v =? 0)%Z then Some (v_pcp v) else prepare_low A (v_pc v) (v_rom_bits v + 2)) = Some pcp /\
    read_components A sk e (v_debug v) (v_rom v) pcp = Some (rom, d1, p) /\
    read_regs A sk e d1 (v_regs v) p = Some (regs1, d2, x, rs1, rs2) /\
    read_ram_enc A sk e d2 (v_ram v) (v_ram_bits v) p rs1 = Some (ram1, d3, loaded, pa) /\
    update_regs A sk e RD_RV32I d3 regs1 p rs1 rs2 pcp loaded = Some (regs2, d4) /\
    update_ram_enc A sk e d4 ram1 (v_ram_size v) p x loaded pa = Some (ram2, d5) /\
    update_pc_stage A sk d5 p rs1 rs2 pcp = Some (pc, d6) /\
    v_rom v' = rom /\ v_regs v' = regs2 /\ v_ram v' = ram2 /\ v_pc v' = pc /\ v_pcp v' = pcp.
Proof.
  unfold ecycle. intros E.
  destruct (if (v_cycle v =? 0)%Z then Some (v_pcp v) else _) as [pcp|] eqn:E0; [|discriminate].
  destruct (read_components _ _ _ _ _ _) as [[[rom d1] p]|] eqn:E1; [|discriminate].
  destruct (read_regs _ _ _ _ _ _) as [[[[[regs1 d2] x] rs1] rs2]|] eqn:E2; [|discriminate].
  destruct (read_ram_enc _ _ _ _ _ _ _ _) as [[[[ram1 d3] loaded] pa]|] eqn:E3; [|discriminate].
  destruct (update_regs _ _ _ _ _ _ _ _ _ _ _) as [[regs2 d4]|] eqn:E4; [|discriminate].
  destruct (update_ram_enc _ _ _ _ _ _ _ _ _ _) as [[ram2 d5]|] eqn:E5; [|discriminate].
  destruct (update_pc_stage _ _ _ _ _ _ _) as [[pc d6]|] eqn:E6; [|discriminate].
  destruct (negb chk || _)%bool; [|discriminate]. injection E as <-. cbn [v_rom v_regs v_ram v_pc v_pcp].
  do 19 eexists. repeat (split; [first [eassumption|reflexivity]|]). reflexivity.
Qed.

Lemma same_cycle e e' chk v : env_ok e -> env_ok e' -> full v -> ecycle A sk e chk v = ecycle A sk e' chk v.
Proof.
  intros He He' W. apply full_parts in W as (WR & W1 & W2). unfold ecycle.
  destruct (if (v_cycle v =? 0)%Z then Some (v_pcp v) else _) as [pcp|]; [|reflexivity].
  rewrite (same_components e e') by auto.
  destruct (read_components _ _ _ _ _ _) as [[[rom d1] p]|]; [|reflexivity].
  rewrite (same_regs e e') by auto.
  destruct (read_regs _ _ _ _ _ _) as [[[[[regs1 d2] x] rs1] rs2]|] eqn:E2; [|reflexivity].
  apply regs_wide in E2; auto. rewrite (same_ram e e') by auto.
  destruct (read_ram_enc _ _ _ _ _ _ _ _) as [[[[ram1 d3] loaded] pa]|] eqn:E3; [|reflexivity].
  apply ram_wide in E3; auto. rewrite (same_update_regs e e') by auto.
  destruct (update_regs _ _ _ _ _ _ _ _ _ _ _) as [[regs2 d4]|]; [|reflexivity].
  now rewrite (same_update_ram e e') by auto.
Qed.
Lemma cycle_full e chk v v' : env_ok e -> full v -> ecycle A sk e chk v = Some v' -> full v'.
Proof.
  intros He W E. apply full_parts in W as (WR & W1 & W2).
  destruct (cycle_inv _ _ _ _ E) as (pcp & rom & d1 & p & regs1 & d2 & x & rs1 & rs2 & ram1 & d3 & loaded & pa & regs2 & d4 & ram2 & d5 & pc & d6 &
    E0 & E1 & E2 & E3 & E4 & E5 & E6 & Q1 & Q2 & Q3 & _).
  apply full_intro.
  - rewrite Q1. eapply components_wide; eauto.
  - rewrite Q2. apply regs_wide in E2; auto. eapply update_regs_wide; eauto.
  - rewrite Q3. apply ram_wide in E3; auto. eapply update_ram_wide; eauto.
Qed.
Lemma same_cycles chk : forall es es' v, Forall env_ok es -> Forall env_ok es' -> length es = length es' -> full v ->
  ecycles A sk chk es v = ecycles A sk chk es' v.
Proof.
  induction es as [|e es IH]; intros [|e' es'] v H H' L W; try discriminate; [reflexivity|].
  inversion_clear H as [|? ? He Hs]. inversion_clear H' as [|? ? He' Hs']. cbn [ecycles].
  rewrite (same_cycle e e') by auto. destruct (ecycle A sk e' chk v) as [v'|] eqn:E; [|reflexivity].
  apply IH; auto. eapply cycle_full; eauto.
Qed.

(** ** data flow *)
Lemma map_fst_with_out (m : memory C) : map fst (with_out m) = m_planes m.
Proof. unfold with_out. rewrite map_map. apply map_id. Qed.
Lemma mapi_o_fst {X Y} (g : nat -> X * Y -> option (X * Y)) (K : forall i c c', g i c = Some c' -> fst c' = fst c) : forall cells i out,
  mapi_o g i cells = Some out -> map fst out = map fst cells.
Proof.
  induction cells as [|c cells IH]; intros i out E; cbn [mapi_o] in E; [now injection E as <-|].
  destruct (g i c) as [c'|] eqn:G; [|discriminate]. destruct (mapi_o g (S i) cells) as [o|] eqn:M; [|discriminate].
  injection E as <-. cbn [map]. f_equal; eauto.
Qed.
(** a stateless read leaves the memory as it was *)
Lemma stateless_same t o (m m' : memory C) a k x : par_order t 32 o -> wide m ->
  mem_read_stateless A t o m a k = Some (m', x) -> m' = m.
Proof.
  unfold wide, mem_read_stateless. intros H W E.
  destruct (nonempty m); [|discriminate]. destruct (m_state m) eqn:S; [discriminate|]. cbn [negb] in E.
  destruct (region _ _ _ _) as [cells|] eqn:R; [|discriminate].
  destruct (pack_out A cells); [|discriminate]. injection E as <- _.
  unfold region in R. destruct (thread_tasks _ _); [|discriminate].
  rewrite run_tasks_perm in R by (apply (par_order_perm t); unfold with_out; now rewrite map_length, W).
  apply mapi_o_fst in R.
  - rewrite R, map_fst_with_out, <- S. now destruct m.
  - intros i [b ox] c' G. cbn [fst] in *. destruct (ba_read_stateless _ _ _ _); [|discriminate]. now injection G as <-.
Qed.

Lemma components_keep e d r pcp r' d' p : env_ok e -> Forall wide [e_imm r; e_rs1 r; e_rs2 r; e_rd r; e_rdu r; e_mu r; e_pcu r] ->
  read_components A sk e d r pcp = Some (r', d', p) -> r' = r.
Proof.
  intros He W. do 7 (inversion_clear W as [|? ? W1 W']; rename W' into W; revert W1). intros W1 W2 W3 W4 W5 W6 W7.
  unfold read_components.
  repeat match goal with |- context [match mem_read_stateless A ?t ?o ?m ?a ?k with _ => _ end] =>
    let E := fresh "E" in destruct (mem_read_stateless A t o m a k) as [[? ?]|] eqn:E; [|discriminate];
    apply stateless_same in E; [|apply env_order; sd|assumption]; subst end.
  change (bit_len_pred (Z.of_nat (length RD_RV32I))) with (Some 5). change (bit_len_pred (Z.of_nat (length RAM_LIST))) with (Some 2). cbv iota.
  destruct (prepare_multiple _ _ _ _ _ _) as [ps|]; [|discriminate].
  destruct (shadow _ _ _ _); [|discriminate].
  do 8 (destruct ps as [|? ps]; try discriminate). intros Q. injection Q as <- _ _. now destruct r.
Qed.
Lemma regs_vals e d regs p regs' d' x q1 q2 : env_ok e -> wide regs ->
  read_regs A sk e d regs p = Some (regs', d', x, q1, q2) ->
  regs' = regs /\ q2 = prepare_custom A x 32 /\
  mem_read_stateless A (n_threads e) (sched e 9) regs (p_rs2 p) 0 = Some (regs, x) /\
  exists y, mem_read_stateless A (n_threads e) (sched e 8) regs (p_rs1 p) 0 = Some (regs, y) /\ q1 = prepare_custom A y 32.
Proof.
  intros He W. unfold read_regs.
  destruct (mem_read_stateless A (n_threads e) (sched e 8) regs (p_rs1 p) 0) as [[r1 v1]|] eqn:E; [|discriminate].
  assert (Q : r1 = regs) by (eapply stateless_same in E; [exact E|apply env_order; sd|exact W]). subst r1.
  destruct (mem_read_stateless A (n_threads e) (sched e 9) regs (p_rs2 p) 0) as [[r2 v2]|] eqn:E2; [|discriminate].
  assert (Q : r2 = regs) by (eapply stateless_same in E2; [exact E2|apply env_order; sd|exact W]). subst r2.
  rewrite prepare_det by (try reflexivity; try apply fresh_32; apply He). cbn [combine map fst snd].
  destruct (shadow _ _ _ _); [|discriminate]. intros Q. injection Q as <- _ <- <- <-. eauto 8.
Qed.
Lemma ram_vals e d ram bits p rs1 ram' d' x pa : read_ram_enc A sk e d ram bits p rs1 = Some (ram', d', x, pa) ->
  prepare_low A (ram_offset_enc A (p_imm p) rs1) (bits + 2) = Some pa /\ mem_read_statefull A (n_threads e) (sched e 11) ram pa 2 = Some (ram', x).
Proof.
  unfold read_ram_enc. destruct (prepare_low A _ _) as [q|]; [|discriminate].
  destruct (mem_read_statefull _ _ _ _ _ _) as [[m' v]|] eqn:E; [|discriminate].
  destruct (shadow _ _ _ _); [|discriminate]. intros Q. injection Q as <- _ <- <-. auto.
Qed.
Lemma shadow_off d st f : @shadow C P F None d st f = Some d.
Proof. reflexivity. Qed.
End Dep.

(** the recorder sees what the cycle does *)
Section Rec.
Context {C P F : Type} (A : alg C P F).
Lemma components_off sk e d r pcp r' d' p : read_components A sk e d r pcp = Some (r', d', p) ->
  read_components A None e None r pcp = Some (r', None, p).
Proof.
  unfold read_components.
  repeat match goal with |- context [match mem_read_stateless A ?t ?o ?m ?a ?k with _ => _ end] =>
    destruct (mem_read_stateless A t o m a k) as [[? ?]|]; [|discriminate] end.
  change (bit_len_pred (Z.of_nat (length RD_RV32I))) with (Some 5). change (bit_len_pred (Z.of_nat (length RAM_LIST))) with (Some 2). cbv iota.
  destruct (prepare_multiple _ _ _ _ _ _) as [ps|]; [|discriminate]. rewrite shadow_off.
  destruct (shadow _ _ _ _); [|discriminate].
  do 8 (destruct ps as [|? ps]; try discriminate). intros Q. now injection Q as <- _ <-.
Qed.
Lemma regs_off sk e d regs p regs' d' x q1 q2 : read_regs A sk e d regs p = Some (regs', d', x, q1, q2) ->
  read_regs A None e None regs p = Some (regs', None, x, q1, q2).
Proof.
  unfold read_regs. destruct (mem_read_stateless _ _ _ _ _ _) as [[r1 v1]|]; [|discriminate].
  destruct (mem_read_stateless _ _ _ _ _ _) as [[r2 v2]|]; [|discriminate].
  destruct (prepare_multiple _ _ _ _ _ _) as [ps|]; [|discriminate]. rewrite shadow_off.
  destruct (shadow _ _ _ _); [|discriminate].
  do 3 (destruct ps as [|? ps]; try discriminate). intros Q. now injection Q as <- _ <- <- <-.
Qed.
Lemma ram_off sk e d ram bits p rs1 ram' d' x pa : read_ram_enc A sk e d ram bits p rs1 = Some (ram', d', x, pa) ->
  read_ram_enc A None e None ram bits p rs1 = Some (ram', None, x, pa).
Proof.
  unfold read_ram_enc. destruct (prepare_low A _ _) as [q|]; [|discriminate].
  destruct (mem_read_statefull _ _ _ _ _ _) as [[m' v]|]; [|discriminate]. rewrite shadow_off.
  destruct (shadow _ _ _ _); [|discriminate]. intros Q. now injection Q as <- _ <- <-.
Qed.
Lemma recorded sk e chk v v' : ecycle A sk e chk v = Some v' ->
  exists fl, flow_of A e v = Some fl /\ fl PC = VBits (v_pcp v') /\ fl ROM = VRom (v_rom v) /\ fl RAM = VMem (v_ram v) /\ fl REGISTERS = VMem (v_regs v) /\
    fl PC_AFTER = VWord (v_pc v') /\ fl RAM_AFTER = VMem (v_ram v') /\ fl REGISTERS_AFTER = VMem (v_regs v').
Proof.
  intros E. destruct (cycle_inv _ _ _ _ _ _ E) as (pcp & rom & d1 & p & regs1 & d2 & x & rs1 & rs2 & ram1 & d3 & loaded & pa & regs2 & d4 & ram2 & d5 & pc & d6 &
    E0 & E1 & E2 & E3 & E4 & E5 & E6 & Q1 & Q2 & Q3 & Q4 & Q5).
  unfold flow_of. rewrite E0, (components_off _ _ _ _ _ _ _ _ E1), (regs_off _ _ _ _ _ _ _ _ _ _ E2), (ram_off _ _ _ _ _ _ _ _ _ _ _ E3).
  unfold update_regs in E4. destruct (eval_all rd_id _ _) as [rds|]; [|discriminate].
  destruct (bit_len_pred (Z.of_nat (length RD_RV32I))); [|discriminate]. destruct (blind_select A rds _ _ _) as [w|]; [|discriminate].
  destruct (prepare_low A w 32) as [wp|]; [|discriminate]. destruct (mem_write _ _ _ _ _ _ _) as [r1|]; [|discriminate].
  destruct (mem_zero _ _ _ _ _) as [r2|]; [|discriminate]. destruct (shadow sk d3 _ _); [|discriminate]. injection E4 as -> _.
  unfold update_ram_enc in E5. destruct (eval_all ram_id _ _) as [rams|]; [|discriminate].
  destruct (bit_len_pred (Z.of_nat (length RAM_LIST))); [|discriminate]. destruct (blind_select A rams _ _ _) as [y|]; [|discriminate].
  destruct (prepare_low A y 32) as [yp|]; [|discriminate]. destruct (mem_read_statefull_rev _ _ _ _ _ _ _) as [r3|]; [|discriminate].
  destruct (shadow sk d4 _ _); [|discriminate]. injection E5 as -> _.
  unfold update_pc_stage in E6. destruct (shadow sk d5 _ _); [|discriminate]. injection E6 as <- _.
  eexists. split; [reflexivity|]. cbv beta iota. rewrite Q2, Q3, Q4, Q5. repeat split.
Qed.

(** ** the graph *)
Definition same_val (a b : val C P F) : Prop :=
  match a, b with
  | VMem m, VMem m' => m = m' | VRom r, VRom r' => r = r' | VBits b, VBits b' => b = b' | VWord w, VWord w' => w = w'
  | VBoth w b, VBoth w' b' => w = w' /\ b = b' | VMany m, VMany m' => m = m' | VPut b w, VPut b' w' => b = b' /\ w = w'
  | _, _ => False
  end.
Lemma same_val_eq a b : a = b <-> same_val a b.
Proof. destruct a, b; cbn [same_val]; split; intros H; try discriminate; try contradiction; try (injection H; auto); try congruence; destruct H; congruence. Qed.
Definition more_edges : list (node * node) := [(REGISTERS, REGISTERS_AFTER); (RAM, RAM_AFTER); (RAM_ADDRESS, RAM_AFTER)].
Lemma graph_sound e1 e2 v1 v2 f1 f2 : env_ok e1 -> env_ok e2 -> full v1 -> full v2 -> v_ram_bits v1 = v_ram_bits v2 ->
  flow_of A e1 v1 = Some f1 -> flow_of A e2 v2 = Some f2 ->
  forall n, (exists m, In (m, n) doc_edges) -> (forall m, In (m, n) (doc_edges ++ more_edges) -> f1 m = f2 m) -> f1 n = f2 n.
Proof.
  intros He1 He2 W1 W2 HB F1 F2 n (m0 & Hm0) HA.
  apply full_parts in W1 as (WO1 & WG1 & WM1). apply full_parts in W2 as (WO2 & WG2 & WM2).
  unfold flow_of in F1, F2.
  destruct (if (v_cycle v1 =? 0)%Z then Some (v_pcp v1) else _) as [pcp|]; [|discriminate].
  destruct (if (v_cycle v2 =? 0)%Z then Some (v_pcp v2) else _) as [pcp'|]; [|discriminate].
  destruct (read_components A None e1 None (v_rom v1) pcp) as [[[rom d1] p]|] eqn:C1; [|discriminate].
  destruct (read_components A None e2 None (v_rom v2) pcp') as [[[rom' d1'] p']|] eqn:C2; [|discriminate].
  destruct (read_regs A None e1 None (v_regs v1) p) as [[[[[g d2] x] q1] q2]|] eqn:R1; [|discriminate].
  destruct (read_regs A None e2 None (v_regs v2) p') as [[[[[g' d2'] x'] q1'] q2']|] eqn:R2; [|discriminate].
  destruct (read_ram_enc A None e1 None (v_ram v1) (v_ram_bits v1) p q1) as [[[[r d3] l] pa]|] eqn:L1; [|discriminate].
  destruct (read_ram_enc A None e2 None (v_ram v2) (v_ram_bits v2) p' q1') as [[[[r' d3'] l'] pa']|] eqn:L2; [|discriminate].
  pose proof (ram_wide A None _ _ _ _ _ _ _ _ _ _ He1 WM1 L1) as WL1. pose proof (ram_wide A None _ _ _ _ _ _ _ _ _ _ He2 WM2 L2) as WL2.
  destruct (eval_all rd_id (fun o => rd_eval_enc A o q1 q2 (p_imm p) pcp l) RD_RV32I) as [rds|] eqn:EV1; [|discriminate].
  destruct (eval_all rd_id (fun o => rd_eval_enc A o q1' q2' (p_imm p') pcp' l') RD_RV32I) as [rds'|] eqn:EV2; [|discriminate].
  destruct (bit_len_pred (Z.of_nat (length RD_RV32I))) as [rb|]; [|discriminate].
  destruct (blind_select A rds (p_rdu p) 0 rb) as [w|] eqn:S1; [|discriminate].
  destruct (blind_select A rds' (p_rdu p') 0 rb) as [w'|] eqn:S2; [|discriminate].
  destruct (prepare_low A w 32) as [wp|] eqn:P1; [|discriminate]. destruct (prepare_low A w' 32) as [wp'|] eqn:P2; [|discriminate].
  destruct (mem_write A (n_threads e1) (sched e1 12) g (a_ident A wp) (p_rd p) 0) as [g2|] eqn:G1; [|discriminate].
  destruct (mem_write A (n_threads e2) (sched e2 12) g' (a_ident A wp') (p_rd p') 0) as [g2'|] eqn:G2; [|discriminate].
  destruct (mem_zero A (n_threads e1) (sched e1 13) g2 0) as [g3|] eqn:Z1; [|discriminate].
  destruct (mem_zero A (n_threads e2) (sched e2 13) g2' 0) as [g3'|] eqn:Z2; [|discriminate].
  destruct (eval_all ram_id (fun o => ram_eval_enc A o x l pa) RAM_LIST) as [rams|] eqn:EM1; [|discriminate].
  destruct (eval_all ram_id (fun o => ram_eval_enc A o x' l' pa') RAM_LIST) as [rams'|] eqn:EM2; [|discriminate].
  destruct (bit_len_pred (Z.of_nat (length RAM_LIST))) as [mb|]; [|discriminate].
  destruct (blind_select A rams (p_mu p) 0 mb) as [y|] eqn:T1; [|discriminate].
  destruct (blind_select A rams' (p_mu p') 0 mb) as [y'|] eqn:T2; [|discriminate].
  destruct (prepare_low A y 32) as [yp|] eqn:Y1; [|discriminate]. destruct (prepare_low A y' 32) as [yp'|] eqn:Y2; [|discriminate].
  destruct (mem_read_statefull_rev A (n_threads e1) (sched e1 14) r (a_ident A yp) pa 2) as [m1|] eqn:M1; [|discriminate].
  destruct (mem_read_statefull_rev A (n_threads e2) (sched e2 14) r' (a_ident A yp') pa' 2) as [m2|] eqn:M2; [|discriminate].
  injection F1 as <-. injection F2 as <-.
  pose proof (regs_vals A None _ _ _ _ _ _ _ _ _ He1 WG1 R1) as (-> & V1 & X1 & u & U1 & V1').
  pose proof (regs_vals A None _ _ _ _ _ _ _ _ _ He2 WG2 R2) as (-> & V2 & X2 & u' & U2 & V2').
  apply ram_vals in L1 as [O1 L1]. apply ram_vals in L2 as [O2 L2].
  assert (DC : pcp = pcp' -> v_rom v1 = v_rom v2 -> p = p').
  { intros <- Q. rewrite <- Q in C2. rewrite (same_components A None e2 e1) in C2 by (auto; now rewrite <- Q in *).
    rewrite C1 in C2. now injection C2. }
  Ltac use HA m := let K := fresh "K" in assert (K := HA m ltac:(cbn; tauto)); rewrite same_val_eq in K; cbv beta iota in K; cbn [same_val] in K;
    lazymatch type of K with _ /\ _ => let K' := fresh "K'" in destruct K as [K K'] | _ => idtac end.
  apply same_val_eq.
  destruct n; try (exfalso; clear - Hm0; cbn in Hm0; intuition congruence); clear Hm0; cbn [same_val].
  1-7: use HA PC; use HA ROM; rewrite DC by assumption; reflexivity.
  - use HA RS1_INDEX. use HA REGISTERS. rewrite K, K0 in U1.
    rewrite (same_stateless A e1 e2) in U1 by sd. congruence.
  - use HA RS2_INDEX. use HA REGISTERS. rewrite K, K0 in X1.
    rewrite (same_stateless A e1 e2) in X1 by sd. split; congruence.
  - use HA IMM. use HA RS1. congruence.
  - use HA RAM_ADDRESS. use HA RAM. rewrite K, K0 in L1. rewrite (same_statefull A e1 e2) in L1 by sd. congruence.
  - use HA IMM. use HA RS1. use HA RS2. use HA PC. use HA RAM_VAL. rewrite K, K0, K', K2, K3 in EV1. congruence.
  - use HA POSSIBLE_RD_VALS. use HA RD_INDEX. use HA RDU. split; congruence.
  - use HA RS2. use HA RAM_VAL. use HA RAM_ADDRESS. rewrite K, K0, K1 in EM1. congruence.
  - use HA POSSIBLE_RAM_VALS. use HA MU. congruence.
  - use HA IMM. use HA RS1. use HA RS2. use HA PC. use HA PCU. congruence.
  - use HA NEW_PC_VAL. assumption.
  - use HA NEW_RAM_VAL. use HA RAM. use HA RAM_ADDRESS. rewrite K0, K1 in L1. rewrite (same_statefull A e1 e2) in L1 by sd.
    assert (r = r') by congruence. subst r'. rewrite K, K1 in M1. rewrite (same_rev A e1 e2) in M1 by sd. congruence.
  - use HA RD. use HA REGISTERS. rewrite K, K', K0 in G1.
    pose proof (write_wide A _ _ _ _ _ _ _ (env_order e1 12 He1 ltac:(lia) ltac:(lia) ltac:(lia)) WG2 G1) as WW.
    rewrite (same_write A e1 e2) in G1 by sd.
    assert (g2 = g2') by congruence. subst g2'. rewrite (same_zero A e1 e2) in Z1 by sd. congruence.
Qed.
End Rec.
