(** * C104: the parameters and the measurements, as text *)
Require Import ZArith List Bool Lia.
From Verif Require Import Rust RustIter RustParams.
From Verif Require Params Keys TextParams TextMeasure.
Import ListNotations.
Open Scope Z_scope.
Module TP := Verif.TextParams.
Module TM := Verif.TextMeasure.
Module P := Verif.Params.
Module K := Verif.Keys.

(** ** Parameters *)
(** The same parameters as the record of the text and as the one of the model. *)
Definition params_of (q : P.params) : TP.CryptographicParameters :=
  TP.mk_CryptographicParameters (mk_Module (Int (P.p_n q))) (Int (P.p_n_lwe q)) (Int (P.p_block q))
    (Int (P.b_fhe q)) (Int (P.b_brk q)) (Int (P.b_atk q)) (Int (P.b_tsk q)) (Int (P.b_glwe q)) (Int (P.b_lwe q))
    (Int (P.p_rank q)) (Int (P.k_pt q)) (Int (P.k_lwe q)) (Int (P.k_prepared q)) (Int (P.k_fhe q))
    (Int (P.k_rom q)) (Int (P.k_ram q)) (Int (P.k_evk q)) (Int (P.k_ks_glwe q)) (Int (P.k_ks_lwe q)) (Int (P.k_pbs q)).

(** A layout of the model as each of the library's layouts; where the library has one rank, it
    is the model's two, which the theorems give. *)
Definition as_glwe (l : P.layout) := mk_GLWELayout (Int (P.l_n l)) (Int (P.l_k l)) (Int (P.l_base l)) (Int (P.l_rank_in l)).
Definition as_ggsw (l : P.layout) :=
  mk_GGSWLayout (Int (P.l_n l)) (Int (P.l_k l)) (Int (P.l_base l)) (Int (P.l_rank_in l)) (Int (P.l_dnum l)) (Int 1).
Definition as_gglwe (l : P.layout) :=
  mk_GGLWELayout (Int (P.l_n l)) (Int (P.l_base l)) (Int (P.l_k l)) (Int (P.l_rank_in l)) (Int (P.l_rank_out l)) (Int (P.l_dnum l)) (Int 1).
Definition as_brk (n_lwe : Z) (l : P.layout) :=
  mk_BlindRotationKeyLayout (Int (P.l_n l)) (Int n_lwe) (Int (P.l_base l)) (Int (P.l_k l)) (Int (P.l_dnum l)) (Int (P.l_rank_in l)).
Definition as_atk (l : P.layout) :=
  mk_GLWEAutomorphismKeyLayout (Int (P.l_n l)) (Int (P.l_base l)) (Int (P.l_k l)) (Int (P.l_rank_in l)) (Int (P.l_dnum l)) (Int 1).
Definition as_tsk (l : P.layout) :=
  mk_GGLWEToGGSWKeyLayout (Int (P.l_n l)) (Int (P.l_base l)) (Int (P.l_k l)) (Int (P.l_rank_in l)) (Int (P.l_dnum l)) (Int 1).
Definition as_switch (l : P.layout) :=
  mk_GLWESwitchingKeyLayout (Int (P.l_n l)) (Int (P.l_base l)) (Int (P.l_k l)) (Int (P.l_rank_in l)) (Int (P.l_rank_out l)) (Int (P.l_dnum l)) (Int 1).
Definition as_lwe (l : P.layout) :=
  mk_GLWEToLWEKeyLayout (Int (P.l_n l)) (Int (P.l_base l)) (Int (P.l_k l)) (Int (P.l_rank_in l)) (Int (P.l_dnum l)).

(** ring degree and dimension fit the u32 of a [Degree] *)
Definition degrees_ok (q : P.params) : Prop := 0 <= P.p_n q < 2 ^ 32 /\ 0 <= P.p_n_lwe q < 2 ^ 32.

Theorem C104_new : forall p, TP.CryptographicParameters_new p = Some (params_of P.params_new).
Proof. reflexivity. Qed.
Print Assumptions C104_new.

Lemma degree : forall n, 0 <= n < 2 ^ 32 -> cast U32 (@Int USize n) = @Int U32 n.
Proof. intros n H. cbn -[Z.modulo]. unfold wrap. cbn -[Z.modulo]. rewrite Z.mod_small; [reflexivity|exact H]. Qed.
Lemma degree_module : forall n, 0 <= n < 2 ^ 32 -> cast U32 (module_n (mk_Module (Int n))) = @Int U32 n.
Proof. intros n H. exact (degree n H). Qed.
Lemma ceil : forall a b, div_ceil (@Int U32 a) (Int b) = option_map (@Int U32) (P.div_ceil a b).
Proof. intros a b. unfold div_ceil, P.div_ceil. cbn [val]. destruct (b =? 0); [reflexivity|]. destruct (a mod b =? 0); cbn [option_map]; rewrite ?Z.add_0_r; reflexivity. Qed.

(** The layouts of ciphertexts. *)
Theorem C104_ciphertexts : forall p q, degrees_ok q ->
  TP.CryptographicParameters_glwe_pt_infos p (params_of q) = Some (as_glwe (P.glwe_layout q (P.k_pt q))) /\
  TP.CryptographicParameters_fhe_uint_infos p (params_of q) = Some (as_glwe (P.glwe_layout q (P.k_fhe q))) /\
  TP.CryptographicParameters_rom_infos p (params_of q) = Some (as_glwe (P.glwe_layout q (P.k_rom q))) /\
  TP.CryptographicParameters_ram_infos p (params_of q) = Some (as_glwe (P.glwe_layout q (P.k_ram q))) /\
  TP.CryptographicParameters_fhe_uint_prepared_infos p (params_of q) = option_map as_ggsw (P.prepared_layout q) /\
  TP.CryptographicParameters_evk_ram_infos p (params_of q) = option_map as_gglwe (P.evk_layout q).
Proof.
  intros p q (N & _). pose proof (degree_module _ N) as D.
  repeat split.
  1-4: (lazymatch goal with |- ?f _ _ = _ => unfold f end; cbn -[cast module_n]; rewrite D; reflexivity).
  - unfold TP.CryptographicParameters_fhe_uint_prepared_infos, P.prepared_layout. cbn -[cast module_n div_ceil P.div_ceil].
    rewrite D, ceil. destruct (P.div_ceil _ _); reflexivity.
  - unfold TP.CryptographicParameters_evk_ram_infos, P.evk_layout. cbn -[cast module_n div_ceil P.div_ceil].
    rewrite D, ceil. destruct (P.div_ceil _ _); reflexivity.
Qed.
Print Assumptions C104_ciphertexts.

(** The key for circuit bootstrapping is the three parts, and a panic if one of them is. *)
Definition cbt_of (q : P.params) : option CircuitBootstrappingKeyLayout :=
  match P.brk_layout q, P.atk_layout q, P.tsk_layout q with
  | Some b, Some a, Some t => Some (mk_CircuitBootstrappingKeyLayout (as_brk (P.p_n_lwe q) b) (as_atk a) (as_tsk t))
  | _, _, _ => None
  end.
Theorem C104_keys : forall p q, degrees_ok q ->
  TP.CryptographicParameters_cbt_key_layout p (params_of q) = cbt_of q /\
  TP.CryptographicParameters_glwe_to_glwe_key_layout p (params_of q) = Some (as_switch (P.ks_glwe_layout q)) /\
  TP.CryptographicParameters_glwe_to_lwe_key_layout p (params_of q) = Some (as_lwe (P.ks_lwe_layout q)) /\
  TP.CryptographicParameters_bdd_key_layout p (params_of q) =
    option_map (fun c => mk_BDDKeyLayout c (Some (as_switch (P.ks_glwe_layout q))) (as_lwe (P.ks_lwe_layout q))) (cbt_of q) /\
  TP.CryptographicParameters_n_lwe_fn p (params_of q) = Some (Int (P.p_n_lwe q)) /\
  TP.CryptographicParameters_n_glwe p (params_of q) = Some (Int (P.p_n q)) /\
  TP.CryptographicParameters_lwe_block_size_fn p (params_of q) = Some (Int (P.p_block q)) /\
  TP.CryptographicParameters_k_lwe_fn p (params_of q) = Some (Int (P.k_lwe q)).
Proof.
  intros p q (N & NL). pose proof (degree_module _ N) as D. pose proof (degree _ NL) as DL.
  assert (C : TP.CryptographicParameters_cbt_key_layout p (params_of q) = cbt_of q).
  { unfold TP.CryptographicParameters_cbt_key_layout, cbt_of, P.brk_layout, P.atk_layout, P.tsk_layout, P.cbt_layout.
    cbn -[cast module_n div_ceil P.div_ceil]. rewrite ?D, ?DL, !ceil.
    destruct (P.div_ceil _ (P.b_brk q)); [|reflexivity]. cbn -[div_ceil P.div_ceil].
    destruct (P.div_ceil _ (P.b_atk q)); [|reflexivity]. cbn -[div_ceil P.div_ceil].
    destruct (P.div_ceil _ (P.b_tsk q)); reflexivity. }
  assert (G : TP.CryptographicParameters_glwe_to_glwe_key_layout p (params_of q) = Some (as_switch (P.ks_glwe_layout q))).
  { unfold TP.CryptographicParameters_glwe_to_glwe_key_layout. cbn -[cast module_n]. rewrite D. reflexivity. }
  assert (L : TP.CryptographicParameters_glwe_to_lwe_key_layout p (params_of q) = Some (as_lwe (P.ks_lwe_layout q))).
  { unfold TP.CryptographicParameters_glwe_to_lwe_key_layout. cbn -[cast module_n]. rewrite D. reflexivity. }
  split; [exact C|]. split; [exact G|]. split; [exact L|]. split.
  { unfold TP.CryptographicParameters_bdd_key_layout. rewrite C, G, L. destruct (cbt_of q); reflexivity. }
  unfold TP.CryptographicParameters_n_lwe_fn, TP.CryptographicParameters_n_glwe. cbn -[cast module_n]. rewrite D, DL. repeat split.
Qed.
Print Assumptions C104_keys.

(** The parameters the repository uses, and the key layout that comes out. *)
Example C104_params_case : degrees_ok P.params_new /\
  TP.CryptographicParameters_bdd_key_layout {| overflow_checks := true; debug_assertions := true |} (params_of P.params_new) =
  Some (mk_BDDKeyLayout
    (mk_CircuitBootstrappingKeyLayout
      (mk_BlindRotationKeyLayout (Int 1024) (Int 679) (Int 15) (Int 60) (Int 3) (Int 2))
      (mk_GLWEAutomorphismKeyLayout (Int 1024) (Int 15) (Int 60) (Int 2) (Int 3) (Int 1))
      (mk_GGLWEToGGSWKeyLayout (Int 1024) (Int 15) (Int 60) (Int 2) (Int 3) (Int 1)))
    (Some (mk_GLWESwitchingKeyLayout (Int 1024) (Int 13) (Int 27) (Int 2) (Int 1) (Int 2) (Int 1)))
    (mk_GLWEToLWEKeyLayout (Int 1024) (Int 4) (Int 16) (Int 1) (Int 4))).
Proof. split; [unfold degrees_ok; cbn; lia|reflexivity]. Qed.

(** ** Measurements *)
(** What an average is: the sum of one field over all cycles, divided by the number of cycles
    and rounded down; no average of no cycles. *)
Definition average (f : TM.Measurement -> Duration) (m : TM.Measurements) : option Duration :=
  K.average_time (map f (TM.Measurements_cycle_measurements m)).

Lemma sum_eq : forall ts acc, for_each ts (fun x s => add_duration s x) acc = K.sum_times acc ts.
Proof.
  induction ts as [|t ts IH]; intros acc; [reflexivity|]. cbn [for_each K.sum_times]. unfold add_duration at 1.
  replace ((acc + t) / 1000000000 <? 2 ^ 64) with (acc + t <? K.max_time).
  - destruct (acc + t <? K.max_time); [apply IH|reflexivity].
  - apply eq_true_iff_eq. rewrite !Z.ltb_lt. unfold K.max_time. split; intros H.
    + apply Z.div_lt_upper_bound; lia.
    + pose proof (Z.div_mod (acc + t) 1000000000 ltac:(lia)). pose proof (Z.mod_pos_bound (acc + t) 1000000000 ltac:(lia)). lia.
Qed.
Lemma average_eq : forall (f : TM.Measurement -> Duration) m,
  (t1 <- sum_durations (map f (TM.Measurements_cycle_measurements m)) ;;
   t2 <- div_duration t1 (cast U32 (len (TM.Measurements_cycle_measurements m))) ;; Some t2) = average f m.
Proof.
  intros f m. unfold average, K.average_time, sum_durations. rewrite sum_eq, map_length. cbv beta.
  destruct (K.sum_times 0 _) as [s|]; [|reflexivity].
  unfold div_duration, len. 
  set (n := Z.of_nat (length (TM.Measurements_cycle_measurements m)) mod 2 ^ 32).
  change (val (cast U32 _)) with n. destruct (n =? 0); reflexivity.
Qed.

(** Each function averages the field it is named after. *)
Theorem C104_averages : forall p m,
  TM.Measurements_average_cycle_time p m = average TM.Measurement_total_cycle_time m /\
  TM.Measurements_average_time_prepare_pc p m = average TM.Measurement_time_prepare_pc m /\
  TM.Measurements_average_time_read_and_prepare_rom p m = average TM.Measurement_time_read_and_prepare_rom m /\
  TM.Measurements_average_time_read_rom p m = average TM.Measurement_time_read_rom m /\
  TM.Measurements_average_time_prepare_rom p m = average TM.Measurement_time_prepare_rom m /\
  TM.Measurements_average_time_read_and_prepare_registers p m = average TM.Measurement_time_read_and_prepare_registers m /\
  TM.Measurements_average_time_read_registers p m = average TM.Measurement_time_read_registers m /\
  TM.Measurements_average_time_prepare_registers p m = average TM.Measurement_time_prepare_registers m /\
  TM.Measurements_average_time_read_ram p m = average TM.Measurement_time_read_ram m /\
  TM.Measurements_average_time_derive_ram_addr p m = average TM.Measurement_time_derive_ram_addr m /\
  TM.Measurements_average_time_prepare_ram_addr p m = average TM.Measurement_time_prepare_ram_addr m /\
  TM.Measurements_average_time_prepare_ram_read_statefull p m = average TM.Measurement_time_prepare_ram_read_statefull m /\
  TM.Measurements_average_time_update_registers p m = average TM.Measurement_time_update_registers m /\
  TM.Measurements_average_time_evaluate_rd_ops p m = average TM.Measurement_time_evaluate_rd_ops m /\
  TM.Measurements_average_time_blind_select_rd p m = average TM.Measurement_time_blind_select_rd m /\
  TM.Measurements_average_time_refresh_rd p m = average TM.Measurement_time_refresh_rd m /\
  TM.Measurements_average_time_write_rd p m = average TM.Measurement_time_write_rd m /\
  TM.Measurements_average_time_update_ram p m = average TM.Measurement_time_update_ram m /\
  TM.Measurements_average_time_ram_update_op_eval p m = average TM.Measurement_time_ram_update_op_eval m /\
  TM.Measurements_average_time_blind_select_ram_value p m = average TM.Measurement_time_blind_select_ram_value m /\
  TM.Measurements_average_time_refresh_ram_value p m = average TM.Measurement_time_refresh_ram_value m /\
  TM.Measurements_average_time_write_ram p m = average TM.Measurement_time_write_ram m /\
  TM.Measurements_average_time_update_pc p m = average TM.Measurement_time_update_pc m.
Proof. intros p m. repeat split; apply average_eq. Qed.
Print Assumptions C104_averages.
Theorem C104_average_times : forall p ts, TM.measurements_average_time p ts = K.average_time ts.
Proof.
  intros p ts. unfold TM.measurements_average_time, K.average_time, sum_durations. rewrite map_id, sum_eq.
  destruct (K.sum_times 0 ts) as [s|]; [|reflexivity].
  unfold div_duration, len. change (val (cast U32 _)) with (Z.of_nat (length ts) mod 2 ^ 32).
  cbv zeta. destruct (_ =? 0); reflexivity.
Qed.
Print Assumptions C104_average_times.

(** Each list of noises is the field it is named after, one entry per cycle. *)
Theorem C104_noises : forall p m, let l := TM.Measurements_cycle_measurements m in
  TM.Measurements_get_pc_val_fhe_uint_noise_list p m = Some (map TM.Measurement_pc_val_fhe_uint_noise l) /\
  TM.Measurements_get_imm_val_fhe_uint_noise_list p m = Some (map TM.Measurement_imm_val_fhe_uint_noise l) /\
  TM.Measurements_get_ram_addr_read_noise_list p m = Some (map TM.Measurement_ram_addr_read_noise l) /\
  TM.Measurements_get_ram_val_read_noise_list p m = Some (map TM.Measurement_ram_val_read_noise l) /\
  TM.Measurements_get_rd_val_fhe_uint_noise_list p m = Some (map TM.Measurement_rd_val_fhe_uint_noise l).
Proof. intros p m. repeat split. Qed.
Print Assumptions C104_noises.

(** A new measurement has no time and no noise; new measurements have no cycle, and no average. *)
Theorem C104_fresh : forall p,
  (exists m, TM.Measurement_new p = Some m /\
    [TM.Measurement_total_cycle_time m;
     TM.Measurement_time_prepare_pc m;
     TM.Measurement_time_read_and_prepare_rom m;
     TM.Measurement_time_read_rom m;
     TM.Measurement_time_prepare_rom m;
     TM.Measurement_time_read_and_prepare_registers m;
     TM.Measurement_time_read_registers m;
     TM.Measurement_time_prepare_registers m;
     TM.Measurement_time_read_ram m;
     TM.Measurement_time_derive_ram_addr m;
     TM.Measurement_time_prepare_ram_addr m;
     TM.Measurement_time_prepare_ram_read_statefull m;
     TM.Measurement_time_update_registers m;
     TM.Measurement_time_evaluate_rd_ops m;
     TM.Measurement_time_blind_select_rd m;
     TM.Measurement_time_refresh_rd m;
     TM.Measurement_time_write_rd m;
     TM.Measurement_time_update_ram m;
     TM.Measurement_time_ram_update_op_eval m;
     TM.Measurement_time_blind_select_ram_value m;
     TM.Measurement_time_refresh_ram_value m;
     TM.Measurement_time_write_ram m;
     TM.Measurement_time_update_pc m] = repeat 0 23 /\
    [TM.Measurement_pc_val_fhe_uint_noise m;
     TM.Measurement_imm_val_fhe_uint_noise m;
     TM.Measurement_ram_addr_read_noise m;
     TM.Measurement_ram_val_read_noise m;
     TM.Measurement_rd_val_fhe_uint_noise m] = repeat zero64 5) /\
  (exists ms, TM.Measurements_new p = Some ms /\ TM.Measurements_cycle_measurements ms = [] /\
    forall f, average f ms = None).
Proof. intros p. split; eexists; repeat split. Qed.
Print Assumptions C104_fresh.

(** Two cycles: 3 ns and 6 ns for the program counter give 4 ns, rounded down. *)
Example C104_average_case : forall p m, TM.Measurement_new p = Some m ->
  TM.Measurements_average_time_update_pc p
    (TM.mk_Measurements [TM.set_Measurement_time_update_pc m 3; TM.set_Measurement_time_update_pc m 6]) = Some 4 /\
  TM.Measurements_average_cycle_time p
    (TM.mk_Measurements [TM.set_Measurement_time_update_pc m 3; TM.set_Measurement_time_update_pc m 6]) = Some 0.
Proof. intros p m H. injection H as <-. split; reflexivity. Qed.
