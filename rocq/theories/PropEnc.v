(** * The encrypted VM: C14, C26, C27, C28, C36, C38 and the encrypted parts of
    C11, C12, C13, C15, C18, C43 *)
Require Import ZArith List Bool Lia.
Require Import Verif.Word Verif.Isa Verif.Codec Verif.DecodeSpec Verif.EvalPlain Verif.EvalSpec Verif.EvalFacts Verif.DebugVM
  Verif.Bdd Verif.Glwe Verif.Par Verif.ParFacts Verif.EncMem Verif.MemSpec Verif.Prepare Verif.EncEval Verif.EncVM Verif.EncSpec Verif.EncFacts
  Verif.EncCycle Verif.EncTrack Verif.EncLoad Verif.EncRun.
Require Verif.PropTest Verif.PropMem Verif.DebugLoad.
Import ListNotations.
Open Scope Z_scope.

(** ** concrete machines for the examples *)
(** [t] threads, one after the other *)
Definition ex_env (t : nat) : env :=
  {| n_threads := t; sched := fun i => PropMem.seq_order t (if Nat.eqb i 7 then 58 else if Nat.eqb i 10 then 64 else 32) |}.
Lemma ex_env_ok : env_ok (ex_env 2).
Proof.
  split; [|split].
  - intros i _ H7 H10. unfold ex_env; cbn [n_threads sched]. rewrite (proj2 (Nat.eqb_neq _ _) H7), (proj2 (Nat.eqb_neq _ _) H10).
    eexists. split; [reflexivity|]. apply interleave_seq.
  - eexists. split; [reflexivity|]. apply interleave_seq.
  - eexists. split; [reflexivity|]. apply interleave_seq.
Qed.
Definition ex_load (debug : bool) (rom_words mb : nat) (prog : list instr) (ram : list Z) : option (evm poly bool (list Z)) :=
  do p <- parser_add_all true parser_new (map encode prog); load 1 true debug rom_words (2 ^ mb) p ram.
Definition ex_run (sk : option (secret poly bool (list Z))) (n : nat) (v : evm poly bool (list Z)) :=
  ecycles (Ideal 1) sk true (repeat (ex_env 2) n) v.
Lemma ex_boots debug rom_words mb prog ram v : ex_load debug rom_words mb prog ram = Some v ->
  boots 1 true debug rom_words mb (map encode prog) ram v.
Proof.
  unfold ex_load, boots. destruct (parser_add_all _ _ _) as [p|] eqn:E; [|discriminate]. eauto.
Qed.
Lemma ex_envs n : Forall env_ok (repeat (ex_env 2) n).
Proof. apply Forall_forall. intros e H. apply repeat_spec in H. subst. exact ex_env_ok. Qed.
Ltac fits_tac := unfold fits; split; [repeat constructor; unfold word; cbv; intuition discriminate|];
  split; [cbn; lia|]; split; [reflexivity|]; split; [cbn; lia|]; split; [repeat constructor; unfold word; lia|];
  split; [cbn; lia|]; split; [cbn; lia|cbn; intros; try discriminate; auto].

(** C26.  Full statement: [forall o, In o RD_RV32I -> ... decrypt_word c = v] with
    [rd_eval o ... = Some v].  False for LB: *)
Theorem C26_lb_refuted :
  exists o rs1 rs2 imm pc (c : list Z) ram x y im p r v,
    In o RD_RV32I /\ prepared rs1 x /\ prepared rs2 y /\ prepared imm im /\ prepared pc p /\ enc_of c ram /\
    rd_eval_enc (Ideal 1) o rs1 rs2 imm pc c = Some r /\ rd_eval o im x y p ram = Some v /\ decrypt_word r <> v.
Proof.
  exists RLB, (repeat false 32), (repeat false 32), (repeat false 32), (repeat false 32), (fhe_of_word 128), 128, 0, 0, 0, 0.
  do 2 eexists. split; [vm_compute; auto 30|]. do 4 (split; [split; reflexivity|]).
  split; [apply enc_word; unfold is_word; lia|]. split; [reflexivity|]. split; [reflexivity|]. vm_compute. discriminate.
Qed.
Print Assumptions C26_lb_refuted.
(** every other operation agrees; LB agrees with LBU *)
Theorem C26_register_evaluation :
  forall log o rs1 rs2 imm pc (c : list Z) x y im p ram,
    In o RD_RV32I -> prepared rs1 x -> prepared rs2 y -> prepared imm im -> prepared pc p -> enc_of c ram ->
    exists r v, rd_eval_enc (Ideal log) o rs1 rs2 imm pc c = Some r /\
      rd_eval (match o with RLB => RLBU | _ => o end) im x y p ram = Some v /\ decrypt_word r = v.
Proof.
  intros log o rs1 rs2 imm pc c x y im p ram Ho P1 P2 Pi Pp Hc.
  destruct (rd_enc_ok log o rs1 rs2 imm pc x y im p c ram Ho P1 P2 Pi Pp Hc) as (r & v & E & V & H).
  exists r, v. split; [exact E|]. split; [|now apply enc_decrypt].
  apply rd_eval_rv32i; try (apply is_word_word; eapply prepared_word; eassumption); [|exact V].
  apply is_word_word. apply Hc.
Qed.
Print Assumptions C26_register_evaluation.
Example C26_case :
  let pb w := map (fun i => Z.testbit w (Z.of_nat i)) (seq 0 32) in
  prepared (pb 0x80000000) 0x80000000 /\ prepared (pb 5) 5 /\
  option_map decrypt_word (rd_eval_enc (Ideal 1) RSRA (pb 0x80000000) (pb 5) (pb 0) (pb 0) (repeat 0 32)) = Some 0xFC000000 /\
  option_map decrypt_word (rd_eval_enc (Ideal 1) RLH (pb 0) (pb 5) (pb 0) (pb 0) (fhe_of_word 0x12348001)) = Some 0xFFFF8001.
Proof. vm_compute. auto. Qed.

(** C27 *)
Theorem C27_store_evaluation :
  forall log o (rs2 loaded : list Z) pa y ram addr,
    enc_of rs2 y -> enc_of loaded ram -> prepared pa addr ->
    exists r, ram_eval_enc (Ideal log) o rs2 loaded pa = Some r /\ decrypt_word r = ram_eval o y ram (addr mod 4).
Proof.
  intros log o rs2 loaded pa y ram addr H1 H2 H3.
  destruct (ram_enc_ok log o rs2 loaded pa y ram addr H1 H2 H3) as (r & E & H). exists r. split; [exact E|]. now apply enc_decrypt.
Qed.
Print Assumptions C27_store_evaluation.
Example C27_case :
  let pb w := map (fun i => Z.testbit w (Z.of_nat i)) (seq 0 32) in
  enc_of (fhe_of_word 0xAABBCCDD) 0xAABBCCDD /\ enc_of (fhe_of_word 0x11223344) 0x11223344 /\ prepared (pb 0x1002) 0x1002 /\
  option_map decrypt_word (ram_eval_enc (Ideal 1) MSH (fhe_of_word 0xAABBCCDD) (fhe_of_word 0x11223344) (pb 0x1002)) = Some 0xCCDD3344.
Proof. split; [apply enc_word; unfold is_word; lia|]. split; [apply enc_word; unfold is_word; lia|]. vm_compute. auto. Qed.

(** C28.  The candidate table and the selector as the VM builds them: the
    selected ciphertext is that of the operation whose id is the low five (two)
    bits of the encrypted id ([by_id]), and zero when there is none. *)
Theorem C28_selection :
  forall log (rs1 rs2 imm pc q : list bool) (c : list Z) x y im p ram k,
    prepared rs1 x -> prepared rs2 y -> prepared imm im -> prepared pc p -> enc_of c ram -> prepared q k ->
    exists m r, eval_all rd_id (fun o => rd_eval_enc (Ideal log) o rs1 rs2 imm pc c) RD_RV32I = Some m /\
      blind_select (Ideal log) m q 0 5 = Some r /\
      (forall o, In o RD_RV32I -> rd_id o = k mod 32 ->
         exists r', rd_eval_enc (Ideal log) o rs1 rs2 imm pc c = Some r' /\ decrypt_word r = decrypt_word r') /\
      (~ In (k mod 32) (map rd_id RD_RV32I) -> decrypt_word r = 0).
Proof.
  intros log rs1 rs2 imm pc q c x y im p ram k P1 P2 Pi Pp Hc Pq.
  destruct (rd_select log rs1 rs2 imm pc x y im p c ram q k P1 P2 Pi Pp Hc Pq) as (m & r & E1 & _ & E2 & H).
  exists m, r. split; [exact E1|]. split; [exact E2|]. rewrite (enc_decrypt _ _ H). split.
  - intros o Ho Hk. destruct (rd_enc_ok log o rs1 rs2 imm pc x y im p c ram Ho P1 P2 Pi Pp Hc) as (r' & v & E' & V & H').
    exists r'. split; [exact E'|]. rewrite (enc_decrypt _ _ H'). unfold rd_sel. rewrite <- Hk, (by_id_in rd_id) by (auto; apply DebugFacts.nodup_rd).
    now rewrite V.
  - intro N. unfold rd_sel. destruct (by_id rd_id (k mod 32) RD_RV32I) as [o|] eqn:B; [|reflexivity].
    exfalso. apply N. unfold by_id in B. apply find_some in B as [B1 B2]. apply Z.eqb_eq in B2. rewrite <- B2. now apply in_map.
Qed.
Print Assumptions C28_selection.
(** ids outside the table are selected silently: the decoder accepts DIVU, whose
    id 34 is outside the table, and the selection returns AUIPC's value *)
Theorem C28_outside_refuted :
  exists (rs1 rs2 imm pc q : list bool) (c : list Z) m r,
    prepared q (rd_id RDIVU) /\ ~ In (rd_id RDIVU) (map rd_id RD_RV32I) /\
    accepted true (encode (OPM DIVU 1 2 3)) /\ get_opid true (encode (OPM DIVU 1 2 3)) = Some (RDIVU, MNONE, PNONE) /\
    eval_all rd_id (fun o => rd_eval_enc (Ideal 1) o rs1 rs2 imm pc c) RD_RV32I = Some m /\
    blind_select (Ideal 1) m q 0 5 = Some r /\ prepared pc 0x1234 /\ decrypt_word r = 0x1234.
Proof.
  set (pb w := map (fun i => Z.testbit w (Z.of_nat i)) (seq 0 32)).
  exists (pb 7), (pb 2), (pb 0), (pb 0x1234), (pb 34), (repeat 0 32). do 2 eexists.
  split; [vm_compute; auto|]. split; [vm_compute; intuition discriminate|].
  split; [do 3 eexists; unfold decoded; vm_compute; auto|]. split; [reflexivity|].
  split; [vm_compute; reflexivity|]. split; [vm_compute; reflexivity|]. vm_compute. auto.
Qed.
Print Assumptions C28_outside_refuted.

(** C36.  [d0] is the shadow VM created by the loader; the hypotheses say that
    the shadow VM runs without panicking and that no executed instruction is one
    of the two the encrypted VM evaluates differently ([agrees]). *)
Theorem C36_tracks_shadow :
  forall log dbg rom_words rb mb ws ram v0 d0 sk on chk es dn,
    fits true rom_words rb mb ws ram -> boots log dbg true rom_words mb ws ram v0 -> v_debug v0 = Some d0 ->
    key_ok log sk on -> Forall env_ok es -> Z.of_nat (length es) < 4294967296 ->
    dcycles RD_RV32I (length es) d0 = Some dn -> agrees (length es) d0 ->
    exists v, ecycles (Ideal log) sk chk es v0 = Some v /\
      dec_regs v = Some (dregs dn) /\ dec_ram v = Some (dram dn) /\ dec_pc v = dpc dn /\
      v_debug v = Some (if on then dn else d0).
Proof. exact tracks. Qed.
Print Assumptions C36_tracks_shadow.
Example C36_case :
  fits true 6 3 2 (map encode PropTest.ex_prog) [1; 2; 3; 4] /\ Forall env_ok (repeat (ex_env 2) 7) /\
  exists v0 d0 dn, boots 1 true true 6 2 (map encode PropTest.ex_prog) [1; 2; 3; 4] v0 /\ v_debug v0 = Some d0 /\
    dcycles RD_RV32I 7 d0 = Some dn /\ agrees 7 d0 /\
    exists v, ex_run (Some secret_key) 7 v0 = Some v /\ dec_ram v = Some [1; 0xFFFFFFFD; 3; 4] /\ dec_pc v = 12.
Proof.
  split; [fits_tac|]. split; [apply ex_envs|].
  destruct (ex_load true 6 2 PropTest.ex_prog [1; 2; 3; 4]) as [v0|] eqn:E; [|vm_compute in E; discriminate].
  pose proof (ex_boots _ _ _ _ _ _ E) as B. vm_compute in E. injection E as <-.
  do 3 eexists. split; [exact B|]. split; [reflexivity|]. split; [vm_compute; reflexivity|]. split.
  - repeat first [exact I
      | split; [split; [intro Hq; vm_compute in Hq; discriminate Hq|intros _; vm_compute; reflexivity]
               |let d := fresh in let Hd := fresh in intros d Hd; vm_compute in Hd; injection Hd as <-]
      | split; [split; [intro Hq; vm_compute in Hq; discriminate Hq|intro Hq; exfalso; apply Hq; vm_compute; reflexivity]
               |let d := fresh in let Hd := fresh in intros d Hd; vm_compute in Hd; injection Hd as <-]].
  - eexists. split; [vm_compute; reflexivity|]. vm_compute. auto.
Qed.
(** The two exclusions are necessary: a program with LB of a byte above 127, and
    one with a jump of 2^19 bytes, run in the shadow VM but trip a debug
    assertion, and without the key give other registers, or another pc. *)
Theorem C36_unrestricted_refuted :
  (exists v0 d0 dn v, fits true 1 0 1 (map encode [LOAD LB 1 0 0]) [128; 0] /\
    boots 1 true true 1 1 (map encode [LOAD LB 1 0 0]) [128; 0] v0 /\ v_debug v0 = Some d0 /\
    dcycles RD_RV32I 1 d0 = Some dn /\ ex_run (Some secret_key) 1 v0 = None /\
    ex_run None 1 v0 = Some v /\ dec_regs v <> Some (dregs dn)) /\
  (exists v0 d0 dn v, fits true 1 0 1 (map encode [Isa.JAL 0 (2 ^ 19)]) [0; 0] /\
    boots 1 true true 1 1 (map encode [Isa.JAL 0 (2 ^ 19)]) [0; 0] v0 /\ v_debug v0 = Some d0 /\
    dcycles RD_RV32I 1 d0 = Some dn /\ ex_run (Some secret_key) 1 v0 = None /\
    ex_run None 1 v0 = Some v /\ dec_pc v <> dpc dn).
Proof.
  split.
  - destruct (ex_load true 1 1 [LOAD LB 1 0 0] [128; 0]) as [v0|] eqn:E; [|vm_compute in E; discriminate].
    pose proof (ex_boots _ _ _ _ _ _ E) as B. vm_compute in E. injection E as <-.
    do 4 eexists. split; [fits_tac|]. split; [exact B|]. split; [reflexivity|]. split; [vm_compute; reflexivity|].
    split; [vm_compute; reflexivity|]. split; [vm_compute; reflexivity|]. vm_compute. discriminate.
  - destruct (ex_load true 1 1 [Isa.JAL 0 (2 ^ 19)] [0; 0]) as [v0|] eqn:E; [|vm_compute in E; discriminate].
    pose proof (ex_boots _ _ _ _ _ _ E) as B. vm_compute in E. injection E as <-.
    do 4 eexists. split; [fits_tac|]. split; [exact B|]. split; [reflexivity|]. split; [vm_compute; reflexivity|].
    split; [vm_compute; reflexivity|]. split; [vm_compute; reflexivity|]. vm_compute. discriminate.
Qed.
Print Assumptions C36_unrestricted_refuted.

(** C14.  [rb] address bits: the pc is past the program but not past the
    addresses the machine can tell apart. *)
Theorem C14_empty_slot_halts :
  forall log dbg debug rom_words rb mb ws ram v0 sk on chk es1 es2 v,
    fits debug rom_words rb mb ws ram -> boots log dbg debug rom_words mb ws ram v0 -> key_ok log sk on ->
    Forall env_ok es1 -> Forall env_ok es2 -> ecycles (Ideal log) sk chk es1 v0 = Some v ->
    Z.of_nat (length es1) + Z.of_nat (length es2) < 4294967296 ->
    4 * Z.of_nat (length ws) <= dec_pc v < 4 * 2 ^ Z.of_nat rb ->
    exists v', ecycles (Ideal log) None chk es2 v = Some v' /\
      dec_regs v' = dec_regs v /\ dec_ram v' = dec_ram v /\ dec_pc v' = dec_pc v.
Proof. exact halts. Qed.
Print Assumptions C14_empty_slot_halts.
Example C14_case :
  fits false 4 2 1 (map encode [OPI ADDI 1 1 1]) [5; 6] /\
  exists v0 v v', boots 1 true false 4 1 (map encode [OPI ADDI 1 1 1]) [5; 6] v0 /\
    ex_run None 1 v0 = Some v /\ 4 * 1 <= dec_pc v < 4 * 2 ^ 2 /\ ex_run None 3 v = Some v' /\
    option_map (fun l => nth 1 l 0) (dec_regs v') = Some 1 /\ dec_pc v' = 4.
Proof.
  split; [fits_tac|].
  destruct (ex_load false 4 1 [OPI ADDI 1 1 1] [5; 6]) as [v0|] eqn:E; [|vm_compute in E; discriminate].
  pose proof (ex_boots _ _ _ _ _ _ E) as B. vm_compute in E. injection E as <-.
  do 3 eexists. split; [exact B|]. split; [vm_compute; reflexivity|]. split; [vm_compute; split; [discriminate|reflexivity]|].
  split; [vm_compute; reflexivity|]. vm_compute. auto.
Qed.

(** C38.  Full statement: when [dec_pc v] is not the address of an instruction,
    no instruction of the program is executed.  False: the next cycle works with
    [dec_pc v mod (4 * 2^rb)]. *)
Theorem C38_jump_outside_refuted :
  exists prog v0 v v', fits false 4 2 1 (map encode prog) [0; 0] /\ boots 1 true false 4 1 (map encode prog) [0; 0] v0 /\
    ex_run None 1 v0 = Some v /\ 4 * Z.of_nat (length prog) <= dec_pc v /\
    ex_run None 1 v = Some v' /\ dec_pc v' = 8 /\ dec_regs v' <> dec_regs v.
Proof.
  (* jump to 20 in a program of 16 bytes executes the instruction at 4 *)
  exists [Isa.JAL 0 20; OPI ADDI 1 1 7; OPI ADDI 0 0 0; OPI ADDI 0 0 0].
  destruct (ex_load false 4 1 [Isa.JAL 0 20; OPI ADDI 1 1 7; OPI ADDI 0 0 0; OPI ADDI 0 0 0] [0; 0]) as [v0|] eqn:E; [|vm_compute in E; discriminate].
  pose proof (ex_boots _ _ _ _ _ _ E) as B. vm_compute in E. injection E as <-.
  do 3 eexists. split; [fits_tac|]. split; [exact B|]. split; [vm_compute; reflexivity|]. split; [vm_compute; discriminate|].
  split; [vm_compute; reflexivity|]. split; [vm_compute; reflexivity|]. vm_compute. discriminate.
Qed.
Print Assumptions C38_jump_outside_refuted.
(** the address every cycle after the first works with *)
Theorem C38_fetch_address :
  forall log rb mb sk on chk e v s v', key_ok log sk on -> env_ok e -> shows log rb mb v s ->
    ecycle (Ideal log) sk e chk v = Some v' -> v_cycle v <> 0 ->
    pack_bits (v_pcp v') = dec_pc v mod (4 * 2 ^ Z.of_nat rb).
Proof. exact step_pc. Qed.
Print Assumptions C38_fetch_address.
(** so there is no redirection below [4 * 2^rb] *)
Theorem C38_in_range_partial :
  forall log rb mb sk on chk e v s v', key_ok log sk on -> env_ok e -> shows log rb mb v s ->
    ecycle (Ideal log) sk e chk v = Some v' -> v_cycle v <> 0 -> 0 <= dec_pc v < 4 * 2 ^ Z.of_nat rb ->
    pack_bits (v_pcp v') = dec_pc v.
Proof.
  intros log rb mb sk on chk e v s v' K He S H C R. rewrite (step_pc _ _ _ _ _ _ _ _ _ _ K He S H C). now apply Z.mod_small.
Qed.
Print Assumptions C38_in_range_partial.

(** C11, encrypted VM.  A load writes the (extended) low bytes of the addressed
    word, whatever the two low address bits; LB is not sign-extended. *)
Theorem C11_encrypted_load :
  forall log rb mb sk on chk e v s v' k, key_ok log sk on -> env_ok e -> shows log rb mb v s ->
    ecycle (Ideal log) sk e chk v = Some v' -> f_rdu (xfields rb mb s) = rd_id (ldk_id k) ->
    let f := xfields rb mb s in
    let w := nth (Z.to_nat (to_word (f_imm f + f_x f - 2 ^ 18) / 4 mod 2 ^ Z.of_nat mb)) (x_ram s) 0 in
    dec_regs v' = Some (put_word (put_word (x_regs s) (Z.to_nat (f_rd f mod 32))
      (match k with
       | LB | LBU => w mod 2 ^ 8
       | LH => to_word (signed 16 (w mod 2 ^ 16))
       | LHU => w mod 2 ^ 16
       | LW => w
       end)) 0 0).
Proof.
  intros log rb mb sk on chk e v s v' k K He S H Hk f w. rewrite (step_regs _ _ _ _ _ _ _ _ _ _ K He S H). do 3 f_equal.
  unfold f_result. rewrite Hk. change (f_loaded (xfields rb mb s)) with w. destruct k; try reflexivity; apply byte_0.
Qed.
Print Assumptions C11_encrypted_load.
Theorem C11_encrypted_refuted :
  exists prog v0 v, fits false 1 0 1 (map encode prog) [0x0201; 0] /\ boots 1 true false 1 1 (map encode prog) [0x0201; 0] v0 /\
    prog = [LOAD LBU 1 0 1] /\ do_load LBU (DebugLoad.mem_of 0 [0x0201; 0]) 1 = 2 /\
    ex_run None 1 v0 = Some v /\ option_map (fun l => nth 1 l 0) (dec_regs v) = Some 1.
Proof.
  (* the byte at address 1 is 2 *)
  exists [LOAD LBU 1 0 1].
  destruct (ex_load false 1 1 [LOAD LBU 1 0 1] [0x0201; 0]) as [v0|] eqn:E; [|vm_compute in E; discriminate].
  pose proof (ex_boots _ _ _ _ _ _ E) as B. vm_compute in E. injection E as <-.
  do 2 eexists. split; [fits_tac|]. split; [exact B|]. split; [reflexivity|]. split; [reflexivity|]. split; [vm_compute; reflexivity|]. reflexivity.
Qed.
Print Assumptions C11_encrypted_refuted.

(** C12, encrypted VM *)
Theorem C12_encrypted_x0 :
  forall log dbg debug rom_words rb mb ws ram v0 sk on chk es v,
    fits debug rom_words rb mb ws ram -> boots log dbg debug rom_words mb ws ram v0 -> key_ok log sk on -> Forall env_ok es ->
    ecycles (Ideal log) sk chk es v0 = Some v ->
    exists regs, dec_regs v = Some regs /\ length regs = 32%nat /\ nth_error regs 0 = Some 0.
Proof. exact reach_x0. Qed.
Print Assumptions C12_encrypted_x0.
Example C12_case :
  exists v0 v, boots 1 true false 1 1 (map encode [OPI ADDI 0 0 7]) [0; 0] v0 /\ ex_run None 1 v0 = Some v /\
    option_map (fun l => nth_error l 0) (dec_regs v) = Some (Some 0).
Proof.
  destruct (ex_load false 1 1 [OPI ADDI 0 0 7] [0; 0]) as [v0|] eqn:E; [|vm_compute in E; discriminate].
  pose proof (ex_boots _ _ _ _ _ _ E) as B. vm_compute in E. injection E as <-.
  do 2 eexists. split; [exact B|]. split; [vm_compute; reflexivity|]. reflexivity.
Qed.

(** C13 and C15, encrypted VM: one word, inside RAM, and only if the
    instruction is a store *)
Theorem C15_encrypted_frame :
  forall log rb mb sk on chk e v s v', key_ok log sk on -> env_ok e -> shows log rb mb v s ->
    ecycle (Ideal log) sk e chk v = Some v' ->
    let f := xfields rb mb s in
    (f_slot f < v_ram_size v)%nat /\
    exists ram ram', dec_ram v = Some ram /\ dec_ram v' = Some ram' /\ length ram' = length ram /\
      (f_mu f mod 4 = 0 -> ram' = ram) /\ (forall k, k <> f_slot f -> nth_error ram' k = nth_error ram k).
Proof. exact step_ram. Qed.
Print Assumptions C15_encrypted_frame.
Theorem C15_encrypted_wrap :
  forall (rb mb : nat) s1 s2, (mb <= 30)%nat ->
    (4 * 2 ^ Z.of_nat mb | (f_imm (xfields rb mb s1) + f_x (xfields rb mb s1)) - (f_imm (xfields rb mb s2) + f_x (xfields rb mb s2))) ->
    f_slot (xfields rb mb s1) = f_slot (xfields rb mb s2).
Proof.
  intros rb mb s1 s2 Hm H. change (f_slot (xfields rb mb ?s)) with
    (Z.to_nat (to_word (f_imm (xfields rb mb s) + f_x (xfields rb mb s) - 2 ^ 18) / 4 mod 2 ^ Z.of_nat mb)).
  f_equal. now apply slot_periodic.
Qed.
Print Assumptions C15_encrypted_wrap.

(** C18, encrypted VM, for any implementation of the ciphertext operations *)
Theorem C18_encrypted_split :
  forall ct pb fu (A : alg ct pb fu) sk chk es1 es2 v,
    ecycles A sk chk (es1 ++ es2) v =
    match ecycles A sk chk es1 v with Some v' => ecycles A sk chk es2 v' | None => None end.
Proof. intros. apply ecycles_app. Qed.
Print Assumptions C18_encrypted_split.
Example C18_case :
  exists v0 v1 v2, ex_load false 6 2 PropTest.ex_prog [1; 2; 3; 4] = Some v0 /\
    ex_run None 3 v0 = Some v1 /\ ex_run None 4 v1 = Some v2 /\ ex_run None 7 v0 = Some v2 /\ dec_pc v2 = 12.
Proof.
  do 3 eexists. split; [vm_compute; reflexivity|]. split; [vm_compute; reflexivity|]. split; [vm_compute; reflexivity|].
  split; vm_compute; reflexivity.
Qed.

(** C43, encrypted VM.  Full statement: a program with an M instruction is
    refused.  False: it is loaded and executed with a wrong result. *)
Theorem C43_encrypted_refuted :
  exists v0 v regs, let prog := [OPI ADDI 1 0 20; OPI ADDI 2 0 3; OPM REM 3 1 2] in
    fits false 3 2 1 (map encode prog) [0; 0] /\ Forall legal prog /\ boots 1 true false 3 1 (map encode prog) [0; 0] v0 /\
    ex_run None 3 v0 = Some v /\ dec_regs v = Some regs /\ nth 3 regs 0 = 20 /\ alu_mop REM 20 3 = 2.
Proof.
  destruct (ex_load false 3 1 [OPI ADDI 1 0 20; OPI ADDI 2 0 3; OPM REM 3 1 2] [0; 0]) as [v0|] eqn:E; [|vm_compute in E; discriminate].
  pose proof (ex_boots _ _ _ _ _ _ E) as B. vm_compute in E. injection E as <-.
  do 3 eexists. cbv zeta. split; [fits_tac|]. split; [repeat constructor; cbn; unfold reg; lia|]. split; [exact B|].
  split; [vm_compute; reflexivity|]. split; [vm_compute; reflexivity|]. vm_compute. auto.
Qed.
Print Assumptions C43_encrypted_refuted.
(** What it computes instead, for every operand: MUL, MULH, MULHSU, MULHU and
    DIV give 0, DIVU the pc, REM its first operand, REMU the sign of it. *)
Theorem C43_encrypted_result :
  forall log rb mb sk on chk e v s v' o, key_ok log sk on -> env_ok e -> shows log rb mb v s ->
    ecycle (Ideal log) sk e chk v = Some v' ->
    let f := xfields rb mb s in
    f_rdu f = rd_id (mop_id o) -> f_imm f = 0 ->
    dec_regs v' = Some (put_word (put_word (x_regs s) (Z.to_nat (f_rd f mod 32))
      (match o with DIVU => f_pc f | REM => f_x f | REMU => if signed 32 (f_x f) <? 0 then 1 else 0 | _ => 0 end)) 0 0).
Proof.
  intros log rb mb sk on chk e v s v' o K He S H f Hk Hi. rewrite (step_regs _ _ _ _ _ _ _ _ _ _ K He S H). do 3 f_equal.
  unfold f_result. fold f. rewrite Hk, Hi. apply m_sel; now destruct (step_words _ _ _ _ _ _ _ _ _ _ K He S H).
Qed.
Print Assumptions C43_encrypted_result.
(** SYSTEM instructions (ECALL, EBREAK, CSR): every such word is accepted and is
    a no-operation *)
Theorem C43_system_row :
  forall dbg w, word w -> w mod 128 = 0x73 ->
    components dbg w = Some (0, 0, 0, 0, rd_id RNONE, ram_id MNONE, pc_id PNONE).
Proof. exact system_row. Qed.
Print Assumptions C43_system_row.
Theorem C43_system_is_nop :
  forall log rb mb sk on chk e v s v', key_ok log sk on -> env_ok e -> shows log rb mb v s ->
    ecycle (Ideal log) sk e chk v = Some v' -> nth 0 (x_regs s) 0 = 0 ->
    let f := xfields rb mb s in
    f_rd f = 0 -> f_rdu f = rd_id RNONE -> f_mu f = ram_id MNONE -> f_pcu f = pc_id PNONE ->
    dec_regs v' = dec_regs v /\ dec_ram v' = dec_ram v /\ dec_pc v' = to_word (f_pc f + 4).
Proof.
  intros log rb mb sk on chk e v s v' K He S H Z0 f E1 E2 E3 E4.
  pose proof (step_shows _ _ _ _ _ _ _ _ _ _ K He S H) as S'.
  destruct (nop_step rb mb s) as (I1 & I2 & I3); try assumption; [apply S|apply S|].
  rewrite (shows_regs _ _ _ _ _ S), (shows_regs _ _ _ _ _ S'), (shows_ram _ _ _ _ _ S), (shows_ram _ _ _ _ _ S'), (shows_pc _ _ _ _ _ S').
  rewrite I1, I2, I3. auto.
Qed.
Print Assumptions C43_system_is_nop.
Example C43_ecall_case :
  word 0x73 /\ 0x73 mod 128 = 0x73 /\
  exists p v0 v, parser_add_all true parser_new [0x73] = Some p /\ load 1 true true 1 2 p [1; 2] = Some v0 /\
    ex_run (Some secret_key) 1 v0 = Some v /\ dec_regs v = Some (repeat 0 32) /\ dec_ram v = Some [1; 2] /\ dec_pc v = 4.
Proof.
  split; [unfold word; lia|]. split; [reflexivity|]. do 3 eexists. split; [vm_compute; reflexivity|].
  split; [vm_compute; reflexivity|]. split; [vm_compute; reflexivity|]. vm_compute. auto.
Qed.
