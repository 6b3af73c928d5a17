(** * C110: the text of the homomorphic tests

    [TextFheTests.v] is the text of the tests of fhevm/src/tests/ that use
    ciphertexts, translated by tools/gen_ftests.py.  Over the ideal library each
    of them is shown to pass exactly under a condition about what it is given:
    noise, random draws, bytes of scratch space.  [Some tt]: it passes; [None]:
    an assertion fails or something panics. *)
Require Import ZArith List Bool Lia.
From Verif Require Import Rust RustIter RustStr RustLib RustEng RustHost RustTests TextLib TextEng TextMemFacts PropTextMem TextCycle TextIdeal.
Require Verif.Isa Verif.Glwe Verif.MemSpec Verif.Scratch Verif.CycleScratch Verif.RepoTests Verif.PropTests Verif.PropTextEnc Verif.PropTextHost Verif.TextHostRun
  Verif.TextFheTests Verif.TextFheFacts Verif.TextFheRuns Verif.TextFheFetch Verif.TextFheOps.
Module PE := Verif.PropTextEnc.
Module HR := Verif.TextHostRun.
Module FT := Verif.TextFheTests.
Module TF := Verif.TextFheFacts.
Module TR := Verif.TextFheRuns.
Module TE := Verif.TextFheFetch.
Module TO := Verif.TextFheOps.
Module PT := Verif.PropTests.
Module RT := Verif.RepoTests.
Import ListNotations.
Open Scope Z_scope.

Section Tests.
Context {GL KL SL Src : Type}.
Variables (log : nat) (sp : space GL KL SL) (garbage : Z -> nat -> list Z) (garbage_i64 : Z -> nat -> int I64)
  (gl_n : GL -> Z) (enc dec : Z -> list Z -> list Z) (next : Src -> Src)
  (sw : word_space GL KL SL) (shuffle : list (nat * list Z) -> list (nat * list Z)).
Notation A := (G.Ideal log).
Notation L := (lib A sp garbage garbage_i64 gl_n enc dec next).
Notation N := (eng A sp garbage garbage_i64 gl_n enc dec next sw (ideal_bdd log) G.decrypt_word Bdd.pack_bits shuffle).
Variables (p : profile) (l : GL) (sl : SL) (kl : KL) (fuel : nat) (pm : layouts GL SL).
Notation y := (cycle_costs_at sp sw l sl kl).
Notation c := (costs_at sp l l sl kl).
Notation lz := (Z.of_nat log).
Variable (Hs : host L N) (Q : tests L N Hs).
Notation gives := (HR.gives log sp garbage garbage_i64 gl_n enc dec next sw shuffle Hs).
Notation drawn := (TF.drawn log sp garbage garbage_i64 gl_n enc dec next sw shuffle Hs Q).
Notation low_noise := (TF.low_noise log sp garbage garbage_i64 gl_n enc dec next sw shuffle l Hs Q (2 ^ 24)).

(** the client: [avail] bytes are given and are enough to encrypt and to decrypt, the
    parameters have their layouts, the keys are made, an encryption has the word
    that is encrypted as its message, random words are words *)
Definition given (avail : Z) : Prop :=
  PE.client_ok log sp gl_n enc dec l sl pm avail /\ gives avail /\
  HR.keys_ok log sp garbage garbage_i64 gl_n enc dec next sw shuffle kl Hs /\ CryptographicParameters_new Hs = pm /\
  TF.tests_ok log sp garbage garbage_i64 gl_n enc dec next sw shuffle l sl Hs Q avail /\
  Sc.need avail (w_dec sw l) <> None.
(** the interpreter: it has 2^28 bytes of scratch space; [rb], [mb]: address bits
    of ROM and RAM *)
Definition runs (rb mb threads : nat) : Prop :=
  given (2 ^ 24) /\ gives (2 ^ 28) /\ (7 < fuel)%nat /\ (log <= 62)%nat /\ shuffles shuffle /\
  PE.in_bytes sp sw l sl kl log rb mb threads /\ Sc.need (2 ^ 28) (w_dec sw l) <> None.

(** tests/memory.rs: the comparisons hold, of 512, 512 again and the word drawn
    [v]; the test passes exactly when the noise of the three results is below
    2^-16. *)
Theorem C110_memory : given (2 ^ 24) -> (log <= 62)%nat -> sizes_at sp l l sl kl ->
  0 <= Sc.stateless_bytes c -> bytes_fit 1 (Sc.stateless_bytes c) -> Sc.read_stateless_space c 1 (2 ^ 24) <> None ->
  bytes_fit 1 (Sc.rev_bytes c lz 10 + s_glwe sp l) ->
  Sc.read_statefull_space c lz 10 1 (2 ^ 24) <> None -> Sc.read_statefull_rev_space c lz 10 1 (2 ^ 24) <> None ->
  exists r1 r2 r3 v, MS.enc_of r1 512 /\ MS.enc_of r2 512 /\ MS.enc_of r3 v /\ Isa.word v /\
    (FT.memory_test_fhe_ram L N Hs Q p = Some tt <-> low_noise r1 512 = true /\ low_noise r2 512 = true /\ low_noise r3 v = true).
Proof.
  intros (CO & GI & KO & PM & TO & DN) LG SZ B1 B2 S1 B3 S2 S3.
  destruct (TF.memory_text log sp garbage garbage_i64 gl_n enc dec next sw shuffle p l sl kl pm Hs Q (2 ^ 24) eq_refl CO GI KO PM LG TO SZ B1 B2 S1 B3 S2 S3 DN)
    as (r1 & r2 & r3 & v & D1 & D2 & D3 & W & E).
  exists r1, r2, r3, v. repeat (split; [assumption|]). rewrite E. clear E.
  destruct (low_noise r1 512), (low_noise r2 512), (low_noise r3 v); cbn [andb]; split; intuition congruence.
Qed.

(** tests/ram_offset.rs passes. *)
Theorem C110_ram_offset : given (2 ^ 24) -> Y.circuit_space y (Y.y_offset y 4) (2 ^ 24) <> None ->
  FT.ram_offset_test_ram_offset L N Hs Q p = Some tt.
Proof.
  intros (CO & GI & KO & PM & TO & DN) SP.
  rewrite (TF.ram_offset_test_text log sp garbage garbage_i64 gl_n enc dec next sw shuffle p l sl kl pm Hs Q (2 ^ 24) eq_refl CO GI KO PM TO SP DN).
  apply PT.C81_ram_offset; unfold Isa.word; lia.
Qed.

(** tests/pc_update.rs: [ds] are the sixty words it draws, four for each of its
    fifteen cases, one after the other from [s] on.  It passes unless overflow is
    checked and a case increments the largest word. *)
Theorem C110_pc_update : given (2 ^ 24) -> Y.circuit_space y (Y.y_pcu y 2) (2 ^ 24) <> None ->
  exists s ds s', drawn s ds s' /\ length ds = 15%nat /\ Forall PT.is_draw ds /\
  FT.pc_update_test_pc_update L N Hs Q p = RT.test_pc_update log (overflow_checks p) ds /\
  (FT.pc_update_test_pc_update L N Hs Q p = Some tt <->
   ~ (overflow_checks p = true /\ exists i c d, nth_error RT.pc_cases i = Some c /\ nth_error ds i = Some d /\ PT.overflows c d)).
Proof.
  intros (CO & GI & KO & PM & TO & DN) SP.
  destruct (TF.pc_test_text log sp garbage garbage_i64 gl_n enc dec next sw shuffle p l sl kl pm Hs Q (2 ^ 24) eq_refl CO GI KO PM TO SP DN) as (s & ds & s' & D & LN & FD & E).
  exists s, ds, s'. do 4 (split; [assumption|]). rewrite E. apply PT.C81_pc_update; assumption.
Qed.

(** tests/interpreters.rs, [interpreter_cycle_single_instruction_noop]: it passes
    exactly when its scratch space is enough for a cycle with sixteen threads. *)
Theorem C110_noop : runs 10 10 16 ->
  (FT.interpreters_test_interpreter_cycle_single_instruction_noop L N Hs Q p fuel = Some tt <->
   Y.cycle_space y lz 10 5 10 true false 16 (2 ^ 28) <> None).
Proof.
  intros ((CO & GI & KO & PM & TO & DN) & G28 & FU & LG & SH & IB & D28).
  rewrite (TR.noop_text log sp garbage garbage_i64 gl_n enc dec next sw shuffle p l sl kl fuel pm Hs Q (2 ^ 24) (2 ^ 28) eq_refl eq_refl CO GI G28 KO PM TO FU LG SH IB D28).
  destruct (Y.cycle_space y lz 10 5 10 true false 16 (2 ^ 28)); split; congruence.
Qed.

(** tests/cycle.rs, [interpreter_cycles]: nine cycles with the comparisons, on one
    thread; again only the scratch space decides. *)
Theorem C110_cycles : runs 4 6 1 ->
  (FT.cycle_test_interpreter_cycles L N Hs Q p fuel = Some tt <->
   Y.cycles_space y lz 4 5 6 true true 1 (2 ^ 28) 9 <> None).
Proof.
  intros ((CO & GI & KO & PM & TO & DN) & G28 & FU & LG & SH & IB & D28).
  rewrite (TR.cycles_text log sp garbage garbage_i64 gl_n enc dec next sw shuffle p l sl kl fuel pm Hs Q (2 ^ 24) (2 ^ 28) eq_refl eq_refl CO GI G28 KO PM FU LG SH IB).
  destruct (Y.cycles_space y lz 4 5 6 true true 1 (2 ^ 28) 9); split; congruence.
Qed.

(** tests/interpreters.rs, [init_one_instruction] and [init_many_instructions]: the
    seven parts of every instruction fetched are those of the decoder; only the
    scratch space for a fetch decides. *)
Definition fetches (avail : Z) : Prop :=
  given avail /\ (7 < fuel)%nat /\ (log <= 62)%nat /\ PE.in_bytes sp sw l sl kl log 10 10 1.
Theorem C110_one_instruction : fetches (2 ^ 22) ->
  (FT.interpreters_test_interpreter_init_one_instruction L N Hs Q p fuel = Some tt <-> Y.instruction_space y 1 (2 ^ 22) <> None).
Proof.
  intros ((CO & GI & KO & PM & TO & DN) & FU & LG & IB).
  rewrite (TE.one_text log sp garbage garbage_i64 gl_n enc dec next sw shuffle p l sl kl fuel pm Hs Q (2 ^ 22) eq_refl CO GI KO PM TO FU LG IB DN).
  destruct (Y.instruction_space y 1 (2 ^ 22)); split; congruence.
Qed.
Theorem C110_many_instructions : fetches (2 ^ 24) ->
  (FT.interpreters_test_interpreter_init_many_instructions L N Hs Q p fuel = Some tt <-> Y.instruction_space y 1 (2 ^ 24) <> None).
Proof.
  intros ((CO & GI & KO & PM & TO & DN) & FU & LG & IB).
  rewrite (TE.many_text log sp garbage garbage_i64 gl_n enc dec next sw shuffle p l sl kl fuel pm Hs Q (2 ^ 24) eq_refl CO GI KO PM TO FU LG IB DN).
  destruct (Y.instruction_space y 1 (2 ^ 24)); split; congruence.
Qed.

(** [init_one_op]: the test draws five words; with enough scratch space it passes
    exactly when the low byte of the fifth, the word "loaded", is below 128: LB is
    compared too, and does not extend the sign (F25). *)
Theorem C110_one_op : fetches (2 ^ 24) ->
  Y.instruction_space y 1 (2 ^ 24) <> None -> (forall o, In o EvalPlain.RD_RV32I -> Y.rd_space y o 4 (2 ^ 24) <> None) ->
  exists im x z pc ram s',
    TO.words_drawn log sp garbage garbage_i64 gl_n enc dec next sw shuffle Hs Q (Source_new Hs (filled (@lit U8 0) (lit 32))) [im; x; z; pc; ram] s' /\
    Forall Isa.word [im; x; z; pc; ram] /\
    (FT.interpreters_test_interpreter_init_one_op L N Hs Q p fuel = Some tt <-> ram mod 256 < 128).
Proof.
  intros ((CO & GI & KO & PM & TO & DN) & FU & LG & IB) IS RS.
  destruct (TO.one_op_text log sp garbage garbage_i64 gl_n enc dec next sw shuffle p l sl kl fuel pm Hs Q (2 ^ 24) eq_refl CO GI KO PM TO FU LG IB DN IS RS)
    as (im & x & z & pc & ram & s' & D & W & E).
  exists im, x, z, pc, ram, s'. split; [exact D|]. split; [exact W|]. rewrite E.
  rewrite !Forall_cons_iff in W. destruct W as (W1 & W2 & W3 & W4 & W5 & _). apply PT.C81_one_op; assumption.
Qed.
End Tests.
Print Assumptions C110_memory.
Print Assumptions C110_ram_offset.
Print Assumptions C110_pc_update.
Print Assumptions C110_noop.
Print Assumptions C110_cycles.
Print Assumptions C110_one_instruction.
Print Assumptions C110_many_instructions.
Print Assumptions C110_one_op.

(** ** A case: four coefficients, a generator of words, a noise of [std] *)
Notation ex_L := (lib (G.Ideal 2) ex_sp (fun _ _ => repeat 7 4) (fun _ _ => Int 7) (fun _ => 4) (fun _ x => x) (fun _ x => x) (fun s : nat => Datatypes.S s)).
Notation ex_N := (eng (G.Ideal 2) ex_sp (fun _ _ => repeat 7 4) (fun _ _ => Int 7) (fun _ => 4) (fun _ x => x) (fun _ x => x) (fun s : nat => Datatypes.S s)
  PE.ex_sw (ideal_bdd 2) G.decrypt_word Bdd.pack_bits (@rev _)).
(** [std]: the logarithm of the noise that is reported; [draw]: the words drawn *)
Definition ex_tests (std : Z) (draw : nat -> Z) : tests ex_L ex_N (PropTextHost.ex_host None) :=
  {| Stats := unit; Real := Z; GLWESecret_rank := fun _ => (tt : RustHost.Rank (PropTextHost.ex_host None));
     Source_next_u32 := fun s : RustLib.Source ex_L => Some (Datatypes.S s, Int (draw s));
     FheUint_encrypt_sk := fun (w : RustLib.FheUint ex_L) _ v _ a b _ => Some ((fst w, G.fhe_of_word (val v)) : RustLib.FheUint ex_L, a, b);
     FheUintPrepared_encrypt_sk := fun (q : RustLib.FheUintPrepared ex_L) _ v _ a b _ => Some ((fst q, RT.encrypt_prepared (val v)) : RustLib.FheUintPrepared ex_L, a, b);
     FheUint_noise := fun _ _ _ _ _ => Some tt; Stats_std := fun _ => 0; Real_log2 := fun _ => std; Real_lt := fun r f => r <? fst f |}.
Definition ex_draw (s : nat) : Z := (Z.of_nat s * 0x9E3779B1 + 5) mod 2 ^ 32.
Lemma ex_given : forall std draw avail, In avail [2 ^ 22; 2 ^ 24] -> (forall s, Isa.word (draw s)) ->
  given 2 ex_sp (fun _ _ => repeat 7 4) (fun _ _ => Int 7) (fun _ => 4) (fun _ x => x) (fun _ x => x) (fun s : nat => Datatypes.S s) PE.ex_sw (@rev _)
    0%nat 0%nat 0%nat PE.ex_pm (PropTextHost.ex_host None) (ex_tests std draw) avail.
Proof.
  intros std draw avail I W. split; [destruct I as [<-|[<-|[]]]; repeat split; vm_compute; congruence|]. split; [eexists; split; reflexivity|].
  split; [repeat split; intros; try discriminate; reflexivity|]. split; [reflexivity|].
  split; [|destruct I as [<-|[<-|[]]]; vm_compute; discriminate].
  split; [intros; do 2 eexists; reflexivity|]. split; [intros; do 2 eexists; reflexivity|].
  intro s. do 2 eexists. split; [reflexivity|apply W].
Qed.
Lemma ex_runs : forall std draw rb mb threads, (forall s, Isa.word (draw s)) -> In (rb, mb, threads) [(10, 10, 16); (4, 6, 1)]%nat ->
  runs 2 ex_sp (fun _ _ => repeat 7 4) (fun _ _ => Int 7) (fun _ => 4) (fun _ x => x) (fun _ x => x) (fun s : nat => Datatypes.S s) PE.ex_sw (@rev _)
    0%nat 0%nat 0%nat 8 PE.ex_pm (PropTextHost.ex_host None) (ex_tests std draw) rb mb threads.
Proof.
  intros std draw rb mb threads W I. split; [exact (ex_given std draw (2 ^ 24) ltac:(cbn; tauto) W)|]. split; [eexists; split; reflexivity|]. split; [lia|]. split; [lia|].
  split; [intro l; apply Permutation.Permutation_rev|].
  destruct I as [E|[E|[]]]; injection E as <- <- <-; (split; [repeat split; vm_compute; congruence|vm_compute; discriminate]).
Qed.
(** The test of the memory passes with a noise of 2^-20 and not with 2^-16; that
    of the pc passes in both builds, and only without overflow checks if all bits
    drawn are ones. *)
Definition ex_pc (checks : bool) (draw : nat -> Z) : option unit :=
  FT.pc_update_test_pc_update ex_L ex_N (PropTextHost.ex_host None) (ex_tests (-20) draw) (Build_profile checks checks).
Example C110_case :
  (forall std, FT.memory_test_fhe_ram ex_L ex_N (PropTextHost.ex_host None) (ex_tests std ex_draw) (Build_profile true true) = if std <? -16 then Some tt else None) /\
  FT.ram_offset_test_ram_offset ex_L ex_N (PropTextHost.ex_host None) (ex_tests 0 ex_draw) (Build_profile true true) = Some tt /\
  ex_pc true ex_draw = Some tt /\ ex_pc true (fun _ => 2 ^ 32 - 1) = None /\ ex_pc false (fun _ => 2 ^ 32 - 1) = Some tt /\
  FT.interpreters_test_interpreter_cycle_single_instruction_noop ex_L ex_N (PropTextHost.ex_host None) (ex_tests 0 ex_draw) (Build_profile true true) 8 = Some tt /\
  FT.cycle_test_interpreter_cycles ex_L ex_N (PropTextHost.ex_host None) (ex_tests 0 ex_draw) (Build_profile true true) 8 = Some tt.
Proof.
  assert (W : forall s, Isa.word (ex_draw s)) by (intro s; unfold Isa.word, ex_draw; apply Z.mod_pos_bound; lia).
  split.
  { intro std.
    destruct (C110_memory _ _ _ _ _ _ _ _ _ _ (Build_profile true true) _ _ _ _ _ _ (ex_given std ex_draw (2 ^ 24) ltac:(cbn; tauto) W)) as (r1 & r2 & r3 & v & _ & _ & _ & _ & E);
      try lia; try (repeat split; vm_compute; congruence).
    change (TF.low_noise _ _ _ _ _ _ _ _ _ _ _ _ _ _ r1 512) with (std <? -16) in E.
    change (TF.low_noise _ _ _ _ _ _ _ _ _ _ _ _ _ _ r2 512) with (std <? -16) in E.
    change (TF.low_noise _ _ _ _ _ _ _ _ _ _ _ _ _ _ r3 v) with (std <? -16) in E.
    destruct (FT.memory_test_fhe_ram _ _ _ _ _) as [[]|]; destruct (std <? -16); try reflexivity; exfalso; intuition congruence. }
  split; [vm_compute; reflexivity|]. split; [vm_compute; reflexivity|]. split; [vm_compute; reflexivity|]. split; [vm_compute; reflexivity|].
  split.
  - refine (proj2 (C110_noop _ _ _ _ _ _ _ _ _ _ _ _ _ _ _ _ _ _ (ex_runs 0 ex_draw 10 10 16 W ltac:(cbn; tauto))) _). vm_compute. discriminate.
  - refine (proj2 (C110_cycles _ _ _ _ _ _ _ _ _ _ _ _ _ _ _ _ _ _ (ex_runs 0 ex_draw 4 6 1 W ltac:(cbn; tauto))) _). vm_compute. discriminate.
Qed.

(** The tests that fetch pass; that of the operations passes with a word "loaded"
    of 0x7F and fails with 0x80. *)
Example C110_fetch_case :
  FT.interpreters_test_interpreter_init_one_instruction ex_L ex_N (PropTextHost.ex_host None) (ex_tests 0 ex_draw) (Build_profile true true) 8 = Some tt /\
  FT.interpreters_test_interpreter_init_many_instructions ex_L ex_N (PropTextHost.ex_host None) (ex_tests 0 ex_draw) (Build_profile true true) 8 = Some tt /\
  forall low, In low [0x7F; 0x80] ->
  FT.interpreters_test_interpreter_init_one_op ex_L ex_N (PropTextHost.ex_host None) (ex_tests 0 (fun s => ex_draw s / 256 * 256 + low)) (Build_profile true true) 8 = if low <? 128 then Some tt else None.
Proof.
  assert (W : forall s, Isa.word (ex_draw s)) by (intro s; unfold Isa.word, ex_draw; apply Z.mod_pos_bound; lia).
  assert (FE : forall draw avail, In avail [2 ^ 22; 2 ^ 24] -> (forall s, Isa.word (draw s)) ->
    fetches 2 ex_sp (fun _ _ => repeat 7 4) (fun _ _ => Int 7) (fun _ => 4) (fun _ x => x) (fun _ x => x) (fun s : nat => Datatypes.S s) PE.ex_sw (@rev _)
      0%nat 0%nat 0%nat 8 PE.ex_pm (PropTextHost.ex_host None) (ex_tests 0 draw) avail).
  { intros draw avail I W'. split; [exact (ex_given 0 draw avail I W')|]. split; [lia|]. split; [lia|]. repeat split; vm_compute; congruence. }
  split; [|split].
  - refine (proj2 (C110_one_instruction _ _ _ _ _ _ _ _ _ _ _ _ _ _ _ _ _ _ (FE ex_draw (2 ^ 22) ltac:(cbn; tauto) W)) _). vm_compute. discriminate.
  - refine (proj2 (C110_many_instructions _ _ _ _ _ _ _ _ _ _ _ _ _ _ _ _ _ _ (FE ex_draw (2 ^ 24) ltac:(cbn; tauto) W)) _). vm_compute. discriminate.
  - intros low I.
    assert (W' : forall s, Isa.word (ex_draw s / 256 * 256 + low)).
    { intro s. specialize (W s). unfold Isa.word in *. change (2 ^ 32) with (16777216 * 256) in *.
      assert (B1 : 0 <= ex_draw s / 256) by (apply Z.div_pos; lia). assert (B2 : ex_draw s / 256 < 16777216) by (apply Z.div_lt_upper_bound; lia).
      destruct I as [<-|[<-|[]]]; lia. }
    destruct (C110_one_op _ _ _ _ _ _ _ _ _ _ (Build_profile true true) _ _ _ _ _ _ _ (FE _ (2 ^ 24) ltac:(cbn; tauto) W')) as (im & x & z & pc & ram & s' & D & _ & E).
    { vm_compute. discriminate. }
    { assert (SPC : forallb (fun o => match Y.rd_space (cycle_costs_at ex_sp PE.ex_sw 0%nat 0%nat 0%nat) o 4 (2 ^ 24) with Some _ => true | None => false end) EvalPlain.RD_RV32I = true) by (vm_compute; reflexivity).
      intros o Io. rewrite forallb_forall in SPC. specialize (SPC o Io). intro NO. rewrite NO in SPC. discriminate SPC. }
    cbn [TO.words_drawn] in D. destruct D as (s1 & D1 & s2 & D2 & s3 & D3 & s4 & D4 & s5 & D5 & _).
    assert (DR := f_equal (fun o => match o with Some (_, w) => val w | None => 0 end) D5). cbn [Source_next_u32 ex_tests val] in DR.
    assert (M : ram mod 256 = low).
    { rewrite <- DR, Z.add_comm, Z.mod_add by lia. destruct I as [<-|[<-|[]]]; reflexivity. }
    rewrite M in E. destruct (FT.interpreters_test_interpreter_init_one_op _ _ _ _ _ _) as [[]|]; destruct (Z.ltb_spec low 128); try reflexivity; exfalso; intuition (try discriminate; try lia).
Qed.
