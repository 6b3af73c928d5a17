(** * C98, C99: the text of the encrypted interpreter

    [TextEnc.v] is fhevm/src/interpreter.rs (with ram_offset.rs, pc_update.rs,
    prepare.rs and the encrypted halves of rd_update.rs and ram_update.rs)
    translated by tools/gen_eng.py.  Here the translation and the model of
    [EncVM.v] are shown to be the same function, cycle by cycle and run by run,
    over any algebra of ciphertexts; then, over the ideal one, the translated
    text itself is shown to be the machine of [ExactSpec.v]. *)
Require Import ZArith List Bool Lia.
From Verif Require Import Rust RustIter RustLib RustEng TextLib TextEng TextMemFacts TextPrep TextMemClient PropTextMem TextPlanes TextShadow TextCycle TextClient TextIdeal.
Require Verif.Word Verif.Codec Verif.DebugVM Verif.Glwe Verif.EncMem Verif.MemSpec Verif.Scratch Verif.CycleScratch
  Verif.EncVM Verif.EncSpec Verif.EncCycle Verif.EncTrack Verif.EncLoad Verif.EncRun Verif.ExactSpec Verif.ShadowSpec Verif.DecodeSpec Verif.PropEnc Verif.PropExact Verif.PropShadow Verif.PropText Verif.PropMem Verif.ParFacts Verif.GlweFacts.
Module ES := Verif.EncSpec.
Module MS := Verif.MemSpec.
Import ListNotations.
Open Scope Z_scope.

(** ** the amounts of scratch space are numbers of bytes

    [rb], [mb]: address bits of ROM and RAM *)
Definition in_bytes {GL KL SL} (sp : space GL KL SL) (sw : word_space GL KL SL) (l : GL) (sl : SL) (kl : KL)
    (log rb mb threads : nat) : Prop :=
  let cs := costs_at sp l l sl kl in
  let lz := Z.of_nat log in
  sizes_at sp l l sl kl /\ 0 <= w_dec sw l /\
  (0 <= Sc.stateless_bytes cs /\ bytes_fit threads (Sc.stateless_bytes cs)) /\
  bytes_fit threads (Z.max (s_rotate sp) (s_trace sp l l kl) + s_glwe sp l) /\
  0 <= Z.of_nat threads * Y.y_bits (cycle_costs_at sp sw l sl kl) < 2 ^ 64 /\
  bytes_fit threads (Sc.rev_bytes cs lz 5 + s_glwe sp l) /\
  (0 <= Sc.statefull_bytes cs lz (Z.of_nat mb) /\ bytes_fit threads (Sc.statefull_bytes cs lz (Z.of_nat mb))) /\
  bytes_fit threads (Sc.rev_bytes cs lz (Z.of_nat mb) + s_glwe sp l) /\
  Z.of_nat mb + 2 < 2 ^ 64 /\ Z.of_nat rb + 2 < 2 ^ 64.

Section Server.
Context {ct pb fu GL KL SL Src : Type}.
Variables (A : G.alg ct pb fu) (sp : space GL KL SL) (garbage : Z -> nat -> ct) (garbage_i64 : Z -> nat -> int I64)
  (gl_n : GL -> Z) (enc : Z -> list Z -> ct) (dec : Z -> ct -> list Z) (next : Src -> Src)
  (sw : word_space GL KL SL) (bdd : Circuits -> list pb -> list ct) (dec_word : fu -> Z) (dec_prepared : list pb -> Z)
  (shuffle : list (nat * fu) -> list (nat * fu)).
Notation L := (lib A sp garbage garbage_i64 gl_n enc dec next).
Notation N := (eng A sp garbage garbage_i64 gl_n enc dec next sw bdd dec_word dec_prepared shuffle).
Notation log := (G.log_n A).
Variables (p : profile) (l : GL) (sl : SL) (kl : KL) (fuel : nat).
Notation interp := (interp A sp garbage garbage_i64 gl_n enc dec next l sl).

(** what the caller calls: [cycle], or [cycle_debug] with the secret key
    (compiler/src/interpreter.rs:126-137) *)
Definition text_cycle (sk : option unit) (self : T.Interpreter L) (avail : Z) : option (T.Interpreter L) :=
  match sk with
  | None => T.Interpreter_cycle_fn L N p fuel self tt kl avail
  | Some k => T.Interpreter_cycle_debug L N p fuel self tt kl k avail
  end.
Fixpoint text_cycles (sk : option unit) (n : nat) (self : T.Interpreter L) (avail : Z) : option (T.Interpreter L) :=
  match n with
  | O => Some self
  | Datatypes.S n => self <- text_cycle sk self avail ;; text_cycles sk n self avail
  end.

(** the key as the model has it: the library's decryptions of words, and the
    text's own decryption of memories *)
Definition key_of (sk : option unit) (avail : Z) : option (V.secret ct pb fu) :=
  skm A sp garbage garbage_i64 gl_n enc dec next dec_word dec_prepared p l avail sk.

(** the library: loops of the text may run [fuel > 7] rounds, blind selection
    does not depend on the order of a map, the two circuit tables of the
    repository are evaluated as the model's *)
Definition library_ok : Prop :=
  (7 < fuel)%nat /\ (log <= 62)%nat /\ select_unordered A /\ shuffles shuffle /\ circuits_agree A bdd.

(** C98.  One cycle of the text: it panics if the scratch space does not suffice
    by CycleScratch.v or the model panics, and otherwise leaves the interpreter
    of the model, for every schedule of the model's threads. *)
Theorem C98_cycle : forall sk e avail verbose b v,
  library_ok -> in_bytes sp sw l sl kl log (V.v_rom_bits v) (V.v_ram_bits v) (V.n_threads e) ->
  (V.n_threads e <> 0%nat -> ES.env_ok e) -> wide_b b -> fit_vm v ->
  match Y.cycle_space (cycle_costs_at sp sw l sl kl) (Z.of_nat log) (Z.of_nat (V.v_rom_bits v)) 5 (Z.of_nat (V.v_ram_bits v))
          (V.v_cycle v =? 0) (keyed sk (V.v_debug v)) (Z.of_nat (V.n_threads e)) avail,
        V.ecycle A (key_of sk avail) e (overflow_checks p) v with
  | Some _, Some v' => exists b', text_cycle sk (interp verbose (V.n_threads e) b v) avail = Some (interp verbose (V.n_threads e) b' v') /\
      wide_b b' /\ fit_vm v' /\ has (V.v_debug v') = has (V.v_debug v)
  | _, _ => text_cycle sk (interp verbose (V.n_threads e) b v) avail = None
  end.
Proof.
  intros sk e avail verbose b v (FUEL & LG & UN & SH & CI) (SZ & D0 & FS & FZ & FB & FW & FR & FV & RB & RO) EN WB FVM.
  pose proof (cycle_text A sp garbage garbage_i64 gl_n enc dec next sw bdd dec_word dec_prepared shuffle p l sl kl fuel FUEL UN SH CI e avail LG SZ D0
    FS FZ FB FW EN verbose v sk RB FR FV RO b WB FVM) as M.
  assert (TC : text_cycle sk (interp verbose (V.n_threads e) b v) avail =
    T.Interpreter_cycle_internal L N p fuel (interp verbose (V.n_threads e) b v) tt kl sk avail).
  { destruct sk as [[]|]; cbn [text_cycle]; unfold T.Interpreter_cycle_debug, T.Interpreter_cycle_fn;
      destruct (T.Interpreter_cycle_internal _ _ _ _ _ _ _ _ _); reflexivity. }
  rewrite TC. unfold meets in M. unfold key_of.
  destruct (Y.cycle_space _ _ _ _ _ _ _ _ _); [|exact M].
  destruct (V.ecycle _ _ _ _ _) as [v'|]; [|exact M].
  destruct M as (r & E & b' & -> & M). exists b'. split; [exact E|exact M].
Qed.

Lemma ecycle_frame : forall k e chk v v', V.ecycle A k e chk v = Some v' ->
  V.v_cycle v' = Word.u32 (V.v_cycle v + 1) /\ V.v_rom_bits v' = V.v_rom_bits v /\ V.v_ram_bits v' = V.v_ram_bits v.
Proof.
  intros k e chk v v' H. unfold V.ecycle in H. cbv zeta in H.
  repeat match type of H with match ?x with _ => _ end = Some _ => destruct x; try discriminate H end.
  injection H as <-. cbn. auto.
Qed.

(** A run of [n] cycles; the model has its own schedule in each. *)
Theorem C98_run : forall sk avail verbose threads es b v,
  library_ok -> in_bytes sp sw l sl kl log (V.v_rom_bits v) (V.v_ram_bits v) threads ->
  Forall (fun e => V.n_threads e = threads /\ (threads <> 0%nat -> ES.env_ok e)) es -> wide_b b -> fit_vm v ->
  V.v_cycle v + Z.of_nat (length es) <= 2 ^ 32 ->
  match Y.cycles_space (cycle_costs_at sp sw l sl kl) (Z.of_nat log) (Z.of_nat (V.v_rom_bits v)) 5 (Z.of_nat (V.v_ram_bits v))
          (V.v_cycle v =? 0) (keyed sk (V.v_debug v)) (Z.of_nat threads) avail (length es),
        V.ecycles A (key_of sk avail) (overflow_checks p) es v with
  | Some _, Some v' => exists b', text_cycles sk (length es) (interp verbose threads b v) avail = Some (interp verbose threads b' v') /\
      wide_b b' /\ fit_vm v'
  | _, _ => text_cycles sk (length es) (interp verbose threads b v) avail = None
  end.
Proof.
  intros sk avail verbose threads es b v LK IB ES0 WB FV. revert b v IB WB FV.
  induction ES0 as [|e es (TH & EN) _ IH]; intros b v IB WB FV CY.
  - cbn. exists b. auto.
  - cbn [length text_cycles Y.cycles_space V.ecycles].
    pose proof (C98_cycle sk e avail verbose b v LK) as C. rewrite TH in C. specialize (C IB EN WB FV).
    destruct (Y.cycle_space _ _ _ _ _ _ _ _ _) as [[]|]; [|rewrite C; reflexivity].
    destruct (V.ecycle A (key_of sk avail) e (overflow_checks p) v) as [v'|] eqn:E.
    2: { rewrite C. destruct (Y.cycles_space _ _ _ _ _ _ _ _ _ _); reflexivity. }
    destruct C as (b' & -> & WB' & FV' & HD). cbv iota beta.
    destruct (ecycle_frame _ _ _ _ _ E) as (C1 & C2 & C3).
    assert (0 <= V.v_cycle v) by apply FV.
    cbn [length] in CY. rewrite Nat2Z.inj_succ in CY.
    destruct es as [|e2 es].
    { cbn [length text_cycles Y.cycles_space V.ecycles]. exists b'. auto. }
    assert (CV : V.v_cycle v' = V.v_cycle v + 1).
    { rewrite C1. unfold Word.u32. apply Z.mod_small. change (2 ^ 32) with 4294967296 in CY. cbn [length] in CY. rewrite Nat2Z.inj_succ in CY. lia. }
    rewrite <- C2, <- C3 in IB.
    specialize (IH b' v' IB WB' FV').
    rewrite CV, C2, C3 in IH. specialize (IH ltac:(lia)).
    destruct (Z.eqb_spec (V.v_cycle v + 1) 0); [lia|].
    replace (keyed sk (V.v_debug v)) with (keyed sk (V.v_debug v')).
    2: { clear - HD. destruct sk, (V.v_debug v'), (V.v_debug v); try discriminate HD; reflexivity. }
    exact IH.
Qed.
End Server.
Print Assumptions C98_cycle.
Print Assumptions C98_run.

(** ** The whole session over the ideal library *)
Lemma alloc_some : forall {ct pb fu} (A : G.alg ct pb fu) w n m, (0 < n)%nat -> M.mem_alloc A w n = Some m ->
  Forall (fun b => M.ba_data b <> []) (M.m_planes m).
Proof.
  intros ct pb fu A w n m NZ H. unfold M.mem_alloc, M.ba_alloc in H.
  destruct (Word.bit_len_pred (Z.of_nat n)) as [k|]; [|discriminate].
  unfold Word.div_ceil in H. destruct (G.ring (G.log_n A)) as [|c] eqn:E; [discriminate|].
  set (q := ((n + c) / Datatypes.S c)%nat) in H.
  assert (1 <= q)%nat by (apply Nat.div_le_lower_bound; lia). clearbody q.
  assert (m = M.Memory (repeat (M.BitArray (repeat (G.a_zero A) q) k) w) n k false) as -> by congruence.
  cbn [M.m_planes]. apply Forall_forall. intros b I. apply repeat_spec in I. subst b. cbn [M.ba_data].
  destruct q; [lia|]. intro Q. inversion Q.
Qed.
Lemma wide_0 : forall (A : G.alg (list Z) bool (list Z)), wide_b (buf0 A).
Proof. intros A. unfold wide_b, buf0. cbn -[repeat]. repeat (apply Forall_cons; [reflexivity|]). apply Forall_nil. Qed.

Section Ideal.
Context {GL KL SL Src : Type}.
Variables (log : nat) (sp : space GL KL SL) (garbage : Z -> nat -> list Z) (garbage_i64 : Z -> nat -> int I64)
  (gl_n : GL -> Z) (enc dec : Z -> list Z -> list Z) (next : Src -> Src)
  (sw : word_space GL KL SL) (shuffle : list (nat * list Z) -> list (nat * list Z)).
Notation A := (G.Ideal log).
Notation L := (lib A sp garbage garbage_i64 gl_n enc dec next).
Notation N := (eng A sp garbage garbage_i64 gl_n enc dec next sw (ideal_bdd log) G.decrypt_word Bdd.pack_bits shuffle).
Variables (p : profile) (l : GL) (sl : SL) (kl : KL) (fuel : nat) (pm : layouts GL SL).
Notation interp := (interp A sp garbage garbage_i64 gl_n enc dec next l sl).

(** the session of compiler/src/interpreter.rs:301-410: parse, allocate, encrypt
    the program and the RAM.  The generators of randomness are used for the keys
    in between, hence two pairs of them. *)
Definition text_load (debug : bool) (ws ram : list Z) (rom_words ram_words threads : nat) (verbose : bool)
    (xa xe xa' xe' : Src) (avail : Z) : option (T.Interpreter L) :=
  q <- TextInstr.InstructionsParser_new p ;;
  q <- PropText.adds p q (map F.ins ws) ;;
  s <- (if debug then T.Interpreter_new_with_debug L N p pm (zi rom_words) (zi ram_words)
        else T.Interpreter_new L N p pm (zi rom_words) (zi ram_words)) ;;
  '(s, _, _) <- T.Interpreter_instructions_encrypt_sk L p s tt q tt xa xe avail ;;
  '(s, _, _) <- T.Interpreter_ram_encrypt_sk L p s tt (map Int ram) tt xa' xe' avail ;;
  s <- T.Interpreter_set_verbose_timings L p s verbose ;;
  T.Interpreter_set_threads L p s (zi threads).

(** the layouts of the parameters (parameters.rs:122-168), noise that decrypts *)
Definition client_ok (avail : Z) : Prop :=
  i_rom pm = l /\ i_ram pm = l /\ i_word pm = l /\ i_prepared pm = sl /\ gl_n l = 2 ^ Z.of_nat log /\
  (forall x, enc 2 x = x) /\ (forall x, dec 2 x = x) /\
  0 <= s_plain sp l /\ 0 <= s_encrypt sp l /\ 0 <= s_decrypt sp l /\
  s_plain sp l + 8 * 2 ^ Z.of_nat log + s_encrypt sp l <= avail /\
  s_plain sp l + 8 * 2 ^ Z.of_nat log + s_decrypt sp l <= avail.

Theorem C99_load : forall debug ws ram rom_words ram_words threads verbose xa xe xa' xe' avail,
  client_ok avail -> (0 < rom_words)%nat -> Z.of_nat rom_words < 2 ^ 64 -> (0 < ram_words)%nat -> Z.of_nat ram_words < 2 ^ 64 ->
  text_load debug ws ram rom_words ram_words threads verbose xa xe xa' xe' avail =
  option_map (interp verbose threads (buf0 A))
    (q <- Verif.Codec.parser_add_all (debug_assertions p) Verif.Codec.parser_new ws ;;
     ES.load log (debug_assertions p) debug rom_words ram_words q ram).
Proof.
  intros debug ws ram rom_words ram_words threads verbose xa xe xa' xe' avail
    (H1 & H2 & H3 & H4 & H5 & H6 & H7 & H8 & H9 & H10 & H11 & H12) R1 R2 M1 M2.
  unfold text_load.
  change (TextInstr.InstructionsParser_new p) with (Some (F.parser_of Verif.Codec.parser_new)). cbv iota beta.
  rewrite PropText.adds_eq.
  destruct (Verif.Codec.parser_add_all (debug_assertions p) Verif.Codec.parser_new ws) as [q|] eqn:Q; [cbn [option_map]|reflexivity].
  assert (NW : (if debug then T.Interpreter_new_with_debug L N p pm (zi rom_words) (zi ram_words)
        else T.Interpreter_new L N p pm (zi rom_words) (zi ram_words)) =
     option_map (interp false 1 (buf0 A)) (V.evm_new A debug rom_words ram_words)).
  { rewrite <- (new_text A sp garbage garbage_i64 gl_n enc dec next sw (ideal_bdd log) G.decrypt_word Bdd.pack_bits shuffle p l sl debug pm rom_words ram_words H1 H2 H3 H4 H5 R1 R2 M1 M2).
    destruct debug; unfold T.Interpreter_new_with_debug, T.Interpreter_new;
      destruct (T.Interpreter_new_internal _ _ _ _ _ _ _); reflexivity. }
  rewrite NW. unfold ES.load.
  destruct (V.evm_new A debug rom_words ram_words) as [v|] eqn:E; [cbn [option_map]|reflexivity].
  assert (SH : rom_some (V.v_rom v) /\ rom_shape (V.v_debug v) /\ planes_some (V.v_ram v)).
  { unfold V.evm_new in E.
    destruct (M.mem_alloc A 32 rom_words) as [m|] eqn:E1; [|discriminate]. destruct (M.mem_alloc A 32 32) as [m2|]; [|discriminate].
    destruct (M.mem_alloc A 32 ram_words) as [m3|] eqn:E3; [|discriminate].
    destruct (Word.bit_len_pred (Z.of_nat ram_words)); [|discriminate]. destruct (Word.bit_len_pred (Z.of_nat rom_words)); [|discriminate].
    injection E as <-. cbn [V.v_rom V.v_debug V.v_ram].
    pose proof (alloc_some _ _ _ _ R1 E1) as S1. pose proof (alloc_some _ _ _ _ M1 E3) as S3.
    split; [|split; [|exact S3]].
    - exact (conj S1 (conj S1 (conj S1 (conj S1 (conj S1 (conj S1 S1)))))).
    - destruct debug; [|exact I]. unfold rom_shape, F.rom_len, DM.dvm_new. cbn. rewrite !repeat_length. repeat split. }
  destruct SH as (S1 & S2 & S3).
  rewrite (instructions_text A sp garbage garbage_i64 gl_n enc dec next p l sl H6 H8 H9 avail H11 false 1 (buf0 A) v q xa xe).
  2: { eapply PropText.raw_ins; [exact Q|reflexivity]. }
  2,3: assumption.
  change (G.log_n A) with log.
  destruct (V.instructions_encrypt log (debug_assertions p) v q) as [v1|] eqn:E1; [cbn [option_map]|reflexivity].
  assert (S4 : planes_some (V.v_ram v1)).
  { replace (V.v_ram v1) with (V.v_ram v); [exact S3|]. clear - E1. unfold V.instructions_encrypt in E1. cbv zeta in E1.
    repeat match type of E1 with match ?x with _ => _ end = Some _ => destruct x; try discriminate E1 end.
    injection E1 as <-. reflexivity. }
  rewrite (ram_enc_text A sp garbage garbage_i64 gl_n enc dec next p l sl H6 H8 H9 avail H11 false 1 (buf0 A) v1 ram xa' xe' S4).
  change (G.log_n A) with log.
  destruct (V.ram_encrypt log v1 ram) as [v2|]; reflexivity.
Qed.

Notation holds := (MS.holds log).
Lemma holds_coef : forall m ws, holds m ws ->
  Forall (fun b => M.ba_data b <> [] /\
     Forall (fun q => length q = G.ring log /\ Forall (fun x => -255 < x < 257) q) (M.ba_data b)) (M.m_planes m).
Proof.
  intros m ws (H1 & H2 & H3 & H4 & H5 & H6).
  assert (0 < length ws)%nat as LW.
  { unfold Word.bit_len_pred in H2. destruct (Z.leb_spec (Z.of_nat (length ws)) 0); [discriminate|lia]. }
  apply Forall_forall. intros b I. apply In_nth_error in I. destruct I as [i I].
  destruct (H6 i b I) as [(_ & S2 & S3) C].
  pose proof (GlweFacts.ring_pos log) as RP.
  split.
  - unfold Word.div_ceil in S2. destruct (G.ring log) as [|c] eqn:E; [lia|].
    destruct (M.ba_data b) eqn:D; [|congruence]. cbn [length] in S2.
    set (k := ((length ws + c) / Datatypes.S c)%nat) in S2.
    assert (1 <= k)%nat by (apply Nat.div_le_lower_bound; lia). clearbody k. assert (k = 0%nat) by congruence. lia.
  - apply Forall_forall. intros q Q. pose proof (proj1 (Forall_forall _ _) S3 q Q) as LQ. split; [exact LQ|].
    apply Forall_forall. intros x X. apply In_nth_error in X. destruct X as [j X].
    apply In_nth_error in Q. destruct Q as [k Q].
    assert (j < G.ring log)%nat by (rewrite <- LQ; apply nth_error_Some; congruence).
    assert (k < length (M.ba_data b))%nat by (apply nth_error_Some; congruence).
    specialize (C (j + G.ring log * k)%nat ltac:(nia)).
    assert (D1 : ((j + G.ring log * k) mod G.ring log = j)%nat) by (rewrite Nat.mul_comm, Nat.mod_add by lia; apply Nat.mod_small; lia).
    assert (D2 : ((j + G.ring log * k) / G.ring log = k)%nat) by (rewrite Nat.mul_comm, Nat.div_add, Nat.div_small by lia; lia).
    unfold MS.coef in C. rewrite D1, D2, (nth_error_nth _ _ _ Q), (nth_error_nth _ _ _ X) in C. rewrite C.
    destruct (Z.testbit _ _); cbn; lia.
Qed.
Notation mem_of := (mem_of A sp garbage garbage_i64 gl_n enc dec next).
Lemma zeros_words : forall n, Forall MS.is_word (repeat 0 n).
Proof. intro n. apply Forall_forall. intros x H. apply repeat_spec in H. subst x. unfold MS.is_word. lia. Qed.
Lemma decrypt_holds : forall avail m ws data, client_ok avail -> holds m ws -> Forall MS.is_word data ->
  Verif.TextMem.Memory_decrypt L p (mem_of l m) tt (map Int data) tt avail = option_map (map Int) (M.mem_decrypt m data).
Proof.
  intros avail m ws data (H1 & H2 & H3 & H4 & H5 & H6 & H7 & H8 & H9 & H10 & H11 & H12) HM HD.
  apply (C97_decrypt A sp garbage garbage_i64 gl_n enc dec next p l m data avail H7); auto.
  - destruct HM as (_ & _ & _ & _ & -> & _). apply le_n.
  - exact (holds_coef m ws HM).
Qed.
Lemma map_val_int : forall {t} ws, map val (map (@Int t) ws) = ws.
Proof. intros t ws. rewrite map_map. apply map_id. Qed.

(** the key of the text decrypts *)
Lemma text_key : forall avail sk, client_ok avail ->
  EncCycle.key_ok log (key_of A sp garbage garbage_i64 gl_n enc dec next G.decrypt_word Bdd.pack_bits p l sk avail) (match sk with Some _ => true | None => false end).
Proof.
  intros avail [[]|] CO; [right|left; split; reflexivity].
  split; [|reflexivity]. eexists. split; [reflexivity|]. split; [reflexivity|]. split; [reflexivity|].
  intros m ws n HM HL. cbn [V.s_mem].
  etransitivity.
  - apply f_equal. exact (decrypt_holds avail m ws (repeat 0 n) CO HM (zeros_words n)).
  - rewrite (EncCycle.decrypt_all log m ws n HM HL). cbn [option_map]. now rewrite map_val_int.
Qed.

Lemma small_words : forall m ws, holds m ws -> forall k, Word.bit_len_pred (Z.of_nat (length ws)) = Some k -> (k <= 30)%nat -> planes32 m.
Proof.
  intros m ws H k E K. apply (holds_planes log m ws H).
  unfold Word.bit_len_pred in E. destruct (Z.leb_spec (Z.of_nat (length ws)) 0); [discriminate|]. injection E as <-.
  destruct (Z.eqb_spec (Z.of_nat (length ws)) 1) as [->|]; [lia|].
  assert (0 < Z.of_nat (length ws) - 1) as P by lia. pose proof (Z.log2_spec _ P) as [_ B].
  pose proof (Z.log2_nonneg (Z.of_nat (length ws) - 1)).
  assert (2 ^ Z.succ (Z.log2 (Z.of_nat (length ws) - 1)) <= 2 ^ 31) by (apply Z.pow_le_mono_r; lia). lia.
Qed.
Lemma shows_fit : forall rb mb v s, ES.shows log rb mb v s -> full_o (V.v_debug v) -> fit_vm v.
Proof.
  intros rb mb v s ((R1 & R2 & R3 & R4 & R5 & R6 & R7) & (L1 & L2 & L3 & L4 & L5 & L6 & L7) & S3 & S4 & S5 & S6 & S7 & S8 & S9 & S10 & S11 & S12 & S13 & S14 & S15 & S16 & S17 & S18) FD.
  assert (RM : forall m t, holds m t -> length t = V.v_rom_size v -> planes32 m).
  { intros m t H HL. apply (small_words m t H rb); [now rewrite HL|exact S5]. }
  assert (MB := EncCycle.bit_len_pow mb). 
  assert (B5 : Word.bit_len_pred (Z.of_nat (length (ES.x_regs s))) = Some 5%nat) by (rewrite S8; reflexivity).
  assert (BM : Word.bit_len_pred (Z.of_nat (length (ES.x_ram s))) = Some mb) by (rewrite S10; exact MB).
  unfold fit_vm, rom32.
  split; [|split; [|split; [|split; [|split; [|split; [|split]]]]]].
  - split; [exact (RM _ _ R1 L1)|]. split; [exact (RM _ _ R2 L2)|]. split; [exact (RM _ _ R3 L3)|]. split; [exact (RM _ _ R4 L4)|].
    split; [exact (RM _ _ R5 L5)|]. split; [exact (RM _ _ R6 L6)|exact (RM _ _ R7 L7)].
  - exact (small_words _ _ S7 5%nat B5 ltac:(lia)).
  - exact (EncCycle.holds_bits log _ _ 5%nat S7 B5).
  - exact (small_words _ _ S9 mb BM S13).
  - rewrite S12. exact (EncCycle.holds_bits log _ _ mb S9 BM).
  - exact FD.
  - apply S15.
  - rewrite S16. change (2 ^ 32) with 4294967296. exact S17.
Qed.
Lemma start_full : forall rom_words ram_words dbg r ram ws, DM.fill dbg ws = Some r -> Forall Isa.word (DM.imm_rom r) -> Forall Isa.word ram ->
  full (EncLoad.dstart rom_words ram_words r ram).
Proof.
  intros rom_words ram_words dbg r ram ws _ FI FR.
  assert (W : Isa.word 0) by (unfold Isa.word; lia).
  destruct (full_new rom_words ram_words) as ((T1 & T2 & T3 & T4 & T5) & FN).
  split; [|exact FN]. unfold F.typed, EncLoad.dstart. cbn -[Isa.word repeat Z.le Z.of_nat].
  split; [exact T1|]. split; [exact W|]. split; [exact FI|]. split; [|exact FR].
  apply Forall_forall. intros x I. apply repeat_spec in I. now subst x.
Qed.

(** [ram_decrypt] *)
Lemma ram_dec_text : forall rb mb v s avail verbose threads b, client_ok avail -> ES.shows log rb mb v s ->
  T.Interpreter_ram_decrypt L p (interp verbose threads b v) tt (map Int (repeat 0 (2 ^ mb)%nat)) tt avail =
  option_map (fun ws => (interp verbose threads b v, map Int ws)) (ES.dec_ram v).
Proof.
  intros rb mb v s avail verbose threads b CO SH.
  pose proof SH as (_ & _ & _ & _ & _ & _ & _ & _ & S9 & S10 & S11 & _).
  rewrite (EncTrack.shows_ram log _ _ _ _ SH). cbn [option_map].
  pose proof (decrypt_holds avail _ _ (repeat 0 (2 ^ mb)%nat) CO S9 (zeros_words _)) as E.
  rewrite (EncCycle.decrypt_all log _ _ _ S9 S10) in E. cbn [option_map] in E.
  assert (MZ : M.m_size (V.v_ram v) = (2 ^ mb)%nat) by (destruct S9 as (-> & _); exact S10).
  assert (Q : eq (len (map (@Int U32) (repeat 0 (2 ^ mb)%nat))) (zi (M.m_size (V.v_ram v))) = true).
  { rewrite MZ. unfold eq, len, zi, val. rewrite map_length, repeat_length. apply Z.eqb_refl. }
  unfold T.Interpreter_ram_decrypt.
  lazymatch goal with |- match ?x with _ => _ end = _ => change x with (Some (zi (M.m_size (V.v_ram v)))) end. cbv beta iota.
  lazymatch goal with |- (if ?c then _ else _) = _ => replace c with true by (symmetry; exact Q) end.
  lazymatch goal with |- match ?x with _ => _ end = _ =>
    change x with (TM.Memory_decrypt L p (mem_of l (V.v_ram v)) tt (map Int (repeat 0 (2 ^ mb)%nat)) tt avail) end.
  etransitivity; [eapply (f_equal (fun r => match r with Some t2 => _ | None => _ end)); exact E|reflexivity].
Qed.

Definition seq_env (threads : nat) : V.env :=
  V.Env threads (fun i => PropMem.seq_order threads (if (i =? 7)%nat then 58 else if (i =? 10)%nat then 64 else 32)%nat).
Lemma seq_env_ok : forall threads, threads <> 0%nat -> ES.env_ok (seq_env threads).
Proof.
  intros t H.
  assert (O : forall k, (0 < k)%nat -> M.par_order t k (PropMem.seq_order t k)).
  { intros k K. destruct (ParFacts.thread_tasks_cover t k (proj1 (Nat.neq_0_lt_0 t) H) K) as (ts & E & _).
    unfold PropMem.seq_order. rewrite E. exists ts. split; auto. apply ParFacts.interleave_seq. }
  unfold ES.env_ok, seq_env. cbn [V.n_threads V.sched]. split; [|split; [exact (O 58%nat ltac:(lia))|exact (O 64%nat ltac:(lia))]].
  intros i I1 I2 I3. destruct (Nat.eqb_spec i 7); [contradiction|]. destruct (Nat.eqb_spec i 10); [contradiction|]. exact (O 32%nat ltac:(lia)).
Qed.

(** the words the parser takes, a program that fits, and a scratch space of
    [work] bytes for the cycles *)
Definition session_ok (debug : bool) (ws ram : list Z) (rom_words rb mb threads : nat) (avail : Z) : Prop :=
  (7 < fuel)%nat /\ (log <= 62)%nat /\ shuffles shuffle /\ client_ok avail /\ in_bytes sp sw l sl kl log rb mb threads /\
  threads <> 0%nat /\ EncRun.fits debug rom_words rb mb ws ram /\ Forall (DecodeSpec.accepted (debug_assertions p)) ws.

Notation text_cycles := (text_cycles A sp garbage garbage_i64 gl_n enc dec next sw (ideal_bdd log) G.decrypt_word Bdd.pack_bits shuffle p kl fuel).
Notation y := (cycle_costs_at sp sw l sl kl).

Lemma session : forall sk debug ws ram rom_words rb mb threads verbose xa xe xa' xe' avail n,
  session_ok debug ws ram rom_words rb mb threads avail -> Z.of_nat n < 2 ^ 32 ->
  exists v0 s0, EncRun.boots log (debug_assertions p) debug rom_words mb ws ram v0 /\
    text_load debug ws ram rom_words (2 ^ mb) threads verbose xa xe xa' xe' avail = Some s0 /\
    match Y.cycles_space y (Z.of_nat log) (Z.of_nat rb) 5 (Z.of_nat mb) true (keyed sk (V.v_debug v0)) (Z.of_nat threads) avail n,
          V.ecycles A (key_of A sp garbage garbage_i64 gl_n enc dec next G.decrypt_word Bdd.pack_bits p l sk avail) (overflow_checks p)
            (repeat (seq_env threads) n) v0 with
    | Some _, Some v => exists s, text_cycles sk n s0 avail = Some s /\
        T.Interpreter_ram_decrypt L p s tt (map Int (repeat 0 (2 ^ mb)%nat)) tt avail = option_map (fun ws => (s, map Int ws)) (ES.dec_ram v)
    | _, _ => text_cycles sk n s0 avail = None
    end.
Proof.
  intros sk debug ws ram rom_words rb mb threads verbose xa xe xa' xe' avail n (FU & LG & SHF & CO & IB & TH & FT & AC) HN.
  destruct (EncRun.boots_exists log (debug_assertions p) debug rom_words rb mb ws ram FT AC) as (v0 & BO).
  destruct (EncRun.boots_shows _ _ _ _ _ _ _ _ _ FT BO) as (r & HF & SH & DB).
  pose proof BO as (q & Q1 & Q2). pose proof FT as (F1 & F2 & F3 & F4 & F5 & F6 & F7 & F8).
  assert (RW : (0 < rom_words)%nat /\ Z.of_nat rom_words < 2 ^ 64).
  { unfold Word.bit_len_pred in F3. destruct (Z.leb_spec (Z.of_nat rom_words) 0); [discriminate|]. injection F3 as <-.
    split; [lia|]. destruct (Z.eqb_spec (Z.of_nat rom_words) 1) as [->|]; [lia|].
    assert (0 < Z.of_nat rom_words - 1) as P by lia. pose proof (Z.log2_spec _ P) as [_ B].
    pose proof (Z.log2_nonneg (Z.of_nat rom_words - 1)).
    assert (2 ^ Z.succ (Z.log2 (Z.of_nat rom_words - 1)) <= 2 ^ 31) by (apply Z.pow_le_mono_r; lia). lia. }
  assert (MW : (0 < 2 ^ mb)%nat /\ Z.of_nat (2 ^ mb)%nat < 2 ^ 64).
  { split; [apply Nat.neq_0_lt_0, Nat.pow_nonzero; discriminate|].
    rewrite Nat2Z.inj_pow. change (Z.of_nat 2) with 2. apply Z.pow_lt_mono_r; lia. }
  destruct RW as [R1 R2], MW as [M1 M2].
  pose proof (C99_load debug ws ram rom_words (2 ^ mb) threads verbose xa xe xa' xe' avail CO R1 R2 M1 M2) as LD.
  rewrite Q1, Q2 in LD. cbn [option_map] in LD.
  exists v0, (interp verbose threads (buf0 A) v0). split; [exact BO|]. split; [exact LD|].
  assert (FD : full_o (V.v_debug v0)).
  { rewrite DB. destruct debug; [|exact I].
    apply (start_full rom_words (2 ^ mb) (debug_assertions p) r ram ws HF); [|exact F5].
    destruct SH as (((_ & _ & _ & W & _) & _) & _). cbn [ES.x_rom ES.xstart ES.pad_roms DM.imm_rom] in W.
    apply Forall_app in W. apply W. }
  pose proof (shows_fit rb mb v0 _ SH FD) as FV.
  pose proof SH as (_ & _ & _ & S4 & _ & _ & _ & _ & _ & _ & _ & S12 & _ & _ & _ & S16 & _). cbn [ES.x_cycle ES.xstart] in S16.
  pose proof (C98_run A sp garbage garbage_i64 gl_n enc dec next sw (ideal_bdd log) G.decrypt_word Bdd.pack_bits shuffle p l sl kl fuel
    sk avail verbose threads (repeat (seq_env threads) n) (buf0 A) v0) as R.
  rewrite S4, S12, S16, repeat_length in R. change (0 =? 0) with true in R.
  assert (EO : Forall (fun e => V.n_threads e = threads /\ (threads <> 0%nat -> ES.env_ok e)) (repeat (seq_env threads) n)).
  { apply Forall_forall. intros e I. apply repeat_spec in I. subst e. split; [reflexivity|apply seq_env_ok]. }
  specialize (R (conj FU (conj LG (conj (ideal_select log) (conj SHF (ideal_circuits log))))) IB EO (wide_0 A) FV ltac:(lia)).
  change (G.log_n A) with log in R.
  destruct (Y.cycles_space _ _ _ _ _ _ _ _ _ _); [|exact R].
  destruct (V.ecycles _ _ _ _ _) as [v|] eqn:EC; [|exact R].
  destruct R as (b & R & _ & _). exists (interp verbose threads b v). split; [exact R|].
  pose proof (EncTrack.run_shows log _ _ rb mb (overflow_checks p) (repeat (seq_env threads) n) (text_key avail sk CO)) as RS.
  specialize (RS ltac:(apply Forall_forall; intros e I; apply repeat_spec in I; subst e; apply seq_env_ok; exact TH) v0 _ v SH EC).
  exact (ram_dec_text rb mb v _ avail verbose threads b CO RS).
Qed.

(** C99.  The translated text, from [Interpreter::new] to [ram_decrypt], without
    any model of it: the program is loaded; then either some cycle does not have
    the scratch space CycleScratch.v asks for, and the text panics, or it runs
    for [n] cycles and the RAM it decrypts is that of the machine of
    ExactSpec.v. *)
Theorem C99_session : forall debug ws ram rom_words rb mb threads verbose xa xe xa' xe' avail n,
  session_ok debug ws ram rom_words rb mb threads avail -> Z.of_nat n < 2 ^ 32 ->
  exists s0, text_load debug ws ram rom_words (2 ^ mb) threads verbose xa xe xa' xe' avail = Some s0 /\
    match Y.cycles_space y (Z.of_nat log) (Z.of_nat rb) 5 (Z.of_nat mb) true false (Z.of_nat threads) avail n with
    | Some _ => exists s out, text_cycles None n s0 avail = Some s /\
        T.Interpreter_ram_decrypt L p s tt (map Int (repeat 0 (2 ^ mb)%nat)) tt avail = Some (s, map Int out) /\
        length out = (2 ^ mb)%nat /\
        forall k, 0 <= k < 2 ^ Z.of_nat mb ->
          nth_error out (Z.to_nat k) = Some (ExactSpec.q_ram (ExactSpec.q_run rb mb ws n (ExactSpec.q_start ram)) k)
    | None => text_cycles None n s0 avail = None
    end.
Proof.
  intros debug ws ram rom_words rb mb threads verbose xa xe xa' xe' avail n OK HN.
  destruct (session None debug ws ram rom_words rb mb threads verbose xa xe xa' xe' avail n OK HN) as (v0 & s0 & BO & LD & R).
  exists s0. split; [exact LD|]. cbn [keyed] in R.
  destruct (Y.cycles_space _ _ _ _ _ _ _ _ _ _); [|exact R].
  destruct OK as (FU & LG & SHF & CO & IB & TH & FT & AC).
  assert (EO : Forall ES.env_ok (repeat (seq_env threads) n)).
  { apply Forall_forall. intros e I. apply repeat_spec in I. subst e. now apply seq_env_ok. }
  destruct (PropExact.C59_runs_complete log (debug_assertions p) debug rom_words rb mb ws ram v0 (overflow_checks p) (repeat (seq_env threads) n) FT BO EO)
    as [_ C]. rewrite repeat_length in C. destruct (C (or_intror HN)) as (v & EC).
  change (key_of A sp garbage garbage_i64 gl_n enc dec next G.decrypt_word Bdd.pack_bits p l None avail) with (@None (V.secret G.poly bool (list Z))) in R.
  rewrite EC in R. destruct R as (s & R1 & R2).
  destruct (PropExact.C59_exact_machine log (debug_assertions p) debug rom_words rb mb ws ram v0 None false (overflow_checks p) _ v FT BO
    (or_introl (conj eq_refl eq_refl)) EO EC) as (_ & (out & D1 & D2 & D3) & _).
  rewrite repeat_length in D3. rewrite D1 in R2. exists s, out. auto.
Qed.

(** The same with [cycle_debug] and the secret key: the text panics when the
    scratch space does not suffice (comparisons included) or the machine of
    ShadowSpec.v stops at a difference between the two VMs. *)
Theorem C99_checked_session : forall ws ram rom_words rb mb threads verbose xa xe xa' xe' avail n,
  session_ok true ws ram rom_words rb mb threads avail -> Z.of_nat n < 2 ^ 32 ->
  exists s0, text_load true ws ram rom_words (2 ^ mb) threads verbose xa xe xa' xe' avail = Some s0 /\
    match Y.cycles_space y (Z.of_nat log) (Z.of_nat rb) 5 (Z.of_nat mb) true true (Z.of_nat threads) avail n,
          ShadowSpec.sh_run true (2 ^ Z.of_nat mb) ws n (ShadowSpec.sh_start ram) with
    | Some _, Some m => exists s out, text_cycles (Some tt) n s0 avail = Some s /\
        T.Interpreter_ram_decrypt L p s tt (map Int (repeat 0 (2 ^ mb)%nat)) tt avail = Some (s, map Int out) /\
        length out = (2 ^ mb)%nat /\
        forall k, 0 <= k < 2 ^ Z.of_nat mb -> nth_error out (Z.to_nat k) = Some (ShadowSpec.s_ram m k)
    | _, _ => text_cycles (Some tt) n s0 avail = None
    end.
Proof.
  intros ws ram rom_words rb mb threads verbose xa xe xa' xe' avail n OK HN.
  destruct (session (Some tt) true ws ram rom_words rb mb threads verbose xa xe xa' xe' avail n OK HN) as (v0 & s0 & BO & LD & R).
  exists s0. split; [exact LD|].
  destruct OK as (FU & LG & SHF & CO & IB & TH & FT & AC).
  destruct (EncRun.boots_shows _ _ _ _ _ _ _ _ _ FT BO) as (r & HF & SH & DB). rewrite DB in R. cbn [keyed] in R.
  destruct (Y.cycles_space _ _ _ _ _ _ _ _ _ _); [|exact R].
  assert (EO : Forall ES.env_ok (repeat (seq_env threads) n)).
  { apply Forall_forall. intros e I. apply repeat_spec in I. subst e. now apply seq_env_ok. }
  pose proof (PropShadow.C63_checked_runs_exact log (debug_assertions p) rom_words rb mb ws ram v0 _ (overflow_checks p) (repeat (seq_env threads) n) FT BO
    (text_key avail (Some tt) CO) EO) as C. rewrite repeat_length in C. specialize (C HN).
  destruct (V.ecycles _ _ _ _ _) as [v|] eqn:EC.
  - replace (EncVM.ecycles A _ _ _ v0) with (Some v) in C by (symmetry; exact EC).
    destruct (ShadowSpec.sh_run _ _ _ _ _) as [m|]; [|contradiction].
    destruct C as (_ & (out & D1 & D2 & D3) & _). destruct R as (s & R1 & R2). rewrite D1 in R2. exists s, out. auto.
  - replace (EncVM.ecycles A _ _ _ v0) with (@None (V.evm G.poly bool (list Z))) in C by (symmetry; exact EC).
    destruct (ShadowSpec.sh_run _ _ _ _ _) as [m|]; [contradiction|exact R].
Qed.
End Ideal.
Print Assumptions C99_load.
Print Assumptions C99_session.
Print Assumptions C99_checked_session.

(** ** A case: the text run from the program to the decrypted RAM

    Polynomials of four coefficients, two threads, a map iterated backwards, a
    scratch space full of sevens; LUI, ADDI and SW of a negative number. *)
Definition ex_sw : word_space nat nat nat :=
  {| w_bits := fun _ n _ _ _ => 100 * n; w_block := fun _ => 7; w_ggsw := fun _ => 30; w_lwe := fun _ => 20;
     w_bit_lwe := fun _ _ => 10; w_cbt := fun _ => 40; w_fill := fun _ => 5; w_prepare := fun n t _ _ _ => 3 * n * t;
     w_circuit := fun _ t => 50 * t; w_word2 := fun _ t _ _ _ _ => 50 * t; w_identity := fun t _ _ _ => 10 * t;
     w_zero_byte := fun _ _ => 9; w_sext := fun _ _ => 9; w_splice8 := fun _ _ _ _ => 9; w_splice16 := fun _ _ _ _ => 9;
     w_blind := fun n _ _ => 11 * n; w_dec_bits := fun _ _ => 12; w_dec := fun _ => 13 |}.
Definition ex_pm : layouts nat nat := {| i_rom := 0%nat; i_ram := 0%nat; i_word := 0%nat; i_prepared := 0%nat |}.
Definition ex_prog : list Z := map Isa.encode [Isa.LUI 5 64; Isa.OPI Isa.ADDI 6 0 (-3); Isa.STORE Isa.SW 5 6 4].
Definition ex_run (sk : option unit) (debug : bool) (n : nat) (avail : Z) : option (list Z) :=
  s <- text_load 2 ex_sp (fun _ _ => repeat 7 4) (fun _ _ => Int 7) (fun _ => 4) (fun _ x => x) (fun _ x => x) (fun s : nat => Datatypes.S s) ex_sw (@rev _)
    (Build_profile true true) ex_pm debug ex_prog [1; 2; 3; 4] 3 4 2 false 0%nat 0%nat 0%nat 0%nat 20000 ;;
  s <- text_cycles (G.Ideal 2) ex_sp (fun _ _ => repeat 7 4) (fun _ _ => Int 7) (fun _ => 4) (fun _ x => x) (fun _ x => x) (fun s : nat => Datatypes.S s) ex_sw
    (ideal_bdd 2) G.decrypt_word Bdd.pack_bits (@rev _) (Build_profile true true) 0%nat 8 sk n s avail ;;
  '(_, out) <- T.Interpreter_ram_decrypt (lib (G.Ideal 2) ex_sp (fun _ _ => repeat 7 4) (fun _ _ => Int 7) (fun _ => 4) (fun _ x => x) (fun _ x => x) (fun s : nat => Datatypes.S s))
    (Build_profile true true) s tt (map Int (repeat 0 4)) tt 20000 ;;
  Some (map val out).
Lemma ex_session : forall debug,
  session_ok 2 ex_sp (fun _ => 4) (fun _ x => x) (fun _ x => x) ex_sw (@rev _) (Build_profile true true) 0%nat 0%nat 0%nat 8 ex_pm
    debug ex_prog [1; 2; 3; 4] 3 2 2 2 20000.
Proof.
  intro debug. split; [lia|]. split; [lia|]. split; [intro l; apply Permutation.Permutation_rev|].
  split; [repeat split; vm_compute; congruence|].
  split; [repeat split; vm_compute; congruence|]. split; [lia|].
  split; [PropEnc.fits_tac|].
  repeat constructor; apply PropExact.C59_accepted; (cbv; intuition discriminate) || (vm_compute; discriminate).
Qed.
Definition succeeds {X} (o : option X) : bool := match o with Some _ => true | None => false end.
(** With and without the key the RAM decrypts to what the program stores; 2148
    bytes of scratch space are enough for a cycle and 2147 are not. *)
Example C99_case :
  (forall debug, session_ok 2 ex_sp (fun _ => 4) (fun _ x => x) (fun _ x => x) ex_sw (@rev _) (Build_profile true true) 0%nat 0%nat 0%nat 8 ex_pm
     debug ex_prog [1; 2; 3; 4] 3 2 2 2 20000) /\
  ex_run None false 3 20000 = Some [1; 0xFFFFFFFD; 3; 4] /\
  ex_run (Some tt) true 3 20000 = Some [1; 0xFFFFFFFD; 3; 4] /\
  succeeds (ex_run None false 3 2148) = true /\ succeeds (ex_run None false 3 2147) = false.
Proof. split; [exact ex_session|]. repeat apply conj; vm_compute; reflexivity. Qed.
