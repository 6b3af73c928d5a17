(** * The text of fhevm/src/interpreter.rs against the model of it (helper lemmas) *)
Require Import ZArith List Bool Lia Znat.
From Verif Require Import Rust RustIter RustLib RustEng TextLib TextLoop TextEng TextMemFacts TextPrep TextEngFacts PropTextMem TextPlanes TextShadow.
Require Verif.Word Verif.Isa Verif.Codec Verif.EvalPlain Verif.DebugVM Verif.Glwe Verif.Par Verif.EncMem Verif.Scratch Verif.CycleScratch
  Verif.Prepare Verif.EncEval Verif.EncVM Verif.EncSpec Verif.ListFacts.
Require Verif.TextInstr Verif.TextDebug Verif.TextFacts Verif.TextMem Verif.TextEnc.
Module T := Verif.TextEnc.
Module TM := Verif.TextMem.
Module F := Verif.TextFacts.
Module D := Verif.TextDebug.
Module M := Verif.EncMem.
Module E := Verif.EncEval.
Module V := Verif.EncVM.
Module DM := Verif.DebugVM.
Import ListNotations.
Open Scope Z_scope.

(** ** The fields of the interpreter no cycle reads before writing them *)
Record bufs (pb fu : Type) := Bufs {
  b_ram_addr : fu; b_ram_val : fu; b_ram_addr_p : list pb; b_ram_val_p : list pb;
  b_rs1_addr : fu; b_rs1_addr_p : list pb; b_rs1_val : fu; b_rs1_val_p : list pb;
  b_rs2_addr : fu; b_rs2_addr_p : list pb; b_rs2_val : fu; b_rs2_val_p : list pb;
  b_imm : fu; b_imm_p : list pb; b_rd_addr : fu; b_rd_addr_p : list pb; b_rd_val : fu; b_rd_val_p : list pb;
  b_rdu : fu; b_rdu_p : list pb; b_mu : fu; b_mu_p : list pb; b_pcu : fu; b_pcu_p : list pb }.
Arguments Bufs {pb fu}. Arguments b_ram_addr {pb fu}. Arguments b_ram_val {pb fu}. Arguments b_ram_addr_p {pb fu}. Arguments b_ram_val_p {pb fu}. Arguments b_rs1_addr {pb fu}. Arguments b_rs1_addr_p {pb fu}. Arguments b_rs1_val {pb fu}. Arguments b_rs1_val_p {pb fu}. Arguments b_rs2_addr {pb fu}. Arguments b_rs2_addr_p {pb fu}. Arguments b_rs2_val {pb fu}. Arguments b_rs2_val_p {pb fu}. Arguments b_imm {pb fu}. Arguments b_imm_p {pb fu}. Arguments b_rd_addr {pb fu}. Arguments b_rd_addr_p {pb fu}. Arguments b_rd_val {pb fu}. Arguments b_rd_val_p {pb fu}. Arguments b_rdu {pb fu}. Arguments b_rdu_p {pb fu}. Arguments b_mu {pb fu}. Arguments b_mu_p {pb fu}. Arguments b_pcu {pb fu}. Arguments b_pcu_p {pb fu}.

(** ** A text against a count of scratch space and a model: the text panics when
    either does, and otherwise its result is related to the model's *)
Definition meets {X R} (t : option R) (s : option unit) (m : option X) (Q : X -> R -> Prop) : Prop :=
  match s, m with Some _, Some x => exists r, t = Some r /\ Q x r | _, _ => t = None end.

Lemma meets_bind : forall {X X2 R R2} (t : option R) s1 (m1 : option X) Q1 (k : R -> option R2) s2 (k2 : X -> option X2) Q,
  meets t s1 m1 Q1 -> (forall x r, m1 = Some x -> Q1 x r -> meets (k r) s2 (k2 x) Q) ->
  meets (match t with Some r => k r | None => None end) (match s1 with Some _ => s2 | None => None end)
    (match m1 with Some x => k2 x | None => None end) Q.
Proof.
  intros X X2 R R2 t s1 m1 Q1 k s2 k2 Q H1 H2. unfold meets in H1.
  destruct s1; [|rewrite H1; reflexivity]. destruct m1 as [x|].
  - destruct H1 as (r & -> & HQ). exact (H2 x r eq_refl HQ).
  - rewrite H1. unfold meets. destruct s2; reflexivity.
Qed.
Lemma meets_space : forall {X R R2} (t : option R) (s1 : option unit) r (k : R -> option R2) s2 (m : option X) Q,
  t = match s1 with Some _ => Some r | None => None end -> meets (k r) s2 m Q ->
  meets (match t with Some r => k r | None => None end) (match s1 with Some _ => s2 | None => None end) m Q.
Proof. intros X R R2 t [[]|] r k s2 m Q -> H; [exact H|reflexivity]. Qed.
Lemma meets_pure : forall {X R R2} (t : option R) r (k : R -> option R2) s (m : option X) Q,
  t = Some r -> meets (k r) s m Q -> meets (match t with Some r => k r | None => None end) s m Q.
Proof. intros X R R2 t r k s m Q -> H. exact H. Qed.
Lemma meets_assoc : forall {X R0 R R2} (e : option R0) (f : R0 -> option R) (g : R -> option R2) s (m : option X) Q,
  meets (match e with Some x => match f x with Some y => g y | None => None end | None => None end) s m Q ->
  meets (match (match e with Some x => f x | None => None end) with Some y => g y | None => None end) s m Q.
Proof. intros X R0 R R2 [x|] f g s m Q H; exact H. Qed.
Lemma space_assoc : forall {X R} (t : option R) (a b c : option unit) (m : option X) Q,
  meets t (match a with Some _ => match b with Some _ => c | None => None end | None => None end) m Q ->
  meets t (match (match a with Some _ => b | None => None end) with Some _ => c | None => None end) m Q.
Proof. intros X R t [x|] b c m Q H; exact H. Qed.
Lemma meets_post : forall {X X2 R} (t : option R) s (m : option X) (g : X -> X2) (Q : X -> R -> Prop) (Q2 : X2 -> R -> Prop),
  meets t s m Q -> (forall x r, m = Some x -> Q x r -> Q2 (g x) r) ->
  meets t s (match m with Some x => Some (g x) | None => None end) Q2.
Proof.
  intros X X2 R t [u|] [x|] g Q Q2 H H2; try exact H. destruct H as (r & -> & HQ). exists r. auto.
Qed.
Lemma meets_end : forall {X R} (t : option R) s (m : option X) (Q : X -> R -> Prop),
  meets t s m Q -> meets (match t with Some x => Some x | None => None end) s m Q.
Proof. intros X R [r|] s m Q H; exact H. Qed.
Lemma meets_of : forall {X R} (t : option R) s (m : option X) (f : X -> R),
  t = match s, m with Some _, Some x => Some (f x) | _, _ => None end -> meets t s m (fun x r => r = f x).
Proof. intros X R t [u|] [x|] f ->; [exists (f x); auto|reflexivity|reflexivity|reflexivity]. Qed.
Lemma meets_impl : forall {X R} (t : option R) s (m : option X) (Q Q2 : X -> R -> Prop),
  meets t s m Q -> (forall x r, m = Some x -> Q x r -> Q2 x r) -> meets t s m Q2.
Proof. intros X R t [u|] [x|] Q Q2 H H2; try exact H. destruct H as (r & -> & HQ). exists r. auto. Qed.
(** the space of the comparisons follows that of the block *)
Lemma meets_then : forall {X R R2} (t : option R) r (k : R -> option R2) (m : option X) Q s,
  t = Some r -> meets (k r) s m Q -> meets (match t with Some r => k r | None => None end) (match Some tt with Some _ => s | None => None end) m Q.
Proof. intros X R R2 t r k m Q s -> H. exact H. Qed.

Lemma meets_stop : forall {X R R2} (t : option R) (k : R -> option R2) s (m : option X) Q,
  t = None -> s = None \/ m = None -> meets (match t with Some r => k r | None => None end) s m Q.
Proof. intros X R R2 t k s m Q -> [-> | ->]; [reflexivity|]. destruct s; reflexivity. Qed.
Lemma meets_if : forall {X R} (c c' rest : bool) (t : option R) s (m : option X) Q,
  c = c' -> meets t s (if rest then m else None) Q ->
  meets (if c then t else None) s (if c' && rest then m else None) Q.
Proof. intros X R c c' rest t s m Q -> H. destruct c'; [exact H|]. destruct s; reflexivity. Qed.
Lemma meets_if1 : forall {X R} (c c' : bool) (t : option R) s (m : option X) Q,
  c = c' -> meets t s m Q -> meets (if c then t else None) s (if c' then m else None) Q.
Proof. intros X R c c' t s m Q -> H. destruct c'; [exact H|]. destruct s; reflexivity. Qed.

(** ** The maps of the two evaluations *)
Lemma loop_meets : forall {GL fu O TO} (l : GL) (conv : O -> TO) (idt : TO -> option (int U32)) (evt : TO -> option (GL * fu))
    (id : O -> Z) (ev : O -> option fu) (space : O -> option unit) ops acc,
  (forall o, idt (conv o) = Some (Int (id o))) -> (forall o, 0 <= id o) ->
  (forall o, evt (conv o) = match space o with Some _ => option_map (pair l) (ev o) | None => None end) ->
  meets (for_each (map conv ops) (fun op m => match evt op with Some tmp => match idt op with Some k => Some (insert m k tmp) | None => None end | None => None end) acc)
    (Y.in_turn (map space ops)) (E.eval_all id ev ops)
    (fun ms r => r = rev (map (fun kc => (@Int U32 (Z.of_nat (fst kc)), (l, snd kc))) ms) ++ acc /\ map fst ms = map (fun o => Z.to_nat (id o)) ops).
Proof.
  intros GL fu O TO l conv idt evt id ev space ops acc HI H0 HE. revert acc.
  induction ops as [|o ops IH]; intro acc.
  - exists acc. repeat split.
  - cbn [map for_each Y.in_turn E.eval_all]. rewrite HI, HE.
    destruct (space o) as [[]|]; [|reflexivity].
    destruct (ev o) as [c|]; cbn [option_map].
    2: { unfold meets. destruct (Y.in_turn _); reflexivity. }
    eapply meets_post; [apply IH|]. intros ms r _ (-> & HM). split.
    + cbn [map rev fst snd]. rewrite <- app_assoc. unfold insert. rewrite Z2Nat.id by auto. reflexivity.
    + cbn [map fst]. now rewrite HM.
Qed.
Lemma back_text : forall {X} (r : list (int U32 * X)) acc,
  for_each r (fun '(key, object) m => Some (insert m (cast USize key) object)) acc =
  Some (rev (map (fun ko => (cast USize (fst ko), snd ko)) r) ++ acc).
Proof.
  intros X r. induction r as [|[k o] r IH]; intro acc; [reflexivity|].
  cbn [for_each map rev fst snd]. rewrite IH, <- app_assoc. reflexivity.
Qed.
Lemma back_order : forall {GL fu} (l : GL) (ms : list (nat * fu)),
  rev (map (fun ko => (cast USize (fst ko), snd ko)) (rev (map (fun kc => (@Int U32 (Z.of_nat (fst kc)), (l, snd kc))) ms) ++ [])) ++ [] =
  map (fun kc => (zi (fst kc), (l, snd kc))) ms.
Proof.
  intros GL fu l ms. rewrite !app_nil_r, <- map_rev, rev_involutive, map_map. apply map_ext. intros [k c]. reflexivity.
Qed.

Lemma eq_list_text : forall (a : list (int U32)) (b : list Z), eq_list a (map Int b) = V.eqb_list (map val a) b.
Proof.
  induction a as [|x a IH]; intros [|z b]; try reflexivity. cbn [eq_list V.eqb_list map]. rewrite IH. reflexivity.
Qed.
Lemma filled_text : forall n, filled (@lit U32 0) (zi n) = map Int (repeat 0 n).
Proof.
  intro n. unfold filled, zi, val. rewrite Nat2Z.id. induction n as [|n IH]; [reflexivity|cbn; now rewrite IH].
Qed.

Section Facts.
Context {ct pb fu GL KL SL Src : Type}.
Variable A : G.alg ct pb fu.
Variable sp : space GL KL SL.
Variable garbage : Z -> nat -> ct.
Variable garbage_i64 : Z -> nat -> int I64.
Variable gl_n : GL -> Z.
Variable enc : Z -> list Z -> ct.
Variable dec : Z -> ct -> list Z.
Variable next : Src -> Src.
Variable sw : word_space GL KL SL.
Variable bdd : Circuits -> list pb -> list ct.
Variable dec_word : fu -> Z.
Variable dec_prepared : list pb -> Z.
Variable shuffle : list (nat * fu) -> list (nat * fu).
Let L : library := lib A sp garbage garbage_i64 gl_n enc dec next.
Let N : engine L := eng A sp garbage garbage_i64 gl_n enc dec next sw bdd dec_word dec_prepared shuffle.
Notation mem_of := (mem_of A sp garbage garbage_i64 gl_n enc dec next).
Variables (p : profile) (l : GL) (sl : SL) (kl : KL).
Notation y := (cycle_costs_at sp sw l sl kl).
Notation cs := (costs_at sp l l sl kl).
Notation log := (G.log_n A).
Notation lz := (Z.of_nat (G.log_n A)).

Definition interp (verbose : bool) (threads : nat) (b : bufs pb fu) (v : V.evm ct pb fu) : T.Interpreter L :=
  @T.mk_Interpreter L (Int (V.v_cycle v))
    (option_map F.dvm_of (V.v_debug v))
    verbose
    (zi threads)
    T.InstructionSet_RV32I
    (zi (V.v_rom_bits v))
    (zi (V.v_rom_size v))
    (mem_of l (V.e_imm (V.v_rom v)))
    (mem_of l (V.e_rs1 (V.v_rom v)))
    (mem_of l (V.e_rs2 (V.v_rom v)))
    (mem_of l (V.e_rd (V.v_rom v)))
    (mem_of l (V.e_rdu (V.v_rom v)))
    (mem_of l (V.e_mu (V.v_rom v)))
    (mem_of l (V.e_pcu (V.v_rom v)))
    (Int 5)
    (mem_of l (V.v_regs v))
    (zi (V.v_ram_bits v))
    (zi (V.v_ram_size v))
    (mem_of l (V.v_ram v))
    (l, b_ram_addr b)
    (l, b_ram_val b)
    (sl, b_ram_addr_p b)
    (sl, b_ram_val_p b)
    (l, V.v_pc v)
    (sl, V.v_pcp v)
    (l, b_rs1_addr b)
    (sl, b_rs1_addr_p b)
    (l, b_rs1_val b)
    (sl, b_rs1_val_p b)
    (l, b_rs2_addr b)
    (sl, b_rs2_addr_p b)
    (l, b_rs2_val b)
    (sl, b_rs2_val_p b)
    (l, b_imm b)
    (sl, b_imm_p b)
    (l, b_rd_addr b)
    (sl, b_rd_addr_p b)
    (l, b_rd_val b)
    (sl, b_rd_val_p b)
    (l, b_rdu b)
    (sl, b_rdu_p b)
    (l, b_mu b)
    (sl, b_mu_p b)
    (l, b_pcu b)
    (sl, b_pcu_p b).

(** ** The operations of a cycle *)
Variable fuel : nat.
Hypothesis FUEL : (7 < fuel)%nat.
Hypothesis UNORD : select_unordered A.
Hypothesis SHUF : shuffles shuffle.
Hypothesis CIRC : circuits_agree A bdd.
Variable e : V.env.
Notation threads := (V.n_threads e).
Notation tz := (Z.of_nat (V.n_threads e)).
Variable avail : Z.
(** the sizes of scratch space are numbers of bytes *)
Hypothesis LOG : (log <= 62)%nat.
Hypothesis SZ : sizes_at sp l l sl kl.
Hypothesis DEC0 : 0 <= w_dec sw l.
Hypothesis FS : 0 <= Sc.stateless_bytes cs /\ bytes_fit threads (Sc.stateless_bytes cs).
Hypothesis FZ : bytes_fit threads (Z.max (s_rotate sp) (s_trace sp l l kl) + s_glwe sp l).
Hypothesis FB : 0 <= tz * Y.y_bits y < 2 ^ 64.
Hypothesis FW : bytes_fit threads (Sc.rev_bytes cs lz 5 + s_glwe sp l).
Hypothesis ENV : threads <> 0%nat -> EncSpec.env_ok e.

Lemma ord32 : forall i, (i < 15)%nat -> i <> 7%nat -> i <> 10%nat -> ordered threads (V.sched e i) 32.
Proof. intros i H1 H2 H3 NT. destruct (ENV NT) as (O & _). auto. Qed.

Lemma stateless_meets : forall i m addr off r0, (i < 15)%nat -> i <> 7%nat -> i <> 10%nat ->
  planes32 m -> (off <= 2)%nat ->
  meets (TM.Memory_read_stateless L p (mem_of l m) (zi threads) tt (l, r0) (sl, addr) (Int (Z.of_nat off)) kl avail)
    (Sc.read_stateless_space cs tz avail) (M.mem_read_stateless A threads (V.sched e i) m addr off)
    (fun x r => r = (mem_of l (fst x), (l, snd x)) /\ planes32 (fst x) /\ M.m_bits (fst x) = M.m_bits m).
Proof.
  intros i m addr off r0 I1 I2 I3 HP HO. destruct FS as (FS0 & FS1).
  assert (O := ord32 i I1 I2 I3).
  eapply meets_impl.
  - apply (meets_of _ _ _ (fun x => (mem_of l (fst x), (l, snd x)))).
    etransitivity.
    + apply (C97_read_stateless A sp garbage garbage_i64 gl_n enc dec next p l sl kl m threads (V.sched e i) addr off r0 avail); auto.
      clear - LOG HO. lia.
    + cbv zeta. destruct (Sc.read_stateless_space _ _ _); [|reflexivity].
      destruct (M.mem_read_stateless _ _ _ _ _ _) as [[m' w]|]; reflexivity.
  - intros [m' w] r E0 ->. cbn [fst snd]. split; [reflexivity|]. eapply keep_stateless; eauto.
Qed.
Lemma statefull_meets : forall m addr r0, planes32 m ->
  0 <= Sc.statefull_bytes cs lz (Z.of_nat (M.m_bits m)) -> bytes_fit threads (Sc.statefull_bytes cs lz (Z.of_nat (M.m_bits m))) ->
  meets (TM.Memory_read_statefull L p (mem_of l m) (zi threads) tt (l, r0) (sl, addr) (lit 2) kl avail)
    (Sc.read_statefull_space cs lz (Z.of_nat (M.m_bits m)) tz avail) (M.mem_read_statefull A threads (V.sched e 11) m addr 2)
    (fun x r => r = (mem_of l (fst x), (l, snd x)) /\ planes32 (fst x) /\ M.m_bits (fst x) = M.m_bits m).
Proof.
  intros m addr r0 HP F0 F1.
  assert (O : ordered threads (V.sched e 11) 32) by (apply ord32; lia).
  eapply meets_impl.
  - apply (meets_of _ _ _ (fun x => (mem_of l (fst x), (l, snd x)))).
    etransitivity.
    + apply (C97_read_statefull A sp garbage garbage_i64 gl_n enc dec next p l l sl kl m threads (V.sched e 11) addr 2 r0 avail); auto.
      clear - LOG. lia.
    + cbv zeta. destruct (Sc.read_statefull_space _ _ _ _ _); [|reflexivity].
      destruct (M.mem_read_statefull _ _ _ _ _ _) as [[m' w]|]; reflexivity.
  - intros [m' w] r E0 ->. cbn [fst snd]. split; [reflexivity|]. eapply keep_statefull; eauto.
Qed.
Lemma rev_meets : forall m w addr, planes32 m ->
  bytes_fit threads (Sc.rev_bytes cs lz (Z.of_nat (M.m_bits m)) + s_glwe sp l) ->
  meets (TM.Memory_read_statefull_rev L p (mem_of l m) (zi threads) tt (l, w) (sl, addr) (lit 2) kl avail)
    (Sc.read_statefull_rev_space cs lz (Z.of_nat (M.m_bits m)) tz avail) (M.mem_read_statefull_rev A threads (V.sched e 14) m w addr 2)
    (fun x r => r = mem_of l x /\ planes32 x /\ M.m_bits x = M.m_bits m).
Proof.
  intros m w addr HP F1.
  assert (O : ordered threads (V.sched e 14) 32) by (apply ord32; lia).
  eapply meets_impl.
  - apply (meets_of _ _ _ (mem_of l)).
    apply (C97_read_statefull_rev A sp garbage garbage_i64 gl_n enc dec next p l l sl kl m threads (V.sched e 14) w addr 2 avail); auto.
    clear - LOG. lia.
  - intros m' r E0 ->. split; [reflexivity|]. eapply keep_rev; eauto.
Qed.
Lemma write_meets : forall m w addr, planes32 m -> M.m_bits m = 5%nat ->
  meets (TM.Memory_write L p (mem_of l m) (zi threads) tt (l, w) (sl, addr) (lit 0) kl avail)
    (Sc.write_space cs lz 5 tz avail) (M.mem_write A threads (V.sched e 12) m w addr 0)
    (fun x r => r = mem_of l x /\ planes32 x /\ M.m_bits x = 5%nat).
Proof.
  intros m w addr HP HB.
  assert (O : ordered threads (V.sched e 12) 32) by (apply ord32; lia).
  assert (Z5 : Z.of_nat (M.m_bits m) = 5) by (rewrite HB; reflexivity).
  eapply meets_impl.
  - apply (meets_of _ _ _ (mem_of l)). rewrite <- Z5.
    apply (C97_write A sp garbage garbage_i64 gl_n enc dec next p l l sl kl m threads (V.sched e 12) w addr 0 avail); auto.
    + clear - LOG. lia.
    + rewrite Z5. exact FW.
  - intros m' r E0 ->. split; [reflexivity|]. rewrite <- HB. eapply keep_write; eauto.
Qed.
Lemma zero_meets : forall m, planes32 m -> M.m_bits m = 5%nat ->
  meets (TM.Memory_zero L p (mem_of l m) (zi threads) tt (lit 0) kl avail)
    (Sc.zero_space cs tz avail) (M.mem_zero A threads (V.sched e 13) m 0)
    (fun x r => r = mem_of l x /\ planes32 x /\ M.m_bits x = 5%nat).
Proof.
  intros m HP HB.
  assert (O : ordered threads (V.sched e 13) 32) by (apply ord32; lia).
  eapply meets_impl.
  - apply (meets_of _ _ _ (mem_of l)).
    apply (C97_zero A sp garbage garbage_i64 gl_n enc dec next p l l sl kl m threads (V.sched e 13) 0 avail); auto. reflexivity.
  - intros m' r E0 ->. split; [reflexivity|]. rewrite <- HB. eapply keep_zero; eauto.
Qed.
Lemma prepare_meets : forall i (res : list (list pb)) (words : list fu) counts,
  length res = length counts -> length words = length counts -> (length counts <= 7)%nat ->
  Forall (fun r => length r = 32%nat) res -> Forall (fun c => c <= 32)%nat counts -> (0 < list_sum counts)%nat ->
  ordered threads (V.sched e i) (list_sum counts) ->
  meets (T.Module_prepare_multiple_fheuint L N p fuel tt (zi threads) (map (pair sl) res) (map (pair l) words) (map zi counts) kl avail)
    (Y.prepare_multiple_space y tz avail) (P.prepare_multiple A threads (V.sched e i) (V.fresh A (length counts)) words counts)
    (fun ps r => r = map (pair sl) ps /\ ps = map (fun wc => P.prepare_custom A (fst wc) (snd wc)) (combine words counts)).
Proof.
  intros i res words counts L1 L2 L7 R32 C32 POS O.
  assert (FR : Forall (fun r => length r = 32%nat) (V.fresh A (length counts))).
  { apply Forall_forall. intros r H. apply repeat_spec in H. subst. apply repeat_length. }
  assert (FL : length (V.fresh A (length counts)) = length counts) by apply repeat_length.
  assert (EQ := prepare_any A threads (V.sched e i) res words counts L1 L2 POS R32 C32 O).
  assert (EF := prepare_any A threads (V.sched e i) (V.fresh A (length counts)) words counts FL L2 POS FR C32 O).
  rewrite EF.
  eapply meets_impl.
  - apply (meets_of _ _ _ (map (pair sl))).
    etransitivity.
    + apply (prepare_multiple_text A sp garbage garbage_i64 gl_n enc dec next sw bdd dec_word dec_prepared shuffle p l sl kl fuel threads (V.sched e i) res words counts avail); auto.
      * clear - L7 FUEL. lia.
      * clear - L7. unfold b64. lia.
    + rewrite EQ. destruct (Y.prepare_multiple_space _ _ _); [|reflexivity].
      destruct (Nat.eqb threads 0); reflexivity.
  - intros ps r E0 ->. split; [reflexivity|]. destruct (Nat.eqb threads 0); [discriminate|]. now injection E0 as <-.
Qed.
Lemma custom_meets : forall q w n,
  meets (FheUintPrepared_prepare_custom_multi_thread N (sl, q) (zi threads) tt (l, w) (lit 0) (zi n) kl avail)
    (Sc.need avail (Y.y_prepare y (Z.of_nat n) tz)) (V.prepare_low A w n)
    (fun x r => r = (sl, x) /\ length x = 32%nat).
Proof.
  intros q w n. unfold N. cbn [FheUintPrepared_prepare_custom_multi_thread eng fst snd].
  rewrite given_need. unfold zi, val, nat_of, val, V.prepare_low, lit. rewrite Nat2Z.id.
  cbn [Y.y_prepare cycle_costs_at]. destruct (Sc.need _ _); [|reflexivity]. cbn [Z.eqb andb].
  destruct (Nat.leb_spec n 32); destruct (Z.leb_spec (Z.of_nat n) 32); try lia; [|reflexivity].
  eexists. split; [reflexivity|]. split; [reflexivity|]. apply prepare_custom_length.
Qed.

(** ** The blocks of a cycle *)
Definition at_ (v : V.evm ct pb fu) d rom regs ram pc pcp : V.evm ct pb fu :=
  V.EVM (V.v_cycle v) d (V.v_rom_bits v) (V.v_rom_size v) rom regs (V.v_ram_bits v) (V.v_ram_size v) ram pc pcp.
Definition rom32 (r : V.eroms ct) : Prop :=
  planes32 (V.e_imm r) /\ planes32 (V.e_rs1 r) /\ planes32 (V.e_rs2 r) /\ planes32 (V.e_rd r) /\
  planes32 (V.e_rdu r) /\ planes32 (V.e_mu r) /\ planes32 (V.e_pcu r).
Definition full_o (d : option DM.dvm) : Prop := match d with Some d => full d | None => True end.
(** the destinations of prepared words have 32 bits *)
Definition wide_b (b : bufs pb fu) : Prop :=
  Forall (fun q => length q = 32%nat) [b_rdu_p b; b_mu_p b; b_pcu_p b; b_imm_p b; b_rs1_addr_p b; b_rs2_addr_p b; b_rd_addr_p b;
    b_rs1_val_p b; b_rs2_val_p b].
Definition parts_b (b : bufs pb fu) (ps : V.parts) : Prop :=
  b_rdu_p b = V.p_rdu ps /\ b_mu_p b = V.p_mu ps /\ b_pcu_p b = V.p_pcu ps /\ b_imm_p b = V.p_imm ps /\
  b_rs1_addr_p b = V.p_rs1 ps /\ b_rs2_addr_p b = V.p_rs2 ps /\ b_rd_addr_p b = V.p_rd ps.

(** the key the blocks are given, as the model has it *)
Definition skm (sk : option unit) : option (V.secret ct pb fu) :=
  option_map (fun _ => V.Secret dec_word dec_prepared
    (fun m data => option_map (map val) (TM.Memory_decrypt L p (mem_of l m) tt (map Int data) tt avail))) sk.
Definition check (sk : option unit) (d : option DM.dvm) (b : bool) : option unit :=
  match sk, d with Some _, Some _ => Y.checks_space y b avail | _, _ => Some tt end.

Variable verbose : bool.
Variable v : V.evm ct pb fu.
Variable sk : option unit.

Ltac pure := eapply meets_pure; [reflexivity|]; cbv beta iota zeta.
Ltac assoc := repeat lazymatch goal with
  | |- meets (match (match _ with Some _ => _ | None => None end) with Some _ => _ | None => None end) _ _ _ => apply meets_assoc end.
Ltac assoc_s := repeat lazymatch goal with
  | |- meets _ (match (match _ with Some _ => _ | None => None end) with Some _ => _ | None => None end) _ _ => apply space_assoc end.
Ltac decided := repeat match goal with
  | |- context[Z.eqb ?a ?b] => destruct (Z.eqb a b); cbn [andb]
  | H : (_ =? _) && _ = true |- _ => apply andb_prop in H; destruct H end.

Lemma decrypt_text : forall w, FheUint_decrypt N (l, w) tt tt avail =
  match Sc.need avail (w_dec sw l) with Some _ => Some (Int (dec_word w)) | None => None end.
Proof. intro w. unfold N. cbn [FheUint_decrypt eng fst snd]. apply given_need. Qed.
Lemma decrypt_bits_text : forall q, FheUintPrepared_decrypt N (sl, q) tt tt kl avail =
  match Sc.need avail (w_dec_bits sw sl kl) with Some _ => Some (Int (dec_prepared q)) | None => None end.
Proof. intro w. unfold N. cbn [FheUintPrepared_decrypt eng fst snd]. apply given_need. Qed.
Lemma noise_free : Sc.need avail (w_dec sw l) <> None -> Sc.need avail 0 = Some tt.
Proof.
  unfold Sc.need. destruct (Z.leb_spec (w_dec sw l) avail); [|congruence]. intros _.
  destruct (Z.leb_spec 0 avail); [reflexivity|]. clear - H H0 DEC0. lia.
Qed.

(** the comparisons with the debug VM: decrypting a word, and the first of them *)
Ltac words N2 ws := lazymatch ws with
  | nil => idtac
  | cons ?w ?r => eapply meets_pure; [etransitivity; [exact (decrypt_text w)|rewrite N2; reflexivity]|]; cbv beta iota zeta; words N2 r
  end.
Ltac no_bytes := apply meets_stop; [|left; reflexivity];
  first [etransitivity; [apply decrypt_text|]|etransitivity; [apply decrypt_bits_text|]]; match goal with H : Sc.need _ _ = None |- _ => rewrite H end; reflexivity.
Ltac quiet N2 := rewrite (noise_free ltac:(rewrite N2; discriminate)).

(** the seven words that are fetched, before they are prepared *)
Definition fetched (b' : bufs pb fu) (rom rom' : V.eroms ct) (pcp : list pb) : Prop :=
  M.mem_read_stateless A threads (V.sched e 0%nat) (V.e_imm rom) pcp 2 = Some (V.e_imm rom', b_imm b') /\
  M.mem_read_stateless A threads (V.sched e 1%nat) (V.e_rdu rom) pcp 2 = Some (V.e_rdu rom', b_rdu b') /\
  M.mem_read_stateless A threads (V.sched e 2%nat) (V.e_mu rom) pcp 2 = Some (V.e_mu rom', b_mu b') /\
  M.mem_read_stateless A threads (V.sched e 3%nat) (V.e_pcu rom) pcp 2 = Some (V.e_pcu rom', b_pcu b') /\
  M.mem_read_stateless A threads (V.sched e 4%nat) (V.e_rs1 rom) pcp 2 = Some (V.e_rs1 rom', b_rs1_addr b') /\
  M.mem_read_stateless A threads (V.sched e 5%nat) (V.e_rs2 rom) pcp 2 = Some (V.e_rs2 rom', b_rs2_addr b') /\
  M.mem_read_stateless A threads (V.sched e 6%nat) (V.e_rd rom) pcp 2 = Some (V.e_rd rom', b_rd_addr b').
Lemma fetch_text : forall b d rom regs ram pc pcp, wide_b b -> rom32 rom -> full_o d -> length pcp = 32%nat ->
  meets (T.Interpreter_read_and_prepare_instruction_components L N p fuel (interp verbose threads b (at_ v d rom regs ram pc pcp)) (zi threads) tt kl sk avail)
    (match Y.instruction_space y tz avail with Some _ => check sk d true | None => None end)
    (V.read_components A (skm sk) e d rom pcp)
    (fun x r => let '(rom', d', ps) := x in exists b', r = interp verbose threads b' (at_ v d' rom' regs ram pc pcp) /\
       parts_b b' ps /\ fetched b' rom rom' pcp /\ wide_b b' /\ rom32 rom' /\ full_o d').
Proof.
  intros b d rom regs ram pc pcp WB (R1 & R2 & R3 & R4 & R5 & R6 & R7) FD LP.
  unfold T.Interpreter_read_and_prepare_instruction_components, V.read_components, Y.instruction_space.
  cbn [Y.in_turn repeat]. cbv beta zeta.
  assoc. assoc_s.
  eapply meets_bind. { exact (stateless_meets 0 (V.e_imm rom) pcp 2 (b_imm b) ltac:(lia) ltac:(lia) ltac:(lia) R1 ltac:(lia)). }
  intros [m1 w1] r1 X1 (-> & P1 & _). cbn [fst snd]. cbv beta iota. assoc. assoc_s.
  eapply meets_bind. { exact (stateless_meets 1 (V.e_rdu rom) pcp 2 (b_rdu b) ltac:(lia) ltac:(lia) ltac:(lia) R5 ltac:(lia)). }
  intros [m2 w2] r2 X2 (-> & P2 & _). cbn [fst snd]. cbv beta iota. assoc. assoc_s.
  eapply meets_bind. { exact (stateless_meets 2 (V.e_mu rom) pcp 2 (b_mu b) ltac:(lia) ltac:(lia) ltac:(lia) R6 ltac:(lia)). }
  intros [m3 w3] r3 X3 (-> & P3 & _). cbn [fst snd]. cbv beta iota. assoc. assoc_s.
  eapply meets_bind. { exact (stateless_meets 3 (V.e_pcu rom) pcp 2 (b_pcu b) ltac:(lia) ltac:(lia) ltac:(lia) R7 ltac:(lia)). }
  intros [m4 w4] r4 X4 (-> & P4 & _). cbn [fst snd]. cbv beta iota. assoc. assoc_s.
  eapply meets_bind. { exact (stateless_meets 4 (V.e_rs1 rom) pcp 2 (b_rs1_addr b) ltac:(lia) ltac:(lia) ltac:(lia) R2 ltac:(lia)). }
  intros [m5 w5] r5 X5 (-> & P5 & _). cbn [fst snd]. cbv beta iota. assoc. assoc_s.
  eapply meets_bind. { exact (stateless_meets 5 (V.e_rs2 rom) pcp 2 (b_rs2_addr b) ltac:(lia) ltac:(lia) ltac:(lia) R3 ltac:(lia)). }
  intros [m6 w6] r6 X6 (-> & P6 & _). cbn [fst snd]. cbv beta iota. assoc. assoc_s.
  eapply meets_bind. { exact (stateless_meets 6 (V.e_rd rom) pcp 2 (b_rd_addr b) ltac:(lia) ltac:(lia) ltac:(lia) R4 ltac:(lia)). }
  intros [m7 w7] r7 X7 (-> & P7 & _). cbn [fst snd]. cbv beta iota. assoc. assoc_s.

  eapply meets_pure. { instantiate (1 := zi 5). reflexivity. } cbv beta iota zeta.
  assoc. eapply meets_pure. { instantiate (1 := Int 3). reflexivity. } cbv beta iota zeta.
  assoc. eapply meets_pure. { instantiate (1 := Int 2). reflexivity. } cbv beta iota zeta. assoc.
  change (Word.bit_len_pred (Z.of_nat (length EvalPlain.RD_RV32I))) with (Some 5%nat).
  change (Word.bit_len_pred (Z.of_nat (length EvalPlain.RAM_LIST))) with (Some 2%nat). cbv beta iota.
  eapply meets_bind.
  { unfold wide_b in WB. rewrite !Forall_cons_iff in WB.
    refine (prepare_meets 7 [b_rdu_p b; b_mu_p b; b_pcu_p b; b_imm_p b; b_rs1_addr_p b; b_rs2_addr_p b; b_rd_addr_p b]
      [w2; w3; w4; w1; w5; w6; w7] [5; 2; 4; 32; 5; 5; 5]%nat eq_refl eq_refl ltac:(cbn; lia) _ _ _ _).
    - rewrite !Forall_cons_iff. tauto.
    - repeat constructor.
    - cbn. lia.
    - intro NT. apply (ENV NT). }
  intros ps r8 _ (-> & ->). cbn [map combine fst snd].
  do 7 (assoc; eapply meets_pure; [reflexivity|]; cbv beta iota zeta).
  eapply (meets_post _ _ _ _ (fun d' r => r = interp verbose threads
      (Bufs (b_ram_addr b) (b_ram_val b) (b_ram_addr_p b) (b_ram_val_p b)
        w5 (P.prepare_custom A w5 5) (b_rs1_val b) (b_rs1_val_p b) w6 (P.prepare_custom A w6 5) (b_rs2_val b) (b_rs2_val_p b)
        w1 (P.prepare_custom A w1 32) w7 (P.prepare_custom A w7 5) (b_rd_val b) (b_rd_val_p b)
        w2 (P.prepare_custom A w2 5) w3 (P.prepare_custom A w3 2) w4 (P.prepare_custom A w4 4))
      (at_ v d' (V.ERoms m1 m5 m6 m7 m2 m3 m4) regs ram pc pcp) /\ full_o d')).
  2: { intros d' r _ (-> & FD'). eexists. split; [reflexivity|]. split; [repeat split|].
    split; [exact (conj X1 (conj X2 (conj X3 (conj X4 (conj X5 (conj X6 X7))))))|]. split; [|split; [exact (conj P1 (conj P5 (conj P6 (conj P7 (conj P2 (conj P3 P4))))))|exact FD']].
    unfold wide_b in *. rewrite !Forall_cons_iff in *. cbn [b_rdu_p b_mu_p b_pcu_p b_imm_p b_rs1_addr_p b_rs2_addr_p b_rd_addr_p b_rs1_val_p b_rs2_val_p].
    rewrite !prepare_custom_length. tauto. }
  unfold V.shadow, check, skm. destruct sk as [[]|]; cbn [option_map]; [|eexists; split; [reflexivity|]; split; [reflexivity|exact FD]].
  destruct d as [d|]; [|eexists; split; [reflexivity|]; split; [reflexivity|exact FD]].
  cbv beta iota. cbn [V.s_pb V.s_fu V.s_mem].
  lazymatch goal with |- meets (match ?x with Some _ => _ | None => _ end) _ _ _ => change x with (Some (F.dvm_of d)) end. cbv beta iota.
  destruct (DM.read_instructions d) as [d'|] eqn:ED.
  2: { apply meets_stop; [|right; reflexivity]. etransitivity; [apply F.read_instructions_eq|]. rewrite ED. reflexivity. }
  eapply meets_pure. { etransitivity; [apply F.read_instructions_eq|]. rewrite ED. reflexivity. } cbv beta iota zeta.
  unfold Y.checks_space. cbn [Y.y_decrypt_bits Y.y_decrypt Y.y_noise cycle_costs_at].
  destruct (Sc.need avail (w_dec_bits sw sl kl)) as [[]|] eqn:N1; [|no_bytes].
  eapply meets_pure. { etransitivity; [exact (decrypt_bits_text pcp)|rewrite N1; reflexivity]. } cbv beta iota zeta.
  destruct (Sc.need avail (w_dec sw l)) as [[]|] eqn:N2; [|no_bytes].
  words N2 [w1; w5; w6; w7; w2; w3; w4]. quiet N2.
  rewrite <- !andb_assoc.
  do 7 (apply meets_if; [reflexivity|]). apply meets_if1; [reflexivity|].
  eexists. split; [reflexivity|]. split; [reflexivity|]. exact (full_read_instructions d d' FD ED).
Qed.
Lemma components_text : forall b d rom regs ram pc pcp, wide_b b -> rom32 rom -> full_o d -> length pcp = 32%nat ->
  meets (T.Interpreter_read_and_prepare_instruction_components L N p fuel (interp verbose threads b (at_ v d rom regs ram pc pcp)) (zi threads) tt kl sk avail)
    (match Y.instruction_space y tz avail with Some _ => check sk d true | None => None end)
    (V.read_components A (skm sk) e d rom pcp)
    (fun x r => let '(rom', d', ps) := x in exists b', r = interp verbose threads b' (at_ v d' rom' regs ram pc pcp) /\
       parts_b b' ps /\ wide_b b' /\ rom32 rom' /\ full_o d').
Proof.
  intros b d rom regs ram pc pcp WB RO FD LP. eapply meets_impl; [exact (fetch_text b d rom regs ram pc pcp WB RO FD LP)|].
  intros [[rom' d'] ps] r _ (b' & -> & PB & _ & T). exists b'. tauto.
Qed.

Definition vals_b (b : bufs pb fu) (v2 : fu) (q1 q2 : list pb) : Prop :=
  b_rs2_val b = v2 /\ b_rs1_val_p b = q1 /\ b_rs2_val_p b = q2.
Definition loads_b (b : bufs pb fu) (x : fu) (pa : list pb) : Prop := b_ram_val b = x /\ b_ram_addr_p b = pa.

Lemma registers_text : forall b d rom regs ram pc pcp ps, wide_b b -> parts_b b ps -> planes32 regs -> M.m_bits regs = 5%nat -> full_o d ->
  meets (T.Interpreter_read_and_prepare_registers L N p fuel (interp verbose threads b (at_ v d rom regs ram pc pcp)) (zi threads) tt kl sk avail)
    (match Y.registers_space y tz avail with Some _ => check sk d false | None => None end)
    (V.read_regs A (skm sk) e d regs ps)
    (fun x r => let '(regs', d', v2, q1, q2) := x in exists b', r = interp verbose threads b' (at_ v d' rom regs' ram pc pcp) /\
       parts_b b' ps /\ wide_b b' /\ vals_b b' v2 q1 q2 /\ planes32 regs' /\ M.m_bits regs' = 5%nat /\ full_o d').
Proof.
  intros b d rom regs ram pc pcp ps WB PB R1 RB FD.
  assert (PB' := PB). destruct PB as (B1 & B2 & B3 & B4 & B5 & B6 & B7).
  unfold T.Interpreter_read_and_prepare_registers, V.read_regs, Y.registers_space. rewrite <- B5, <- B6.
  cbn [Y.in_turn repeat]. cbv beta zeta.
  assoc. assoc_s.
  eapply meets_bind. { exact (stateless_meets 8 regs (b_rs1_addr_p b) 0 (b_rs1_val b) ltac:(lia) ltac:(lia) ltac:(lia) R1 ltac:(lia)). }
  intros [m1 w1] r1 _ (-> & P1 & Q1). cbn [fst snd] in *. cbv beta iota. assoc. assoc_s.
  eapply meets_bind. { exact (stateless_meets 9 m1 (b_rs2_addr_p b) 0 (b_rs2_val b) ltac:(lia) ltac:(lia) ltac:(lia) P1 ltac:(lia)). }
  intros [m2 w2] r2 _ (-> & P2 & Q2). cbn [fst snd] in *. cbv beta iota. assoc. assoc_s.
  eapply meets_bind.
  { unfold wide_b in WB. rewrite !Forall_cons_iff in WB.
    refine (prepare_meets 10 [b_rs1_val_p b; b_rs2_val_p b] [w1; w2] [32; 32]%nat eq_refl eq_refl ltac:(cbn; lia) _ _ _ _).
    - rewrite !Forall_cons_iff. tauto.
    - repeat constructor.
    - cbn. lia.
    - intro NT. apply (ENV NT). }
  intros qs r8 _ (-> & ->). cbn [map combine fst snd].
  do 2 (assoc; eapply meets_pure; [reflexivity|]; cbv beta iota zeta).
  eapply (meets_post _ _ _ _ (fun d' r => r = interp verbose threads
      (Bufs (b_ram_addr b) (b_ram_val b) (b_ram_addr_p b) (b_ram_val_p b) (b_rs1_addr b) (b_rs1_addr_p b) w1 (P.prepare_custom A w1 32) (b_rs2_addr b) (b_rs2_addr_p b) w2 (P.prepare_custom A w2 32) (b_imm b) (b_imm_p b) (b_rd_addr b) (b_rd_addr_p b) (b_rd_val b) (b_rd_val_p b) (b_rdu b) (b_rdu_p b) (b_mu b) (b_mu_p b) (b_pcu b) (b_pcu_p b)) (at_ v d' rom m2 ram pc pcp) /\ full_o d')).
  2: { intros d' r _ (-> & FD'). eexists. split; [reflexivity|]. split; [exact PB'|]. split; [|split; [repeat split|split; [exact P2|split; [congruence|exact FD']]]].
    unfold wide_b in *. rewrite !Forall_cons_iff in *. cbn [b_rdu_p b_mu_p b_pcu_p b_imm_p b_rs1_addr_p b_rs2_addr_p b_rd_addr_p b_rs1_val_p b_rs2_val_p].
    rewrite !prepare_custom_length. tauto. }
  unfold V.shadow, check, skm. destruct sk as [[]|]; cbn [option_map]; [|eexists; split; [reflexivity|]; split; [reflexivity|exact FD]].
  destruct d as [d|]; [|eexists; split; [reflexivity|]; split; [reflexivity|exact FD]].
  cbv beta iota. cbn [V.s_pb V.s_fu V.s_mem].
  lazymatch goal with |- meets (match ?x with Some _ => _ | None => _ end) _ _ _ => change x with (Some (F.dvm_of d)) end. cbv beta iota.
  destruct (DM.read_registers d) as [d'|] eqn:ED.
  2: { apply meets_stop; [|right; reflexivity]. etransitivity; [apply F.read_registers_eq|]. rewrite ED. reflexivity. }
  eapply meets_pure. { etransitivity; [apply F.read_registers_eq|]. rewrite ED. reflexivity. } cbv beta iota zeta.
  unfold Y.checks_space. cbn [Y.y_decrypt_bits Y.y_decrypt Y.y_noise cycle_costs_at].
  destruct (Sc.need avail (w_dec sw l)) as [[]|] eqn:N2; [|no_bytes].
  words N2 [w1; w2]. quiet N2.
  rewrite <- ?andb_assoc.
  do 1 (apply meets_if; [reflexivity|]). apply meets_if1; [reflexivity|].
  eexists. split; [reflexivity|]. split; [reflexivity|]. exact (full_read_registers d d' FD ED).
Qed.

(** the RAM of the machine *)
Hypothesis RB : Z.of_nat (V.v_ram_bits v) + 2 < 2 ^ 64.
Hypothesis FR : 0 <= Sc.statefull_bytes cs lz (Z.of_nat (V.v_ram_bits v)) /\
  bytes_fit threads (Sc.statefull_bytes cs lz (Z.of_nat (V.v_ram_bits v))).
Hypothesis FV : bytes_fit threads (Sc.rev_bytes cs lz (Z.of_nat (V.v_ram_bits v)) + s_glwe sp l).

Lemma add2 : forall n, Z.of_nat n + 2 < 2 ^ 64 -> add p (zi n) (lit 2) = Some (zi (n + 2)).
Proof.
  intros n H. unfold add, checked, fits, zi, val, lit. cbn [least largest]. change (2 ^ 64) with 18446744073709551616 in H.
  destruct (Z.leb_spec 0 (Z.of_nat n + 2)); [|lia]. destruct (Z.leb_spec (Z.of_nat n + 2) 18446744073709551615); [|lia].
  cbn [andb]. do 2 f_equal. lia.
Qed.

Lemma read_ram_text : forall b d rom regs ram pc pcp ps v2 q1 q2, wide_b b -> parts_b b ps -> vals_b b v2 q1 q2 ->
  planes32 ram -> M.m_bits ram = V.v_ram_bits v -> full_o d ->
  meets (T.Interpreter_read_ram L N p (interp verbose threads b (at_ v d rom regs ram pc pcp)) (zi threads) tt kl sk avail)
    (match Y.read_ram_space y lz (Z.of_nat (V.v_ram_bits v)) tz avail with Some _ => check sk d false | None => None end)
    (V.read_ram_enc A (skm sk) e d ram (V.v_ram_bits v) ps q1)
    (fun x r => let '(ram', d', ld, pa) := x in exists b', r = interp verbose threads b' (at_ v d' rom regs ram' pc pcp) /\
       parts_b b' ps /\ wide_b b' /\ vals_b b' v2 q1 q2 /\ loads_b b' ld pa /\ planes32 ram' /\ M.m_bits ram' = V.v_ram_bits v /\ full_o d').
Proof.
  intros b d rom regs ram pc pcp ps v2 q1 q2 WB PB VB R1 RM FD.
  assert (PB' := PB). destruct PB as (B1 & B2 & B3 & B4 & B5 & B6 & B7).
  assert (VB' := VB). destruct VB as (V1 & V2 & V3).
  unfold T.Interpreter_read_ram, V.read_ram_enc, Y.read_ram_space. rewrite <- B4, <- V2.
  assert (WB' := WB). unfold wide_b in WB'. rewrite !Forall_cons_iff in WB'.
  cbv beta zeta. assoc. assoc_s.
  eapply meets_space.
  { refine (ram_offset_text A sp garbage garbage_i64 gl_n enc dec next sw bdd dec_word dec_prepared shuffle p l sl kl CIRC
      (b_ram_addr b) (b_imm_p b) (b_rs1_val_p b) tz avail _ _); tauto. }
  cbv beta iota zeta. assoc. assoc_s.
  eapply meets_pure. { exact (add2 (V.v_ram_bits v) RB). } cbv beta iota zeta. assoc.
  replace (Z.of_nat (V.v_ram_bits v) + 2) with (Z.of_nat (V.v_ram_bits v + 2)) by lia.
  eapply meets_bind. { exact (custom_meets (b_ram_addr_p b) (E.ram_offset_enc A (b_imm_p b) (b_rs1_val_p b)) (V.v_ram_bits v + 2)). }
  intros pa r1 _ (-> & LA). cbv beta iota zeta. assoc. assoc_s.
  rewrite <- RM in *.
  eapply meets_bind. { exact (statefull_meets ram pa (b_ram_val b) R1 (proj1 FR) (proj2 FR)). }
  intros [m2 w2] r2 _ (-> & P2 & Q2). cbn [fst snd] in *. cbv beta iota zeta.
  eapply (meets_post _ _ _ _ (fun d' r => r = interp verbose threads
      (Bufs (E.ram_offset_enc A (b_imm_p b) (b_rs1_val_p b)) w2 pa (b_ram_val_p b) (b_rs1_addr b) (b_rs1_addr_p b) (b_rs1_val b) (b_rs1_val_p b) (b_rs2_addr b) (b_rs2_addr_p b) (b_rs2_val b) (b_rs2_val_p b) (b_imm b) (b_imm_p b) (b_rd_addr b) (b_rd_addr_p b) (b_rd_val b) (b_rd_val_p b) (b_rdu b) (b_rdu_p b) (b_mu b) (b_mu_p b) (b_pcu b) (b_pcu_p b)) (at_ v d' rom regs m2 pc pcp) /\ full_o d')).
  2: { intros d' r _ (-> & FD'). eexists. split; [reflexivity|]. split; [exact PB'|]. split; [exact WB|]. split; [exact (conj V1 (conj eq_refl V3))|].
    split; [split; reflexivity|]. split; [exact P2|]. split; [exact Q2|exact FD']. }
  unfold V.shadow, check, skm. destruct sk as [[]|]; cbn [option_map]; [|eexists; split; [reflexivity|]; split; [reflexivity|exact FD]].
  destruct d as [d|]; [|eexists; split; [reflexivity|]; split; [reflexivity|exact FD]].
  cbv beta iota. cbn [V.s_pb V.s_fu V.s_mem].
  lazymatch goal with |- meets (match ?x with Some _ => _ | None => _ end) _ _ _ => change x with (Some (F.dvm_of d)) end. cbv beta iota.
  assert (TE := F.read_ram_eq p d (proj1 (proj1 FD))).
  destruct (DM.read_ram d) as [d'|] eqn:ED.
  2: { apply meets_stop; [|right; reflexivity]. exact TE. }
  eapply meets_pure. { exact TE. } cbv beta iota zeta.
  unfold Y.checks_space. cbn [Y.y_decrypt_bits Y.y_decrypt Y.y_noise cycle_costs_at].
  destruct (Sc.need avail (w_dec sw l)) as [[]|] eqn:N2; [|no_bytes].
  words N2 [E.ram_offset_enc A (b_imm_p b) (b_rs1_val_p b); w2]. quiet N2.
  rewrite <- ?andb_assoc.
  do 1 (apply meets_if; [reflexivity|]). apply meets_if1; [reflexivity|].
  eexists. split; [reflexivity|]. split; [reflexivity|]. exact (full_read_ram d d' FD ED).
Qed.

Lemma blind_meets : forall r0 (ms : list (nat * fu)) q n, NoDup (map fst ms) ->
  meets (Module_glwe_blind_selection N tt (l, r0) (map (fun kc => (zi (fst kc), (l, snd kc))) ms) (sl, q) (lit 0) (zi n) avail)
    (Sc.need avail (Y.y_blind y (Z.of_nat n))) (G.blind_select A ms q 0 n) (fun x r => r = (l, x)).
Proof.
  intros r0 ms q n ND. unfold N. cbn [Module_glwe_blind_selection eng fst snd].
  rewrite given_need. unfold zi, val, nat_of, val, lit. rewrite Nat2Z.id.
  cbn [Y.y_blind cycle_costs_at]. destruct (Sc.need _ _); [|reflexivity].
  rewrite map_map. cbn [fst snd].
  replace (map (fun x => (Z.to_nat (Z.of_nat (fst x)), snd x)) ms) with ms.
  2: { rewrite <- (map_id ms) at 1. apply map_ext. intros [k c]. cbn [fst snd]. now rewrite Nat2Z.id. }
  rewrite (select_perm A shuffle UNORD SHUF) by exact ND.
  destruct (G.blind_select A ms q 0 n) as [x|] eqn:BS.
  - exists (l, x). split; [|reflexivity]. cbn. now rewrite BS.
  - cbn. now rewrite BS.
Qed.
Lemma identity_text : forall w q, FheUint_identity_multi_thread N (l, w) (zi threads) tt (sl, q) kl avail =
  match Sc.need avail (Y.y_identity y tz) with Some _ => Some (l, G.a_ident A q) | None => None end.
Proof. intros w q. unfold N. cbn [FheUint_identity_multi_thread eng fst snd]. apply given_need. Qed.
Lemma rd_nodup : NoDup (map (fun o => Z.to_nat (Codec.rd_id o)) EvalPlain.RD_RV32I).
Proof. cbv. repeat constructor; cbn; lia. Qed.
Lemma ram_nodup : NoDup (map (fun o => Z.to_nat (Codec.ram_id o)) EvalPlain.RAM_LIST).
Proof. cbv. repeat constructor; cbn; lia. Qed.

Lemma update_registers_text : forall b d rom regs ram pc pcp ps v2 q1 q2 ld pa, wide_b b -> parts_b b ps -> vals_b b v2 q1 q2 -> loads_b b ld pa ->
  planes32 regs -> M.m_bits regs = 5%nat -> full_o d ->
  meets (T.Interpreter_update_registers L N p (interp verbose threads b (at_ v d rom regs ram pc pcp)) (zi threads) tt
      Verif.TextInstr.instructions_RD_UPDATE_RV32I_OP_LIST kl sk avail)
    (match Y.update_registers_space y lz 5 tz avail with Some _ => check sk d false | None => None end)
    (V.update_regs A (skm sk) e EvalPlain.RD_RV32I d regs ps q1 q2 pcp ld)
    (fun x r => let '(regs', d') := x in exists b', r = interp verbose threads b' (at_ v d' rom regs' ram pc pcp) /\
       parts_b b' ps /\ wide_b b' /\ vals_b b' v2 q1 q2 /\ loads_b b' ld pa /\ planes32 regs' /\ M.m_bits regs' = 5%nat /\ full_o d').
Proof.
  intros b d rom regs ram pc pcp ps v2 q1 q2 ld pa WB PB VB LB R1 RM FD.
  destruct ps as [p1 p2 p3 p4 p5 p6 p7].
  assert (PB' := PB). destruct PB as (B1 & B2 & B3 & B4 & B5 & B6 & B7). cbn [V.p_rdu V.p_mu V.p_pcu V.p_imm V.p_rs1 V.p_rs2 V.p_rd] in *.
  assert (VB' := VB). destruct VB as (V1 & V2 & V3).
  assert (LB' := LB). destruct LB as (L1 & L2). subst p1 p2 p3 p4 p5 p6 p7 v2 q1 q2 ld pa.
  unfold T.Interpreter_update_registers, V.update_regs, Y.update_registers_space.
  cbn [V.p_rdu V.p_mu V.p_pcu V.p_imm V.p_rs1 V.p_rs2 V.p_rd].
  cbv beta zeta. assoc. assoc_s.
  eapply meets_bind.
  { exact (loop_meets l F.rd_of (Verif.TextInstr.RD_UPDATE_id p)
      (fun op => T.RD_UPDATE_eval_enc L N p op (zi threads) tt (l, G.a_fzero A) (sl, b_rs1_val_p b) (sl, b_rs2_val_p b) (sl, b_imm_p b) (sl, pcp) (l, b_ram_val b) kl avail)
      Codec.rd_id (fun o => E.rd_eval_enc A o (b_rs1_val_p b) (b_rs2_val_p b) (b_imm_p b) pcp (b_ram_val b))
      (fun o => Y.rd_space y o tz avail) EvalPlain.RD_RV32I [] (F.rd_id_eq p) ltac:(intros []; cbn; lia)
      (fun o => rd_eval_text A sp garbage garbage_i64 gl_n enc dec next sw bdd dec_word dec_prepared shuffle p l sl kl o tz _ _ _ _ _ avail)). }
  intros ms r1 _ (-> & MS). cbv beta iota zeta. assoc. assoc_s.
  eapply meets_pure. { refine (eq_trans (@back_text (FheUint L) (rev (map (fun kc => (@Int U32 (Z.of_nat (fst kc)), (l, snd kc))) ms) ++ []) []) (f_equal Some (back_order l ms))). } cbv beta iota zeta. assoc.
  eapply meets_pure. { instantiate (1 := Int 28). reflexivity. } cbv beta iota zeta. assoc.
  eapply meets_pure. { instantiate (1 := Int 5). reflexivity. } cbv beta iota zeta. assoc.
  change (Word.bit_len_pred (Z.of_nat (length EvalPlain.RD_RV32I))) with (Some 5%nat). cbv beta iota.
  eapply meets_bind. { refine (blind_meets (b_rd_val b) ms (b_rdu_p b) 5 _). rewrite MS. exact rd_nodup. }
  intros w0 r2 _ ->. cbv beta iota zeta. assoc. assoc_s.
  eapply meets_bind. { exact (custom_meets (b_rd_val_p b) w0 32). }
  intros q r3 _ (-> & LQ). cbv beta iota zeta. assoc. assoc_s.
  eapply meets_space. { exact (identity_text w0 q). } cbv beta iota zeta. assoc. assoc_s.
  eapply meets_bind. { exact (write_meets regs (G.a_ident A q) (b_rd_addr_p b) R1 RM). }
  intros m1 r4 _ (-> & P1 & Q1). cbv beta iota zeta. assoc. assoc_s.
  eapply meets_bind. { exact (zero_meets m1 P1 Q1). }
  intros m2 r5 _ (-> & P2 & Q2). cbv beta iota zeta.
  eapply (meets_post _ _ _ _ (fun d' r => r = interp verbose threads
      (Bufs (b_ram_addr b) (b_ram_val b) (b_ram_addr_p b) (b_ram_val_p b) (b_rs1_addr b) (b_rs1_addr_p b) (b_rs1_val b) (b_rs1_val_p b) (b_rs2_addr b) (b_rs2_addr_p b) (b_rs2_val b) (b_rs2_val_p b) (b_imm b) (b_imm_p b) (b_rd_addr b) (b_rd_addr_p b) (G.a_ident A q) q (b_rdu b) (b_rdu_p b) (b_mu b) (b_mu_p b) (b_pcu b) (b_pcu_p b)) (at_ v d' rom m2 ram pc pcp) /\ full_o d')).
  2: { intros d' r _ (-> & FD'). eexists. split; [reflexivity|]. split; [exact PB'|]. split; [exact WB|]. split; [exact VB'|].
    split; [exact LB'|]. split; [exact P2|]. split; [exact Q2|exact FD']. }
  unfold V.shadow, check, skm. destruct sk as [[]|]; cbn [option_map]; [|eexists; split; [reflexivity|]; split; [reflexivity|exact FD]].
  destruct d as [d|]; [|eexists; split; [reflexivity|]; split; [reflexivity|exact FD]].
  cbv beta iota. cbn [V.s_pb V.s_fu V.s_mem].
  lazymatch goal with |- meets (match ?x with Some _ => _ | None => _ end) _ _ _ => change x with (Some (F.dvm_of d)) end. cbv beta iota.
  assert (TE : D.InterpreterDebug_update_registers p (F.dvm_of d) (map F.rd_of EvalPlain.RD_RV32I) = option_map F.dvm_of (DM.update_registers EvalPlain.RD_RV32I d)).
  { destruct FD as (_ & F1 & F2 & F3 & _). apply F.update_registers_eq; assumption. }
  destruct (DM.update_registers EvalPlain.RD_RV32I d) as [d'|] eqn:ED.
  2: { apply meets_stop; [|right; reflexivity]. exact TE. }
  eapply meets_pure. { exact TE. } cbv beta iota zeta.
  unfold Y.checks_space. cbn [Y.y_decrypt_bits Y.y_decrypt Y.y_noise cycle_costs_at].
  destruct (Sc.need avail (w_dec sw l)) as [[]|] eqn:N2; [|no_bytes].
  words N2 [G.a_ident A q]. quiet N2.
  apply meets_if; [reflexivity|].
  destruct (TM.Memory_decrypt L p (mem_of l m2) tt (map Int (repeat 0 32)) tt avail) as [have|] eqn:MD; cbn [option_map].
  2: { apply meets_stop; [exact MD|right; reflexivity]. }
  eapply meets_pure. { exact MD. } cbv beta iota zeta.
  apply meets_if1. { exact (eq_list_text have (DM.dregs d')). }
  eexists. split; [reflexivity|]. split; [reflexivity|]. exact (full_update_registers EvalPlain.RD_RV32I d d' FD ED).
Qed.

Lemma update_ram_text : forall b d rom regs ram pc pcp ps v2 q1 q2 ld pa, wide_b b -> parts_b b ps -> vals_b b v2 q1 q2 -> loads_b b ld pa ->
  planes32 ram -> M.m_bits ram = V.v_ram_bits v -> full_o d ->
  meets (T.Interpreter_update_ram L N p (interp verbose threads b (at_ v d rom regs ram pc pcp)) (zi threads) tt kl sk avail)
    (match Y.update_ram_space y lz (Z.of_nat (V.v_ram_bits v)) tz avail with Some _ => check sk d false | None => None end)
    (V.update_ram_enc A (skm sk) e d ram (V.v_ram_size v) ps v2 ld pa)
    (fun x r => let '(ram', d') := x in exists b', r = interp verbose threads b' (at_ v d' rom regs ram' pc pcp) /\
       parts_b b' ps /\ wide_b b' /\ vals_b b' v2 q1 q2 /\ planes32 ram' /\ M.m_bits ram' = V.v_ram_bits v /\ full_o d').
Proof.
  intros b d rom regs ram pc pcp ps v2 q1 q2 ld pa WB PB VB LB R1 RM FD.
  destruct ps as [p1 p2 p3 p4 p5 p6 p7].
  assert (PB' := PB). destruct PB as (B1 & B2 & B3 & B4 & B5 & B6 & B7). cbn [V.p_rdu V.p_mu V.p_pcu V.p_imm V.p_rs1 V.p_rs2 V.p_rd] in *.
  assert (VB' := VB). destruct VB as (V1 & V2 & V3).
  destruct LB as (L1 & L2). subst p1 p2 p3 p4 p5 p6 p7 v2 q1 q2 ld pa.
  unfold T.Interpreter_update_ram, V.update_ram_enc, Y.update_ram_space.
  cbn [V.p_rdu V.p_mu V.p_pcu V.p_imm V.p_rs1 V.p_rs2 V.p_rd].
  change [Codec.MNONE; Codec.MSB; Codec.MSH; Codec.MSW] with EvalPlain.RAM_LIST.
  cbv beta zeta. assoc. assoc_s.
  eapply meets_bind.
  { exact (loop_meets l F.ram_of (Verif.TextInstr.RAM_UPDATE_id p)
      (fun op => T.RAM_UPDATE_eval_enc L N p op (zi threads) tt (l, G.a_fzero A) (l, b_rs2_val b) (l, b_ram_val b) (sl, b_ram_addr_p b) kl avail)
      Codec.ram_id (fun o => E.ram_eval_enc A o (b_rs2_val b) (b_ram_val b) (b_ram_addr_p b))
      (fun o => Y.ram_space y o avail) EvalPlain.RAM_LIST [] (F.ram_id_eq p) ltac:(intros []; cbn; lia)
      (fun o => ram_eval_text A sp garbage garbage_i64 gl_n enc dec next sw bdd dec_word dec_prepared shuffle p l sl kl UNORD SHUF o tz _ _ _ _ avail)). }
  intros ms r1 _ (-> & MS). cbv beta iota zeta. assoc. assoc_s.
  eapply meets_pure. { refine (eq_trans (@back_text (FheUint L) (rev (map (fun kc => (@Int U32 (Z.of_nat (fst kc)), (l, snd kc))) ms) ++ []) []) (f_equal Some (back_order l ms))). } cbv beta iota zeta. assoc.
  eapply meets_pure. { instantiate (1 := Int 3). reflexivity. } cbv beta iota zeta. assoc.
  eapply meets_pure. { instantiate (1 := Int 2). reflexivity. } cbv beta iota zeta. assoc.
  change (Word.bit_len_pred (Z.of_nat (length EvalPlain.RAM_LIST))) with (Some 2%nat). cbv beta iota.
  eapply meets_bind. { refine (blind_meets (b_ram_val b) ms (b_mu_p b) 2 _). rewrite MS. exact ram_nodup. }
  intros w0 r2 _ ->. cbv beta iota zeta. assoc. assoc_s.
  eapply meets_bind. { exact (custom_meets (b_ram_val_p b) w0 32). }
  intros q r3 _ (-> & LQ). cbv beta iota zeta. assoc. assoc_s.
  eapply meets_space. { exact (identity_text w0 q). } cbv beta iota zeta. assoc. assoc_s.
  rewrite <- RM in *.
  eapply meets_bind. { exact (rev_meets ram (G.a_ident A q) (b_ram_addr_p b) R1 FV). }
  intros m2 r4 _ (-> & P2 & Q2). cbv beta iota zeta.
  eapply (meets_post _ _ _ _ (fun d' r => r = interp verbose threads
      (Bufs (b_ram_addr b) (G.a_ident A q) (b_ram_addr_p b) q (b_rs1_addr b) (b_rs1_addr_p b) (b_rs1_val b) (b_rs1_val_p b) (b_rs2_addr b) (b_rs2_addr_p b) (b_rs2_val b) (b_rs2_val_p b) (b_imm b) (b_imm_p b) (b_rd_addr b) (b_rd_addr_p b) (b_rd_val b) (b_rd_val_p b) (b_rdu b) (b_rdu_p b) (b_mu b) (b_mu_p b) (b_pcu b) (b_pcu_p b)) (at_ v d' rom regs m2 pc pcp) /\ full_o d')).
  2: { intros d' r _ (-> & FD'). eexists. split; [reflexivity|]. split; [exact PB'|]. split; [exact WB|]. split; [exact VB'|].
    split; [exact P2|]. split; [exact Q2|exact FD']. }
  unfold V.shadow, check, skm. destruct sk as [[]|]; cbn [option_map]; [|eexists; split; [reflexivity|]; split; [reflexivity|exact FD]].
  destruct d as [d|]; [|eexists; split; [reflexivity|]; split; [reflexivity|exact FD]].
  cbv beta iota. cbn [V.s_pb V.s_fu V.s_mem].
  lazymatch goal with |- meets (match ?x with Some _ => _ | None => _ end) _ _ _ => change x with (Some (F.dvm_of d)) end. cbv beta iota.
  assert (TE : D.InterpreterDebug_update_ram p (F.dvm_of d) = option_map F.dvm_of (DM.update_ram d)).
  { destruct FD as ((F0 & _) & _ & _ & _ & F4 & _). apply F.update_ram_eq; assumption. }
  destruct (DM.update_ram d) as [d'|] eqn:ED.
  2: { apply meets_stop; [|right; reflexivity]. exact TE. }
  eapply meets_pure. { exact TE. } cbv beta iota zeta.
  unfold Y.checks_space. cbn [Y.y_decrypt_bits Y.y_decrypt Y.y_noise cycle_costs_at].
  destruct (Sc.need avail (w_dec sw l)) as [[]|] eqn:N2; [|no_bytes].
  words N2 [G.a_ident A q]. quiet N2.
  apply meets_if; [reflexivity|].
  destruct (TM.Memory_decrypt L p (mem_of l m2) tt (map Int (repeat 0 (V.v_ram_size v))) tt avail) as [have|] eqn:MD; cbn [option_map];
    rewrite <- filled_text in MD.
  2: { apply meets_stop; [exact MD|right; reflexivity]. }
  eapply meets_pure. { exact MD. } cbv beta iota zeta.
  apply meets_if1. { exact (eq_list_text have (DM.dram d')). }
  eexists. split; [reflexivity|]. split; [reflexivity|]. exact (full_update_ram d d' FD ED).
Qed.

Lemma update_pc_stage_text : forall b d rom regs ram pc pcp ps v2 q1 q2, wide_b b -> parts_b b ps -> vals_b b v2 q1 q2 -> full_o d -> length pcp = 32%nat ->
  meets (T.Interpreter_update_pc L N p (interp verbose threads b (at_ v d rom regs ram pc pcp)) (zi threads) tt kl sk avail)
    (match Y.circuit_space y (Y.y_pcu y tz) avail with Some _ => check sk d false | None => None end)
    (V.update_pc_stage A (skm sk) d ps q1 q2 pcp)
    (fun x r => let '(pc', d') := x in exists b', r = interp verbose threads b' (at_ v d' rom regs ram pc' pcp) /\ wide_b b' /\ full_o d').
Proof.
  intros b d rom regs ram pc pcp ps v2 q1 q2 WB PB VB FD LP.
  destruct ps as [p1 p2 p3 p4 p5 p6 p7].
  destruct PB as (B1 & B2 & B3 & B4 & B5 & B6 & B7). cbn [V.p_rdu V.p_mu V.p_pcu V.p_imm V.p_rs1 V.p_rs2 V.p_rd] in *.
  destruct VB as (V1 & V2 & V3). subst p1 p2 p3 p4 p5 p6 p7 v2 q1 q2.
  assert (WB' := WB). unfold wide_b in WB'. rewrite !Forall_cons_iff in WB'.
  unfold T.Interpreter_update_pc, V.update_pc_stage.
  cbn [V.p_rdu V.p_mu V.p_pcu V.p_imm V.p_rs1 V.p_rs2 V.p_rd].
  cbv beta zeta. assoc.
  eapply meets_space.
  { refine (update_pc_text A sp garbage garbage_i64 gl_n enc dec next sw bdd dec_word dec_prepared shuffle p l sl kl CIRC
      pc (b_rs1_val_p b) (b_rs2_val_p b) pcp (b_imm_p b) (b_pcu_p b) tz avail _ _ LP _ _); tauto. }
  cbv beta iota zeta.
  eapply (meets_post _ _ _ _ (fun d' r => r = interp verbose threads b
      (at_ v d' rom regs ram (E.update_pc_enc A (b_rs1_val_p b) (b_rs2_val_p b) pcp (b_imm_p b) (b_pcu_p b)) pcp) /\ full_o d')).
  2: { intros d' r _ (-> & FD'). eexists. split; [reflexivity|]. split; [exact WB|exact FD']. }
  unfold V.shadow, check, skm. destruct sk as [[]|]; cbn [option_map]; [|eexists; split; [reflexivity|]; split; [reflexivity|exact FD]].
  destruct d as [d|]; [|eexists; split; [reflexivity|]; split; [reflexivity|exact FD]].
  cbv beta iota. cbn [V.s_pb V.s_fu V.s_mem].
  lazymatch goal with |- meets (match ?x with Some _ => _ | None => _ end) _ _ _ => change x with (Some (F.dvm_of d)) end. cbv beta iota.
  assert (TE : D.InterpreterDebug_update_pc p (F.dvm_of d) = option_map F.dvm_of (DM.update_pc d)).
  { destruct FD as (_ & _ & F2 & F3 & _). apply F.update_pc_eq; assumption. }
  destruct (DM.update_pc d) as [d'|] eqn:ED.
  2: { apply meets_stop; [|right; reflexivity]. exact TE. }
  eapply meets_pure. { exact TE. } cbv beta iota zeta.
  unfold Y.checks_space. cbn [Y.y_decrypt_bits Y.y_decrypt Y.y_noise cycle_costs_at].
  destruct (Sc.need avail (w_dec sw l)) as [[]|] eqn:N2; [|no_bytes].
  words N2 [E.update_pc_enc A (b_rs1_val_p b) (b_rs2_val_p b) pcp (b_imm_p b) (b_pcu_p b)]. quiet N2.
  apply meets_if1; [reflexivity|].
  eexists. split; [reflexivity|]. split; [reflexivity|]. exact (full_update_pc d d' FD ED).
Qed.

(** ** A cycle *)
Definition has (d : option DM.dvm) : bool := match d with Some _ => true | None => false end.
Definition keyed (sk : option unit) (d : option DM.dvm) : bool := match sk, d with Some _, Some _ => true | _, _ => false end.
Lemma shadow_has : forall (k : option (V.secret ct pb fu)) d st same d', V.shadow k d st same = Some d' -> has d' = has d.
Proof.
  intros k d st same d' H. unfold V.shadow in H. destruct k as [k|]; [|now injection H as <-]. destruct d as [d|]; [|now injection H as <-].
  destruct (st d); [|discriminate]. destruct (same k d0); [|discriminate]. now injection H as <-.
Qed.
Ltac kept H := repeat (cbv beta iota zeta in H; lazymatch type of H with
  | match V.shadow ?k ?d ?f ?g with Some _ => _ | None => None end = Some _ =>
      let E := fresh "E" in destruct (V.shadow k d f g) eqn:E; [apply shadow_has in E|discriminate H]
  | match ?x with _ => _ end = Some _ => destruct x; try discriminate H end).
Lemma components_has : forall k d rom q rom' d' ps, V.read_components A k e d rom q = Some (rom', d', ps) -> has d' = has d.
Proof. intros k d rom q rom' d' ps H. unfold V.read_components in H. kept H. injection H as <- <- <-. assumption. Qed.
Lemma registers_has : forall k d regs ps regs' d' v2 q1 q2, V.read_regs A k e d regs ps = Some (regs', d', v2, q1, q2) -> has d' = has d.
Proof. intros k d regs ps regs' d' v2 q1 q2 H. unfold V.read_regs in H. kept H. injection H as <- <- <- <- <-. assumption. Qed.
Lemma read_ram_has : forall k d ram n ps q1 ram' d' ld pa, V.read_ram_enc A k e d ram n ps q1 = Some (ram', d', ld, pa) -> has d' = has d.
Proof. intros k d ram n ps q1 ram' d' ld pa H. unfold V.read_ram_enc in H. kept H. injection H as <- <- <- <-. assumption. Qed.
Lemma update_registers_has : forall k ops d regs ps q1 q2 q ld regs' d', V.update_regs A k e ops d regs ps q1 q2 q ld = Some (regs', d') -> has d' = has d.
Proof. intros k ops d regs ps q1 q2 q ld regs' d' H. unfold V.update_regs in H. kept H. injection H as <- <-. assumption. Qed.
Lemma update_ram_has : forall k d ram n ps v2 ld pa ram' d', V.update_ram_enc A k e d ram n ps v2 ld pa = Some (ram', d') -> has d' = has d.
Proof. intros k d ram n ps v2 ld pa ram' d' H. unfold V.update_ram_enc in H. kept H. injection H as <- <-. assumption. Qed.
Lemma check_keyed : forall d0 d b, has d = has d0 -> check sk d b = (if keyed sk d0 then Y.checks_space y b avail else Some tt).
Proof. intros [d0|] [d|] b H; try discriminate H; destruct sk as [[]|]; reflexivity. Qed.

(** what a cycle needs of the machine, and keeps *)
Definition fit_vm (w : V.evm ct pb fu) : Prop :=
  rom32 (V.v_rom w) /\ planes32 (V.v_regs w) /\ M.m_bits (V.v_regs w) = 5%nat /\
  planes32 (V.v_ram w) /\ M.m_bits (V.v_ram w) = V.v_ram_bits w /\ full_o (V.v_debug w) /\ length (V.v_pcp w) = 32%nat /\
  0 <= V.v_cycle w < 2 ^ 32.
Hypothesis RO : Z.of_nat (V.v_rom_bits v) + 2 < 2 ^ 64.

Lemma stage_meets : forall {X X2 R R2} (t : option R) (s1 c c' : option unit) (m1 : option X) Q1 (k : R -> option R2) s2 (k2 : X -> option X2) Q,
  meets t (match s1 with Some _ => c | None => None end) m1 Q1 -> c = c' -> (forall x r, m1 = Some x -> Q1 x r -> meets (k r) s2 (k2 x) Q) ->
  meets (match t with Some r => k r | None => None end) (match s1 with Some _ => match c' with Some _ => s2 | None => None end | None => None end)
    (match m1 with Some x => k2 x | None => None end) Q.
Proof. intros X X2 R R2 t s1 c c' m1 Q1 k s2 k2 Q H1 <- H2. apply (meets_bind _ _ _ _ _ _ _ _ H1) in H2. destruct s1; exact H2. Qed.
Lemma last_meets : forall {X X2 R R2} (t : option R) (s1 c c' : option unit) (m1 : option X) Q1 (k : R -> option R2) (k2 : X -> option X2) Q,
  meets t (match s1 with Some _ => c | None => None end) m1 Q1 -> c = c' -> (forall x r, m1 = Some x -> Q1 x r -> meets (k r) (Some tt) (k2 x) Q) ->
  meets (match t with Some r => k r | None => None end) (match s1 with Some _ => c' | None => None end)
    (match m1 with Some x => k2 x | None => None end) Q.
Proof. intros X X2 R R2 t s1 c c' m1 Q1 k k2 Q H1 <- H2. apply (meets_bind _ _ _ _ _ _ _ _ H1) in H2. destruct s1 as [[]|]; [destruct c as [[]|]|]; exact H2. Qed.

Lemma cycle_text : forall b, wide_b b -> fit_vm v ->
  meets (T.Interpreter_cycle_internal L N p fuel (interp verbose threads b v) tt kl sk avail)
    (Y.cycle_space y lz (Z.of_nat (V.v_rom_bits v)) 5 (Z.of_nat (V.v_ram_bits v)) (V.v_cycle v =? 0) (keyed sk (V.v_debug v)) tz avail)
    (V.ecycle A (skm sk) e (overflow_checks p) v)
    (fun v' r => exists b', r = interp verbose threads b' v' /\ wide_b b' /\ fit_vm v' /\ has (V.v_debug v') = has (V.v_debug v)).
Proof.
  intros b WB (R0 & R1 & R2 & R3 & R4 & FD & LP & CY).
  unfold T.Interpreter_cycle_internal, V.ecycle, Y.cycle_space.
  cbv beta zeta. assoc. assoc_s.
  lazymatch goal with |- meets (match (if ?c then _ else _) with Some _ => _ | None => _ end) _ _ _ =>
    change c with verbose end.
  eapply meets_pure. { instantiate (1 := tt). destruct verbose; reflexivity. }
  cbv beta iota zeta.
  eapply (meets_bind _ _ _ (fun q r => r = interp verbose threads b (at_ v (V.v_debug v) (V.v_rom v) (V.v_regs v) (V.v_ram v) (V.v_pc v) q) /\ length q = 32%nat)).
  { lazymatch goal with |- meets (if ?c then _ else _) _ _ _ => change c with (negb (V.v_cycle v =? 0)) end.
    destruct (V.v_cycle v =? 0); cbn [negb].
    - eexists. split; [reflexivity|]. split; [destruct v; reflexivity|exact LP].
    - eapply meets_pure. { exact (add2 _ RO). } cbv beta iota zeta.
      assert (CM := custom_meets (V.v_pcp v) (V.v_pc v) (V.v_rom_bits v + 2)).
      rewrite Nat2Z.inj_add in CM. change (Z.of_nat 2) with 2 in CM. unfold meets in CM |- *.
      destruct (Sc.need avail (Y.y_prepare y (Z.of_nat (V.v_rom_bits v) + 2) tz)) as [[]|].
      2: { etransitivity; [|reflexivity]. match goal with |- match ?x with _ => _ end = _ => change x with (FheUintPrepared_prepare_custom_multi_thread N (sl, V.v_pcp v) (zi threads) tt (l, V.v_pc v) (lit 0) (zi (V.v_rom_bits v + 2)) kl avail) end. rewrite CM. reflexivity. }
      destruct (V.prepare_low A (V.v_pc v) (V.v_rom_bits v + 2)) as [q|].
      2: { etransitivity; [|reflexivity]. match goal with |- match ?x with _ => _ end = _ => change x with (FheUintPrepared_prepare_custom_multi_thread N (sl, V.v_pcp v) (zi threads) tt (l, V.v_pc v) (lit 0) (zi (V.v_rom_bits v + 2)) kl avail) end. rewrite CM. reflexivity. }
      destruct CM as (r & CM & -> & LQ).
      exists (interp verbose threads b (at_ v (V.v_debug v) (V.v_rom v) (V.v_regs v) (V.v_ram v) (V.v_pc v) q)).
      split; [|split; [reflexivity|exact LQ]].
      match goal with |- match ?x with _ => _ end = _ => change x with (FheUintPrepared_prepare_custom_multi_thread N (sl, V.v_pcp v) (zi threads) tt (l, V.v_pc v) (lit 0) (zi (V.v_rom_bits v + 2)) kl avail) end.
      rewrite CM. cbv beta iota zeta. destruct verbose; reflexivity. }
  intros pcp r0 _ (-> & LQ). cbv beta iota zeta.
  eapply stage_meets; [exact (components_text b _ _ _ _ _ _ WB R0 FD LQ)|exact (check_keyed (V.v_debug v) (V.v_debug v) true eq_refl)|].
  intros [[rom' d1] ps] r1 M1 (b1 & -> & PB1 & WB1 & R0' & FD1). cbv beta iota zeta. apply components_has in M1.
  eapply stage_meets; [exact (registers_text b1 d1 _ _ _ _ _ ps WB1 PB1 R1 R2 FD1)|exact (check_keyed (V.v_debug v) d1 false M1)|].
  intros [[[[regs' d2] v2] q1] q2] r2 M2 (b2 & -> & PB2 & WB2 & VB2 & S1 & S2 & FD2). cbv beta iota zeta. apply registers_has in M2. rewrite M1 in M2.
  eapply stage_meets; [exact (read_ram_text b2 d2 _ _ _ _ _ ps _ _ _ WB2 PB2 VB2 R3 R4 FD2)|exact (check_keyed (V.v_debug v) d2 false M2)|].
  intros [[[ram' d3] ld] pa] r3 M3 (b3 & -> & PB3 & WB3 & VB3 & LB3 & U1 & U2 & FD3). cbv beta iota zeta. apply read_ram_has in M3. rewrite M2 in M3.
  lazymatch goal with |- meets (match (match ?c with T.InstructionSet_RV32M => _ | T.InstructionSet_RV32I => _ end) with Some _ => _ | None => _ end) _ _ _ =>
    change c with T.InstructionSet_RV32I end. cbv beta iota. assoc.
  eapply stage_meets; [exact (update_registers_text b3 d3 _ _ _ _ _ ps _ _ _ _ _ WB3 PB3 VB3 LB3 S1 S2 FD3)|exact (check_keyed (V.v_debug v) d3 false M3)|].
  intros [regs2 d4] r4 M4 (b4 & -> & PB4 & WB4 & VB4 & LB4 & S3 & S4 & FD4). cbv beta iota zeta. apply update_registers_has in M4. rewrite M3 in M4.
  eapply stage_meets; [exact (update_ram_text b4 d4 _ _ _ _ _ ps _ _ _ _ _ WB4 PB4 VB4 LB4 U1 U2 FD4)|exact (check_keyed (V.v_debug v) d4 false M4)|].
  intros [ram2 d5] r5 M5 (b5 & -> & PB5 & WB5 & VB5 & U3 & U4 & FD5). cbv beta iota zeta. apply update_ram_has in M5. rewrite M4 in M5.
  eapply last_meets; [exact (update_pc_stage_text b5 d5 _ _ _ _ _ ps _ _ _ WB5 PB5 VB5 FD5 LQ)|exact (check_keyed (V.v_debug v) d5 false M5)|].
  intros [pc' d6] r6 M6 (b6 & -> & WB6 & FD6). cbv beta iota zeta.
  assert (M7 : has d6 = has d5).
  { unfold V.update_pc_stage in M6. cbv zeta in M6. kept M6. injection M6 as <- <-. assumption. }
  rewrite M5 in M7.
  lazymatch goal with |- meets (match add _ ?x _ with Some _ => _ | None => _ end) _ _ _ => change x with (@Int U32 (V.v_cycle v)) end.
  unfold add, checked, fits, lit, val. cbn [least largest].
  change (2 ^ 32) with 4294967296 in CY.
  destruct (Z.leb_spec 0 (V.v_cycle v + 1)); [|clear - H CY; lia]. cbn [andb].
  assert (FIN : forall c, 0 <= c < 2 ^ 32 -> c = Word.u32 (V.v_cycle v + 1) ->
    exists b', T.set_Interpreter_cycle (interp verbose threads b6 (at_ v d6 rom' regs2 ram2 pc' pcp)) (Int c) = interp verbose threads b'
      (V.EVM (Word.u32 (V.v_cycle v + 1)) d6 (V.v_rom_bits v) (V.v_rom_size v) rom' regs2 (V.v_ram_bits v) (V.v_ram_size v) ram2 pc' pcp)
    /\ wide_b b' /\ fit_vm (V.EVM (Word.u32 (V.v_cycle v + 1)) d6 (V.v_rom_bits v) (V.v_rom_size v) rom' regs2 (V.v_ram_bits v) (V.v_ram_size v) ram2 pc' pcp) /\
      has d6 = has (V.v_debug v)).
  { intros c C1 <-. exists b6. split; [reflexivity|]. split; [exact WB6|]. split; [|exact M7].
    split; [exact R0'|]. split; [exact S3|]. split; [exact S4|]. split; [exact U3|]. split; [exact U4|]. split; [exact FD6|]. split; [exact LQ|exact C1]. }
  destruct (Z.leb_spec (V.v_cycle v + 1) 4294967295).
  - destruct (Z.ltb_spec (V.v_cycle v + 1) 4294967296); [|clear - H0 H1; lia]. rewrite orb_true_r.
    eexists. split; [reflexivity|]. apply FIN; [change (2 ^ 32) with 4294967296; clear - H H1; lia|].
    unfold Word.u32. symmetry. apply Z.mod_small. clear - H H1. lia.
  - destruct (Z.ltb_spec (V.v_cycle v + 1) 4294967296); [clear - H0 H1; lia|]. destruct (overflow_checks p); cbn [negb orb]; [reflexivity|].
    eexists. split; [reflexivity|]. apply FIN; [|reflexivity]. change (2 ^ 32) with 4294967296. unfold wrap. apply Z.mod_pos_bound. lia.
Qed.
End Facts.
