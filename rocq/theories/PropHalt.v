(** * Programs that have finished (C49)

    Guests end in [loop {}] (for example compiler-tests/uniswap/src/guest/src/main.rs:105),
    a jump to itself, and the host picks a number of cycles.  The theorems here
    state that the choice does not matter once the loop is reached. *)
Require Import ZArith List Bool Lia.
Require Import Verif.Word Verif.Isa Verif.EvalSpec Verif.RunSpec Verif.TestRunSpec Verif.EncVM Verif.Loader Verif.LoadSpec Verif.EndToEnd.
Require Verif.Bits Verif.RunFacts Verif.EncSpec Verif.PropTest Verif.PropLoad.
Import ListNotations.
Open Scope Z_scope.

(** the machine is at a jump to itself *)
Definition finished (prog : list Z) (m : mach) : Prop := fetch prog (m_pc m) = Some (JAL 0 0).

Lemma isa_run_add prog n k : forall m, isa_run prog (n + k) m = do m' <- isa_run prog n m; isa_run prog k m'.
Proof.
  induction n as [|n IH]; intros m; [reflexivity|]. cbn [plus isa_run]. destruct (fetch prog (m_pc m)); [apply IH|reflexivity].
Qed.
Lemma along_add P prog n k : forall m m', isa_run prog n m = Some m' -> along P prog n m -> along P prog k m' -> along P prog (n + k) m.
Proof.
  induction n as [|n IH]; intros m m' R A1 A2; cbn [plus along isa_run] in *; [congruence|].
  destruct A1 as (i & F & HP & A1). rewrite F in R. exists i. eauto.
Qed.
Lemma run_pc_word prog n : forall m m', word (m_pc m) -> isa_run prog n m = Some m' -> word (m_pc m').
Proof.
  induction n as [|n IH]; intros m m' W R; cbn [isa_run] in R; [congruence|].
  destruct (fetch prog (m_pc m)) as [i|]; [|discriminate]. eapply IH; [|exact R].
  assert (P : forall x, word (to_word x)) by (intros x; unfold word, to_word; apply Z.mod_pos_bound; lia).
  destruct i; cbn [isa_step m_pc]; auto.
  - cbv zeta. set (t := to_word _). pose proof (P (get (m_rf m) rs1 + off)) as W1. fold t in W1. unfold word in *.
    pose proof (Z.mod_pos_bound t 2 ltac:(lia)). pose proof (Z.mod_le t 2 ltac:(lia) ltac:(lia)). lia.
  - destruct (taken _ _ _); auto.
Qed.
Lemma finished_step prog m : word (m_pc m) -> finished prog m ->
  let m1 := isa_step (JAL 0 0) m in
  m_pc m1 = m_pc m /\ (forall r, get (m_rf m1) r = get (m_rf m) r) /\ m_mem m1 = m_mem m.
Proof.
  intros W H. cbn [isa_step m_pc m_rf m_mem]. cbv zeta. split; [|split; [|reflexivity]].
  - rewrite Z.add_0_r. unfold to_word. apply Z.mod_small. exact W.
  - intros r. unfold get at 1, put. destruct (r =? 0) eqn:E; [unfold get; rewrite E|]; reflexivity.
Qed.

(** A finished machine stays as it is, for ever. *)
Theorem C49_finished_stays :
  forall prog m k, word (m_pc m) -> finished prog m ->
    exists m', isa_run prog k m = Some m' /\ m_pc m' = m_pc m /\
      (forall r, get (m_rf m') r = get (m_rf m) r) /\ m_mem m' = m_mem m.
Proof.
  intros prog m k. revert m. induction k as [|k IH]; intros m W H; [exists m; auto|].
  destruct (finished_step prog m W H) as (A & B & C). cbv zeta in A, B, C.
  destruct (IH (isa_step (JAL 0 0) m)) as (m' & R & A' & B' & C'); [rewrite A; exact W|unfold finished; rewrite A; exact H|].
  exists m'. cbn [isa_run]. unfold finished in H. rewrite H. split; [exact R|]. split; [congruence|]. split; [|congruence].
  intros r. rewrite B'. apply B.
Qed.
Print Assumptions C49_finished_stays.
Lemma finished_supported off prog k : forall m, word (m_pc m) -> finished prog m -> along (supported off) prog k m.
Proof.
  induction k as [|k IH]; intros m W H; [exact I|]. destruct (finished_step prog m W H) as (A & B & C). cbv zeta in A, B, C.
  exists (JAL 0 0). split; [exact H|]. split; [|apply IH; [rewrite A; exact W|unfold finished; rewrite A; exact H]].
  cbn [supported]. split; [lia|]. rewrite A. destruct (RunFacts.fetch_inv _ _ _ H) as (E & _). exact E.
Qed.

(** If the program has finished after [n] cycles of a supported run, then for
    every larger number of cycles both VMs output what the machine holds after
    [n] cycles.  (Hypotheses as in [C37_same_output].) *)
Theorem C49_output_settles :
  forall log dbg chk debug e ph prog tape n m k es,
    elf_ok e -> from_elf chk e = Some ph -> b_data (boot_rom ph) = image prog -> Forall word prog ->
    Forall (fun w => legal_word w \/ DecodeSpec.lenient w) prog -> prog <> [] ->
    Forall is_byte tape -> input_fits ph tape -> output_fits ph ->
    b_offset (boot_ram ph) + 4096 <= 2 ^ 32 -> (4096 | b_offset (boot_ram ph) - 2 ^ 18) ->
    length es = (n + k)%nat -> Forall EncSpec.env_ok es -> Z.of_nat (n + k) < 2 ^ 32 ->
    along (supported (b_offset (boot_ram ph))) prog n (boot_machine ph tape) ->
    isa_run prog n (boot_machine ph tape) = Some m -> finished prog m ->
    exists tv0 tv tv' ev ev',
      test_vm chk ph (n + k) = Some tv0 /\ T.read_input_tape chk tv0 tape = Some tv /\ T.execute chk tv = Some tv' /\
      encrypted_vm log dbg chk debug ph tape (n + k) = Some ev /\ enc_execute log chk es ev = Some ev' /\
      T.output_tape chk tv' = Some (output_of ph m) /\ enc_output chk ev' = Some (output_of ph m).
Proof.
  intros log dbg chk debug e ph prog tape n m k es H1 H2 H3 H4 H5 H6 H7 H8 H9 H10 H11 H12 H13 H14 H15 R F.
  assert (W : word (m_pc m)). { eapply run_pc_word; [|exact R]. cbn [boot_machine m_pc]. unfold word. lia. }
  destruct (C49_finished_stays prog m k W F) as (m1 & R1 & _ & _ & M1).
  destruct (PropLoad.C37_same_output log dbg chk debug e ph prog tape (n + k) es H1 H2 H3 H4 H5 H6 H7 H8 H9 H10 H11 H12 H13 H14)
    as (tv0 & tv & tv' & ev & ev' & m' & A & B & C & D & E & G & O1 & O2).
  { eapply along_add; [exact R|exact H15|]. apply finished_supported; auto. }
  rewrite isa_run_add, R in G. assert (m1 = m') by congruence. subst m1.
  assert (O : output_of ph m' = output_of ph m) by (unfold output_of; rewrite M1; reflexivity).
  exists tv0, tv, tv', ev, ev'. rewrite O in O1, O2. repeat split; assumption.
Qed.
Print Assumptions C49_output_settles.
(** the example of C37 has finished after four cycles *)
Example C49_case : exists m, isa_run (PropLoad.ex_prog 0) 4 (boot_machine (PropLoad.ex_ph 0 8) PropLoad.ex_tape) = Some m /\
  finished (PropLoad.ex_prog 0) m /\ output_of (PropLoad.ex_ph 0 8) m = [42; 1; 0; 0].
Proof. eexists. split; [reflexivity|]. split; vm_compute; reflexivity. Qed.
