(** * Property C96: the model of the cleartext reference machine is the text of
    the repository

    [TextTest] holds the functions of compiler/src/interpreter/testvm.rs,
    translated token by token by tools/gen_text.py; their operators are those of
    Rust.v.  [mem_of], [vm_of], [inst_of], [in_of] and [out_of] (TextTestFacts.v)
    rename the constructors and fields of the model to those of the text.
    [mem_typed] and [vm_typed] say that the values are values of their Rust
    types and that a vector has fewer than 2^63 bytes.  [p] is the build profile;
    the model's flag is its overflow checks. *)
Require Import ZArith List Bool Lia.
From Verif Require Import Rust TextFacts TextTestFacts TextTestRun TextTestExec.
Require Verif.Isa Verif.Word Verif.TestVM Verif.TextTest Verif.RefSpec Verif.PropRef Verif.TestRunSpec.
Import ListNotations.
Open Scope Z_scope.
Local Notation chk := overflow_checks.

(** The memory: creation, writes, reads and loading, wherever the addresses
    point; the sum [addr + i] of the two longer writes is asked to be a [usize],
    which it is for every 32-bit address. *)
Theorem C96_memory :
  forall (p : profile) (w : bool) (m : V.memory) (a v : Z) (l : list Z),
    mem_typed m -> usize_val a -> Z.of_nat (length l) < 2 ^ 63 ->
    X.Memory_write_byte p (mem_of w m) (Int a) (Int v) = option_map (mem_of w) (V.write_byte (chk p) m a v) /\
    (a + 2 <= 2 ^ 64 ->
     X.Memory_write_half p (mem_of w m) (Int a) (Int v) = option_map (mem_of w) (V.write_half (chk p) m a v)) /\
    (a + 4 <= 2 ^ 64 ->
     X.Memory_write_word p (mem_of w m) (Int a) (Int v) = option_map (mem_of w) (V.write_word (chk p) m a v)) /\
    X.Memory_load_memory p (mem_of w m) (Int a) (map Int l) = option_map (mem_of w) (V.load_memory (chk p) m a l) /\
    X.Memory_read_byte p (mem_of w m) (Int a) = option_map Int (V.read_byte (chk p) m a) /\
    X.Memory_read_half p (mem_of w m) (Int a) = option_map Int (V.read_half (chk p) m a) /\
    X.Memory_read_word p (mem_of w m) (Int a) = option_map Int (V.read_word (chk p) m a).
Proof.
  intros p w m a v l M A L. pose proof A as (A0 & _). repeat apply conj.
  - apply write_byte_eq; auto.
  - intro H. apply write_half_eq; auto.
  - intro H. apply write_word_eq; auto.
  - apply load_eq; auto.
  - apply read_byte_eq; auto.
  - apply read_half_eq; auto.
  - apply read_word_eq; auto.
Qed.
Print Assumptions C96_memory.

(** The decoder, on every word. *)
Theorem C96_decode :
  forall (p : profile) (s : X.TestVM) (w : Z),
    X.TestVM_decode_inst p s (Int w) = option_map inst_of (V.decode_inst w).
Proof. exact decode_eq. Qed.
Print Assumptions C96_decode.

(** One step, and a run to the cycle limit: [fuel] only bounds the evaluation of
    the [while] of the text. *)
Theorem C96_step :
  forall (p : profile) (s : V.vm), vm_typed s ->
    X.TestVM_run p (vm_of s) = option_map vm_of (V.run (chk p) s) /\
    (forall s', V.run (chk p) s = Some s' -> vm_typed s').
Proof. intros p s T. split; [ apply run_eq, T | ]. intros s' R. exact (proj1 (run_good _ _ _ T R)). Qed.
Print Assumptions C96_step.
Theorem C96_execute :
  forall (p : profile) (s : V.vm) (fuel : nat),
    vm_typed s -> Z.of_nat (V.max_cycles s) < 2 ^ 64 -> (V.max_cycles s < fuel)%nat ->
    X.TestVM_execute p fuel (vm_of s) = option_map vm_of (V.execute (chk p) s).
Proof. exact execute_eq. Qed.
Print Assumptions C96_execute.

(** A session as the tests of the repository conduct one. *)
Definition text_session (p : profile) (fuel : nat) (ro ra : Z * Z) (rom_data ram_data : list (int U8)) (inp : X.InputInfo)
    (out : X.OutputInfo) (cycles : int USize) (tape : list (int U8)) : option (list (int U8)) :=
  rom <- X.BootMemory_new p (Int (fst ro)) (Int (snd ro)) rom_data ;;
  ram <- X.BootMemory_new p (Int (fst ra)) (Int (snd ra)) ram_data ;;
  s <- X.TestVM_init p rom ram inp out cycles ;;
  s <- X.TestVM_read_input_tape p s tape ;;
  s <- X.TestVM_execute p fuel s ;;
  X.TestVM_output_tape p s.

Lemma is_byte_u8 : forall l, Forall TestRunSpec.is_byte l -> Z.of_nat (length l) < 2 ^ 63 -> vec l.
Proof. intros l F L. split; [ | exact L ]. eapply Forall_impl; [ | exact F ]. intros x X. exact X. Qed.

(** For every program, memory contents, input tape and cycle limit the text
    outputs what the machine of the specification [RefSpec] (C61) outputs, and
    panics exactly where that has no output. *)
Theorem C96_session :
  forall (p : profile) (ro ra : Z * Z) (rom_data ram_data tape : list Z) (inp out : V.io_info) (cycles fuel : nat),
    PropRef.region_ok ro -> PropRef.region_ok ra ->
    Forall TestRunSpec.is_byte rom_data -> Forall TestRunSpec.is_byte ram_data -> Forall TestRunSpec.is_byte tape ->
    Z.of_nat (length rom_data) < 2 ^ 63 -> Z.of_nat (length ram_data) < 2 ^ 63 -> Z.of_nat (length tape) < 2 ^ 63 ->
    word (V.start_addr inp) -> word (V.start_addr out) -> word (V.io_size out) ->
    Z.of_nat cycles < 2 ^ 64 -> (cycles < fuel)%nat ->
    text_session p fuel ro ra (map Int rom_data) (map Int ram_data) (in_of inp) (out_of out) (Int (Z.of_nat cycles)) (map Int tape)
    = option_map (map Int)
        (RefSpec.ref_session (chk p) ro ra rom_data ram_data (V.start_addr inp, V.io_size inp) (V.start_addr out, V.io_size out)
           cycles tape).
Proof.
  intros p (ro & rs) (ao & az) rd ad tape inp out n fuel (A1 & A2 & A3) (B1 & B2 & B3) F1 F2 F3 L1 L2 L3 WI WO WS N FU.
  pose proof (PropRef.C61_session_exact (chk p) (ro, rs) (ao, az) rd ad inp out n tape (conj A1 (conj A2 A3)) (conj B1 (conj B2 B3))
    F1 F2 F3 WI WO WS) as S. unfold PropRef.io in S. rewrite <- S. clear S. cbn [fst snd] in *.
  unfold text_session, PropRef.session. cbn [fst snd]. rewrite !boot_new.
  change (2 ^ 32) with 4294967296 in *. unfold Isa.word in WI, WO, WS. change (2 ^ 32) with 4294967296 in *.
  destruct (init_eq p ro rs rd ao az ad inp out n) as (I1 & I2); auto using is_byte_u8; try (unfold usize_val; lia); try lia.
  rewrite I1. destruct (V.init (chk p) ro rs rd ao az ad inp out n) as [ s | ]; [ cbn [option_map] | reflexivity ].
  destruct (I2 s eq_refl) as (T & EI & EO & EN).
  destruct (input_eq p s tape T (is_byte_u8 _ F3 L3)) as (J1 & J2); [ rewrite EI; unfold usize_val; lia | ].
  rewrite J1. destruct (V.read_input_tape (chk p) s tape) as [ s1 | ]; [ cbn [option_map] | reflexivity ].
  destruct (J2 s1 eq_refl) as (T1 & _ & KI & KO & KN). rewrite EO in KO. rewrite EN in KN.
  rewrite execute_eq by (auto; rewrite KN; auto).
  destruct (V.execute (chk p) s1) as [ s2 | ] eqn:X2; [ cbn [option_map] | reflexivity ].
  destruct (run_n_good _ _ _ _ T1 X2) as (T2 & _ & _ & KO2 & _). rewrite KO in KO2.
  apply output_eq; auto; rewrite KO2; lia.
Qed.
Print Assumptions C96_session.

(** The session of [PropRef.C61_case] on the text itself: a word that is no
    RV32IM instruction, a store below the RAM region, an output region beyond
    its end, and a panic with overflow checks. *)
Example C96_case :
  let io1 := X.mk_InputInfo (Int 256) (Int 1) in let io2 := X.mk_OutputInfo (Int 356) (Int 4) in
  let rel := {| overflow_checks := false; debug_assertions := false |} in
  let dev := {| overflow_checks := true; debug_assertions := true |} in
  text_session rel 7 (0, 12) (256, 96) (map Int PropRef.ex_rom) [] io1 io2 (Int 6) [Int 7] = Some [Int 160; Int 20; Int 0; Int 0] /\
  text_session dev 4 (0, 12) (256, 96) (map Int PropRef.ex_rom) [] io1 io2 (Int 3) [Int 7] = None /\
  PropRef.region_ok (0, 12) /\ PropRef.region_ok (256, 96).
Proof. repeat apply conj; try reflexivity; try discriminate. Qed.
