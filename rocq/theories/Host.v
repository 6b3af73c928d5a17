(** * The host program and its settings

    The `main` functions of compiler-tests/*/src/main.rs from the environment
    variables to the comparison of the two output tapes.  They differ only in
    the default number of cycles (and in what they do with the output
    afterwards, see Guests). *)
Require Import ZArith List Bool.
Require Import Verif.Word Verif.Codec Verif.Glwe Verif.Par Verif.EncVM Verif.EncSpec Verif.Loader.
Require Verif.TestVM.
Import ListNotations.
Open Scope Z_scope.

(** ** `usize::from_str` of the standard library, on the bytes of the string *)
(** one more digit: `checked_mul`, `to_digit`, `checked_add` *)
Definition digit_step (acc : option Z) (c : Z) : option Z :=
  do v <- acc;
  assert (10 * v <? 2 ^ 64);
  assert ((48 <=? c) && (c <=? 57));
  assert (10 * v + (c - 48) <? 2 ^ 64);
  Some (10 * v + (c - 48)).
Definition parse_digits (s : list Z) : option Z := fold_left digit_step s (Some 0).
(** a leading '+' is skipped; nothing, '+' and '-' alone are errors; any other
    '-' is not a digit *)
Definition parse_usize (s : list Z) : option Z :=
  match s with
  | [] => None
  | [c] => if (c =? 43) || (c =? 45) then None else parse_digits s
  | c :: r => if c =? 43 then parse_digits r else parse_digits s
  end.

(** ** the variables: [None] if not set (or not Unicode) *)
Record vars := Vars { e_verbose : option (list Z); e_threads : option (list Z); e_debug : option (list Z); e_cycles : option (list Z) }.
(** compiler/src/interpreter.rs:342-344; MAX_CYCLES in compiler-tests/uniswap/src/main.rs:71-74,
    string-match/src/main.rs:56-59, otc/src/main.rs:41-44, template/src/main.rs:37-40;
    fhevm/benches/cycle.rs:50-53 *)
Definition number_of (default : Z) (v : option (list Z)) : Z :=
  match v with
  | Some s => match parse_usize s with Some n => n | None => default end
  | None => default
  end.
(** `eq_ignore_ascii_case` *)
Definition lower (c : Z) : Z := if (65 <=? c) && (c <=? 90) then c + 32 else c.
(** compiler/src/interpreter.rs:338-340, 345-347 *)
Definition flag_of (v : option (list Z)) : bool :=
  match v with
  | Some s => eqb_list s [49] || eqb_list (map lower s) [116; 114; 117; 101]
  | None => false
  end.

(** ** the run: compiler-tests/template/src/main.rs:45-69, uniswap/src/main.rs:77-88,
    string-match/src/main.rs:67-84, otc/src/main.rs:48-64.
    [cpus]: `num_cpus::get_physical()`; [default]: the program's own number of cycles.
    `(1 << 24) * threads` bytes are allocated (compiler/src/interpreter.rs:122-123): the
    multiplication is modelled, the space is not (see Scratch).
    PHANTOM_VERBOSE_TIMINGS only makes each cycle print its times. *)
Definition host_run (log : nat) (dbg chk : bool) (cpus default : Z) (vs : vars) (ph : phantom) (tape : list Z)
    (orders : nat -> nat -> list task) : option (list Z) :=
  let cycles := Z.to_nat (number_of default (e_cycles vs)) in
  let threads := number_of cpus (e_threads vs) in
  do ev <- encrypted_vm log dbg chk (flag_of (e_debug vs)) ph tape cycles;
  assert (negb chk || (2 ^ 24 * threads <? 2 ^ 64));
  do ev' <- enc_execute log chk (map (fun k => Env (Z.to_nat threads) (orders k)) (seq 0 cycles)) ev;
  do have <- enc_output chk ev';
  do tv <- test_vm chk ph cycles;
  do tv1 <- TestVM.read_input_tape chk tv tape;
  do tv2 <- TestVM.execute chk tv1;
  do out <- TestVM.output_tape chk tv2;
  assert (eqb_list out have);
  Some out.

(** ** fhevm/benches/cycle.rs:47-180: 1024 SYSTEM words, 64 words of RAM, an interpreter
    with a shadow, and cycles without the debugging key, as many as the benchmark
    driver asks for.  The scratch space is 2^28 bytes whatever the number of threads
    (line 154; see Scratch). *)
Definition bench_run (log : nat) (dbg chk : bool) (threads : option (list Z)) (orders : nat -> nat -> list task) (iters : nat)
    : option (evm poly bool (list Z)) :=
  do p <- parser_add_all dbg parser_new (repeat 115 1024);
  do v <- load log dbg true 1024 64 p (repeat 0 64);
  ecycles (Ideal log) None chk (map (fun k => Env (Z.to_nat (number_of 32 threads)) (orders k)) (seq 0 iters)) v.
