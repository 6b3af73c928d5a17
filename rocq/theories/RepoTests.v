(** * The homomorphic tests of the repository

    Model of the tests in fhevm/src/tests, as functions of the values that
    their random sources draw.  [None]: an assertion fails or the test panics.
    Ciphertexts are without noise, so the assertions about noise are left out;
    so is everything that is only printed. *)
Require Import ZArith List Bool.
Require Import Verif.Word Verif.Codec Verif.EvalPlain Verif.Glwe Verif.Par Verif.EncMem Verif.EncEval.
Import ListNotations.
Open Scope Z_scope.

(** [FheUintPrepared::encrypt_sk] of poulpy-schemes: the bits of [w] *)
Definition encrypt_prepared (w : Z) : list bool := map (fun i => Z.testbit w (Z.of_nat i)) (seq 0 32).

(** ** tests/pc_update.rs *)

(** pc_update.rs:102-112 *)
Record pcu := PCU { u_op : pc_op; u_rs1 : Z; u_rs2 : Z; u_pc : Z; u_imm : Z }.
(** pc_update.rs:115-138, [PCU::new] *)
Definition pcu_new (o : pc_op) : pcu := PCU o 0 0 0 0.
(** pc_update.rs:140-159 *)
Definition set_rs1 (u : pcu) (v : Z) := PCU (u_op u) v (u_rs2 u) (u_pc u) (u_imm u).
Definition set_rs2 (u : pcu) (v : Z) := PCU (u_op u) (u_rs1 u) v (u_pc u) (u_imm u).
Definition set_pc (u : pcu) (v : Z) := PCU (u_op u) (u_rs1 u) (u_rs2 u) v (u_imm u).
Definition set_imm (u : pcu) (v : Z) := PCU (u_op u) (u_rs1 u) (u_rs2 u) (u_pc u) (Z.land v 0xFFFFF).
(** [self.rs1 += 1], pc_update.rs:168, 185.  [dbg]: built with overflow checks *)
Definition incr (dbg : bool) (v : Z) : option Z :=
  if dbg && (v =? 0xFFFFFFFF) then None else Some (u32 (v + 1)).
(** pc_update.rs:161-198 *)
Inductive adjust := Adj_none | Adj_eq | Adj_lt | Adj_gte | Adj_lt_signed | Adj_gte_signed.
Definition unless_equal (dbg : bool) (u : pcu) : option Z :=
  if u_rs1 u =? u_rs2 u then incr dbg (u_rs1 u) else Some (u_rs1 u).
Definition adjusted (dbg : bool) (a : adjust) (u : pcu) : option pcu :=
  match a with
  | Adj_none => Some u
  | Adj_eq => Some (set_rs2 u (u_rs1 u))
  | Adj_lt =>
      do x <- unless_equal dbg u;
      Some (set_rs1 (set_rs2 u (Z.max x (u_rs2 u))) (Z.min (u_rs2 u) x))
  | Adj_gte => Some (set_rs1 (set_rs2 u (Z.min (u_rs1 u) (u_rs2 u))) (Z.max (u_rs2 u) (u_rs1 u)))
  | Adj_lt_signed =>
      do x <- unless_equal dbg u;
      Some (set_rs1 (set_rs2 u (u32 (Z.max (i32 x) (i32 (u_rs2 u))))) (u32 (Z.min (i32 (u_rs2 u)) (i32 x))))
  | Adj_gte_signed =>
      Some (set_rs1 (set_rs2 u (u32 (Z.min (i32 (u_rs1 u)) (i32 (u_rs2 u))))) (u32 (Z.max (i32 (u_rs2 u)) (i32 (u_rs1 u)))))
  end.
(** pc_update.rs:200-204 *)
Definition expected_update (u : pcu) : Z := pc_eval (u_op u) (sext (u_imm u) 19) (u_rs1 u) (u_rs2 u) (u_pc u).

(** tests/pc_update.rs:105-193: the cases, in order *)
Definition pc_cases : list (pc_op * adjust) :=
  [(PBEQ, Adj_eq); (PBEQ, Adj_lt); (PBNE, Adj_lt); (PBNE, Adj_eq); (PBLTU, Adj_lt); (PBLTU, Adj_gte);
   (PBGEU, Adj_gte); (PBGEU, Adj_lt); (PBLT, Adj_lt_signed); (PBLT, Adj_gte_signed);
   (PBGE, Adj_gte_signed); (PBGE, Adj_lt_signed); (PJAL, Adj_none); (PJALR, Adj_none); (PNONE, Adj_none)].
(** one case; it draws pc, imm, rs1 and rs2 in this order *)
Definition draw := (Z * Z * Z * Z)%type.
Definition pc_case (dbg : bool) (c : pc_op * adjust) (d : draw) : option pcu :=
  let '(p, im, x, y) := d in
  adjusted dbg (snd c) (set_rs2 (set_rs1 (set_imm (set_pc (pcu_new (fst c)) p) im) x) y).

Section Tests.
Context (log : nat).
Notation I := (Ideal log).

(** tests/pc_update.rs:194-260 *)
Definition pc_check (u : pcu) : option unit :=
  let pc := update_pc_enc I (encrypt_prepared (u_rs1 u)) (encrypt_prepared (u_rs2 u)) (encrypt_prepared (u_pc u))
              (encrypt_prepared (u_imm u)) (encrypt_prepared (pc_id (u_op u))) in
  assert (expected_update u =? decrypt_word pc); Some tt.
(** The array of all cases is built before the first one is checked.
    [draws]: four values for each case *)
Fixpoint pc_build (dbg : bool) (cs : list (pc_op * adjust)) (draws : list draw) : option (list pcu) :=
  match cs, draws with
  | c :: cs', d :: ds => do u <- pc_case dbg c d; do us <- pc_build dbg cs' ds; Some (u :: us)
  | _, _ => Some []
  end.
Fixpoint all_pass {T} (check : T -> option unit) (l : list T) : option unit :=
  match l with [] => Some tt | x :: l' => do _ <- check x; all_pass check l' end.
Definition test_pc_update (dbg : bool) (draws : list draw) : option unit :=
  do us <- pc_build dbg pc_cases draws; all_pass pc_check us.

(** ** tests/ram_offset.rs:93-138; the test has [rs1 = 0x00040fe0], [imm = 0x1c] *)
Definition test_ram_offset (rs1 imm : Z) : option unit :=
  let ram := ram_offset_enc I (encrypt_prepared rs1) (encrypt_prepared imm) in
  assert (wsub (wadd rs1 imm) 0x40000 =? decrypt_word ram); Some tt.

(** ** tests/interpreters.rs:245-340, [test_interpreter_init_one_op].  [res] is
    allocated once, before the loop; NONE, which leaves it unchanged, comes
    first, and every other operation overwrites it.  The call of
    [read_and_prepare_instruction_components] only sets values that are
    overwritten before they are used. *)
Definition op_check (imm rs1 rs2 pc ram : Z) (o : rd_op) : option unit :=
  do res <- rd_eval_enc I o (encrypt_prepared rs1) (encrypt_prepared rs2) (encrypt_prepared imm) (encrypt_prepared pc) (fhe_of_word ram);
  do want <- rd_eval o imm rs1 rs2 pc ram;
  assert (decrypt_word res =? want); Some tt.
Definition test_one_op (imm rs1 rs2 pc ram : Z) : option unit := all_pass (op_check imm rs1 rs2 pc ram) RD_RV32I.

(** ** tests/memory.rs:26-243, [test_fhe_ram]; the test has 1024 words,
    [data[i] = i], [idx = 512], one thread.  [o1] to [o4]: the schedules of the
    four memory operations *)
Definition test_memory (threads size : nat) (o1 o2 o3 o4 : list task) (data : list Z) (idx : nat) (value : Z) : option unit :=
  do m0 <- mem_alloc I 32 size;
  do m1 <- mem_encrypt log m0 data;
  let addr := encrypt_prepared (Z.of_nat idx) in
  do (m2, r1) <- mem_read_stateless I threads o1 m1 addr 0;
  do x1 <- nth_error data idx;
  assert (x1 =? decrypt_word r1);
  do (m3, r2) <- mem_read_statefull I threads o2 m2 addr 0;
  assert (x1 =? decrypt_word r2);
  do m4 <- mem_read_statefull_rev I threads o3 m3 (fhe_of_word value) addr 0;
  do (m5, r3) <- mem_read_stateless I threads o4 m4 addr 0;
  assert (value =? decrypt_word r3);
  do out <- mem_decrypt m5 (repeat 0 size);
  do y <- nth_error out idx;
  assert (y =? decrypt_word r3);
  Some tt.
End Tests.
