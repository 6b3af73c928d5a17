(** * Layered decision-diagram circuits

    The generated circuits of fhevm/src/codegen are evaluated by
    [execute_bdd_circuit_multi_thread] of the FHE library.  An output bit is a
    flat array of nodes cut into levels of [max_inter_state] slots.  Each level
    is computed from the previous one; the level before the first holds the
    constant 0 in slot 0 and the constant 1 in slot 1; the result is slot 0 of
    the last level.

    The library is outside /repo; this file is the ideal functionality of its
    evaluator on decrypted bits (trusted, DESIGN.md section 2).  A slot that a
    level does not write ([Node::None]) and the slots of the constant level
    other than 0 and 1 are undefined, and a node that reads an undefined slot
    makes the evaluation fail, even when the selector would discard it. *)
Require Import ZArith NArith List Bool.
Require Import Verif.Word.
Import ListNotations.
Open Scope N_scope.

(** [poulpy_schemes::bin_fhe::bdd_arithmetic::Node], used at
    fhevm/src/codegen/codegen_lui.rs:159 and throughout fhevm/src/codegen:
    [C s h l] is [Node::Cmux(s, h, l)] (slot [h] if input bit [s] is set, slot
    [l] otherwise), [P] is [Node::Copy], [E] is [Node::None]. *)
Inductive node := C (sel hi lo : N) | P | E.

(** [BitCircuit::new(nodes, max_inter_state)]
    (fhevm/src/codegen/codegen_lui.rs:147). *)
Inductive bit_circuit := BC (width : nat) (nodes : list node).

(** [Circuit([...])] with the associated constant [INPUT_BITS]
    (fhevm/src/codegen/codegen_lui.rs:141-146). *)
Record circuit := MkCircuit { input_bits : N; bits_out : list bit_circuit }.

(** [nodes.chunks_exact(w)]: a trailing incomplete chunk is dropped. *)
Fixpoint chunks (fuel w : nat) (l : list node) : list (list node) :=
  match fuel with
  | O => []
  | S f => if (length l <? w)%nat then [] else firstn w l :: chunks f w (skipn w l)
  end.
Definition levels (w : nat) (l : list node) : list (list node) :=
  match w with O => [] | _ => chunks (length l) w l end.

Definition slot (prev : list (option bool)) (j : N) : option bool :=
  match nth_error prev (N.to_nat j) with Some s => s | None => None end.

Section Eval.
(** the prepared input bits; [None] is a bit the helper does not have. *)
Variable inp : N -> option bool.

(** one node in position [j] of its level, given the previous level.  The
    outer [option] is failure, the inner one an unwritten slot. *)
Definition eval_node (prev : list (option bool)) (j : nat) (n : node) : option (option bool) :=
  match n with
  | C s h l =>
      do b <- inp s; do x <- slot prev h; do y <- slot prev l;
      Some (Some (if b then x else y))
  | P => do x <- slot prev (N.of_nat j); Some (Some x)
  | E => Some None
  end.

Fixpoint eval_level (prev : list (option bool)) (j : nat) (lv : list node)
    : option (list (option bool)) :=
  match lv with
  | [] => Some []
  | n :: r =>
      do x <- eval_node prev j n; do xs <- eval_level prev (S j) r; Some (x :: xs)
  end.

Fixpoint eval_levels (prev : list (option bool)) (ls : list (list node))
    : option (list (option bool)) :=
  match ls with
  | [] => Some prev
  | lv :: r => do nx <- eval_level prev 0 lv; eval_levels nx r
  end.

(** the constant level: 0, 1, then unset slots. *)
Definition first_level (w : nat) : list (option bool) :=
  firstn w (Some false :: Some true :: repeat None w).

(** one output bit.  [BitCircuit::new([], 0)] is the constant 0
    (fhevm/src/codegen/codegen_lui.rs:147-158). *)
Definition eval_bit (c : bit_circuit) : option bool :=
  match c with
  | BC O nodes => Some false
  | BC w nodes =>
      do out <- eval_levels (first_level w) (levels w nodes); slot out 0
  end.

Fixpoint eval_bits (cs : list bit_circuit) : option (list bool) :=
  match cs with
  | [] => Some []
  | c :: r => do b <- eval_bit c; do bs <- eval_bits r; Some (b :: bs)
  end.
End Eval.

(** the 32 output bits packed into a word, least significant first
    ([res.pack], fhevm/src/ram_offset.rs:53, pc_update.rs:67). *)
Definition pack_bits (bs : list bool) : Z :=
  fold_right (fun b acc => (Z.b2z b + 2 * acc)%Z) 0%Z bs.

(** Evaluating a whole circuit.  A selector at or beyond [INPUT_BITS] fails. *)
Definition eval_circuit (c : circuit) (inp : N -> option bool) : option Z :=
  do bs <- eval_bits (fun v => if v <? input_bits c then inp v else None) (bits_out c);
  Some (pack_bits bs).

(** [FheUintPrepared::get_bit] on a prepared 32-bit word given by its value. *)
Definition word_bit (w : Z) (b : N) : option bool :=
  if b <? 32 then Some (Z.testbit w (Z.of_N b)) else None.

(** [get_bit] of the helpers: the largest offset [<= bit] selects the operand
    (fhevm/src/ram_offset.rs:68-83, pc_update.rs:81-100). *)
Fixpoint helper_bit (segs : list (N * Z)) (found : option bool) (bit : N) : option bool :=
  match segs with
  | [] => found
  | (base, w) :: r =>
      helper_bit r (if base <=? bit then word_bit w (bit - base) else found) bit
  end.

(** inputs [[rs1, imm]] at offsets 0 and 32 (fhevm/src/ram_offset.rs:35-36,
    68-72; the same layout is used by the library's two-word circuits
    called from rd_update.rs:96-104). *)
Definition inp2 (a b : Z) : N -> option bool := helper_bit [(0, a); (32, b)] None.

(** inputs [[op_id, rs1, rs2, pc, imm]] (fhevm/src/pc_update.rs:43-50, 83-89). *)
Definition inp_pc (op rs1 rs2 pc imm : Z) : N -> option bool :=
  helper_bit [(0, op); (4, rs1); (36, rs2); (68, pc); (100, imm)] None.
