(** * Homomorphic evaluation of the update operations

    Model of [eval_enc] in fhevm/src/rd_update.rs and fhevm/src/ram_update.rs,
    and of ram_offset.rs and pc_update.rs, over the library signature. *)
Require Import ZArith List Bool.
Require Import Verif.Word Verif.Codec Verif.EvalPlain Verif.Glwe.
Import ListNotations.

Section Eval.
Context {ct pb fu : Type} (A : alg ct pb fu).

(** rd_update.rs:109-165.  [res] is freshly allocated by the caller
    (interpreter.rs:1141-1142), so NONE leaves the zero ciphertext.  [None]:
    [unimplemented!()]. *)
Definition rd_eval_enc (o : rd_op) (rs1 rs2 imm pc : list pb) (ram : fu) : option fu :=
  match o with
  | RNONE => Some (a_fzero A)
  | RAUIPC => Some (a_circ2 A KAuipc pc imm)
  | RJAL => Some (a_circ2 A KJalr pc pc)
  | RJALR => Some (a_circ2 A KJalr pc pc)
  | RLUI => Some (a_circ2 A KLui imm imm)
  | RADD => Some (a_circ2 A KAdd rs1 rs2)
  | RSUB => Some (a_circ2 A KSub rs1 rs2)
  | RSLL => Some (a_circ2 A KSll rs1 rs2)
  | RSLT => Some (a_circ2 A KSlt rs1 rs2)
  | RSLTU => Some (a_circ2 A KSltu rs1 rs2)
  | RXOR => Some (a_circ2 A KXor rs1 rs2)
  | RSRL => Some (a_circ2 A KSrl rs1 rs2)
  | RSRA => Some (a_circ2 A KSra rs1 rs2)
  | ROR => Some (a_circ2 A KOr rs1 rs2)
  | RADDI => Some (a_circ2 A KAdd rs1 imm)
  | RAND => Some (a_circ2 A KAnd rs1 rs2)
  | RSLTIU => Some (a_circ2 A KSltu rs1 imm)
  | RXORI => Some (a_circ2 A KXor rs1 imm)
  | RORI => Some (a_circ2 A KOr rs1 imm)
  | RANDI => Some (a_circ2 A KAnd rs1 imm)
  | RSLLI => Some (a_circ2 A KSll rs1 imm)
  | RSRLI => Some (a_circ2 A KSrl rs1 imm)
  | RSRAI => Some (a_circ2 A KSra rs1 imm)
  | RSLTI => Some (a_circ2 A KSlt rs1 imm)
  | RLB => Some (a_zero_byte A 3 (a_zero_byte A 2 (a_zero_byte A 1 ram)))  (* [sext] is commented out *)
  | RLBU => Some (a_zero_byte A 3 (a_zero_byte A 2 (a_zero_byte A 1 ram)))
  | RLH => Some (a_sext A 1 (a_zero_byte A 3 (a_zero_byte A 2 ram)))
  | RLHU => Some (a_zero_byte A 3 (a_zero_byte A 2 ram))
  | RLW => Some ram
  | RMUL | RMULH | RMULHSU | RMULHU | RDIV | RDIVU | RREM | RREMU => None
  end.

(** ram_update.rs:75-112 *)
Definition ram_eval_enc (o : ram_op) (rs2 loaded : fu) (offset : list pb) : option fu :=
  match o with
  | MNONE => Some loaded
  | MSW => Some rs2
  | MSB => blind_select A (map (fun i => (i, a_splice8 A i 0 loaded rs2)) (seq 0 4)) offset 0 2
  | MSH => blind_select A (map (fun i => (2 * i, a_splice16 A i 0 loaded rs2)%nat) (seq 0 2)) offset 0 2
  end.

(** A loop that evaluates every operation into a fresh ciphertext and inserts it
    under its id (interpreter.rs:1140-1147, 1280-1294). *)
Fixpoint eval_all {O} (id : O -> Z) (ev : O -> option fu) (ops : list O) : option (list (nat * fu)) :=
  match ops with
  | [] => Some []
  | o :: r => do c <- ev o; do m <- eval_all id ev r; Some ((Z.to_nat (id o), c) :: m)
  end.

(** ram_offset.rs:17-54; the caller passes (imm, rs1) (interpreter.rs:1020-1028) *)
Definition ram_offset_enc (rs1 imm : list pb) : fu := a_circ2 A KRamOffset rs1 imm.
(** pc_update.rs:20-68 *)
Definition update_pc_enc (rs1 rs2 pc imm op_id : list pb) : fu := a_pcup A op_id rs1 rs2 pc imm.
End Eval.
