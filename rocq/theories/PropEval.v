(** * Properties C07-C10: plaintext evaluation *)
Require Import ZArith Lia Bool List.
From Verif Require Import Word Isa Codec EvalPlain EvalSpec EvalFacts.
Import ListNotations.
Open Scope Z_scope.

(** C07.  [rd_spec] is [Some] exactly for the 29 operations of the RV32I list
    (next theorem), so this covers all of them. *)
Theorem C07_rv32i_eval :
  forall o imm x y pc ram v,
    word imm -> word x -> word y -> word pc -> word ram ->
    rd_spec o imm x y pc ram = Some v -> rd_eval o imm x y pc ram = Some v.
Proof. exact rd_eval_rv32i. Qed.
Print Assumptions C07_rv32i_eval.
Theorem C07_covers_list :
  forall o imm x y pc ram, In o RD_RV32I <-> rd_spec o imm x y pc ram <> None.
Proof. exact rv32i_list_spec. Qed.
Print Assumptions C07_covers_list.
Example C07_case :
  rd_eval RSRAI 3 0x80000010 0 0 0 = Some 0xF0000002 /\ rd_spec RSRAI 3 0x80000010 0 0 0 = Some 0xF0000002 /\
  rd_eval RSLTI 0xFFFFFFFF 0x80000000 0 0 0 = Some 1.
Proof. vm_compute. auto. Qed.

(** C08.  Full statement:
    [forall o m x y, word x -> word y -> mop_of o = Some m ->
       rd_eval o imm x y pc ram = Some (alu_mop m x y)].  False: *)
Theorem C08_rv32m_refuted :
  exists o m imm x y pc ram, word x /\ word y /\ mop_of o = Some m /\
    rd_eval o imm x y pc ram <> Some (alu_mop m x y).
Proof. exact rv32m_wrong. Qed.
Print Assumptions C08_rv32m_refuted.
(** The failing inputs: DIV by zero for every dividend, DIVU by zero for every
    dividend but 2^32-1, REM by zero for every nonzero dividend (a panic). *)
Theorem C08_div_by_zero_wrong :
  forall imm x pc ram, word x ->
    rd_eval RDIV imm x 0 pc ram <> Some (alu_mop DIV x 0).
Proof. exact div0_wrong. Qed.
Print Assumptions C08_div_by_zero_wrong.
Theorem C08_divu_by_zero_wrong :
  forall imm x pc ram, word x -> x <> 2 ^ 32 - 1 ->
    rd_eval RDIVU imm x 0 pc ram <> Some (alu_mop DIVU x 0).
Proof. exact divu0_wrong. Qed.
Print Assumptions C08_divu_by_zero_wrong.
Theorem C08_rem_by_zero_panics :
  forall imm x pc ram, word x -> x <> 0 -> rd_eval RREM imm x 0 pc ram = None.
Proof. exact rem0_panics. Qed.
Print Assumptions C08_rem_by_zero_panics.
(** Everything else is right: multiplications, REMU, and DIV/DIVU/REM with a
    nonzero divisor, signed overflow included. *)
Theorem C08_rv32m_eval_partial :
  forall o imm x y pc ram m,
    word x -> word y -> mop_of o = Some m ->
    (match m with DIV | DIVU | REM => y <> 0 | _ => True end) ->
    rd_eval o imm x y pc ram = Some (alu_mop m x y).
Proof. exact rd_eval_rv32m. Qed.
Print Assumptions C08_rv32m_eval_partial.
(** All of it in one equation. *)
Theorem C08_rv32m_exact :
  forall o imm x y pc ram m,
    word x -> word y -> mop_of o = Some m ->
    rd_eval o imm x y pc ram =
      if y =? 0 then
        match m with
        | DIV => Some (2 ^ 31 - 1)
        | DIVU => Some x
        | REM => if x =? 0 then Some 0 else None
        | _ => Some (alu_mop m x 0)
        end
      else Some (alu_mop m x y).
Proof.
  intros o imm x y pc ram m Wx Wy Hm. destruct (Z.eqb_spec y 0) as [->|N].
  2:{ apply rd_eval_rv32m; auto. destruct m; auto. }
  destruct m; try (apply rd_eval_rv32m; auto; exact I); destruct o; try discriminate Hm; cbn [rd_eval]; try reflexivity.
  destruct (Z.eqb_spec x 0) as [->|Nx]; [reflexivity|].
  rewrite andb_false_r. reflexivity.
Qed.
Print Assumptions C08_rv32m_exact.
Example C08_case :
  rd_eval RDIV 0 0x80000000 0xFFFFFFFF 0 0 = Some 0x80000000 /\
  rd_eval RMULHU 0 0xFFFFFFFF 0xFFFFFFFF 0 0 = Some 0xFFFFFFFE /\
  rd_eval RREM 0 (2 ^ 32 - 7) 2 0 0 = Some (2 ^ 32 - 1).
Proof. vm_compute. auto. Qed.

(** C09. *)
Theorem C09_next_pc :
  forall o imm x y pc,
    word imm -> word x -> word y -> pc_eval o imm x y pc = pc_spec o imm x y pc.
Proof. exact pc_eval_spec. Qed.
Print Assumptions C09_next_pc.
Example C09_case :
  pc_eval PBLT 0xFFFFFFF0 0xFFFFFFFF 0 0x100 = 0xF0 /\ pc_eval PBLTU 0xFFFFFFF0 0xFFFFFFFF 0 0x100 = 0x104.
Proof. vm_compute. auto. Qed.

(** C10.  Full statement: as below without [aligned].  False for SH at an odd
    offset, where the whole word, including the bytes not addressed, is lost. *)
Theorem C10_misaligned_half_refuted :
  exists rs2 ram off k, word rs2 /\ word ram /\ 0 <= off < 4 /\ 0 <= k < 4 /\
    in_store MSH off k = false /\ byte k (ram_eval MSH rs2 ram off) <> byte k ram.
Proof. exact sh_odd_wrong. Qed.
Print Assumptions C10_misaligned_half_refuted.
(** In fact every SH at an odd offset clears all four bytes. *)
Theorem C10_misaligned_half_zeroes :
  forall rs2 ram off, 0 <= off < 4 -> off mod 2 = 1 -> ram_eval MSH rs2 ram off = 0.
Proof. exact sh_odd_zero. Qed.
Print Assumptions C10_misaligned_half_zeroes.
Theorem C10_stores_bytes_partial :
  forall o rs2 ram off k,
    word rs2 -> word ram -> 0 <= off < 4 -> aligned o off -> 0 <= k < 4 ->
    byte k (ram_eval o rs2 ram off) = if in_store o off k then byte (k - off) rs2 else byte k ram.
Proof. exact ram_eval_bytes. Qed.
Print Assumptions C10_stores_bytes_partial.
Example C10_case :
  aligned MSH 2 /\ ram_eval MSH 0x1234ABCD 0x55667788 2 = 0xABCD7788 /\
  in_store MSH 2 3 = true /\ in_store MSH 2 1 = false.
Proof. vm_compute. auto. Qed.
