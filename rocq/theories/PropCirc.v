(** * Properties C19-C25: the generated circuits *)
Require Import ZArith NArith Lia Bool List.
From Verif Require Import Word Isa Codec EvalSpec Bdd CircSpec CircLui CircJalr CircAuipc CircRamOffset CircPcUpdate CircFacts CircStruct.
Import ListNotations.
Open Scope Z_scope.

(** C19.  Both operands are the immediate at the call site
    (fhevm/src/rd_update.rs:115); the second one is not read. *)
Theorem C19_lui_circuit :
  forall imm other, eval_circuit lui_circuit (inp2 imm other) = Some (to_word (imm * 2 ^ 12)).
Proof. exact lui_ok. Qed.
Print Assumptions C19_lui_circuit.
Example C19_case : eval_circuit lui_circuit (inp2 0xABCDE 0xABCDE) = Some 0xABCDE000.
Proof. vm_compute. reflexivity. Qed.

(** C20 *)
Theorem C20_link_circuit :
  forall pc other, word pc -> eval_circuit jalr_circuit (inp2 pc other) = Some (to_word (pc + 4)).
Proof. exact jalr_ok. Qed.
Print Assumptions C20_link_circuit.
Example C20_case :
  word 0xFFFFFFFC /\ eval_circuit jalr_circuit (inp2 0xFFFFFFFC 7) = Some 0 /\
  eval_circuit jalr_circuit (inp2 0x00FFFFFC 0) = Some 0x01000000.
Proof. split; [unfold word; lia|]. vm_compute. auto. Qed.

(** C21 *)
Theorem C21_auipc_circuit :
  forall pc imm, word pc -> eval_circuit auipc_circuit (inp2 pc imm) = Some (to_word (pc + imm * 2 ^ 12)).
Proof. exact auipc_ok. Qed.
Print Assumptions C21_auipc_circuit.
Example C21_case :
  word 0x00001FFC /\ eval_circuit auipc_circuit (inp2 0x00001FFC 0xFFFFF) = Some 0xFFC.
Proof. split; [unfold word; lia|]. vm_compute. reflexivity. Qed.

(** C22 *)
Theorem C22_ram_offset_circuit :
  forall a b, word a -> word b ->
    eval_circuit ram_offset_circuit (inp2 a b) = Some (to_word (a + b - 2 ^ 18)).
Proof. exact ram_offset_ok. Qed.
Print Assumptions C22_ram_offset_circuit.
Theorem C22_ram_offset_symmetric :
  forall a b, word a -> word b ->
    eval_circuit ram_offset_circuit (inp2 a b) = eval_circuit ram_offset_circuit (inp2 b a).
Proof. intros a b Ha Hb. rewrite !ram_offset_ok, (Z.add_comm b a) by assumption. reflexivity. Qed.
Print Assumptions C22_ram_offset_symmetric.
Example C22_case :
  word 0x40010 /\ word 0xFFFFFFFC /\
  eval_circuit ram_offset_circuit (inp2 0x40010 0xFFFFFFFC) = Some 0xC /\
  eval_circuit ram_offset_circuit (inp2 0xFFFFFFFC 0x40010) = Some 0xC /\
  eval_circuit ram_offset_circuit (inp2 0 0) = Some 0xFFFC0000.
Proof. split; [unfold word; lia|]. split; [unfold word; lia|]. vm_compute. auto. Qed.

(** C23.  [o] ranges over the nine operations; the immediate is the
    sign-extended low 20 bits of the immediate word. *)
Theorem C23_pc_circuit :
  forall o x y pc imm, word x -> word y -> word pc ->
    eval_circuit pc_update_circuit (inp_pc (pc_id o) x y pc imm) =
    Some (pc_spec o (to_word (signed 20 imm)) x y pc).
Proof. exact pc_update_ok. Qed.
Print Assumptions C23_pc_circuit.
(** In particular it is the ISA's next pc for every immediate of 20 bits, which
    covers all branch and JALR offsets. *)
Theorem C23_pc_circuit_isa :
  forall o x y pc off, word x -> word y -> word pc -> - 2 ^ 19 <= off < 2 ^ 19 ->
    eval_circuit pc_update_circuit (inp_pc (pc_id o) x y pc (to_word off)) =
    Some (pc_spec o (to_word off) x y pc).
Proof. intros. rewrite pc_update_ok, signed20_word, signed20_id by assumption. reflexivity. Qed.
Print Assumptions C23_pc_circuit_isa.
Example C23_case :
  word 0x80000000 /\ word 1 /\ word 0x100 /\
  eval_circuit pc_update_circuit (inp_pc (pc_id PBLT) 0x80000000 1 0x100 (to_word (-8))) = Some 0xF8 /\
  eval_circuit pc_update_circuit (inp_pc (pc_id PBLTU) 0x80000000 1 0x100 (to_word (-8))) = Some 0x104 /\
  eval_circuit pc_update_circuit (inp_pc (pc_id PJALR) 0x80000001 1 0x100 (to_word 2)) = Some 0x80000002.
Proof. unfold word. repeat split; try lia; vm_compute; reflexivity. Qed.

(** C24 *)
Theorem C24_reads_written :
  forall c b, In c [lui_circuit; jalr_circuit; auipc_circuit; ram_offset_circuit; pc_update_circuit] ->
    In b (bits_out c) -> reads_written (input_bits c) b.
Proof. exact circuits_read. Qed.
Print Assumptions C24_reads_written.
(** so evaluation is defined whenever the declared inputs are. *)
Theorem C24_total :
  forall c inp f, In c [lui_circuit; jalr_circuit; auipc_circuit; ram_offset_circuit; pc_update_circuit] ->
    (forall v, (v < input_bits c)%N -> inp v = Some (f v)) -> exists w, eval_circuit c inp = Some w.
Proof. exact circuits_total. Qed.
Print Assumptions C24_total.
Example C24_case :
  length (bits_out pc_update_circuit) = 32%nat /\ nth_error (bits_out lui_circuit) 12 = Some (BC 2 [C 0 1 0; E]) /\
  reads_written 20 (BC 2 [C 0 1 0; E]) /\ ~ reads_written 20 (BC 2 [C 0 1 0; E; C 1 0 1; E]).
Proof.
  split; [reflexivity|]. split; [reflexivity|]. split.
  - apply (circuits_read lui_circuit); [left; reflexivity|]. cbn. do 12 right. now left.
  - intros (_ & _ & _ & H). specialize (H 2%nat _ eq_refl) as (_ & _ & _ & n & E1 & E2).
    vm_compute in E1. congruence.
Qed.

(** C25.  Full statement: [forall pc off, legal (JAL 0 off) ->
    eval_circuit pc_update_circuit (inp_pc (pc_id PJAL) x y pc (to_word off)) = Some (to_word (pc + off))].
    False: the circuit sees 20 bits of a 21-bit offset. *)
Theorem C25_jal_range_refuted :
  exists x y pc off, word x /\ word y /\ word pc /\ legal (JAL 0 off) /\
    eval_circuit pc_update_circuit (inp_pc (pc_id PJAL) x y pc (to_word off)) <> Some (to_word (pc + off)).
Proof.
  exists 0, 0, 0, (2 ^ 19). unfold word, legal, reg. repeat split; try lia. vm_compute. discriminate.
Qed.
Print Assumptions C25_jal_range_refuted.
(** The exact set of honoured offsets. *)
Theorem C25_jal_exact :
  forall pc off x y, word x -> word y -> word pc -> legal (JAL 0 off) ->
    (eval_circuit pc_update_circuit (inp_pc (pc_id PJAL) x y pc (to_word off)) = Some (to_word (pc + off))
     <-> - 2 ^ 19 <= off < 2 ^ 19).
Proof. exact jal_exact. Qed.
Print Assumptions C25_jal_exact.
Example C25_case :
  legal (JAL 0 (2 ^ 19)) /\
  eval_circuit pc_update_circuit (inp_pc (pc_id PJAL) 0 0 0x1000 (to_word (2 ^ 19))) = Some 0xFFF81000 /\
  eval_circuit pc_update_circuit (inp_pc (pc_id PJAL) 0 0 0x1000 (to_word (- 2 ^ 19))) = Some 0xFFF81000.
Proof. unfold legal, reg. repeat split; try lia; vm_compute; reflexivity. Qed.
