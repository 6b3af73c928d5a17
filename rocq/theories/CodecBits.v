(** * Codec getters are the ISA fields (proofs) *)
Require Import ZArith Lia Bool List.
From Verif Require Import Word Isa Bits Codec.
Import ListNotations.
Open Scope Z_scope.

Lemma word_fld h l x : 0 <= l <= h -> h - l < 32 -> word (fld h l x).
Proof.
  intros. pose proof (fld_range h l x ltac:(lia)). unfold word. split; [lia|].
  apply Z.lt_le_trans with (2 ^ (h - l + 1)); [lia|]. apply Z.pow_le_mono_r; lia.
Qed.
Ltac fldget :=
  unfold getf; apply word_bits_eq; [words | apply word_fld; lia
    | let n := fresh "n" in let H := fresh "H" in intros n H; open_words; bit_goal n H ].

Lemma getf_opcode w : word w -> getf OPCODEMASK OPCODESHIFT w = fld 6 0 w.
Proof. intros. unfold OPCODEMASK, OPCODESHIFT. fldget. Qed.
Lemma getf_rd w : word w -> getf RDMASK RDSHIFT w = fld 11 7 w.
Proof. intros. unfold RDMASK, RDSHIFT. fldget. Qed.
Lemma getf_f3 w : word w -> getf FUNCT3MASK FUNCT3SHIFT w = fld 14 12 w.
Proof. intros. unfold FUNCT3MASK, FUNCT3SHIFT. fldget. Qed.
Lemma getf_rs1 w : word w -> getf RS1MASK RS1SHIFT w = fld 19 15 w.
Proof. intros. unfold RS1MASK, RS1SHIFT. fldget. Qed.
Lemma getf_rs2 w : word w -> getf RS2MASK RS2SHIFT w = fld 24 20 w.
Proof. intros. unfold RS2MASK, RS2SHIFT. fldget. Qed.
Lemma getf_shamt w : word w -> getf SHAMTMASK SHAMTSHIFT w = fld 24 20 w.
Proof. intros. unfold SHAMTMASK, SHAMTSHIFT. fldget. Qed.
Lemma getf_f7 w : word w -> getf FUNCT7MASK FUNCT7SHIFT w = fld 31 25 w.
Proof. intros. unfold FUNCT7MASK, FUNCT7SHIFT. fldget. Qed.

Lemma i_get_spec w : word w -> i_get w = to_word (imm_I w).
Proof. intros. unfold i_get, imm_I. blast. Qed.
Lemma u_get_spec w : word w -> u_get w = imm_U w.
Proof.
  intros. unfold u_get, imm_U. apply word_bits_eq; [words|apply word_fld; lia|].
  intros n Hn; open_words; bit_goal n Hn.
Qed.
Lemma s_get_spec w : word w -> s_get w = to_word (imm_S w).
Proof. intros. unfold s_get, imm_S. blast. Qed.
Lemma b_get_spec w : word w -> b_get w = to_word (imm_B w).
Proof. intros. unfold b_get, imm_B. blast. Qed.
Lemma j_get_spec w : word w -> j_get w = to_word (imm_J w).
Proof. intros. unfold j_get, imm_J. blast. Qed.
