(** Generated by tools/gen_circuits.py from fhevm/src/codegen/codegen_lui.rs; do not edit. *)
Require Import NArith List.
Require Import Verif.Bdd.
Import ListNotations.
Open Scope N_scope.

(** fhevm/src/codegen/codegen_lui.rs:147-147 *)
Definition lui_0 : bit_circuit := BC 0%nat [
].
(** fhevm/src/codegen/codegen_lui.rs:148-148 *)
Definition lui_1 : bit_circuit := BC 0%nat [
].
(** fhevm/src/codegen/codegen_lui.rs:149-149 *)
Definition lui_2 : bit_circuit := BC 0%nat [
].
(** fhevm/src/codegen/codegen_lui.rs:150-150 *)
Definition lui_3 : bit_circuit := BC 0%nat [
].
(** fhevm/src/codegen/codegen_lui.rs:151-151 *)
Definition lui_4 : bit_circuit := BC 0%nat [
].
(** fhevm/src/codegen/codegen_lui.rs:152-152 *)
Definition lui_5 : bit_circuit := BC 0%nat [
].
(** fhevm/src/codegen/codegen_lui.rs:153-153 *)
Definition lui_6 : bit_circuit := BC 0%nat [
].
(** fhevm/src/codegen/codegen_lui.rs:154-154 *)
Definition lui_7 : bit_circuit := BC 0%nat [
].
(** fhevm/src/codegen/codegen_lui.rs:155-155 *)
Definition lui_8 : bit_circuit := BC 0%nat [
].
(** fhevm/src/codegen/codegen_lui.rs:156-156 *)
Definition lui_9 : bit_circuit := BC 0%nat [
].
(** fhevm/src/codegen/codegen_lui.rs:157-157 *)
Definition lui_10 : bit_circuit := BC 0%nat [
].
(** fhevm/src/codegen/codegen_lui.rs:158-158 *)
Definition lui_11 : bit_circuit := BC 0%nat [
].
(** fhevm/src/codegen/codegen_lui.rs:159-159 *)
Definition lui_12 : bit_circuit := BC 2%nat [
C 0 1 0;E].
(** fhevm/src/codegen/codegen_lui.rs:160-160 *)
Definition lui_13 : bit_circuit := BC 2%nat [
C 1 1 0;E].
(** fhevm/src/codegen/codegen_lui.rs:161-161 *)
Definition lui_14 : bit_circuit := BC 2%nat [
C 2 1 0;E].
(** fhevm/src/codegen/codegen_lui.rs:162-162 *)
Definition lui_15 : bit_circuit := BC 2%nat [
C 3 1 0;E].
(** fhevm/src/codegen/codegen_lui.rs:163-163 *)
Definition lui_16 : bit_circuit := BC 2%nat [
C 4 1 0;E].
(** fhevm/src/codegen/codegen_lui.rs:164-164 *)
Definition lui_17 : bit_circuit := BC 2%nat [
C 5 1 0;E].
(** fhevm/src/codegen/codegen_lui.rs:165-165 *)
Definition lui_18 : bit_circuit := BC 2%nat [
C 6 1 0;E].
(** fhevm/src/codegen/codegen_lui.rs:166-166 *)
Definition lui_19 : bit_circuit := BC 2%nat [
C 7 1 0;E].
(** fhevm/src/codegen/codegen_lui.rs:167-167 *)
Definition lui_20 : bit_circuit := BC 2%nat [
C 8 1 0;E].
(** fhevm/src/codegen/codegen_lui.rs:168-168 *)
Definition lui_21 : bit_circuit := BC 2%nat [
C 9 1 0;E].
(** fhevm/src/codegen/codegen_lui.rs:169-169 *)
Definition lui_22 : bit_circuit := BC 2%nat [
C 10 1 0;E].
(** fhevm/src/codegen/codegen_lui.rs:170-170 *)
Definition lui_23 : bit_circuit := BC 2%nat [
C 11 1 0;E].
(** fhevm/src/codegen/codegen_lui.rs:171-171 *)
Definition lui_24 : bit_circuit := BC 2%nat [
C 12 1 0;E].
(** fhevm/src/codegen/codegen_lui.rs:172-172 *)
Definition lui_25 : bit_circuit := BC 2%nat [
C 13 1 0;E].
(** fhevm/src/codegen/codegen_lui.rs:173-173 *)
Definition lui_26 : bit_circuit := BC 2%nat [
C 14 1 0;E].
(** fhevm/src/codegen/codegen_lui.rs:174-174 *)
Definition lui_27 : bit_circuit := BC 2%nat [
C 15 1 0;E].
(** fhevm/src/codegen/codegen_lui.rs:175-175 *)
Definition lui_28 : bit_circuit := BC 2%nat [
C 16 1 0;E].
(** fhevm/src/codegen/codegen_lui.rs:176-176 *)
Definition lui_29 : bit_circuit := BC 2%nat [
C 17 1 0;E].
(** fhevm/src/codegen/codegen_lui.rs:177-177 *)
Definition lui_30 : bit_circuit := BC 2%nat [
C 18 1 0;E].
(** fhevm/src/codegen/codegen_lui.rs:178-178 *)
Definition lui_31 : bit_circuit := BC 2%nat [
C 19 1 0;E].

(** fhevm/src/codegen/codegen_lui.rs: OUTPUT_CIRCUITS, with the declared INPUT_BITS *)
Definition lui_circuit : circuit := MkCircuit 20 [
lui_0;
lui_1;
lui_2;
lui_3;
lui_4;
lui_5;
lui_6;
lui_7;
lui_8;
lui_9;
lui_10;
lui_11;
lui_12;
lui_13;
lui_14;
lui_15;
lui_16;
lui_17;
lui_18;
lui_19;
lui_20;
lui_21;
lui_22;
lui_23;
lui_24;
lui_25;
lui_26;
lui_27;
lui_28;
lui_29;
lui_30;
lui_31].
