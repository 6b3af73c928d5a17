(** Generated by tools/gen_circuits.py from fhevm/src/codegen/codegen_jalr.rs; do not edit. *)
Require Import NArith List.
Require Import Verif.Bdd.
Import ListNotations.
Open Scope N_scope.

(** fhevm/src/codegen/codegen_jalr.rs:147-147 *)
Definition jalr_0 : bit_circuit := BC 2%nat [
C 0 1 0;E].
(** fhevm/src/codegen/codegen_jalr.rs:148-148 *)
Definition jalr_1 : bit_circuit := BC 2%nat [
C 1 1 0;E].
(** fhevm/src/codegen/codegen_jalr.rs:149-149 *)
Definition jalr_2 : bit_circuit := BC 2%nat [
C 2 0 1;E].
(** fhevm/src/codegen/codegen_jalr.rs:150-158 *)
Definition jalr_3 : bit_circuit := BC 2%nat [
C 3 0 1;C 3 1 0;
C 2 0 1;E].
(** fhevm/src/codegen/codegen_jalr.rs:159-169 *)
Definition jalr_4 : bit_circuit := BC 2%nat [
C 4 0 1;C 4 1 0;
C 3 0 1;P;
C 2 0 1;E].
(** fhevm/src/codegen/codegen_jalr.rs:170-182 *)
Definition jalr_5 : bit_circuit := BC 2%nat [
C 5 0 1;C 5 1 0;
C 4 0 1;P;
C 3 0 1;P;
C 2 0 1;E].
(** fhevm/src/codegen/codegen_jalr.rs:183-197 *)
Definition jalr_6 : bit_circuit := BC 2%nat [
C 6 0 1;C 6 1 0;
C 5 0 1;P;
C 4 0 1;P;
C 3 0 1;P;
C 2 0 1;E].
(** fhevm/src/codegen/codegen_jalr.rs:198-214 *)
Definition jalr_7 : bit_circuit := BC 2%nat [
C 7 0 1;C 7 1 0;
C 6 0 1;P;
C 5 0 1;P;
C 4 0 1;P;
C 3 0 1;P;
C 2 0 1;E].
(** fhevm/src/codegen/codegen_jalr.rs:215-233 *)
Definition jalr_8 : bit_circuit := BC 2%nat [
C 8 1 0;C 8 0 1;
P;C 7 1 0;
P;C 6 1 0;
P;C 5 1 0;
P;C 4 1 0;
P;C 3 1 0;
C 2 1 0;E].
(** fhevm/src/codegen/codegen_jalr.rs:234-254 *)
Definition jalr_9 : bit_circuit := BC 2%nat [
C 9 0 1;C 9 1 0;
C 8 0 1;P;
C 7 0 1;P;
C 6 0 1;P;
C 5 0 1;P;
C 4 0 1;P;
C 3 0 1;P;
C 2 0 1;E].
(** fhevm/src/codegen/codegen_jalr.rs:255-277 *)
Definition jalr_10 : bit_circuit := BC 2%nat [
C 10 0 1;C 10 1 0;
C 9 0 1;P;
C 8 0 1;P;
C 7 0 1;P;
C 6 0 1;P;
C 5 0 1;P;
C 4 0 1;P;
C 3 0 1;P;
C 2 0 1;E].
(** fhevm/src/codegen/codegen_jalr.rs:278-302 *)
Definition jalr_11 : bit_circuit := BC 2%nat [
C 11 0 1;C 11 1 0;
C 10 0 1;P;
C 9 0 1;P;
C 8 0 1;P;
C 7 0 1;P;
C 6 0 1;P;
C 5 0 1;P;
C 4 0 1;P;
C 3 0 1;P;
C 2 0 1;E].
(** fhevm/src/codegen/codegen_jalr.rs:303-329 *)
Definition jalr_12 : bit_circuit := BC 2%nat [
C 12 0 1;C 12 1 0;
C 11 0 1;P;
C 10 0 1;P;
C 9 0 1;P;
C 8 0 1;P;
C 7 0 1;P;
C 6 0 1;P;
C 5 0 1;P;
C 4 0 1;P;
C 3 0 1;P;
C 2 0 1;E].
(** fhevm/src/codegen/codegen_jalr.rs:330-358 *)
Definition jalr_13 : bit_circuit := BC 2%nat [
C 13 1 0;C 13 0 1;
P;C 12 1 0;
P;C 11 1 0;
P;C 10 1 0;
P;C 9 1 0;
P;C 8 1 0;
P;C 7 1 0;
P;C 6 1 0;
P;C 5 1 0;
P;C 4 1 0;
P;C 3 1 0;
C 2 1 0;E].
(** fhevm/src/codegen/codegen_jalr.rs:359-389 *)
Definition jalr_14 : bit_circuit := BC 2%nat [
C 14 0 1;C 14 1 0;
C 13 0 1;P;
C 12 0 1;P;
C 11 0 1;P;
C 10 0 1;P;
C 9 0 1;P;
C 8 0 1;P;
C 7 0 1;P;
C 6 0 1;P;
C 5 0 1;P;
C 4 0 1;P;
C 3 0 1;P;
C 2 0 1;E].
(** fhevm/src/codegen/codegen_jalr.rs:390-422 *)
Definition jalr_15 : bit_circuit := BC 2%nat [
C 15 0 1;C 15 1 0;
C 14 0 1;P;
C 13 0 1;P;
C 12 0 1;P;
C 11 0 1;P;
C 10 0 1;P;
C 9 0 1;P;
C 8 0 1;P;
C 7 0 1;P;
C 6 0 1;P;
C 5 0 1;P;
C 4 0 1;P;
C 3 0 1;P;
C 2 0 1;E].
(** fhevm/src/codegen/codegen_jalr.rs:423-457 *)
Definition jalr_16 : bit_circuit := BC 2%nat [
C 16 0 1;C 16 1 0;
C 15 0 1;P;
C 14 0 1;P;
C 13 0 1;P;
C 12 0 1;P;
C 11 0 1;P;
C 10 0 1;P;
C 9 0 1;P;
C 8 0 1;P;
C 7 0 1;P;
C 6 0 1;P;
C 5 0 1;P;
C 4 0 1;P;
C 3 0 1;P;
C 2 0 1;E].
(** fhevm/src/codegen/codegen_jalr.rs:458-494 *)
Definition jalr_17 : bit_circuit := BC 2%nat [
C 17 1 0;C 17 0 1;
P;C 16 1 0;
P;C 15 1 0;
P;C 14 1 0;
P;C 13 1 0;
P;C 12 1 0;
P;C 11 1 0;
P;C 10 1 0;
P;C 9 1 0;
P;C 8 1 0;
P;C 7 1 0;
P;C 6 1 0;
P;C 5 1 0;
P;C 4 1 0;
P;C 3 1 0;
C 2 1 0;E].
(** fhevm/src/codegen/codegen_jalr.rs:495-533 *)
Definition jalr_18 : bit_circuit := BC 2%nat [
C 18 0 1;C 18 1 0;
C 17 0 1;P;
C 16 0 1;P;
C 15 0 1;P;
C 14 0 1;P;
C 13 0 1;P;
C 12 0 1;P;
C 11 0 1;P;
C 10 0 1;P;
C 9 0 1;P;
C 8 0 1;P;
C 7 0 1;P;
C 6 0 1;P;
C 5 0 1;P;
C 4 0 1;P;
C 3 0 1;P;
C 2 0 1;E].
(** fhevm/src/codegen/codegen_jalr.rs:534-574 *)
Definition jalr_19 : bit_circuit := BC 2%nat [
C 19 1 0;C 19 0 1;
P;C 18 1 0;
P;C 17 1 0;
P;C 16 1 0;
P;C 15 1 0;
P;C 14 1 0;
P;C 13 1 0;
P;C 12 1 0;
P;C 11 1 0;
P;C 10 1 0;
P;C 9 1 0;
P;C 8 1 0;
P;C 7 1 0;
P;C 6 1 0;
P;C 5 1 0;
P;C 4 1 0;
P;C 3 1 0;
C 2 1 0;E].
(** fhevm/src/codegen/codegen_jalr.rs:575-617 *)
Definition jalr_20 : bit_circuit := BC 2%nat [
C 20 1 0;C 20 0 1;
P;C 19 1 0;
P;C 18 1 0;
P;C 17 1 0;
P;C 16 1 0;
P;C 15 1 0;
P;C 14 1 0;
P;C 13 1 0;
P;C 12 1 0;
P;C 11 1 0;
P;C 10 1 0;
P;C 9 1 0;
P;C 8 1 0;
P;C 7 1 0;
P;C 6 1 0;
P;C 5 1 0;
P;C 4 1 0;
P;C 3 1 0;
C 2 1 0;E].
(** fhevm/src/codegen/codegen_jalr.rs:618-662 *)
Definition jalr_21 : bit_circuit := BC 2%nat [
C 21 1 0;C 21 0 1;
P;C 20 1 0;
P;C 19 1 0;
P;C 18 1 0;
P;C 17 1 0;
P;C 16 1 0;
P;C 15 1 0;
P;C 14 1 0;
P;C 13 1 0;
P;C 12 1 0;
P;C 11 1 0;
P;C 10 1 0;
P;C 9 1 0;
P;C 8 1 0;
P;C 7 1 0;
P;C 6 1 0;
P;C 5 1 0;
P;C 4 1 0;
P;C 3 1 0;
C 2 1 0;E].
(** fhevm/src/codegen/codegen_jalr.rs:663-709 *)
Definition jalr_22 : bit_circuit := BC 2%nat [
C 22 1 0;C 22 0 1;
P;C 21 1 0;
P;C 20 1 0;
P;C 19 1 0;
P;C 18 1 0;
P;C 17 1 0;
P;C 16 1 0;
P;C 15 1 0;
P;C 14 1 0;
P;C 13 1 0;
P;C 12 1 0;
P;C 11 1 0;
P;C 10 1 0;
P;C 9 1 0;
P;C 8 1 0;
P;C 7 1 0;
P;C 6 1 0;
P;C 5 1 0;
P;C 4 1 0;
P;C 3 1 0;
C 2 1 0;E].
(** fhevm/src/codegen/codegen_jalr.rs:710-758 *)
Definition jalr_23 : bit_circuit := BC 2%nat [
C 23 1 0;C 23 0 1;
P;C 22 1 0;
P;C 21 1 0;
P;C 20 1 0;
P;C 19 1 0;
P;C 18 1 0;
P;C 17 1 0;
P;C 16 1 0;
P;C 15 1 0;
P;C 14 1 0;
P;C 13 1 0;
P;C 12 1 0;
P;C 11 1 0;
P;C 10 1 0;
P;C 9 1 0;
P;C 8 1 0;
P;C 7 1 0;
P;C 6 1 0;
P;C 5 1 0;
P;C 4 1 0;
P;C 3 1 0;
C 2 1 0;E].
(** fhevm/src/codegen/codegen_jalr.rs:759-809 *)
Definition jalr_24 : bit_circuit := BC 2%nat [
C 24 1 0;C 24 0 1;
P;C 23 1 0;
P;C 22 1 0;
P;C 21 1 0;
P;C 20 1 0;
P;C 19 1 0;
P;C 18 1 0;
P;C 17 1 0;
P;C 16 1 0;
P;C 15 1 0;
P;C 14 1 0;
P;C 13 1 0;
P;C 12 1 0;
P;C 11 1 0;
P;C 10 1 0;
P;C 9 1 0;
P;C 8 1 0;
P;C 7 1 0;
P;C 6 1 0;
P;C 5 1 0;
P;C 4 1 0;
P;C 3 1 0;
C 2 1 0;E].
(** fhevm/src/codegen/codegen_jalr.rs:810-862 *)
Definition jalr_25 : bit_circuit := BC 2%nat [
C 25 0 1;C 25 1 0;
C 24 0 1;P;
C 23 0 1;P;
C 22 0 1;P;
C 21 0 1;P;
C 20 0 1;P;
C 19 0 1;P;
C 18 0 1;P;
C 17 0 1;P;
C 16 0 1;P;
C 15 0 1;P;
C 14 0 1;P;
C 13 0 1;P;
C 12 0 1;P;
C 11 0 1;P;
C 10 0 1;P;
C 9 0 1;P;
C 8 0 1;P;
C 7 0 1;P;
C 6 0 1;P;
C 5 0 1;P;
C 4 0 1;P;
C 3 0 1;P;
C 2 0 1;E].
(** fhevm/src/codegen/codegen_jalr.rs:863-917 *)
Definition jalr_26 : bit_circuit := BC 2%nat [
C 26 0 1;C 26 1 0;
C 25 0 1;P;
C 24 0 1;P;
C 23 0 1;P;
C 22 0 1;P;
C 21 0 1;P;
C 20 0 1;P;
C 19 0 1;P;
C 18 0 1;P;
C 17 0 1;P;
C 16 0 1;P;
C 15 0 1;P;
C 14 0 1;P;
C 13 0 1;P;
C 12 0 1;P;
C 11 0 1;P;
C 10 0 1;P;
C 9 0 1;P;
C 8 0 1;P;
C 7 0 1;P;
C 6 0 1;P;
C 5 0 1;P;
C 4 0 1;P;
C 3 0 1;P;
C 2 0 1;E].
(** fhevm/src/codegen/codegen_jalr.rs:918-974 *)
Definition jalr_27 : bit_circuit := BC 2%nat [
C 27 0 1;C 27 1 0;
C 26 0 1;P;
C 25 0 1;P;
C 24 0 1;P;
C 23 0 1;P;
C 22 0 1;P;
C 21 0 1;P;
C 20 0 1;P;
C 19 0 1;P;
C 18 0 1;P;
C 17 0 1;P;
C 16 0 1;P;
C 15 0 1;P;
C 14 0 1;P;
C 13 0 1;P;
C 12 0 1;P;
C 11 0 1;P;
C 10 0 1;P;
C 9 0 1;P;
C 8 0 1;P;
C 7 0 1;P;
C 6 0 1;P;
C 5 0 1;P;
C 4 0 1;P;
C 3 0 1;P;
C 2 0 1;E].
(** fhevm/src/codegen/codegen_jalr.rs:975-1033 *)
Definition jalr_28 : bit_circuit := BC 2%nat [
C 28 0 1;C 28 1 0;
C 27 0 1;P;
C 26 0 1;P;
C 25 0 1;P;
C 24 0 1;P;
C 23 0 1;P;
C 22 0 1;P;
C 21 0 1;P;
C 20 0 1;P;
C 19 0 1;P;
C 18 0 1;P;
C 17 0 1;P;
C 16 0 1;P;
C 15 0 1;P;
C 14 0 1;P;
C 13 0 1;P;
C 12 0 1;P;
C 11 0 1;P;
C 10 0 1;P;
C 9 0 1;P;
C 8 0 1;P;
C 7 0 1;P;
C 6 0 1;P;
C 5 0 1;P;
C 4 0 1;P;
C 3 0 1;P;
C 2 0 1;E].
(** fhevm/src/codegen/codegen_jalr.rs:1034-1094 *)
Definition jalr_29 : bit_circuit := BC 2%nat [
C 29 0 1;C 29 1 0;
C 28 0 1;P;
C 27 0 1;P;
C 26 0 1;P;
C 25 0 1;P;
C 24 0 1;P;
C 23 0 1;P;
C 22 0 1;P;
C 21 0 1;P;
C 20 0 1;P;
C 19 0 1;P;
C 18 0 1;P;
C 17 0 1;P;
C 16 0 1;P;
C 15 0 1;P;
C 14 0 1;P;
C 13 0 1;P;
C 12 0 1;P;
C 11 0 1;P;
C 10 0 1;P;
C 9 0 1;P;
C 8 0 1;P;
C 7 0 1;P;
C 6 0 1;P;
C 5 0 1;P;
C 4 0 1;P;
C 3 0 1;P;
C 2 0 1;E].
(** fhevm/src/codegen/codegen_jalr.rs:1095-1157 *)
Definition jalr_30 : bit_circuit := BC 2%nat [
C 30 1 0;C 30 0 1;
P;C 29 1 0;
P;C 28 1 0;
P;C 27 1 0;
P;C 26 1 0;
P;C 25 1 0;
P;C 24 1 0;
P;C 23 1 0;
P;C 22 1 0;
P;C 21 1 0;
P;C 20 1 0;
P;C 19 1 0;
P;C 18 1 0;
P;C 17 1 0;
P;C 16 1 0;
P;C 15 1 0;
P;C 14 1 0;
P;C 13 1 0;
P;C 12 1 0;
P;C 11 1 0;
P;C 10 1 0;
P;C 9 1 0;
P;C 8 1 0;
P;C 7 1 0;
P;C 6 1 0;
P;C 5 1 0;
P;C 4 1 0;
P;C 3 1 0;
C 2 1 0;E].
(** fhevm/src/codegen/codegen_jalr.rs:1158-1222 *)
Definition jalr_31 : bit_circuit := BC 2%nat [
C 31 1 0;C 31 0 1;
P;C 30 1 0;
P;C 29 1 0;
P;C 28 1 0;
P;C 27 1 0;
P;C 26 1 0;
P;C 25 1 0;
P;C 24 1 0;
P;C 23 1 0;
P;C 22 1 0;
P;C 21 1 0;
P;C 20 1 0;
P;C 19 1 0;
P;C 18 1 0;
P;C 17 1 0;
P;C 16 1 0;
P;C 15 1 0;
P;C 14 1 0;
P;C 13 1 0;
P;C 12 1 0;
P;C 11 1 0;
P;C 10 1 0;
P;C 9 1 0;
P;C 8 1 0;
P;C 7 1 0;
P;C 6 1 0;
P;C 5 1 0;
P;C 4 1 0;
P;C 3 1 0;
C 2 1 0;E].

(** fhevm/src/codegen/codegen_jalr.rs: OUTPUT_CIRCUITS, with the declared INPUT_BITS *)
Definition jalr_circuit : circuit := MkCircuit 32 [
jalr_0;
jalr_1;
jalr_2;
jalr_3;
jalr_4;
jalr_5;
jalr_6;
jalr_7;
jalr_8;
jalr_9;
jalr_10;
jalr_11;
jalr_12;
jalr_13;
jalr_14;
jalr_15;
jalr_16;
jalr_17;
jalr_18;
jalr_19;
jalr_20;
jalr_21;
jalr_22;
jalr_23;
jalr_24;
jalr_25;
jalr_26;
jalr_27;
jalr_28;
jalr_29;
jalr_30;
jalr_31].
