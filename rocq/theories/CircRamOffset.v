(** Generated by tools/gen_circuits.py from fhevm/src/codegen/codegen_ram_offset.rs; do not edit. *)
Require Import NArith List.
Require Import Verif.Bdd.
Import ListNotations.
Open Scope N_scope.

(** fhevm/src/codegen/codegen_ram_offset.rs:145-153 *)
Definition ram_offset_0 : bit_circuit := BC 2%nat [
C 32 0 1;C 32 1 0;
C 0 0 1;E].
(** fhevm/src/codegen/codegen_ram_offset.rs:154-166 *)
Definition ram_offset_1 : bit_circuit := BC 2%nat [
C 33 1 0;C 33 0 1;
C 1 0 1;C 1 1 0;
C 32 0 1;P;
C 0 0 1;E].
(** fhevm/src/codegen/codegen_ram_offset.rs:167-189 *)
Definition ram_offset_2 : bit_circuit := BC 3%nat [
C 34 0 1;C 34 1 0;E;
C 2 0 1;C 2 1 0;E;
P;P;C 33 1 0;
C 1 1 2;C 1 2 0;E;
C 32 0 1;P;E;
C 0 0 1;E;E].
(** fhevm/src/codegen/codegen_ram_offset.rs:190-218 *)
Definition ram_offset_3 : bit_circuit := BC 3%nat [
C 35 0 1;C 35 1 0;E;
C 3 0 1;C 3 1 0;E;
P;P;C 34 1 0;
C 2 1 2;C 2 2 0;E;
P;P;C 33 0 1;
C 1 0 2;C 1 2 1;E;
C 32 0 1;P;E;
C 0 0 1;E;E].
(** fhevm/src/codegen/codegen_ram_offset.rs:219-253 *)
Definition ram_offset_4 : bit_circuit := BC 3%nat [
C 36 0 1;C 36 1 0;E;
C 4 1 0;C 4 0 1;E;
P;P;C 35 0 1;
C 3 2 1;C 3 0 2;E;
P;P;C 34 1 0;
C 2 2 0;C 2 1 2;E;
P;P;C 33 1 0;
C 1 2 0;C 1 1 2;E;
P;C 32 1 0;E;
C 0 1 0;E;E].
(** fhevm/src/codegen/codegen_ram_offset.rs:254-294 *)
Definition ram_offset_5 : bit_circuit := BC 3%nat [
C 37 0 1;C 37 1 0;E;
C 5 0 1;C 5 1 0;E;
P;P;C 36 1 0;
C 4 1 2;C 4 2 0;E;
P;P;C 35 0 1;
C 3 2 1;C 3 0 2;E;
P;P;C 34 1 0;
C 2 2 0;C 2 1 2;E;
P;P;C 33 1 0;
C 1 2 0;C 1 1 2;E;
P;C 32 1 0;E;
C 0 1 0;E;E].
(** fhevm/src/codegen/codegen_ram_offset.rs:295-341 *)
Definition ram_offset_6 : bit_circuit := BC 3%nat [
C 38 0 1;C 38 1 0;E;
C 6 1 0;C 6 0 1;E;
P;P;C 37 0 1;
C 5 2 1;C 5 0 2;E;
P;P;C 36 1 0;
C 4 2 0;C 4 1 2;E;
P;P;C 35 1 0;
C 3 2 0;C 3 1 2;E;
P;P;C 34 1 0;
C 2 2 0;C 2 1 2;E;
P;P;C 33 1 0;
C 1 2 0;C 1 1 2;E;
P;C 32 1 0;E;
C 0 1 0;E;E].
(** fhevm/src/codegen/codegen_ram_offset.rs:342-394 *)
Definition ram_offset_7 : bit_circuit := BC 3%nat [
C 39 0 1;C 39 1 0;E;
C 7 0 1;C 7 1 0;E;
P;P;C 38 1 0;
C 6 2 0;C 6 1 2;E;
P;P;C 37 1 0;
C 5 2 0;C 5 1 2;E;
P;P;C 36 1 0;
C 4 1 2;C 4 2 0;E;
P;P;C 35 0 1;
C 3 2 1;C 3 0 2;E;
P;P;C 34 1 0;
C 2 1 2;C 2 2 0;E;
P;P;C 33 0 1;
C 1 0 2;C 1 2 1;E;
C 32 0 1;P;E;
C 0 0 1;E;E].
(** fhevm/src/codegen/codegen_ram_offset.rs:395-453 *)
Definition ram_offset_8 : bit_circuit := BC 3%nat [
C 40 1 0;C 40 0 1;E;
C 8 0 1;C 8 1 0;E;
P;P;C 39 0 1;
C 7 0 2;C 7 2 1;E;
P;P;C 38 0 1;
C 6 0 2;C 6 2 1;E;
P;P;C 37 0 1;
C 5 0 2;C 5 2 1;E;
P;P;C 36 0 1;
C 4 2 1;C 4 0 2;E;
P;P;C 35 1 0;
C 3 1 2;C 3 2 0;E;
P;P;C 34 0 1;
C 2 0 2;C 2 2 1;E;
P;P;C 33 0 1;
C 1 0 2;C 1 2 1;E;
C 32 0 1;P;E;
C 0 0 1;E;E].
(** fhevm/src/codegen/codegen_ram_offset.rs:454-518 *)
Definition ram_offset_9 : bit_circuit := BC 3%nat [
C 41 0 1;C 41 1 0;E;
C 9 1 0;C 9 0 1;E;
P;P;C 40 0 1;
C 8 0 2;C 8 2 1;E;
P;P;C 39 0 1;
C 7 0 2;C 7 2 1;E;
P;P;C 38 0 1;
C 6 0 2;C 6 2 1;E;
P;P;C 37 0 1;
C 5 0 2;C 5 2 1;E;
P;P;C 36 0 1;
C 4 2 1;C 4 0 2;E;
P;P;C 35 1 0;
C 3 2 0;C 3 1 2;E;
P;P;C 34 1 0;
C 2 1 2;C 2 2 0;E;
P;P;C 33 0 1;
C 1 2 1;C 1 0 2;E;
P;C 32 1 0;E;
C 0 1 0;E;E].
(** fhevm/src/codegen/codegen_ram_offset.rs:519-589 *)
Definition ram_offset_10 : bit_circuit := BC 3%nat [
C 42 0 1;C 42 1 0;E;
C 10 0 1;C 10 1 0;E;
P;P;C 41 1 0;
C 9 2 0;C 9 1 2;E;
P;P;C 40 1 0;
C 8 1 2;C 8 2 0;E;
P;P;C 39 0 1;
C 7 2 1;C 7 0 2;E;
P;P;C 38 1 0;
C 6 1 2;C 6 2 0;E;
P;P;C 37 0 1;
C 5 0 2;C 5 2 1;E;
P;P;C 36 0 1;
C 4 2 1;C 4 0 2;E;
P;P;C 35 1 0;
C 3 1 2;C 3 2 0;E;
P;P;C 34 0 1;
C 2 0 2;C 2 2 1;E;
P;P;C 33 0 1;
C 1 0 2;C 1 2 1;E;
C 32 0 1;P;E;
C 0 0 1;E;E].
(** fhevm/src/codegen/codegen_ram_offset.rs:590-666 *)
Definition ram_offset_11 : bit_circuit := BC 3%nat [
C 43 0 1;C 43 1 0;E;
C 11 0 1;C 11 1 0;E;
P;P;C 42 1 0;
C 10 2 0;C 10 1 2;E;
P;P;C 41 1 0;
C 9 1 2;C 9 2 0;E;
P;P;C 40 0 1;
C 8 2 1;C 8 0 2;E;
P;P;C 39 1 0;
C 7 1 2;C 7 2 0;E;
P;P;C 38 0 1;
C 6 2 1;C 6 0 2;E;
P;P;C 37 1 0;
C 5 1 2;C 5 2 0;E;
P;P;C 36 0 1;
C 4 2 1;C 4 0 2;E;
P;P;C 35 1 0;
C 3 1 2;C 3 2 0;E;
P;P;C 34 0 1;
C 2 2 1;C 2 0 2;E;
P;P;C 33 1 0;
C 1 2 0;C 1 1 2;E;
P;C 32 1 0;E;
C 0 1 0;E;E].
(** fhevm/src/codegen/codegen_ram_offset.rs:667-749 *)
Definition ram_offset_12 : bit_circuit := BC 3%nat [
C 44 0 1;C 44 1 0;E;
C 12 0 1;C 12 1 0;E;
P;P;C 43 1 0;
C 11 2 0;C 11 1 2;E;
P;P;C 42 1 0;
C 10 1 2;C 10 2 0;E;
P;P;C 41 0 1;
C 9 0 2;C 9 2 1;E;
P;P;C 40 0 1;
C 8 2 1;C 8 0 2;E;
P;P;C 39 1 0;
C 7 2 0;C 7 1 2;E;
P;P;C 38 1 0;
C 6 1 2;C 6 2 0;E;
P;P;C 37 0 1;
C 5 2 1;C 5 0 2;E;
P;P;C 36 1 0;
C 4 2 0;C 4 1 2;E;
P;P;C 35 1 0;
C 3 1 2;C 3 2 0;E;
P;P;C 34 0 1;
C 2 2 1;C 2 0 2;E;
P;P;C 33 1 0;
C 1 1 2;C 1 2 0;E;
C 32 0 1;P;E;
C 0 0 1;E;E].
(** fhevm/src/codegen/codegen_ram_offset.rs:750-838 *)
Definition ram_offset_13 : bit_circuit := BC 3%nat [
C 45 0 1;C 45 1 0;E;
C 13 0 1;C 13 1 0;E;
P;P;C 44 1 0;
C 12 2 0;C 12 1 2;E;
P;P;C 43 1 0;
C 11 1 2;C 11 2 0;E;
P;P;C 42 0 1;
C 10 0 2;C 10 2 1;E;
P;P;C 41 0 1;
C 9 0 2;C 9 2 1;E;
P;P;C 40 0 1;
C 8 0 2;C 8 2 1;E;
P;P;C 39 0 1;
C 7 0 2;C 7 2 1;E;
P;P;C 38 0 1;
C 6 0 2;C 6 2 1;E;
P;P;C 37 0 1;
C 5 0 2;C 5 2 1;E;
P;P;C 36 0 1;
C 4 0 2;C 4 2 1;E;
P;P;C 35 0 1;
C 3 0 2;C 3 2 1;E;
P;P;C 34 0 1;
C 2 0 2;C 2 2 1;E;
P;P;C 33 0 1;
C 1 2 1;C 1 0 2;E;
P;C 32 1 0;E;
C 0 1 0;E;E].
(** fhevm/src/codegen/codegen_ram_offset.rs:839-933 *)
Definition ram_offset_14 : bit_circuit := BC 3%nat [
C 46 1 0;C 46 0 1;E;
C 14 1 0;C 14 0 1;E;
P;P;C 45 1 0;
C 13 1 2;C 13 2 0;E;
P;P;C 44 0 1;
C 12 0 2;C 12 2 1;E;
P;P;C 43 0 1;
C 11 2 1;C 11 0 2;E;
P;P;C 42 1 0;
C 10 2 0;C 10 1 2;E;
P;P;C 41 1 0;
C 9 2 0;C 9 1 2;E;
P;P;C 40 1 0;
C 8 1 2;C 8 2 0;E;
P;P;C 39 0 1;
C 7 2 1;C 7 0 2;E;
P;P;C 38 1 0;
C 6 1 2;C 6 2 0;E;
P;P;C 37 0 1;
C 5 2 1;C 5 0 2;E;
P;P;C 36 1 0;
C 4 2 0;C 4 1 2;E;
P;P;C 35 1 0;
C 3 2 0;C 3 1 2;E;
P;P;C 34 1 0;
C 2 2 0;C 2 1 2;E;
P;P;C 33 1 0;
C 1 1 2;C 1 2 0;E;
C 32 0 1;P;E;
C 0 0 1;E;E].
(** fhevm/src/codegen/codegen_ram_offset.rs:934-1034 *)
Definition ram_offset_15 : bit_circuit := BC 3%nat [
C 47 1 0;C 47 0 1;E;
C 15 0 1;C 15 1 0;E;
P;P;C 46 0 1;
C 14 2 1;C 14 0 2;E;
P;P;C 45 1 0;
C 13 1 2;C 13 2 0;E;
P;P;C 44 0 1;
C 12 2 1;C 12 0 2;E;
P;P;C 43 1 0;
C 11 1 2;C 11 2 0;E;
P;P;C 42 0 1;
C 10 0 2;C 10 2 1;E;
P;P;C 41 0 1;
C 9 2 1;C 9 0 2;E;
P;P;C 40 1 0;
C 8 1 2;C 8 2 0;E;
P;P;C 39 0 1;
C 7 2 1;C 7 0 2;E;
P;P;C 38 1 0;
C 6 1 2;C 6 2 0;E;
P;P;C 37 0 1;
C 5 2 1;C 5 0 2;E;
P;P;C 36 1 0;
C 4 1 2;C 4 2 0;E;
P;P;C 35 0 1;
C 3 2 1;C 3 0 2;E;
P;P;C 34 1 0;
C 2 2 0;C 2 1 2;E;
P;P;C 33 1 0;
C 1 1 2;C 1 2 0;E;
C 32 0 1;P;E;
C 0 0 1;E;E].
(** fhevm/src/codegen/codegen_ram_offset.rs:1035-1141 *)
Definition ram_offset_16 : bit_circuit := BC 3%nat [
C 48 1 0;C 48 0 1;E;
C 16 0 1;C 16 1 0;E;
P;P;C 47 0 1;
C 15 2 1;C 15 0 2;E;
P;P;C 46 1 0;
C 14 2 0;C 14 1 2;E;
P;P;C 45 1 0;
C 13 1 2;C 13 2 0;E;
P;P;C 44 0 1;
C 12 0 2;C 12 2 1;E;
P;P;C 43 0 1;
C 11 0 2;C 11 2 1;E;
P;P;C 42 0 1;
C 10 2 1;C 10 0 2;E;
P;P;C 41 1 0;
C 9 1 2;C 9 2 0;E;
P;P;C 40 0 1;
C 8 0 2;C 8 2 1;E;
P;P;C 39 0 1;
C 7 2 1;C 7 0 2;E;
P;P;C 38 1 0;
C 6 2 0;C 6 1 2;E;
P;P;C 37 1 0;
C 5 2 0;C 5 1 2;E;
P;P;C 36 1 0;
C 4 2 0;C 4 1 2;E;
P;P;C 35 1 0;
C 3 1 2;C 3 2 0;E;
P;P;C 34 0 1;
C 2 0 2;C 2 2 1;E;
P;P;C 33 0 1;
C 1 0 2;C 1 2 1;E;
C 32 0 1;P;E;
C 0 0 1;E;E].
(** fhevm/src/codegen/codegen_ram_offset.rs:1142-1254 *)
Definition ram_offset_17 : bit_circuit := BC 3%nat [
C 49 1 0;C 49 0 1;E;
C 17 1 0;C 17 0 1;E;
P;P;C 48 1 0;
C 16 1 2;C 16 2 0;E;
P;P;C 47 0 1;
C 15 2 1;C 15 0 2;E;
P;P;C 46 1 0;
C 14 2 0;C 14 1 2;E;
P;P;C 45 1 0;
C 13 1 2;C 13 2 0;E;
P;P;C 44 0 1;
C 12 0 2;C 12 2 1;E;
P;P;C 43 0 1;
C 11 0 2;C 11 2 1;E;
P;P;C 42 0 1;
C 10 0 2;C 10 2 1;E;
P;P;C 41 0 1;
C 9 2 1;C 9 0 2;E;
P;P;C 40 1 0;
C 8 1 2;C 8 2 0;E;
P;P;C 39 0 1;
C 7 2 1;C 7 0 2;E;
P;P;C 38 1 0;
C 6 1 2;C 6 2 0;E;
P;P;C 37 0 1;
C 5 2 1;C 5 0 2;E;
P;P;C 36 1 0;
C 4 2 0;C 4 1 2;E;
P;P;C 35 1 0;
C 3 1 2;C 3 2 0;E;
P;P;C 34 0 1;
C 2 0 2;C 2 2 1;E;
P;P;C 33 0 1;
C 1 2 1;C 1 0 2;E;
P;C 32 1 0;E;
C 0 1 0;E;E].
(** fhevm/src/codegen/codegen_ram_offset.rs:1255-1373 *)
Definition ram_offset_18 : bit_circuit := BC 3%nat [
C 50 0 1;C 50 1 0;E;
C 18 1 0;C 18 0 1;E;
P;P;C 49 1 0;
C 17 1 2;C 17 2 0;E;
P;P;C 48 0 1;
C 16 0 2;C 16 2 1;E;
P;P;C 47 0 1;
C 15 0 2;C 15 2 1;E;
P;P;C 46 0 1;
C 14 2 1;C 14 0 2;E;
P;P;C 45 1 0;
C 13 1 2;C 13 2 0;E;
P;P;C 44 0 1;
C 12 2 1;C 12 0 2;E;
P;P;C 43 1 0;
C 11 1 2;C 11 2 0;E;
P;P;C 42 0 1;
C 10 0 2;C 10 2 1;E;
P;P;C 41 0 1;
C 9 0 2;C 9 2 1;E;
P;P;C 40 0 1;
C 8 2 1;C 8 0 2;E;
P;P;C 39 1 0;
C 7 2 0;C 7 1 2;E;
P;P;C 38 1 0;
C 6 2 0;C 6 1 2;E;
P;P;C 37 1 0;
C 5 2 0;C 5 1 2;E;
P;P;C 36 1 0;
C 4 1 2;C 4 2 0;E;
P;P;C 35 0 1;
C 3 0 2;C 3 2 1;E;
P;P;C 34 0 1;
C 2 0 2;C 2 2 1;E;
P;P;C 33 0 1;
C 1 0 2;C 1 2 1;E;
C 32 0 1;P;E;
C 0 0 1;E;E].
(** fhevm/src/codegen/codegen_ram_offset.rs:1374-1498 *)
Definition ram_offset_19 : bit_circuit := BC 3%nat [
C 51 0 1;C 51 1 0;E;
C 19 1 0;C 19 0 1;E;
C 50 1 0;P;C 50 0 1;
C 18 1 0;C 18 2 1;E;
P;P;C 49 1 0;
C 17 1 2;C 17 2 0;E;
P;P;C 48 0 1;
C 16 0 2;C 16 2 1;E;
P;P;C 47 0 1;
C 15 0 2;C 15 2 1;E;
P;P;C 46 0 1;
C 14 0 2;C 14 2 1;E;
P;P;C 45 0 1;
C 13 2 1;C 13 0 2;E;
P;P;C 44 1 0;
C 12 1 2;C 12 2 0;E;
P;P;C 43 0 1;
C 11 2 1;C 11 0 2;E;
P;P;C 42 1 0;
C 10 1 2;C 10 2 0;E;
P;P;C 41 0 1;
C 9 2 1;C 9 0 2;E;
P;P;C 40 1 0;
C 8 1 2;C 8 2 0;E;
P;P;C 39 0 1;
C 7 2 1;C 7 0 2;E;
P;P;C 38 1 0;
C 6 2 0;C 6 1 2;E;
P;P;C 37 1 0;
C 5 2 0;C 5 1 2;E;
P;P;C 36 1 0;
C 4 2 0;C 4 1 2;E;
P;P;C 35 1 0;
C 3 2 0;C 3 1 2;E;
P;P;C 34 1 0;
C 2 1 2;C 2 2 0;E;
P;P;C 33 0 1;
C 1 0 2;C 1 2 1;E;
C 32 0 1;P;E;
C 0 0 1;E;E].
(** fhevm/src/codegen/codegen_ram_offset.rs:1499-1671 *)
Definition ram_offset_20 : bit_circuit := BC 4%nat [
C 52 0 1;C 52 1 0;E;E;
C 20 0 1;C 20 1 0;E;E;
P;P;C 51 1 0;C 51 0 1;
C 19 2 0;C 19 0 3;C 19 1 2;E;
P;C 50 2 0;C 50 0 1;E;
C 18 1 0;C 18 0 2;E;E;
P;P;C 49 0 1;E;
C 17 2 1;C 17 0 2;E;E;
P;P;C 48 1 0;E;
C 16 1 2;C 16 2 0;E;E;
P;P;C 47 0 1;E;
C 15 0 2;C 15 2 1;E;E;
P;P;C 46 0 1;E;
C 14 2 1;C 14 0 2;E;E;
P;P;C 45 1 0;E;
C 13 2 0;C 13 1 2;E;E;
P;P;C 44 1 0;E;
C 12 2 0;C 12 1 2;E;E;
P;P;C 43 1 0;E;
C 11 1 2;C 11 2 0;E;E;
P;P;C 42 0 1;E;
C 10 0 2;C 10 2 1;E;E;
P;P;C 41 0 1;E;
C 9 0 2;C 9 2 1;E;E;
P;P;C 40 0 1;E;
C 8 2 1;C 8 0 2;E;E;
P;P;C 39 1 0;E;
C 7 1 2;C 7 2 0;E;E;
P;P;C 38 0 1;E;
C 6 0 2;C 6 2 1;E;E;
P;P;C 37 0 1;E;
C 5 0 2;C 5 2 1;E;E;
P;P;C 36 0 1;E;
C 4 0 2;C 4 2 1;E;E;
P;P;C 35 0 1;E;
C 3 2 1;C 3 0 2;E;E;
P;P;C 34 1 0;E;
C 2 2 0;C 2 1 2;E;E;
P;P;C 33 1 0;E;
C 1 1 2;C 1 2 0;E;E;
C 32 0 1;P;E;E;
C 0 0 1;E;E;E].
(** fhevm/src/codegen/codegen_ram_offset.rs:1672-1852 *)
Definition ram_offset_21 : bit_circuit := BC 4%nat [
C 53 0 1;C 53 1 0;E;E;
C 21 1 0;C 21 0 1;E;E;
P;P;C 52 1 0;C 52 0 1;
C 20 0 3;C 20 3 1;C 20 1 2;E;
P;P;C 51 1 2;C 51 0 1;
C 19 0 3;C 19 3 1;C 19 1 2;E;
C 50 0 1;P;C 50 1 2;E;
C 18 0 1;C 18 1 2;E;E;
P;P;C 49 0 1;E;
C 17 0 2;C 17 2 1;E;E;
P;P;C 48 0 1;E;
C 16 0 2;C 16 2 1;E;E;
P;P;C 47 0 1;E;
C 15 2 1;C 15 0 2;E;E;
P;P;C 46 1 0;E;
C 14 2 0;C 14 1 2;E;E;
P;P;C 45 1 0;E;
C 13 2 0;C 13 1 2;E;E;
P;P;C 44 1 0;E;
C 12 1 2;C 12 2 0;E;E;
P;P;C 43 0 1;E;
C 11 0 2;C 11 2 1;E;E;
P;P;C 42 0 1;E;
C 10 0 2;C 10 2 1;E;E;
P;P;C 41 0 1;E;
C 9 0 2;C 9 2 1;E;E;
P;P;C 40 0 1;E;
C 8 2 1;C 8 0 2;E;E;
P;P;C 39 1 0;E;
C 7 1 2;C 7 2 0;E;E;
P;P;C 38 0 1;E;
C 6 2 1;C 6 0 2;E;E;
P;P;C 37 1 0;E;
C 5 1 2;C 5 2 0;E;E;
P;P;C 36 0 1;E;
C 4 0 2;C 4 2 1;E;E;
P;P;C 35 0 1;E;
C 3 2 1;C 3 0 2;E;E;
P;P;C 34 1 0;E;
C 2 1 2;C 2 2 0;E;E;
P;P;C 33 0 1;E;
C 1 0 2;C 1 2 1;E;E;
C 32 0 1;P;E;E;
C 0 0 1;E;E;E].
(** fhevm/src/codegen/codegen_ram_offset.rs:1853-2041 *)
Definition ram_offset_22 : bit_circuit := BC 4%nat [
C 54 0 1;C 54 1 0;E;E;
C 22 1 0;C 22 0 1;E;E;
P;P;C 53 0 1;C 53 1 0;
C 21 0 2;C 21 1 3;C 21 2 1;E;
P;C 52 2 1;P;C 52 0 2;
C 20 3 2;C 20 2 1;C 20 0 3;E;
P;C 51 0 1;P;C 51 2 0;
C 19 2 3;C 19 3 0;C 19 0 1;E;
C 50 1 2;P;C 50 0 1;E;
C 18 1 0;C 18 2 1;E;E;
P;P;C 49 1 0;E;
C 17 2 0;C 17 1 2;E;E;
P;P;C 48 1 0;E;
C 16 2 0;C 16 1 2;E;E;
P;P;C 47 1 0;E;
C 15 2 0;C 15 1 2;E;E;
P;P;C 46 1 0;E;
C 14 1 2;C 14 2 0;E;E;
P;P;C 45 0 1;E;
C 13 0 2;C 13 2 1;E;E;
P;P;C 44 0 1;E;
C 12 0 2;C 12 2 1;E;E;
P;P;C 43 0 1;E;
C 11 0 2;C 11 2 1;E;E;
P;P;C 42 0 1;E;
C 10 0 2;C 10 2 1;E;E;
P;P;C 41 0 1;E;
C 9 0 2;C 9 2 1;E;E;
P;P;C 40 0 1;E;
C 8 0 2;C 8 2 1;E;E;
P;P;C 39 0 1;E;
C 7 0 2;C 7 2 1;E;E;
P;P;C 38 0 1;E;
C 6 0 2;C 6 2 1;E;E;
P;P;C 37 0 1;E;
C 5 2 1;C 5 0 2;E;E;
P;P;C 36 1 0;E;
C 4 1 2;C 4 2 0;E;E;
P;P;C 35 0 1;E;
C 3 0 2;C 3 2 1;E;E;
P;P;C 34 0 1;E;
C 2 2 1;C 2 0 2;E;E;
P;P;C 33 1 0;E;
C 1 2 0;C 1 1 2;E;E;
P;C 32 1 0;E;E;
C 0 1 0;E;E;E].
(** fhevm/src/codegen/codegen_ram_offset.rs:2042-2238 *)
Definition ram_offset_23 : bit_circuit := BC 4%nat [
C 55 1 0;C 55 0 1;E;E;
C 23 1 0;C 23 0 1;E;E;
P;P;C 54 0 1;C 54 1 0;
C 22 3 0;C 22 0 2;C 22 1 3;E;
P;C 53 0 1;P;C 53 2 0;
C 21 2 3;C 21 3 0;C 21 0 1;E;
P;P;C 52 0 1;C 52 1 2;
C 20 1 3;C 20 0 2;C 20 2 1;E;
C 51 2 0;P;P;C 51 1 2;
C 19 3 2;C 19 2 0;C 19 1 3;E;
P;C 50 2 0;C 50 0 1;E;
C 18 1 0;C 18 0 2;E;E;
P;P;C 49 0 1;E;
C 17 2 1;C 17 0 2;E;E;
P;P;C 48 1 0;E;
C 16 2 0;C 16 1 2;E;E;
P;P;C 47 1 0;E;
C 15 1 2;C 15 2 0;E;E;
P;P;C 46 0 1;E;
C 14 2 1;C 14 0 2;E;E;
P;P;C 45 1 0;E;
C 13 1 2;C 13 2 0;E;E;
P;P;C 44 0 1;E;
C 12 2 1;C 12 0 2;E;E;
P;P;C 43 1 0;E;
C 11 1 2;C 11 2 0;E;E;
P;P;C 42 0 1;E;
C 10 2 1;C 10 0 2;E;E;
P;P;C 41 1 0;E;
C 9 2 0;C 9 1 2;E;E;
P;P;C 40 1 0;E;
C 8 1 2;C 8 2 0;E;E;
P;P;C 39 0 1;E;
C 7 2 1;C 7 0 2;E;E;
P;P;C 38 1 0;E;
C 6 2 0;C 6 1 2;E;E;
P;P;C 37 1 0;E;
C 5 2 0;C 5 1 2;E;E;
P;P;C 36 1 0;E;
C 4 2 0;C 4 1 2;E;E;
P;P;C 35 1 0;E;
C 3 1 2;C 3 2 0;E;E;
P;P;C 34 0 1;E;
C 2 0 2;C 2 2 1;E;E;
P;P;C 33 0 1;E;
C 1 0 2;C 1 2 1;E;E;
C 32 0 1;P;E;E;
C 0 0 1;E;E;E].
(** fhevm/src/codegen/codegen_ram_offset.rs:2239-2443 *)
Definition ram_offset_24 : bit_circuit := BC 4%nat [
C 56 0 1;C 56 1 0;E;E;
C 24 1 0;C 24 0 1;E;E;
P;P;C 55 0 1;C 55 1 0;
C 23 2 1;C 23 0 2;C 23 1 3;E;
P;P;C 54 1 0;C 54 0 2;
C 22 0 3;C 22 2 0;C 22 1 2;E;
C 53 1 0;P;P;C 53 2 1;
C 21 1 0;C 21 3 1;C 21 2 3;E;
C 52 1 0;P;P;C 52 2 1;
C 20 1 0;C 20 3 1;C 20 2 3;E;
C 51 1 0;P;P;C 51 2 1;
C 19 3 1;C 19 2 3;C 19 1 0;E;
P;C 50 0 2;C 50 1 0;E;
C 18 0 1;C 18 2 0;E;E;
P;P;C 49 1 0;E;
C 17 2 0;C 17 1 2;E;E;
P;P;C 48 1 0;E;
C 16 2 0;C 16 1 2;E;E;
P;P;C 47 1 0;E;
C 15 1 2;C 15 2 0;E;E;
P;P;C 46 0 1;E;
C 14 0 2;C 14 2 1;E;E;
P;P;C 45 0 1;E;
C 13 0 2;C 13 2 1;E;E;
P;P;C 44 0 1;E;
C 12 2 1;C 12 0 2;E;E;
P;P;C 43 1 0;E;
C 11 2 0;C 11 1 2;E;E;
P;P;C 42 1 0;E;
C 10 2 0;C 10 1 2;E;E;
P;P;C 41 1 0;E;
C 9 1 2;C 9 2 0;E;E;
P;P;C 40 0 1;E;
C 8 0 2;C 8 2 1;E;E;
P;P;C 39 0 1;E;
C 7 0 2;C 7 2 1;E;E;
P;P;C 38 0 1;E;
C 6 2 1;C 6 0 2;E;E;
P;P;C 37 1 0;E;
C 5 1 2;C 5 2 0;E;E;
P;P;C 36 0 1;E;
C 4 0 2;C 4 2 1;E;E;
P;P;C 35 0 1;E;
C 3 0 2;C 3 2 1;E;E;
P;P;C 34 0 1;E;
C 2 2 1;C 2 0 2;E;E;
P;P;C 33 1 0;E;
C 1 2 0;C 1 1 2;E;E;
P;C 32 1 0;E;E;
C 0 1 0;E;E;E].
(** fhevm/src/codegen/codegen_ram_offset.rs:2444-2656 *)
Definition ram_offset_25 : bit_circuit := BC 4%nat [
C 57 0 1;C 57 1 0;E;E;
C 25 0 1;C 25 1 0;E;E;
P;P;C 56 1 0;C 56 0 1;
C 24 2 0;C 24 0 3;C 24 1 2;E;
P;C 55 0 1;P;C 55 2 0;
C 23 2 3;C 23 0 1;C 23 3 0;E;
P;C 54 0 2;P;C 54 2 1;
C 22 1 2;C 22 0 1;C 22 2 3;E;
P;P;C 53 1 0;C 53 0 2;
C 21 2 0;C 21 0 3;C 21 1 2;E;
P;C 52 0 1;P;C 52 2 0;
C 20 3 0;C 20 2 3;C 20 0 1;E;
P;P;C 51 1 0;C 51 0 2;
C 19 0 3;C 19 2 0;C 19 1 2;E;
C 50 2 1;P;C 50 1 0;E;
C 18 0 1;C 18 1 2;E;E;
P;P;C 49 0 1;E;
C 17 2 1;C 17 0 2;E;E;
P;P;C 48 1 0;E;
C 16 1 2;C 16 2 0;E;E;
P;P;C 47 0 1;E;
C 15 2 1;C 15 0 2;E;E;
P;P;C 46 1 0;E;
C 14 1 2;C 14 2 0;E;E;
P;P;C 45 0 1;E;
C 13 2 1;C 13 0 2;E;E;
P;P;C 44 1 0;E;
C 12 1 2;C 12 2 0;E;E;
P;P;C 43 0 1;E;
C 11 0 2;C 11 2 1;E;E;
P;P;C 42 0 1;E;
C 10 2 1;C 10 0 2;E;E;
P;P;C 41 1 0;E;
C 9 2 0;C 9 1 2;E;E;
P;P;C 40 1 0;E;
C 8 2 0;C 8 1 2;E;E;
P;P;C 39 1 0;E;
C 7 2 0;C 7 1 2;E;E;
P;P;C 38 1 0;E;
C 6 2 0;C 6 1 2;E;E;
P;P;C 37 1 0;E;
C 5 2 0;C 5 1 2;E;E;
P;P;C 36 1 0;E;
C 4 1 2;C 4 2 0;E;E;
P;P;C 35 0 1;E;
C 3 0 2;C 3 2 1;E;E;
P;P;C 34 0 1;E;
C 2 2 1;C 2 0 2;E;E;
P;P;C 33 1 0;E;
C 1 2 0;C 1 1 2;E;E;
P;C 32 1 0;E;E;
C 0 1 0;E;E;E].
(** fhevm/src/codegen/codegen_ram_offset.rs:2657-2877 *)
Definition ram_offset_26 : bit_circuit := BC 4%nat [
C 58 0 1;C 58 1 0;E;E;
C 26 1 0;C 26 0 1;E;E;
P;P;C 57 1 0;C 57 0 1;
C 25 0 3;C 25 1 2;C 25 3 1;E;
P;C 56 2 1;P;C 56 0 2;
C 24 2 1;C 24 0 3;C 24 3 2;E;
C 55 1 2;P;P;C 55 2 0;
C 23 1 0;C 23 0 2;C 23 2 3;E;
P;P;C 54 1 2;C 54 0 1;
C 22 0 3;C 22 1 2;C 22 3 1;E;
P;C 53 2 1;P;C 53 0 2;
C 21 2 1;C 21 0 3;C 21 3 2;E;
C 52 2 0;P;P;C 52 1 2;
C 20 3 2;C 20 1 3;C 20 2 0;E;
P;P;C 51 0 2;C 51 1 0;
C 19 0 2;C 19 1 3;C 19 3 0;E;
C 50 1 2;C 50 2 0;P;E;
C 18 0 2;C 18 2 1;E;E;
P;P;C 49 0 1;E;
C 17 2 1;C 17 0 2;E;E;
P;P;C 48 1 0;E;
C 16 2 0;C 16 1 2;E;E;
P;P;C 47 1 0;E;
C 15 1 2;C 15 2 0;E;E;
P;P;C 46 0 1;E;
C 14 0 2;C 14 2 1;E;E;
P;P;C 45 0 1;E;
C 13 2 1;C 13 0 2;E;E;
P;P;C 44 1 0;E;
C 12 1 2;C 12 2 0;E;E;
P;P;C 43 0 1;E;
C 11 2 1;C 11 0 2;E;E;
P;P;C 42 1 0;E;
C 10 2 0;C 10 1 2;E;E;
P;P;C 41 1 0;E;
C 9 1 2;C 9 2 0;E;E;
P;P;C 40 0 1;E;
C 8 2 1;C 8 0 2;E;E;
P;P;C 39 1 0;E;
C 7 1 2;C 7 2 0;E;E;
P;P;C 38 0 1;E;
C 6 0 2;C 6 2 1;E;E;
P;P;C 37 0 1;E;
C 5 0 2;C 5 2 1;E;E;
P;P;C 36 0 1;E;
C 4 0 2;C 4 2 1;E;E;
P;P;C 35 0 1;E;
C 3 2 1;C 3 0 2;E;E;
P;P;C 34 1 0;E;
C 2 2 0;C 2 1 2;E;E;
P;P;C 33 1 0;E;
C 1 1 2;C 1 2 0;E;E;
C 32 0 1;P;E;E;
C 0 0 1;E;E;E].
(** fhevm/src/codegen/codegen_ram_offset.rs:2878-3106 *)
Definition ram_offset_27 : bit_circuit := BC 4%nat [
C 59 0 1;C 59 1 0;E;E;
C 27 0 1;C 27 1 0;E;E;
P;P;C 58 0 1;C 58 1 0;
C 26 1 3;C 26 0 2;C 26 3 0;E;
P;C 57 0 2;P;C 57 2 1;
C 25 1 2;C 25 0 1;C 25 2 3;E;
P;P;C 56 0 2;C 56 1 0;
C 24 3 0;C 24 1 3;C 24 0 2;E;
P;P;C 55 1 0;C 55 0 2;
C 23 2 0;C 23 1 2;C 23 0 3;E;
P;P;C 54 0 2;C 54 1 0;
C 22 3 0;C 22 1 3;C 22 0 2;E;
P;P;C 53 1 0;C 53 0 2;
C 21 2 0;C 21 1 2;C 21 0 3;E;
P;P;C 52 0 2;C 52 1 0;
C 20 3 0;C 20 0 2;C 20 1 3;E;
P;C 51 2 0;P;C 51 0 1;
C 19 2 1;C 19 1 0;C 19 0 3;E;
C 50 1 2;P;C 50 0 1;E;
C 18 2 1;C 18 1 0;E;E;
P;P;C 49 0 1;E;
C 17 2 1;C 17 0 2;E;E;
P;P;C 48 1 0;E;
C 16 1 2;C 16 2 0;E;E;
P;P;C 47 0 1;E;
C 15 0 2;C 15 2 1;E;E;
P;P;C 46 0 1;E;
C 14 2 1;C 14 0 2;E;E;
P;P;C 45 1 0;E;
C 13 1 2;C 13 2 0;E;E;
P;P;C 44 0 1;E;
C 12 2 1;C 12 0 2;E;E;
P;P;C 43 1 0;E;
C 11 1 2;C 11 2 0;E;E;
P;P;C 42 0 1;E;
C 10 0 2;C 10 2 1;E;E;
P;P;C 41 0 1;E;
C 9 0 2;C 9 2 1;E;E;
P;P;C 40 0 1;E;
C 8 2 1;C 8 0 2;E;E;
P;P;C 39 1 0;E;
C 7 1 2;C 7 2 0;E;E;
P;P;C 38 0 1;E;
C 6 2 1;C 6 0 2;E;E;
P;P;C 37 1 0;E;
C 5 1 2;C 5 2 0;E;E;
P;P;C 36 0 1;E;
C 4 0 2;C 4 2 1;E;E;
P;P;C 35 0 1;E;
C 3 2 1;C 3 0 2;E;E;
P;P;C 34 1 0;E;
C 2 2 0;C 2 1 2;E;E;
P;P;C 33 1 0;E;
C 1 2 0;C 1 1 2;E;E;
P;C 32 1 0;E;E;
C 0 1 0;E;E;E].
(** fhevm/src/codegen/codegen_ram_offset.rs:3107-3343 *)
Definition ram_offset_28 : bit_circuit := BC 4%nat [
C 60 1 0;C 60 0 1;E;E;
C 28 1 0;C 28 0 1;E;E;
P;P;C 59 0 1;C 59 1 0;
C 27 3 0;C 27 0 2;C 27 1 3;E;
P;C 58 2 0;P;C 58 0 1;
C 26 1 0;C 26 2 1;C 26 0 3;E;
P;P;C 57 0 2;C 57 1 0;
C 25 3 0;C 25 0 2;C 25 1 3;E;
P;C 56 2 0;P;C 56 0 1;
C 24 0 3;C 24 1 0;C 24 2 1;E;
C 55 2 1;P;P;C 55 1 0;
C 23 0 1;C 23 1 3;C 23 2 0;E;
P;C 54 2 0;P;C 54 0 1;
C 22 2 1;C 22 1 0;C 22 0 3;E;
P;P;C 53 0 1;C 53 1 2;
C 21 0 2;C 21 1 3;C 21 2 1;E;
P;C 52 0 2;P;C 52 2 1;
C 20 1 2;C 20 0 1;C 20 2 3;E;
P;P;C 51 1 0;C 51 0 2;
C 19 0 3;C 19 2 0;C 19 1 2;E;
C 50 1 0;P;C 50 2 1;E;
C 18 2 1;C 18 1 0;E;E;
P;P;C 49 0 1;E;
C 17 2 1;C 17 0 2;E;E;
P;P;C 48 1 0;E;
C 16 2 0;C 16 1 2;E;E;
P;P;C 47 1 0;E;
C 15 2 0;C 15 1 2;E;E;
P;P;C 46 1 0;E;
C 14 2 0;C 14 1 2;E;E;
P;P;C 45 1 0;E;
C 13 2 0;C 13 1 2;E;E;
P;P;C 44 1 0;E;
C 12 2 0;C 12 1 2;E;E;
P;P;C 43 1 0;E;
C 11 2 0;C 11 1 2;E;E;
P;P;C 42 1 0;E;
C 10 1 2;C 10 2 0;E;E;
P;P;C 41 0 1;E;
C 9 2 1;C 9 0 2;E;E;
P;P;C 40 1 0;E;
C 8 2 0;C 8 1 2;E;E;
P;P;C 39 1 0;E;
C 7 2 0;C 7 1 2;E;E;
P;P;C 38 1 0;E;
C 6 2 0;C 6 1 2;E;E;
P;P;C 37 1 0;E;
C 5 1 2;C 5 2 0;E;E;
P;P;C 36 0 1;E;
C 4 0 2;C 4 2 1;E;E;
P;P;C 35 0 1;E;
C 3 2 1;C 3 0 2;E;E;
P;P;C 34 1 0;E;
C 2 1 2;C 2 2 0;E;E;
P;P;C 33 0 1;E;
C 1 0 2;C 1 2 1;E;E;
C 32 0 1;P;E;E;
C 0 0 1;E;E;E].
(** fhevm/src/codegen/codegen_ram_offset.rs:3344-3588 *)
Definition ram_offset_29 : bit_circuit := BC 4%nat [
C 61 1 0;C 61 0 1;E;E;
C 29 1 0;C 29 0 1;E;E;
P;P;C 60 0 1;C 60 1 0;
C 28 0 2;C 28 1 3;C 28 3 0;E;
C 59 1 2;P;P;C 59 2 0;
C 27 0 2;C 27 2 3;C 27 1 0;E;
P;C 58 0 1;P;C 58 2 0;
C 26 3 0;C 26 0 1;C 26 2 3;E;
P;C 57 0 1;P;C 57 2 0;
C 25 2 3;C 25 0 1;C 25 3 0;E;
P;C 56 0 2;P;C 56 2 1;
C 24 0 1;C 24 2 3;C 24 1 2;E;
P;C 55 0 2;P;C 55 2 1;
C 23 0 1;C 23 1 2;C 23 2 3;E;
P;P;C 54 1 2;C 54 0 1;
C 22 0 3;C 22 1 2;C 22 3 1;E;
P;C 53 2 1;P;C 53 0 2;
C 21 3 2;C 21 2 1;C 21 0 3;E;
P;C 52 2 0;P;C 52 0 1;
C 20 1 0;C 20 0 3;C 20 2 1;E;
P;C 51 2 0;P;C 51 0 1;
C 19 0 3;C 19 1 0;C 19 2 1;E;
C 50 1 0;P;C 50 2 1;E;
C 18 2 1;C 18 1 0;E;E;
P;P;C 49 0 1;E;
C 17 0 2;C 17 2 1;E;E;
P;P;C 48 0 1;E;
C 16 0 2;C 16 2 1;E;E;
P;P;C 47 0 1;E;
C 15 2 1;C 15 0 2;E;E;
P;P;C 46 1 0;E;
C 14 2 0;C 14 1 2;E;E;
P;P;C 45 1 0;E;
C 13 2 0;C 13 1 2;E;E;
P;P;C 44 1 0;E;
C 12 2 0;C 12 1 2;E;E;
P;P;C 43 1 0;E;
C 11 1 2;C 11 2 0;E;E;
P;P;C 42 0 1;E;
C 10 0 2;C 10 2 1;E;E;
P;P;C 41 0 1;E;
C 9 0 2;C 9 2 1;E;E;
P;P;C 40 0 1;E;
C 8 0 2;C 8 2 1;E;E;
P;P;C 39 0 1;E;
C 7 0 2;C 7 2 1;E;E;
P;P;C 38 0 1;E;
C 6 0 2;C 6 2 1;E;E;
P;P;C 37 0 1;E;
C 5 2 1;C 5 0 2;E;E;
P;P;C 36 1 0;E;
C 4 1 2;C 4 2 0;E;E;
P;P;C 35 0 1;E;
C 3 0 2;C 3 2 1;E;E;
P;P;C 34 0 1;E;
C 2 2 1;C 2 0 2;E;E;
P;P;C 33 1 0;E;
C 1 1 2;C 1 2 0;E;E;
C 32 0 1;P;E;E;
C 0 0 1;E;E;E].
(** fhevm/src/codegen/codegen_ram_offset.rs:3589-3841 *)
Definition ram_offset_30 : bit_circuit := BC 4%nat [
C 62 0 1;C 62 1 0;E;E;
C 30 0 1;C 30 1 0;E;E;
P;P;C 61 0 1;C 61 1 0;
C 29 3 0;C 29 0 2;C 29 1 3;E;
P;C 60 0 1;P;C 60 2 0;
C 28 3 0;C 28 0 1;C 28 2 3;E;
P;C 59 0 1;P;C 59 2 0;
C 27 3 0;C 27 2 3;C 27 0 1;E;
P;P;C 58 1 0;C 58 0 2;
C 26 0 3;C 26 2 0;C 26 1 2;E;
C 57 2 1;P;P;C 57 1 0;
C 25 0 1;C 25 1 3;C 25 2 0;E;
P;C 56 0 1;P;C 56 2 0;
C 24 2 3;C 24 3 0;C 24 0 1;E;
P;P;C 55 0 1;C 55 1 2;
C 23 0 2;C 23 2 1;C 23 1 3;E;
P;P;C 54 0 1;C 54 1 2;
C 22 0 2;C 22 1 3;C 22 2 1;E;
P;C 53 2 1;P;C 53 0 2;
C 21 2 1;C 21 0 3;C 21 3 2;E;
C 52 2 0;P;P;C 52 1 2;
C 20 2 0;C 20 3 2;C 20 1 3;E;
C 51 2 1;P;P;C 51 1 0;
C 19 1 3;C 19 0 1;C 19 2 0;E;
C 50 1 0;P;C 50 2 1;E;
C 18 2 1;C 18 1 0;E;E;
P;P;C 49 0 1;E;
C 17 0 2;C 17 2 1;E;E;
P;P;C 48 0 1;E;
C 16 0 2;C 16 2 1;E;E;
P;P;C 47 0 1;E;
C 15 0 2;C 15 2 1;E;E;
P;P;C 46 0 1;E;
C 14 0 2;C 14 2 1;E;E;
P;P;C 45 0 1;E;
C 13 0 2;C 13 2 1;E;E;
P;P;C 44 0 1;E;
C 12 2 1;C 12 0 2;E;E;
P;P;C 43 1 0;E;
C 11 1 2;C 11 2 0;E;E;
P;P;C 42 0 1;E;
C 10 2 1;C 10 0 2;E;E;
P;P;C 41 1 0;E;
C 9 1 2;C 9 2 0;E;E;
P;P;C 40 0 1;E;
C 8 0 2;C 8 2 1;E;E;
P;P;C 39 0 1;E;
C 7 2 1;C 7 0 2;E;E;
P;P;C 38 1 0;E;
C 6 2 0;C 6 1 2;E;E;
P;P;C 37 1 0;E;
C 5 1 2;C 5 2 0;E;E;
P;P;C 36 0 1;E;
C 4 0 2;C 4 2 1;E;E;
P;P;C 35 0 1;E;
C 3 2 1;C 3 0 2;E;E;
P;P;C 34 1 0;E;
C 2 2 0;C 2 1 2;E;E;
P;P;C 33 1 0;E;
C 1 1 2;C 1 2 0;E;E;
C 32 0 1;P;E;E;
C 0 0 1;E;E;E].
(** fhevm/src/codegen/codegen_ram_offset.rs:3842-4102 *)
Definition ram_offset_31 : bit_circuit := BC 4%nat [
C 63 0 1;C 63 1 0;E;E;
C 31 0 1;C 31 1 0;E;E;
P;P;C 62 0 1;C 62 1 0;
C 30 0 2;C 30 1 3;C 30 3 0;E;
C 61 2 0;P;P;C 61 1 2;
C 29 3 2;C 29 1 3;C 29 2 0;E;
P;P;C 60 1 0;C 60 0 2;
C 28 0 3;C 28 2 0;C 28 1 2;E;
C 59 1 0;P;P;C 59 2 1;
C 27 3 1;C 27 2 3;C 27 1 0;E;
P;P;C 58 0 2;C 58 1 0;
C 26 3 0;C 26 0 2;C 26 1 3;E;
P;C 57 0 1;P;C 57 2 0;
C 25 0 1;C 25 3 0;C 25 2 3;E;
C 56 1 0;P;P;C 56 2 1;
C 24 2 3;C 24 3 1;C 24 1 0;E;
P;P;C 55 1 2;C 55 0 1;
C 23 0 3;C 23 1 2;C 23 3 1;E;
P;C 54 0 2;P;C 54 2 1;
C 22 2 3;C 22 0 1;C 22 1 2;E;
C 53 1 2;P;P;C 53 2 0;
C 21 0 2;C 21 2 3;C 21 1 0;E;
P;C 52 0 1;P;C 52 2 0;
C 20 3 0;C 20 0 1;C 20 2 3;E;
P;C 51 0 1;P;C 51 2 0;
C 19 3 0;C 19 2 3;C 19 0 1;E;
P;C 50 0 2;C 50 1 0;E;
C 18 0 1;C 18 2 0;E;E;
P;P;C 49 1 0;E;
C 17 2 0;C 17 1 2;E;E;
P;P;C 48 1 0;E;
C 16 2 0;C 16 1 2;E;E;
P;P;C 47 1 0;E;
C 15 2 0;C 15 1 2;E;E;
P;P;C 46 1 0;E;
C 14 1 2;C 14 2 0;E;E;
P;P;C 45 0 1;E;
C 13 0 2;C 13 2 1;E;E;
P;P;C 44 0 1;E;
C 12 2 1;C 12 0 2;E;E;
P;P;C 43 1 0;E;
C 11 1 2;C 11 2 0;E;E;
P;P;C 42 0 1;E;
C 10 2 1;C 10 0 2;E;E;
P;P;C 41 1 0;E;
C 9 2 0;C 9 1 2;E;E;
P;P;C 40 1 0;E;
C 8 1 2;C 8 2 0;E;E;
P;P;C 39 0 1;E;
C 7 0 2;C 7 2 1;E;E;
P;P;C 38 0 1;E;
C 6 2 1;C 6 0 2;E;E;
P;P;C 37 1 0;E;
C 5 2 0;C 5 1 2;E;E;
P;P;C 36 1 0;E;
C 4 1 2;C 4 2 0;E;E;
P;P;C 35 0 1;E;
C 3 0 2;C 3 2 1;E;E;
P;P;C 34 0 1;E;
C 2 2 1;C 2 0 2;E;E;
P;P;C 33 1 0;E;
C 1 1 2;C 1 2 0;E;E;
C 32 0 1;P;E;E;
C 0 0 1;E;E;E].

(** fhevm/src/codegen/codegen_ram_offset.rs: OUTPUT_CIRCUITS, with the declared INPUT_BITS *)
Definition ram_offset_circuit : circuit := MkCircuit 64 [
ram_offset_0;
ram_offset_1;
ram_offset_2;
ram_offset_3;
ram_offset_4;
ram_offset_5;
ram_offset_6;
ram_offset_7;
ram_offset_8;
ram_offset_9;
ram_offset_10;
ram_offset_11;
ram_offset_12;
ram_offset_13;
ram_offset_14;
ram_offset_15;
ram_offset_16;
ram_offset_17;
ram_offset_18;
ram_offset_19;
ram_offset_20;
ram_offset_21;
ram_offset_22;
ram_offset_23;
ram_offset_24;
ram_offset_25;
ram_offset_26;
ram_offset_27;
ram_offset_28;
ram_offset_29;
ram_offset_30;
ram_offset_31].
