(** Generated by tools/gen_circuits.py from fhevm/src/codegen/codegen_auipc.rs; do not edit. *)
Require Import NArith List.
Require Import Verif.Bdd.
Import ListNotations.
Open Scope N_scope.

(** fhevm/src/codegen/codegen_auipc.rs:147-147 *)
Definition auipc_0 : bit_circuit := BC 2%nat [
C 0 1 0;E].
(** fhevm/src/codegen/codegen_auipc.rs:148-148 *)
Definition auipc_1 : bit_circuit := BC 2%nat [
C 1 1 0;E].
(** fhevm/src/codegen/codegen_auipc.rs:149-149 *)
Definition auipc_2 : bit_circuit := BC 2%nat [
C 2 1 0;E].
(** fhevm/src/codegen/codegen_auipc.rs:150-150 *)
Definition auipc_3 : bit_circuit := BC 2%nat [
C 3 1 0;E].
(** fhevm/src/codegen/codegen_auipc.rs:151-151 *)
Definition auipc_4 : bit_circuit := BC 2%nat [
C 4 1 0;E].
(** fhevm/src/codegen/codegen_auipc.rs:152-152 *)
Definition auipc_5 : bit_circuit := BC 2%nat [
C 5 1 0;E].
(** fhevm/src/codegen/codegen_auipc.rs:153-153 *)
Definition auipc_6 : bit_circuit := BC 2%nat [
C 6 1 0;E].
(** fhevm/src/codegen/codegen_auipc.rs:154-154 *)
Definition auipc_7 : bit_circuit := BC 2%nat [
C 7 1 0;E].
(** fhevm/src/codegen/codegen_auipc.rs:155-155 *)
Definition auipc_8 : bit_circuit := BC 2%nat [
C 8 1 0;E].
(** fhevm/src/codegen/codegen_auipc.rs:156-156 *)
Definition auipc_9 : bit_circuit := BC 2%nat [
C 9 1 0;E].
(** fhevm/src/codegen/codegen_auipc.rs:157-157 *)
Definition auipc_10 : bit_circuit := BC 2%nat [
C 10 1 0;E].
(** fhevm/src/codegen/codegen_auipc.rs:158-158 *)
Definition auipc_11 : bit_circuit := BC 2%nat [
C 11 1 0;E].
(** fhevm/src/codegen/codegen_auipc.rs:159-167 *)
Definition auipc_12 : bit_circuit := BC 2%nat [
C 32 0 1;C 32 1 0;
C 12 0 1;E].
(** fhevm/src/codegen/codegen_auipc.rs:168-180 *)
Definition auipc_13 : bit_circuit := BC 2%nat [
C 33 1 0;C 33 0 1;
C 13 0 1;C 13 1 0;
C 32 0 1;P;
C 12 0 1;E].
(** fhevm/src/codegen/codegen_auipc.rs:181-203 *)
Definition auipc_14 : bit_circuit := BC 3%nat [
C 34 0 1;C 34 1 0;E;
C 14 0 1;C 14 1 0;E;
P;P;C 33 1 0;
C 13 1 2;C 13 2 0;E;
C 32 0 1;P;E;
C 12 0 1;E;E].
(** fhevm/src/codegen/codegen_auipc.rs:204-232 *)
Definition auipc_15 : bit_circuit := BC 3%nat [
C 35 1 0;C 35 0 1;E;
C 15 1 0;C 15 0 1;E;
P;P;C 34 1 0;
C 14 2 0;C 14 1 2;E;
P;P;C 33 1 0;
C 13 2 0;C 13 1 2;E;
P;C 32 1 0;E;
C 12 1 0;E;E].
(** fhevm/src/codegen/codegen_auipc.rs:233-267 *)
Definition auipc_16 : bit_circuit := BC 3%nat [
C 36 0 1;C 36 1 0;E;
C 16 1 0;C 16 0 1;E;
P;P;C 35 0 1;
C 15 0 2;C 15 2 1;E;
P;P;C 34 0 1;
C 14 0 2;C 14 2 1;E;
P;P;C 33 0 1;
C 13 2 1;C 13 0 2;E;
P;C 32 1 0;E;
C 12 1 0;E;E].
(** fhevm/src/codegen/codegen_auipc.rs:268-308 *)
Definition auipc_17 : bit_circuit := BC 3%nat [
C 37 0 1;C 37 1 0;E;
C 17 1 0;C 17 0 1;E;
P;P;C 36 0 1;
C 16 0 2;C 16 2 1;E;
P;P;C 35 0 1;
C 15 2 1;C 15 0 2;E;
P;P;C 34 1 0;
C 14 1 2;C 14 2 0;E;
P;P;C 33 0 1;
C 13 2 1;C 13 0 2;E;
P;C 32 1 0;E;
C 12 1 0;E;E].
(** fhevm/src/codegen/codegen_auipc.rs:309-355 *)
Definition auipc_18 : bit_circuit := BC 3%nat [
C 38 0 1;C 38 1 0;E;
C 18 0 1;C 18 1 0;E;
P;P;C 37 1 0;
C 17 2 0;C 17 1 2;E;
P;P;C 36 1 0;
C 16 2 0;C 16 1 2;E;
P;P;C 35 1 0;
C 15 1 2;C 15 2 0;E;
P;P;C 34 0 1;
C 14 2 1;C 14 0 2;E;
P;P;C 33 1 0;
C 13 1 2;C 13 2 0;E;
C 32 0 1;P;E;
C 12 0 1;E;E].
(** fhevm/src/codegen/codegen_auipc.rs:356-408 *)
Definition auipc_19 : bit_circuit := BC 3%nat [
C 39 0 1;C 39 1 0;E;
C 19 0 1;C 19 1 0;E;
P;P;C 38 1 0;
C 18 1 2;C 18 2 0;E;
P;P;C 37 0 1;
C 17 2 1;C 17 0 2;E;
P;P;C 36 1 0;
C 16 2 0;C 16 1 2;E;
P;P;C 35 1 0;
C 15 1 2;C 15 2 0;E;
P;P;C 34 0 1;
C 14 2 1;C 14 0 2;E;
P;P;C 33 1 0;
C 13 2 0;C 13 1 2;E;
P;C 32 1 0;E;
C 12 1 0;E;E].
(** fhevm/src/codegen/codegen_auipc.rs:409-467 *)
Definition auipc_20 : bit_circuit := BC 3%nat [
C 40 0 1;C 40 1 0;E;
C 20 1 0;C 20 0 1;E;
P;P;C 39 0 1;
C 19 2 1;C 19 0 2;E;
P;P;C 38 1 0;
C 18 2 0;C 18 1 2;E;
P;P;C 37 1 0;
C 17 1 2;C 17 2 0;E;
P;P;C 36 0 1;
C 16 2 1;C 16 0 2;E;
P;P;C 35 1 0;
C 15 1 2;C 15 2 0;E;
P;P;C 34 0 1;
C 14 2 1;C 14 0 2;E;
P;P;C 33 1 0;
C 13 1 2;C 13 2 0;E;
C 32 0 1;P;E;
C 12 0 1;E;E].
(** fhevm/src/codegen/codegen_auipc.rs:468-532 *)
Definition auipc_21 : bit_circuit := BC 3%nat [
C 41 1 0;C 41 0 1;E;
C 21 0 1;C 21 1 0;E;
P;P;C 40 0 1;
C 20 0 2;C 20 2 1;E;
P;P;C 39 0 1;
C 19 2 1;C 19 0 2;E;
P;P;C 38 1 0;
C 18 2 0;C 18 1 2;E;
P;P;C 37 1 0;
C 17 1 2;C 17 2 0;E;
P;P;C 36 0 1;
C 16 2 1;C 16 0 2;E;
P;P;C 35 1 0;
C 15 2 0;C 15 1 2;E;
P;P;C 34 1 0;
C 14 1 2;C 14 2 0;E;
P;P;C 33 0 1;
C 13 2 1;C 13 0 2;E;
P;C 32 1 0;E;
C 12 1 0;E;E].
(** fhevm/src/codegen/codegen_auipc.rs:533-603 *)
Definition auipc_22 : bit_circuit := BC 3%nat [
C 42 0 1;C 42 1 0;E;
C 22 0 1;C 22 1 0;E;
P;P;C 41 1 0;
C 21 2 0;C 21 1 2;E;
P;P;C 40 1 0;
C 20 1 2;C 20 2 0;E;
P;P;C 39 0 1;
C 19 0 2;C 19 2 1;E;
P;P;C 38 0 1;
C 18 0 2;C 18 2 1;E;
P;P;C 37 0 1;
C 17 2 1;C 17 0 2;E;
P;P;C 36 1 0;
C 16 2 0;C 16 1 2;E;
P;P;C 35 1 0;
C 15 1 2;C 15 2 0;E;
P;P;C 34 0 1;
C 14 2 1;C 14 0 2;E;
P;P;C 33 1 0;
C 13 1 2;C 13 2 0;E;
C 32 0 1;P;E;
C 12 0 1;E;E].
(** fhevm/src/codegen/codegen_auipc.rs:604-680 *)
Definition auipc_23 : bit_circuit := BC 3%nat [
C 43 1 0;C 43 0 1;E;
C 23 0 1;C 23 1 0;E;
P;P;C 42 0 1;
C 22 2 1;C 22 0 2;E;
P;P;C 41 1 0;
C 21 2 0;C 21 1 2;E;
P;P;C 40 1 0;
C 20 1 2;C 20 2 0;E;
P;P;C 39 0 1;
C 19 2 1;C 19 0 2;E;
P;P;C 38 1 0;
C 18 2 0;C 18 1 2;E;
P;P;C 37 1 0;
C 17 1 2;C 17 2 0;E;
P;P;C 36 0 1;
C 16 2 1;C 16 0 2;E;
P;P;C 35 1 0;
C 15 2 0;C 15 1 2;E;
P;P;C 34 1 0;
C 14 1 2;C 14 2 0;E;
P;P;C 33 0 1;
C 13 2 1;C 13 0 2;E;
P;C 32 1 0;E;
C 12 1 0;E;E].
(** fhevm/src/codegen/codegen_auipc.rs:681-763 *)
Definition auipc_24 : bit_circuit := BC 3%nat [
C 44 0 1;C 44 1 0;E;
C 24 0 1;C 24 1 0;E;
P;P;C 43 1 0;
C 23 1 2;C 23 2 0;E;
P;P;C 42 0 1;
C 22 0 2;C 22 2 1;E;
P;P;C 41 0 1;
C 21 0 2;C 21 2 1;E;
P;P;C 40 0 1;
C 20 0 2;C 20 2 1;E;
P;P;C 39 0 1;
C 19 0 2;C 19 2 1;E;
P;P;C 38 0 1;
C 18 2 1;C 18 0 2;E;
P;P;C 37 1 0;
C 17 1 2;C 17 2 0;E;
P;P;C 36 0 1;
C 16 0 2;C 16 2 1;E;
P;P;C 35 0 1;
C 15 0 2;C 15 2 1;E;
P;P;C 34 0 1;
C 14 2 1;C 14 0 2;E;
P;P;C 33 1 0;
C 13 2 0;C 13 1 2;E;
P;C 32 1 0;E;
C 12 1 0;E;E].
(** fhevm/src/codegen/codegen_auipc.rs:764-852 *)
Definition auipc_25 : bit_circuit := BC 3%nat [
C 45 0 1;C 45 1 0;E;
C 25 0 1;C 25 1 0;E;
P;P;C 44 1 0;
C 24 1 2;C 24 2 0;E;
P;P;C 43 0 1;
C 23 2 1;C 23 0 2;E;
P;P;C 42 1 0;
C 22 2 0;C 22 1 2;E;
P;P;C 41 1 0;
C 21 2 0;C 21 1 2;E;
P;P;C 40 1 0;
C 20 1 2;C 20 2 0;E;
P;P;C 39 0 1;
C 19 0 2;C 19 2 1;E;
P;P;C 38 0 1;
C 18 0 2;C 18 2 1;E;
P;P;C 37 0 1;
C 17 0 2;C 17 2 1;E;
P;P;C 36 0 1;
C 16 0 2;C 16 2 1;E;
P;P;C 35 0 1;
C 15 2 1;C 15 0 2;E;
P;P;C 34 1 0;
C 14 2 0;C 14 1 2;E;
P;P;C 33 1 0;
C 13 1 2;C 13 2 0;E;
C 32 0 1;P;E;
C 12 0 1;E;E].
(** fhevm/src/codegen/codegen_auipc.rs:853-947 *)
Definition auipc_26 : bit_circuit := BC 3%nat [
C 46 1 0;C 46 0 1;E;
C 26 0 1;C 26 1 0;E;
P;P;C 45 0 1;
C 25 2 1;C 25 0 2;E;
P;P;C 44 1 0;
C 24 1 2;C 24 2 0;E;
P;P;C 43 0 1;
C 23 0 2;C 23 2 1;E;
P;P;C 42 0 1;
C 22 2 1;C 22 0 2;E;
P;P;C 41 1 0;
C 21 1 2;C 21 2 0;E;
P;P;C 40 0 1;
C 20 2 1;C 20 0 2;E;
P;P;C 39 1 0;
C 19 2 0;C 19 1 2;E;
P;P;C 38 1 0;
C 18 1 2;C 18 2 0;E;
P;P;C 37 0 1;
C 17 0 2;C 17 2 1;E;
P;P;C 36 0 1;
C 16 2 1;C 16 0 2;E;
P;P;C 35 1 0;
C 15 1 2;C 15 2 0;E;
P;P;C 34 0 1;
C 14 2 1;C 14 0 2;E;
P;P;C 33 1 0;
C 13 1 2;C 13 2 0;E;
C 32 0 1;P;E;
C 12 0 1;E;E].
(** fhevm/src/codegen/codegen_auipc.rs:948-1048 *)
Definition auipc_27 : bit_circuit := BC 3%nat [
C 47 0 1;C 47 1 0;E;
C 27 1 0;C 27 0 1;E;
P;P;C 46 0 1;
C 26 0 2;C 26 2 1;E;
P;P;C 45 0 1;
C 25 0 2;C 25 2 1;E;
P;P;C 44 0 1;
C 24 0 2;C 24 2 1;E;
P;P;C 43 0 1;
C 23 0 2;C 23 2 1;E;
P;P;C 42 0 1;
C 22 2 1;C 22 0 2;E;
P;P;C 41 1 0;
C 21 1 2;C 21 2 0;E;
P;P;C 40 0 1;
C 20 0 2;C 20 2 1;E;
P;P;C 39 0 1;
C 19 2 1;C 19 0 2;E;
P;P;C 38 1 0;
C 18 2 0;C 18 1 2;E;
P;P;C 37 1 0;
C 17 2 0;C 17 1 2;E;
P;P;C 36 1 0;
C 16 2 0;C 16 1 2;E;
P;P;C 35 1 0;
C 15 1 2;C 15 2 0;E;
P;P;C 34 0 1;
C 14 2 1;C 14 0 2;E;
P;P;C 33 1 0;
C 13 1 2;C 13 2 0;E;
C 32 0 1;P;E;
C 12 0 1;E;E].
(** fhevm/src/codegen/codegen_auipc.rs:1049-1155 *)
Definition auipc_28 : bit_circuit := BC 3%nat [
C 48 1 0;C 48 0 1;E;
C 28 0 1;C 28 1 0;E;
P;P;C 47 0 1;
C 27 2 1;C 27 0 2;E;
P;P;C 46 1 0;
C 26 1 2;C 26 2 0;E;
P;P;C 45 0 1;
C 25 0 2;C 25 2 1;E;
P;P;C 44 0 1;
C 24 2 1;C 24 0 2;E;
P;P;C 43 1 0;
C 23 1 2;C 23 2 0;E;
P;P;C 42 0 1;
C 22 0 2;C 22 2 1;E;
P;P;C 41 0 1;
C 21 0 2;C 21 2 1;E;
P;P;C 40 0 1;
C 20 0 2;C 20 2 1;E;
P;P;C 39 0 1;
C 19 0 2;C 19 2 1;E;
P;P;C 38 0 1;
C 18 0 2;C 18 2 1;E;
P;P;C 37 0 1;
C 17 2 1;C 17 0 2;E;
P;P;C 36 1 0;
C 16 1 2;C 16 2 0;E;
P;P;C 35 0 1;
C 15 2 1;C 15 0 2;E;
P;P;C 34 1 0;
C 14 1 2;C 14 2 0;E;
P;P;C 33 0 1;
C 13 2 1;C 13 0 2;E;
P;C 32 1 0;E;
C 12 1 0;E;E].
(** fhevm/src/codegen/codegen_auipc.rs:1156-1268 *)
Definition auipc_29 : bit_circuit := BC 3%nat [
C 49 0 1;C 49 1 0;E;
C 29 0 1;C 29 1 0;E;
P;P;C 48 1 0;
C 28 2 0;C 28 1 2;E;
P;P;C 47 1 0;
C 27 2 0;C 27 1 2;E;
P;P;C 46 1 0;
C 26 1 2;C 26 2 0;E;
P;P;C 45 0 1;
C 25 0 2;C 25 2 1;E;
P;P;C 44 0 1;
C 24 0 2;C 24 2 1;E;
P;P;C 43 0 1;
C 23 0 2;C 23 2 1;E;
P;P;C 42 0 1;
C 22 2 1;C 22 0 2;E;
P;P;C 41 1 0;
C 21 2 0;C 21 1 2;E;
P;P;C 40 1 0;
C 20 2 0;C 20 1 2;E;
P;P;C 39 1 0;
C 19 1 2;C 19 2 0;E;
P;P;C 38 0 1;
C 18 0 2;C 18 2 1;E;
P;P;C 37 0 1;
C 17 0 2;C 17 2 1;E;
P;P;C 36 0 1;
C 16 0 2;C 16 2 1;E;
P;P;C 35 0 1;
C 15 0 2;C 15 2 1;E;
P;P;C 34 0 1;
C 14 2 1;C 14 0 2;E;
P;P;C 33 1 0;
C 13 2 0;C 13 1 2;E;
P;C 32 1 0;E;
C 12 1 0;E;E].
(** fhevm/src/codegen/codegen_auipc.rs:1269-1387 *)
Definition auipc_30 : bit_circuit := BC 3%nat [
C 50 0 1;C 50 1 0;E;
C 30 1 0;C 30 0 1;E;
P;P;C 49 0 1;
C 29 2 1;C 29 0 2;E;
P;P;C 48 1 0;
C 28 2 0;C 28 1 2;E;
P;P;C 47 1 0;
C 27 2 0;C 27 1 2;E;
P;P;C 46 1 0;
C 26 2 0;C 26 1 2;E;
P;P;C 45 1 0;
C 25 2 0;C 25 1 2;E;
P;P;C 44 1 0;
C 24 2 0;C 24 1 2;E;
P;P;C 43 1 0;
C 23 2 0;C 23 1 2;E;
P;P;C 42 1 0;
C 22 1 2;C 22 2 0;E;
P;P;C 41 0 1;
C 21 2 1;C 21 0 2;E;
P;P;C 40 1 0;
C 20 2 0;C 20 1 2;E;
P;P;C 39 1 0;
C 19 1 2;C 19 2 0;E;
P;P;C 38 0 1;
C 18 0 2;C 18 2 1;E;
P;P;C 37 0 1;
C 17 2 1;C 17 0 2;E;
P;P;C 36 1 0;
C 16 1 2;C 16 2 0;E;
P;P;C 35 0 1;
C 15 0 2;C 15 2 1;E;
P;P;C 34 0 1;
C 14 0 2;C 14 2 1;E;
P;P;C 33 0 1;
C 13 0 2;C 13 2 1;E;
C 32 0 1;P;E;
C 12 0 1;E;E].
(** fhevm/src/codegen/codegen_auipc.rs:1388-1512 *)
Definition auipc_31 : bit_circuit := BC 3%nat [
C 51 1 0;C 51 0 1;E;
C 31 0 1;C 31 1 0;E;
P;P;C 50 0 1;
C 30 2 1;C 30 0 2;E;
P;P;C 49 1 0;
C 29 1 2;C 29 2 0;E;
P;P;C 48 0 1;
C 28 0 2;C 28 2 1;E;
P;P;C 47 0 1;
C 27 0 2;C 27 2 1;E;
P;P;C 46 0 1;
C 26 2 1;C 26 0 2;E;
P;P;C 45 1 0;
C 25 1 2;C 25 2 0;E;
P;P;C 44 0 1;
C 24 0 2;C 24 2 1;E;
P;P;C 43 0 1;
C 23 0 2;C 23 2 1;E;
P;P;C 42 0 1;
C 22 0 2;C 22 2 1;E;
P;P;C 41 0 1;
C 21 0 2;C 21 2 1;E;
P;P;C 40 0 1;
C 20 2 1;C 20 0 2;E;
P;P;C 39 1 0;
C 19 1 2;C 19 2 0;E;
P;P;C 38 0 1;
C 18 2 1;C 18 0 2;E;
P;P;C 37 1 0;
C 17 1 2;C 17 2 0;E;
P;P;C 36 0 1;
C 16 0 2;C 16 2 1;E;
P;P;C 35 0 1;
C 15 0 2;C 15 2 1;E;
P;P;C 34 0 1;
C 14 0 2;C 14 2 1;E;
P;P;C 33 0 1;
C 13 2 1;C 13 0 2;E;
P;C 32 1 0;E;
C 12 1 0;E;E].

(** fhevm/src/codegen/codegen_auipc.rs: OUTPUT_CIRCUITS, with the declared INPUT_BITS *)
Definition auipc_circuit : circuit := MkCircuit 52 [
auipc_0;
auipc_1;
auipc_2;
auipc_3;
auipc_4;
auipc_5;
auipc_6;
auipc_7;
auipc_8;
auipc_9;
auipc_10;
auipc_11;
auipc_12;
auipc_13;
auipc_14;
auipc_15;
auipc_16;
auipc_17;
auipc_18;
auipc_19;
auipc_20;
auipc_21;
auipc_22;
auipc_23;
auipc_24;
auipc_25;
auipc_26;
auipc_27;
auipc_28;
auipc_29;
auipc_30;
auipc_31].
