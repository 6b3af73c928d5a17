(** Generated by tools/gen_circuits.py from fhevm/src/codegen/codegen_pc_update.rs; do not edit. *)
Require Import NArith List.
Require Import Verif.Bdd.
Import ListNotations.
Open Scope N_scope.

(** fhevm/src/codegen/codegen_pc_update.rs:146-520 *)
Definition pc_update_0 : bit_circuit := BC 5%nat [
P;C 100 1 0;C 68 1 0;C 100 0 1;E;
P;C 68 3 1;P;C 0 0 2;E;
C 0 0 1;P;P;C 1 3 2;E;
C 1 0 1;P;C 2 3 2;E;E;
C 2 0 1;E;P;E;E;
P;C 0 0 2;P;C 0 2 0;C 1 0 2;
C 1 0 3;C 1 1 3;C 1 1 2;E;P;
C 2 2 1;C 2 4 0;C 2 1 2;C 2 0 4;E;
C 3 2 3;C 3 3 2;C 3 1 0;E;E;
P;P;C 36 2 1;C 36 0 2;E;
P;P;C 4 2 3;E;E;
P;P;C 37 0 2;C 37 2 1;E;
P;P;C 5 3 2;E;E;
P;P;C 38 2 1;C 38 0 2;E;
P;P;C 6 2 3;E;E;
P;P;C 39 0 2;C 39 2 1;E;
P;P;C 7 3 2;E;E;
P;P;C 40 0 2;C 40 2 1;E;
P;P;C 8 3 2;E;E;
P;P;C 41 0 2;C 41 2 1;E;
P;P;C 9 3 2;E;E;
P;P;C 42 2 1;C 42 0 2;E;
P;P;C 10 2 3;E;E;
P;P;C 43 0 2;C 43 2 1;E;
P;P;C 11 3 2;E;E;
P;P;C 44 2 1;C 44 0 2;E;
P;P;C 12 2 3;E;E;
P;P;C 45 0 2;C 45 2 1;E;
P;P;C 13 3 2;E;E;
P;P;C 46 2 1;C 46 0 2;E;
P;P;C 14 2 3;E;E;
P;P;C 47 0 2;C 47 2 1;E;
P;P;C 15 3 2;E;E;
P;P;C 48 0 2;C 48 2 1;E;
P;P;C 16 3 2;E;E;
P;P;C 49 2 1;C 49 0 2;E;
P;P;C 17 2 3;E;E;
P;P;C 50 2 1;C 50 0 2;E;
P;P;C 18 2 3;E;E;
P;P;C 51 2 1;C 51 0 2;E;
P;P;C 19 2 3;E;E;
P;P;C 52 0 2;C 52 2 1;E;
P;P;C 20 3 2;E;E;
P;P;C 53 2 1;C 53 0 2;E;
P;P;C 21 2 3;E;E;
P;P;C 54 2 1;C 54 0 2;E;
P;P;C 22 2 3;E;E;
P;P;C 55 2 1;C 55 0 2;E;
P;P;C 23 2 3;E;E;
P;P;C 56 0 2;C 56 2 1;E;
P;P;C 24 3 2;E;E;
P;P;C 57 2 1;C 57 0 2;E;
P;P;C 25 2 3;E;E;
P;P;C 58 0 2;C 58 2 1;E;
P;P;C 26 3 2;E;E;
P;P;C 59 2 1;C 59 0 2;E;
P;P;C 27 2 3;E;E;
P;P;C 60 0 2;C 60 2 1;E;
P;P;C 28 3 2;E;E;
P;P;C 61 0 2;C 61 2 1;E;
P;P;C 29 3 2;E;E;
P;P;C 62 2 1;C 62 0 2;E;
P;P;C 30 2 3;E;E;
P;P;C 63 2 1;C 63 0 2;E;
P;P;C 31 2 3;E;E;
P;P;C 64 2 1;C 64 0 2;E;
P;P;C 32 2 3;E;E;
P;P;C 65 0 2;C 65 2 1;E;
P;P;C 33 3 2;E;E;
P;P;C 66 0 2;C 66 2 1;E;
P;P;C 34 3 2;E;E;
C 67 0 2;C 67 2 0;C 67 1 2;C 67 2 1;E;
C 35 1 2;C 35 3 0;E;E;E;
C 2 0 1;E;E;E;E].
(** fhevm/src/codegen/codegen_pc_update.rs:521-981 *)
Definition pc_update_1 : bit_circuit := BC 6%nat [
C 101 0 1;C 101 1 0;C 69 1 0;C 5 1 0;E;E;
C 5 0 1;C 5 1 0;P;C 0 3 2;C 69 1 0;C 69 0 1;
P;C 100 4 5;P;C 1 3 2;C 100 1 0;P;
C 2 3 2;C 68 1 5;C 4 4 0;E;E;E;
P;P;C 0 2 1;E;E;E;
P;P;C 1 2 1;E;E;E;
P;C 2 2 1;E;E;E;E;
P;P;C 1 1 0;C 0 1 0;C 0 0 1;E;
C 1 3 4;C 1 3 0;P;C 1 1 4;E;E;
C 2 0 1;C 2 1 0;C 2 2 3;C 2 3 2;E;E;
C 3 2 1;C 3 0 3;C 3 3 0;E;E;E;
C 36 0 2;P;P;C 36 1 0;E;E;
C 4 0 3;P;P;E;E;E;
C 37 1 0;P;P;C 37 0 2;E;E;
C 5 3 0;P;P;E;E;E;
C 38 0 2;P;P;C 38 1 0;E;E;
C 6 0 3;P;P;E;E;E;
C 39 0 2;P;P;C 39 1 0;E;E;
C 7 0 3;P;P;E;E;E;
C 40 0 2;P;P;C 40 1 0;E;E;
C 8 0 3;P;P;E;E;E;
C 41 0 2;P;P;C 41 1 0;E;E;
C 9 0 3;P;P;E;E;E;
C 42 1 0;P;P;C 42 0 2;E;E;
C 10 3 0;P;P;E;E;E;
C 43 0 2;P;P;C 43 1 0;E;E;
C 11 0 3;P;P;E;E;E;
C 44 0 2;P;P;C 44 1 0;E;E;
C 12 0 3;P;P;E;E;E;
C 45 0 2;P;P;C 45 1 0;E;E;
C 13 0 3;P;P;E;E;E;
C 46 0 2;P;P;C 46 1 0;E;E;
C 14 0 3;P;P;E;E;E;
C 47 0 2;P;P;C 47 1 0;E;E;
C 15 0 3;P;P;E;E;E;
C 48 0 2;P;P;C 48 1 0;E;E;
C 16 0 3;P;P;E;E;E;
C 49 0 2;P;P;C 49 1 0;E;E;
C 17 0 3;P;P;E;E;E;
C 50 1 0;P;P;C 50 0 2;E;E;
C 18 3 0;P;P;E;E;E;
C 51 1 0;P;P;C 51 0 2;E;E;
C 19 3 0;P;P;E;E;E;
C 52 1 0;P;P;C 52 0 2;E;E;
C 20 3 0;P;P;E;E;E;
C 53 0 2;P;P;C 53 1 0;E;E;
C 21 0 3;P;P;E;E;E;
C 54 0 2;P;P;C 54 1 0;E;E;
C 22 0 3;P;P;E;E;E;
C 55 1 0;P;P;C 55 0 2;E;E;
C 23 3 0;P;P;E;E;E;
C 56 1 0;P;P;C 56 0 2;E;E;
C 24 3 0;P;P;E;E;E;
C 57 1 0;P;P;C 57 0 2;E;E;
C 25 3 0;P;P;E;E;E;
C 58 0 2;P;P;C 58 1 0;E;E;
C 26 0 3;P;P;E;E;E;
C 59 0 2;P;P;C 59 1 0;E;E;
C 27 0 3;P;P;E;E;E;
C 60 1 0;P;P;C 60 0 2;E;E;
C 28 3 0;P;P;E;E;E;
C 61 0 2;P;P;C 61 1 0;E;E;
C 29 0 3;P;P;E;E;E;
C 62 1 0;P;P;C 62 0 2;E;E;
C 30 3 0;P;P;E;E;E;
C 63 1 0;P;P;C 63 0 2;E;E;
C 31 3 0;P;P;E;E;E;
C 64 1 0;P;P;C 64 0 2;E;E;
C 32 3 0;P;P;E;E;E;
C 65 1 0;P;P;C 65 0 2;E;E;
C 33 3 0;P;P;E;E;E;
C 66 1 0;P;P;C 66 0 2;E;E;
C 34 3 0;P;P;E;E;E;
C 67 0 1;C 67 2 0;C 67 1 0;C 67 0 2;E;E;
C 35 0 1;C 35 3 2;E;E;E;E;
C 2 0 1;E;E;E;E;E].
(** fhevm/src/codegen/codegen_pc_update.rs:982-1610 *)
Definition pc_update_2 : bit_circuit := BC 8%nat [
C 6 0 1;C 102 1 0;C 102 0 1;C 70 0 1;E;E;E;E;
C 70 1 2;C 70 2 1;C 6 1 2;P;C 6 2 1;C 0 0 3;E;E;
P;P;P;P;P;C 1 5 3;C 101 2 4;C 101 0 1;
C 5 6 4;C 69 7 1;C 5 2 6;C 2 5 3;C 69 0 7;E;E;E;
P;P;C 100 2 0;P;C 100 4 1;E;E;E;
C 4 2 0;C 68 4 1;E;P;E;E;E;E;
C 0 0 1;P;E;P;E;E;E;E;
C 1 0 1;P;E;P;E;E;E;E;
C 2 0 1;E;E;P;E;E;E;E;
P;C 1 0 3;C 0 0 3;P;C 0 3 0;E;E;E;
C 1 2 3;P;C 1 0 4;C 1 2 4;E;E;E;E;
C 2 2 1;C 2 3 0;C 2 1 2;C 2 0 3;E;E;E;E;
C 3 1 0;C 3 0 1;C 3 2 3;E;E;E;E;E;
P;P;C 36 0 2;C 36 2 1;E;E;E;E;
P;P;C 4 3 2;E;E;E;E;E;
P;P;C 37 2 1;C 37 0 2;E;E;E;E;
P;P;C 5 2 3;E;E;E;E;E;
P;P;C 38 2 1;C 38 0 2;E;E;E;E;
P;P;C 6 2 3;E;E;E;E;E;
P;P;C 39 0 2;C 39 2 1;E;E;E;E;
P;P;C 7 3 2;E;E;E;E;E;
P;P;C 40 2 1;C 40 0 2;E;E;E;E;
P;P;C 8 2 3;E;E;E;E;E;
P;P;C 41 2 1;C 41 0 2;E;E;E;E;
P;P;C 9 2 3;E;E;E;E;E;
P;P;C 42 2 1;C 42 0 2;E;E;E;E;
P;P;C 10 2 3;E;E;E;E;E;
P;P;C 43 0 2;C 43 2 1;E;E;E;E;
P;P;C 11 3 2;E;E;E;E;E;
P;P;C 44 2 1;C 44 0 2;E;E;E;E;
P;P;C 12 2 3;E;E;E;E;E;
P;P;C 45 0 2;C 45 2 1;E;E;E;E;
P;P;C 13 3 2;E;E;E;E;E;
P;P;C 46 2 1;C 46 0 2;E;E;E;E;
P;P;C 14 2 3;E;E;E;E;E;
P;P;C 47 2 1;C 47 0 2;E;E;E;E;
P;P;C 15 2 3;E;E;E;E;E;
P;P;C 48 2 1;C 48 0 2;E;E;E;E;
P;P;C 16 2 3;E;E;E;E;E;
P;P;C 49 0 2;C 49 2 1;E;E;E;E;
P;P;C 17 3 2;E;E;E;E;E;
P;P;C 50 2 1;C 50 0 2;E;E;E;E;
P;P;C 18 2 3;E;E;E;E;E;
P;P;C 51 0 2;C 51 2 1;E;E;E;E;
P;P;C 19 3 2;E;E;E;E;E;
P;P;C 52 0 2;C 52 2 1;E;E;E;E;
P;P;C 20 3 2;E;E;E;E;E;
P;P;C 53 2 1;C 53 0 2;E;E;E;E;
P;P;C 21 2 3;E;E;E;E;E;
P;P;C 54 0 2;C 54 2 1;E;E;E;E;
P;P;C 22 3 2;E;E;E;E;E;
P;P;C 55 2 1;C 55 0 2;E;E;E;E;
P;P;C 23 2 3;E;E;E;E;E;
P;P;C 56 0 2;C 56 2 1;E;E;E;E;
P;P;C 24 3 2;E;E;E;E;E;
P;P;C 57 2 1;C 57 0 2;E;E;E;E;
P;P;C 25 2 3;E;E;E;E;E;
P;P;C 58 2 1;C 58 0 2;E;E;E;E;
P;P;C 26 2 3;E;E;E;E;E;
P;P;C 59 0 2;C 59 2 1;E;E;E;E;
P;P;C 27 3 2;E;E;E;E;E;
P;P;C 60 2 1;C 60 0 2;E;E;E;E;
P;P;C 28 2 3;E;E;E;E;E;
P;P;C 61 2 1;C 61 0 2;E;E;E;E;
P;P;C 29 2 3;E;E;E;E;E;
P;P;C 62 0 2;C 62 2 1;E;E;E;E;
P;P;C 30 3 2;E;E;E;E;E;
P;P;C 63 2 1;C 63 0 2;E;E;E;E;
P;P;C 31 2 3;E;E;E;E;E;
P;P;C 64 0 2;C 64 2 1;E;E;E;E;
P;P;C 32 3 2;E;E;E;E;E;
P;P;C 65 2 1;C 65 0 2;E;E;E;E;
P;P;C 33 2 3;E;E;E;E;E;
P;P;C 66 0 2;C 66 2 1;E;E;E;E;
P;P;C 34 3 2;E;E;E;E;E;
C 67 0 2;C 67 2 1;C 67 1 2;C 67 2 0;E;E;E;E;
C 35 1 0;C 35 3 2;E;E;E;E;E;E;
C 2 1 0;E;E;E;E;E;E;E].
(** fhevm/src/codegen/codegen_pc_update.rs:1611-2255 *)
Definition pc_update_3 : bit_circuit := BC 8%nat [
C 7 0 1;C 71 1 0;C 7 1 0;C 103 0 1;C 103 1 0;C 71 0 1;E;E;
C 71 4 3;C 70 5 1;C 71 3 4;C 7 3 4;C 7 4 3;C 6 0 2;E;E;
P;P;P;P;P;C 0 5 1;C 102 4 3;C 102 0 2;
C 70 7 2;P;C 6 4 6;C 6 6 3;C 1 5 1;C 70 0 7;E;E;
P;C 101 5 0;P;P;C 2 4 1;P;C 101 2 3;E;
C 5 2 6;C 5 6 3;C 69 5 1;C 69 1 0;P;E;E;E;
C 100 0 1;P;C 100 2 3;P;P;E;E;E;
C 68 2 3;C 4 0 1;E;E;P;E;E;E;
P;C 0 1 0;E;E;P;E;E;E;
P;C 1 1 0;E;E;P;E;E;E;
C 2 1 0;E;E;E;P;E;E;E;
P;C 0 0 4;C 0 4 0;C 1 0 4;P;E;E;E;
C 1 0 2;C 1 1 4;C 1 1 2;P;E;E;E;E;
C 2 1 2;C 2 2 1;C 2 3 0;C 2 0 3;E;E;E;E;
C 3 1 3;C 3 2 0;C 3 3 1;E;E;E;E;E;
P;C 36 0 1;P;C 36 1 2;E;E;E;E;
P;C 4 3 1;P;E;E;E;E;E;
P;C 37 1 2;P;C 37 0 1;E;E;E;E;
P;C 5 1 3;P;E;E;E;E;E;
P;C 38 0 1;P;C 38 1 2;E;E;E;E;
P;C 6 3 1;P;E;E;E;E;E;
P;C 39 0 1;P;C 39 1 2;E;E;E;E;
P;C 7 3 1;P;E;E;E;E;E;
P;C 40 0 1;P;C 40 1 2;E;E;E;E;
P;C 8 3 1;P;E;E;E;E;E;
P;C 41 0 1;P;C 41 1 2;E;E;E;E;
P;C 9 3 1;P;E;E;E;E;E;
P;C 42 0 1;P;C 42 1 2;E;E;E;E;
P;C 10 3 1;P;E;E;E;E;E;
P;C 43 0 1;P;C 43 1 2;E;E;E;E;
P;C 11 3 1;P;E;E;E;E;E;
P;C 44 0 1;P;C 44 1 2;E;E;E;E;
P;C 12 3 1;P;E;E;E;E;E;
P;C 45 0 1;P;C 45 1 2;E;E;E;E;
P;C 13 3 1;P;E;E;E;E;E;
P;C 46 1 2;P;C 46 0 1;E;E;E;E;
P;C 14 1 3;P;E;E;E;E;E;
P;C 47 0 1;P;C 47 1 2;E;E;E;E;
P;C 15 3 1;P;E;E;E;E;E;
P;C 48 0 1;P;C 48 1 2;E;E;E;E;
P;C 16 3 1;P;E;E;E;E;E;
P;C 49 1 2;P;C 49 0 1;E;E;E;E;
P;C 17 1 3;P;E;E;E;E;E;
P;C 50 1 2;P;C 50 0 1;E;E;E;E;
P;C 18 1 3;P;E;E;E;E;E;
P;C 51 0 1;P;C 51 1 2;E;E;E;E;
P;C 19 3 1;P;E;E;E;E;E;
P;C 52 0 1;P;C 52 1 2;E;E;E;E;
P;C 20 3 1;P;E;E;E;E;E;
P;C 53 1 2;P;C 53 0 1;E;E;E;E;
P;C 21 1 3;P;E;E;E;E;E;
P;C 54 0 1;P;C 54 1 2;E;E;E;E;
P;C 22 3 1;P;E;E;E;E;E;
P;C 55 1 2;P;C 55 0 1;E;E;E;E;
P;C 23 1 3;P;E;E;E;E;E;
P;C 56 1 2;P;C 56 0 1;E;E;E;E;
P;C 24 1 3;P;E;E;E;E;E;
P;C 57 1 2;P;C 57 0 1;E;E;E;E;
P;C 25 1 3;P;E;E;E;E;E;
P;C 58 1 2;P;C 58 0 1;E;E;E;E;
P;C 26 1 3;P;E;E;E;E;E;
P;C 59 1 2;P;C 59 0 1;E;E;E;E;
P;C 27 1 3;P;E;E;E;E;E;
P;C 60 1 2;P;C 60 0 1;E;E;E;E;
P;C 28 1 3;P;E;E;E;E;E;
P;C 61 1 2;P;C 61 0 1;E;E;E;E;
P;C 29 1 3;P;E;E;E;E;E;
P;C 62 1 2;P;C 62 0 1;E;E;E;E;
P;C 30 1 3;P;E;E;E;E;E;
P;C 63 1 2;P;C 63 0 1;E;E;E;E;
P;C 31 1 3;P;E;E;E;E;E;
P;C 64 0 1;P;C 64 1 2;E;E;E;E;
P;C 32 3 1;P;E;E;E;E;E;
P;C 65 0 1;P;C 65 1 2;E;E;E;E;
P;C 33 3 1;P;E;E;E;E;E;
P;C 66 1 2;P;C 66 0 1;E;E;E;E;
P;C 34 1 3;P;E;E;E;E;E;
C 67 1 2;C 67 0 1;C 67 1 0;C 67 2 1;E;E;E;E;
C 35 0 1;C 35 2 3;E;E;E;E;E;E;
C 2 1 0;E;E;E;E;E;E;E].
(** fhevm/src/codegen/codegen_pc_update.rs:2256-2916 *)
Definition pc_update_4 : bit_circuit := BC 8%nat [
C 8 0 1;C 104 0 1;C 72 1 0;C 8 1 0;C 104 1 0;C 72 0 1;E;E;
C 72 4 1;C 8 1 4;P;P;C 72 1 4;C 71 5 2;C 8 4 1;C 7 0 3;
P;P;C 103 6 1;C 70 5 2;P;C 6 7 3;P;C 103 0 4;
C 7 6 2;C 0 5 3;C 7 2 1;P;C 71 7 4;C 71 0 7;E;E;
P;C 102 0 2;P;P;P;P;C 102 5 4;C 1 1 3;
C 6 0 1;C 2 7 3;C 70 6 4;C 6 1 2;C 70 5 6;E;E;E;
P;P;P;P;P;C 101 4 2;C 101 0 3;E;
C 5 0 6;P;C 69 4 5;C 69 5 2;C 5 6 3;E;E;E;
C 100 2 3;P;C 100 0 4;P;P;E;E;E;
C 68 0 3;P;C 4 2 4;E;E;E;E;E;
P;P;C 0 2 0;E;E;E;E;E;
P;P;C 1 2 0;E;E;E;E;E;
C 2 2 0;P;E;E;E;E;E;E;
P;P;C 0 0 1;C 0 1 0;C 1 0 1;E;E;E;
C 1 2 3;C 1 2 1;C 1 0 3;E;P;E;E;E;
C 2 2 4;C 2 4 2;C 2 1 0;C 2 0 1;E;E;E;E;
C 3 1 2;C 3 3 0;C 3 0 3;E;E;E;E;E;
C 36 0 2;P;P;C 36 1 0;E;E;E;E;
C 4 0 3;P;P;E;E;E;E;E;
C 37 0 2;P;P;C 37 1 0;E;E;E;E;
C 5 0 3;P;P;E;E;E;E;E;
C 38 0 2;P;P;C 38 1 0;E;E;E;E;
C 6 0 3;P;P;E;E;E;E;E;
C 39 1 0;P;P;C 39 0 2;E;E;E;E;
C 7 3 0;P;P;E;E;E;E;E;
C 40 1 0;P;P;C 40 0 2;E;E;E;E;
C 8 3 0;P;P;E;E;E;E;E;
C 41 0 2;P;P;C 41 1 0;E;E;E;E;
C 9 0 3;P;P;E;E;E;E;E;
C 42 1 0;P;P;C 42 0 2;E;E;E;E;
C 10 3 0;P;P;E;E;E;E;E;
C 43 0 2;P;P;C 43 1 0;E;E;E;E;
C 11 0 3;P;P;E;E;E;E;E;
C 44 0 2;P;P;C 44 1 0;E;E;E;E;
C 12 0 3;P;P;E;E;E;E;E;
C 45 1 0;P;P;C 45 0 2;E;E;E;E;
C 13 3 0;P;P;E;E;E;E;E;
C 46 0 2;P;P;C 46 1 0;E;E;E;E;
C 14 0 3;P;P;E;E;E;E;E;
C 47 1 0;P;P;C 47 0 2;E;E;E;E;
C 15 3 0;P;P;E;E;E;E;E;
C 48 0 2;P;P;C 48 1 0;E;E;E;E;
C 16 0 3;P;P;E;E;E;E;E;
C 49 0 2;P;P;C 49 1 0;E;E;E;E;
C 17 0 3;P;P;E;E;E;E;E;
C 50 1 0;P;P;C 50 0 2;E;E;E;E;
C 18 3 0;P;P;E;E;E;E;E;
C 51 1 0;P;P;C 51 0 2;E;E;E;E;
C 19 3 0;P;P;E;E;E;E;E;
C 52 1 0;P;P;C 52 0 2;E;E;E;E;
C 20 3 0;P;P;E;E;E;E;E;
C 53 1 0;P;P;C 53 0 2;E;E;E;E;
C 21 3 0;P;P;E;E;E;E;E;
C 54 1 0;P;P;C 54 0 2;E;E;E;E;
C 22 3 0;P;P;E;E;E;E;E;
C 55 0 2;P;P;C 55 1 0;E;E;E;E;
C 23 0 3;P;P;E;E;E;E;E;
C 56 0 2;P;P;C 56 1 0;E;E;E;E;
C 24 0 3;P;P;E;E;E;E;E;
C 57 0 2;P;P;C 57 1 0;E;E;E;E;
C 25 0 3;P;P;E;E;E;E;E;
C 58 1 0;P;P;C 58 0 2;E;E;E;E;
C 26 3 0;P;P;E;E;E;E;E;
C 59 0 2;P;P;C 59 1 0;E;E;E;E;
C 27 0 3;P;P;E;E;E;E;E;
C 60 0 2;P;P;C 60 1 0;E;E;E;E;
C 28 0 3;P;P;E;E;E;E;E;
C 61 0 2;P;P;C 61 1 0;E;E;E;E;
C 29 0 3;P;P;E;E;E;E;E;
C 62 1 0;P;P;C 62 0 2;E;E;E;E;
C 30 3 0;P;P;E;E;E;E;E;
C 63 1 0;P;P;C 63 0 2;E;E;E;E;
C 31 3 0;P;P;E;E;E;E;E;
C 64 0 2;P;P;C 64 1 0;E;E;E;E;
C 32 0 3;P;P;E;E;E;E;E;
C 65 0 2;P;P;C 65 1 0;E;E;E;E;
C 33 0 3;P;P;E;E;E;E;E;
C 66 1 0;P;P;C 66 0 2;E;E;E;E;
C 34 3 0;P;P;E;E;E;E;E;
C 67 0 2;C 67 0 1;C 67 1 0;C 67 2 0;E;E;E;E;
C 35 0 2;C 35 1 3;E;E;E;E;E;E;
C 2 1 0;E;E;E;E;E;E;E].
(** fhevm/src/codegen/codegen_pc_update.rs:2917-3761 *)
Definition pc_update_5 : bit_circuit := BC 10%nat [
C 73 1 0;C 105 1 0;C 73 0 1;C 9 0 1;C 105 0 1;C 9 1 0;E;E;E;E;
P;C 73 4 1;C 8 3 5;C 9 4 1;C 73 1 4;P;C 72 2 0;C 9 1 4;E;E;
P;P;C 104 7 3;P;P;P;C 7 2 5;P;C 104 4 1;C 71 6 0;
C 72 4 8;C 72 8 1;C 70 9 0;C 8 2 3;C 6 6 5;C 8 7 2;E;E;E;E;
P;P;P;P;C 0 4 2;P;C 103 5 3;C 103 0 1;E;E;
C 71 7 1;C 1 4 2;P;C 7 6 3;C 71 0 7;C 7 5 6;E;E;E;E;
P;C 102 4 0;C 102 5 3;P;P;P;C 2 1 2;E;E;E;
C 70 4 1;C 6 2 3;C 6 5 2;C 70 1 0;E;E;P;E;E;E;
P;P;P;P;C 101 0 3;C 101 2 1;P;E;E;E;
C 5 2 5;C 5 5 1;C 69 0 4;C 69 4 3;E;E;P;E;E;E;
C 100 0 1;P;C 100 2 3;P;E;E;P;E;E;E;
C 68 2 3;C 4 0 1;E;E;E;E;P;E;E;E;
P;C 0 1 0;E;E;E;E;P;E;E;E;
P;C 1 1 0;E;E;E;E;P;E;E;E;
C 2 1 0;E;E;E;E;E;P;E;E;E;
P;C 1 0 6;C 0 0 6;C 0 6 0;E;E;P;E;E;E;
C 1 0 3;P;C 1 2 3;C 1 2 6;E;E;E;E;E;E;
C 2 1 0;C 2 3 2;C 2 0 1;C 2 2 3;E;E;E;E;E;E;
C 3 2 3;C 3 0 1;C 3 3 2;E;E;E;E;E;E;E;
P;C 36 1 0;P;C 36 2 1;E;E;E;E;E;E;
P;C 4 1 3;P;E;E;E;E;E;E;E;
P;C 37 2 1;P;C 37 1 0;E;E;E;E;E;E;
P;C 5 3 1;P;E;E;E;E;E;E;E;
P;C 38 2 1;P;C 38 1 0;E;E;E;E;E;E;
P;C 6 3 1;P;E;E;E;E;E;E;E;
P;C 39 1 0;P;C 39 2 1;E;E;E;E;E;E;
P;C 7 1 3;P;E;E;E;E;E;E;E;
P;C 40 1 0;P;C 40 2 1;E;E;E;E;E;E;
P;C 8 1 3;P;E;E;E;E;E;E;E;
P;C 41 1 0;P;C 41 2 1;E;E;E;E;E;E;
P;C 9 1 3;P;E;E;E;E;E;E;E;
P;C 42 2 1;P;C 42 1 0;E;E;E;E;E;E;
P;C 10 3 1;P;E;E;E;E;E;E;E;
P;C 43 1 0;P;C 43 2 1;E;E;E;E;E;E;
P;C 11 1 3;P;E;E;E;E;E;E;E;
P;C 44 1 0;P;C 44 2 1;E;E;E;E;E;E;
P;C 12 1 3;P;E;E;E;E;E;E;E;
P;C 45 2 1;P;C 45 1 0;E;E;E;E;E;E;
P;C 13 3 1;P;E;E;E;E;E;E;E;
P;C 46 1 0;P;C 46 2 1;E;E;E;E;E;E;
P;C 14 1 3;P;E;E;E;E;E;E;E;
P;C 47 2 1;P;C 47 1 0;E;E;E;E;E;E;
P;C 15 3 1;P;E;E;E;E;E;E;E;
P;C 48 1 0;P;C 48 2 1;E;E;E;E;E;E;
P;C 16 1 3;P;E;E;E;E;E;E;E;
P;C 49 2 1;P;C 49 1 0;E;E;E;E;E;E;
P;C 17 3 1;P;E;E;E;E;E;E;E;
P;C 50 1 0;P;C 50 2 1;E;E;E;E;E;E;
P;C 18 1 3;P;E;E;E;E;E;E;E;
P;C 51 2 1;P;C 51 1 0;E;E;E;E;E;E;
P;C 19 3 1;P;E;E;E;E;E;E;E;
P;C 52 1 0;P;C 52 2 1;E;E;E;E;E;E;
P;C 20 1 3;P;E;E;E;E;E;E;E;
P;C 53 1 0;P;C 53 2 1;E;E;E;E;E;E;
P;C 21 1 3;P;E;E;E;E;E;E;E;
P;C 54 1 0;P;C 54 2 1;E;E;E;E;E;E;
P;C 22 1 3;P;E;E;E;E;E;E;E;
P;C 55 1 0;P;C 55 2 1;E;E;E;E;E;E;
P;C 23 1 3;P;E;E;E;E;E;E;E;
P;C 56 1 0;P;C 56 2 1;E;E;E;E;E;E;
P;C 24 1 3;P;E;E;E;E;E;E;E;
P;C 57 2 1;P;C 57 1 0;E;E;E;E;E;E;
P;C 25 3 1;P;E;E;E;E;E;E;E;
P;C 58 1 0;P;C 58 2 1;E;E;E;E;E;E;
P;C 26 1 3;P;E;E;E;E;E;E;E;
P;C 59 1 0;P;C 59 2 1;E;E;E;E;E;E;
P;C 27 1 3;P;E;E;E;E;E;E;E;
P;C 60 1 0;P;C 60 2 1;E;E;E;E;E;E;
P;C 28 1 3;P;E;E;E;E;E;E;E;
P;C 61 1 0;P;C 61 2 1;E;E;E;E;E;E;
P;C 29 1 3;P;E;E;E;E;E;E;E;
P;C 62 2 1;P;C 62 1 0;E;E;E;E;E;E;
P;C 30 3 1;P;E;E;E;E;E;E;E;
P;C 63 2 1;P;C 63 1 0;E;E;E;E;E;E;
P;C 31 3 1;P;E;E;E;E;E;E;E;
P;C 64 1 0;P;C 64 2 1;E;E;E;E;E;E;
P;C 32 1 3;P;E;E;E;E;E;E;E;
P;C 65 1 0;P;C 65 2 1;E;E;E;E;E;E;
P;C 33 1 3;P;E;E;E;E;E;E;E;
P;C 66 2 1;P;C 66 1 0;E;E;E;E;E;E;
P;C 34 3 1;P;E;E;E;E;E;E;E;
C 67 1 2;C 67 0 1;C 67 1 0;C 67 2 1;E;E;E;E;E;E;
C 35 2 3;C 35 0 1;E;E;E;E;E;E;E;E;
C 2 1 0;E;E;E;E;E;E;E;E;E].
(** fhevm/src/codegen/codegen_pc_update.rs:3762-4626 *)
Definition pc_update_6 : bit_circuit := BC 10%nat [
C 74 1 0;C 10 0 1;C 106 0 1;C 74 0 1;C 106 1 0;C 10 1 0;E;E;E;E;
P;C 74 2 4;C 73 3 0;C 10 2 4;C 9 1 5;P;C 74 4 2;C 10 4 2;E;E;
P;P;C 72 2 0;P;C 105 7 3;P;P;P;C 105 6 1;C 8 4 5;
P;C 71 2 0;C 73 8 1;C 7 9 5;C 9 4 3;P;C 9 7 4;C 73 6 8;E;E;
C 104 7 2;C 70 1 0;P;C 6 3 5;P;C 104 6 4;P;P;E;E;
C 72 7 0;P;C 8 5 4;C 0 3 1;C 8 6 5;C 72 0 2;E;E;E;E;
P;P;P;C 103 0 5;P;P;C 103 4 2;C 1 3 1;E;E;
C 7 4 6;C 2 7 1;C 71 0 3;C 71 3 5;C 7 6 2;E;E;E;E;E;
P;P;P;P;P;C 102 0 4;C 102 2 3;E;E;E;
C 6 5 4;P;C 6 0 5;C 70 6 3;C 70 2 6;E;E;E;E;E;
P;P;P;P;P;C 101 2 0;C 101 4 3;E;E;E;
C 69 6 3;P;C 5 2 5;C 5 5 0;C 69 4 6;E;E;E;E;E;
P;P;C 100 2 3;P;C 100 4 0;E;E;E;E;E;
C 68 4 0;P;C 4 2 3;E;E;E;E;E;E;E;
P;P;C 0 2 0;E;E;E;E;E;E;E;
P;P;C 1 2 0;E;E;E;E;E;E;E;
C 2 2 0;P;E;E;E;E;E;E;E;E;
P;P;C 0 0 1;C 0 1 0;C 1 0 1;E;E;E;E;E;
C 1 2 1;C 1 2 3;C 1 0 3;E;P;E;E;E;E;E;
C 2 4 2;C 2 2 4;C 2 0 1;C 2 1 0;E;E;E;E;E;E;
C 3 0 2;C 3 3 1;C 3 1 3;E;E;E;E;E;E;E;
C 36 0 2;P;P;C 36 1 0;E;E;E;E;E;E;
C 4 0 3;P;P;E;E;E;E;E;E;E;
C 37 1 0;P;P;C 37 0 2;E;E;E;E;E;E;
C 5 3 0;P;P;E;E;E;E;E;E;E;
C 38 1 0;P;P;C 38 0 2;E;E;E;E;E;E;
C 6 3 0;P;P;E;E;E;E;E;E;E;
C 39 0 2;P;P;C 39 1 0;E;E;E;E;E;E;
C 7 0 3;P;P;E;E;E;E;E;E;E;
C 40 1 0;P;P;C 40 0 2;E;E;E;E;E;E;
C 8 3 0;P;P;E;E;E;E;E;E;E;
C 41 1 0;P;P;C 41 0 2;E;E;E;E;E;E;
C 9 3 0;P;P;E;E;E;E;E;E;E;
C 42 1 0;P;P;C 42 0 2;E;E;E;E;E;E;
C 10 3 0;P;P;E;E;E;E;E;E;E;
C 43 0 2;P;P;C 43 1 0;E;E;E;E;E;E;
C 11 0 3;P;P;E;E;E;E;E;E;E;
C 44 0 2;P;P;C 44 1 0;E;E;E;E;E;E;
C 12 0 3;P;P;E;E;E;E;E;E;E;
C 45 0 2;P;P;C 45 1 0;E;E;E;E;E;E;
C 13 0 3;P;P;E;E;E;E;E;E;E;
C 46 1 0;P;P;C 46 0 2;E;E;E;E;E;E;
C 14 3 0;P;P;E;E;E;E;E;E;E;
C 47 1 0;P;P;C 47 0 2;E;E;E;E;E;E;
C 15 3 0;P;P;E;E;E;E;E;E;E;
C 48 0 2;P;P;C 48 1 0;E;E;E;E;E;E;
C 16 0 3;P;P;E;E;E;E;E;E;E;
C 49 1 0;P;P;C 49 0 2;E;E;E;E;E;E;
C 17 3 0;P;P;E;E;E;E;E;E;E;
C 50 0 2;P;P;C 50 1 0;E;E;E;E;E;E;
C 18 0 3;P;P;E;E;E;E;E;E;E;
C 51 1 0;P;P;C 51 0 2;E;E;E;E;E;E;
C 19 3 0;P;P;E;E;E;E;E;E;E;
C 52 1 0;P;P;C 52 0 2;E;E;E;E;E;E;
C 20 3 0;P;P;E;E;E;E;E;E;E;
C 53 0 2;P;P;C 53 1 0;E;E;E;E;E;E;
C 21 0 3;P;P;E;E;E;E;E;E;E;
C 54 0 2;P;P;C 54 1 0;E;E;E;E;E;E;
C 22 0 3;P;P;E;E;E;E;E;E;E;
C 55 1 0;P;P;C 55 0 2;E;E;E;E;E;E;
C 23 3 0;P;P;E;E;E;E;E;E;E;
C 56 1 0;P;P;C 56 0 2;E;E;E;E;E;E;
C 24 3 0;P;P;E;E;E;E;E;E;E;
C 57 1 0;P;P;C 57 0 2;E;E;E;E;E;E;
C 25 3 0;P;P;E;E;E;E;E;E;E;
C 58 1 0;P;P;C 58 0 2;E;E;E;E;E;E;
C 26 3 0;P;P;E;E;E;E;E;E;E;
C 59 1 0;P;P;C 59 0 2;E;E;E;E;E;E;
C 27 3 0;P;P;E;E;E;E;E;E;E;
C 60 0 2;P;P;C 60 1 0;E;E;E;E;E;E;
C 28 0 3;P;P;E;E;E;E;E;E;E;
C 61 1 0;P;P;C 61 0 2;E;E;E;E;E;E;
C 29 3 0;P;P;E;E;E;E;E;E;E;
C 62 0 2;P;P;C 62 1 0;E;E;E;E;E;E;
C 30 0 3;P;P;E;E;E;E;E;E;E;
C 63 0 2;P;P;C 63 1 0;E;E;E;E;E;E;
C 31 0 3;P;P;E;E;E;E;E;E;E;
C 64 1 0;P;P;C 64 0 2;E;E;E;E;E;E;
C 32 3 0;P;P;E;E;E;E;E;E;E;
C 65 0 2;P;P;C 65 1 0;E;E;E;E;E;E;
C 33 0 3;P;P;E;E;E;E;E;E;E;
C 66 1 0;P;P;C 66 0 2;E;E;E;E;E;E;
C 34 3 0;P;P;E;E;E;E;E;E;E;
C 67 2 0;C 67 0 1;C 67 0 2;C 67 1 0;E;E;E;E;E;E;
C 35 1 0;C 35 2 3;E;E;E;E;E;E;E;E;
C 2 0 1;E;E;E;E;E;E;E;E;E].
(** fhevm/src/codegen/codegen_pc_update.rs:4627-5511 *)
Definition pc_update_7 : bit_circuit := BC 10%nat [
C 11 1 0;C 75 0 1;C 75 1 0;C 107 1 0;C 11 0 1;C 107 0 1;E;E;E;E;
P;C 75 5 3;P;C 74 1 2;C 11 3 5;C 11 5 3;C 10 4 0;C 75 3 5;E;E;
P;P;P;C 73 3 2;P;P;C 9 6 0;P;C 106 4 5;C 106 7 1;
P;C 74 7 9;P;C 10 8 5;C 74 9 1;C 10 4 8;C 72 3 2;C 8 6 0;E;E;
P;P;P;P;P;P;C 105 5 3;C 71 6 2;C 105 1 4;C 7 7 0;
C 73 8 4;C 73 1 8;C 70 7 2;C 9 5 6;C 9 6 3;C 6 9 0;E;E;E;E;
P;P;P;P;P;C 0 5 2;C 104 1 0;C 104 3 4;E;E;
C 1 5 2;C 72 1 6;P;C 8 7 4;C 8 3 7;C 72 6 0;E;E;E;E;
C 103 1 5;P;C 103 4 3;P;P;P;C 2 0 2;E;E;E;
C 7 4 2;C 71 0 5;C 71 1 0;C 7 2 3;E;E;P;E;E;E;
P;P;P;P;C 102 2 1;C 102 0 3;P;E;E;E;
C 6 5 3;C 6 0 5;C 70 2 4;C 70 4 1;E;E;P;E;E;E;
P;P;P;P;C 101 2 3;C 101 1 0;P;E;E;E;
C 5 1 5;C 69 4 3;C 5 5 0;C 69 2 4;E;E;P;E;E;E;
C 100 3 1;P;P;C 100 0 2;E;E;P;E;E;E;
C 68 0 1;C 4 3 2;E;E;E;E;P;E;E;E;
P;C 0 1 0;E;E;E;E;P;E;E;E;
P;C 1 1 0;E;E;E;E;P;E;E;E;
C 2 1 0;E;E;E;E;E;P;E;E;E;
P;C 0 0 6;C 0 6 0;C 1 0 6;E;E;P;E;E;E;
C 1 1 6;C 1 0 2;C 1 1 2;P;E;E;E;E;E;E;
C 2 3 1;C 2 1 3;C 2 0 2;C 2 2 0;E;E;E;E;E;E;
C 3 0 2;C 3 1 3;C 3 3 1;E;E;E;E;E;E;E;
C 36 0 1;P;P;C 36 2 0;E;E;E;E;E;E;
C 4 0 3;P;P;E;E;E;E;E;E;E;
C 37 2 0;P;P;C 37 0 1;E;E;E;E;E;E;
C 5 3 0;P;P;E;E;E;E;E;E;E;
C 38 0 1;P;P;C 38 2 0;E;E;E;E;E;E;
C 6 0 3;P;P;E;E;E;E;E;E;E;
C 39 2 0;P;P;C 39 0 1;E;E;E;E;E;E;
C 7 3 0;P;P;E;E;E;E;E;E;E;
C 40 0 1;P;P;C 40 2 0;E;E;E;E;E;E;
C 8 0 3;P;P;E;E;E;E;E;E;E;
C 41 2 0;P;P;C 41 0 1;E;E;E;E;E;E;
C 9 3 0;P;P;E;E;E;E;E;E;E;
C 42 2 0;P;P;C 42 0 1;E;E;E;E;E;E;
C 10 3 0;P;P;E;E;E;E;E;E;E;
C 43 0 1;P;P;C 43 2 0;E;E;E;E;E;E;
C 11 0 3;P;P;E;E;E;E;E;E;E;
C 44 2 0;P;P;C 44 0 1;E;E;E;E;E;E;
C 12 3 0;P;P;E;E;E;E;E;E;E;
C 45 0 1;P;P;C 45 2 0;E;E;E;E;E;E;
C 13 0 3;P;P;E;E;E;E;E;E;E;
C 46 2 0;P;P;C 46 0 1;E;E;E;E;E;E;
C 14 3 0;P;P;E;E;E;E;E;E;E;
C 47 0 1;P;P;C 47 2 0;E;E;E;E;E;E;
C 15 0 3;P;P;E;E;E;E;E;E;E;
C 48 0 1;P;P;C 48 2 0;E;E;E;E;E;E;
C 16 0 3;P;P;E;E;E;E;E;E;E;
C 49 2 0;P;P;C 49 0 1;E;E;E;E;E;E;
C 17 3 0;P;P;E;E;E;E;E;E;E;
C 50 2 0;P;P;C 50 0 1;E;E;E;E;E;E;
C 18 3 0;P;P;E;E;E;E;E;E;E;
C 51 2 0;P;P;C 51 0 1;E;E;E;E;E;E;
C 19 3 0;P;P;E;E;E;E;E;E;E;
C 52 2 0;P;P;C 52 0 1;E;E;E;E;E;E;
C 20 3 0;P;P;E;E;E;E;E;E;E;
C 53 0 1;P;P;C 53 2 0;E;E;E;E;E;E;
C 21 0 3;P;P;E;E;E;E;E;E;E;
C 54 2 0;P;P;C 54 0 1;E;E;E;E;E;E;
C 22 3 0;P;P;E;E;E;E;E;E;E;
C 55 2 0;P;P;C 55 0 1;E;E;E;E;E;E;
C 23 3 0;P;P;E;E;E;E;E;E;E;
C 56 0 1;P;P;C 56 2 0;E;E;E;E;E;E;
C 24 0 3;P;P;E;E;E;E;E;E;E;
C 57 2 0;P;P;C 57 0 1;E;E;E;E;E;E;
C 25 3 0;P;P;E;E;E;E;E;E;E;
C 58 0 1;P;P;C 58 2 0;E;E;E;E;E;E;
C 26 0 3;P;P;E;E;E;E;E;E;E;
C 59 0 1;P;P;C 59 2 0;E;E;E;E;E;E;
C 27 0 3;P;P;E;E;E;E;E;E;E;
C 60 2 0;P;P;C 60 0 1;E;E;E;E;E;E;
C 28 3 0;P;P;E;E;E;E;E;E;E;
C 61 2 0;P;P;C 61 0 1;E;E;E;E;E;E;
C 29 3 0;P;P;E;E;E;E;E;E;E;
C 62 2 0;P;P;C 62 0 1;E;E;E;E;E;E;
C 30 3 0;P;P;E;E;E;E;E;E;E;
C 63 2 0;P;P;C 63 0 1;E;E;E;E;E;E;
C 31 3 0;P;P;E;E;E;E;E;E;E;
C 64 0 1;P;P;C 64 2 0;E;E;E;E;E;E;
C 32 0 3;P;P;E;E;E;E;E;E;E;
C 65 0 1;P;P;C 65 2 0;E;E;E;E;E;E;
C 33 0 3;P;P;E;E;E;E;E;E;E;
C 66 0 1;P;P;C 66 2 0;E;E;E;E;E;E;
C 34 0 3;P;P;E;E;E;E;E;E;E;
C 67 2 0;C 67 1 0;C 67 0 1;C 67 0 2;E;E;E;E;E;E;
C 35 2 0;C 35 3 1;E;E;E;E;E;E;E;E;
C 2 1 0;E;E;E;E;E;E;E;E;E].
(** fhevm/src/codegen/codegen_pc_update.rs:5512-6416 *)
Definition pc_update_8 : bit_circuit := BC 10%nat [
C 76 0 1;C 108 0 1;C 12 1 0;C 108 1 0;C 76 1 0;C 12 0 1;E;E;E;E;
C 12 3 1;C 76 3 1;P;C 75 0 4;P;C 76 1 3;C 11 5 2;C 12 1 3;E;E;
P;P;P;C 107 1 5;P;P;C 107 0 7;P;C 10 6 2;C 74 3 4;
C 11 0 6;C 11 6 7;P;C 73 9 4;P;C 75 1 3;C 9 8 2;C 75 3 5;E;E;
P;P;P;C 8 6 2;P;P;C 106 0 1;P;C 72 3 4;C 106 5 7;
C 74 5 9;C 10 6 1;P;C 71 8 4;P;C 7 3 2;C 74 9 7;C 10 0 6;E;E;
P;P;C 6 5 2;C 70 3 4;C 105 7 1;C 105 0 6;P;P;E;E;
C 9 4 1;C 9 7 4;C 73 5 6;P;C 0 2 3;C 73 0 5;E;E;E;E;
P;P;P;P;C 1 4 3;P;C 104 1 0;C 104 5 2;E;E;
C 2 4 3;C 72 7 2;C 8 6 0;C 8 1 6;C 72 5 7;E;E;E;E;E;
P;P;P;P;P;C 103 4 1;C 103 3 2;E;E;E;
P;C 71 4 5;C 7 6 2;C 7 3 6;C 71 5 1;E;E;E;E;E;
P;P;P;P;P;C 102 1 4;C 102 3 2;E;E;E;
P;C 6 6 2;C 70 5 4;C 70 1 5;C 6 3 6;E;E;E;E;E;
P;P;P;P;P;C 101 4 1;C 101 3 2;E;E;E;
P;C 69 3 6;C 5 4 5;C 5 5 1;C 69 6 2;E;E;E;E;E;
P;C 100 1 4;C 100 2 3;P;P;E;E;E;E;E;
P;C 4 2 3;C 68 1 4;E;E;E;E;E;E;E;
P;C 0 1 2;P;E;E;E;E;E;E;E;
P;C 1 1 2;P;E;E;E;E;E;E;E;
P;C 2 1 2;E;E;E;E;E;E;E;E;
P;P;C 0 0 1;C 1 1 0;C 0 1 0;E;E;E;E;E;
C 1 1 2;C 1 4 2;C 1 4 0;P;E;E;E;E;E;E;
C 2 2 1;C 2 1 2;C 2 3 0;C 2 0 3;E;E;E;E;E;E;
C 3 2 0;C 3 1 3;C 3 3 1;E;E;E;E;E;E;E;
C 36 1 0;P;P;C 36 0 2;E;E;E;E;E;E;
C 4 3 0;P;P;E;E;E;E;E;E;E;
C 37 0 2;P;P;C 37 1 0;E;E;E;E;E;E;
C 5 0 3;P;P;E;E;E;E;E;E;E;
C 38 0 2;P;P;C 38 1 0;E;E;E;E;E;E;
C 6 0 3;P;P;E;E;E;E;E;E;E;
C 39 1 0;P;P;C 39 0 2;E;E;E;E;E;E;
C 7 3 0;P;P;E;E;E;E;E;E;E;
C 40 0 2;P;P;C 40 1 0;E;E;E;E;E;E;
C 8 0 3;P;P;E;E;E;E;E;E;E;
C 41 0 2;P;P;C 41 1 0;E;E;E;E;E;E;
C 9 0 3;P;P;E;E;E;E;E;E;E;
C 42 1 0;P;P;C 42 0 2;E;E;E;E;E;E;
C 10 3 0;P;P;E;E;E;E;E;E;E;
C 43 1 0;P;P;C 43 0 2;E;E;E;E;E;E;
C 11 3 0;P;P;E;E;E;E;E;E;E;
C 44 0 2;P;P;C 44 1 0;E;E;E;E;E;E;
C 12 0 3;P;P;E;E;E;E;E;E;E;
C 45 1 0;P;P;C 45 0 2;E;E;E;E;E;E;
C 13 3 0;P;P;E;E;E;E;E;E;E;
C 46 1 0;P;P;C 46 0 2;E;E;E;E;E;E;
C 14 3 0;P;P;E;E;E;E;E;E;E;
C 47 0 2;P;P;C 47 1 0;E;E;E;E;E;E;
C 15 0 3;P;P;E;E;E;E;E;E;E;
C 48 1 0;P;P;C 48 0 2;E;E;E;E;E;E;
C 16 3 0;P;P;E;E;E;E;E;E;E;
C 49 1 0;P;P;C 49 0 2;E;E;E;E;E;E;
C 17 3 0;P;P;E;E;E;E;E;E;E;
C 50 1 0;P;P;C 50 0 2;E;E;E;E;E;E;
C 18 3 0;P;P;E;E;E;E;E;E;E;
C 51 0 2;P;P;C 51 1 0;E;E;E;E;E;E;
C 19 0 3;P;P;E;E;E;E;E;E;E;
C 52 0 2;P;P;C 52 1 0;E;E;E;E;E;E;
C 20 0 3;P;P;E;E;E;E;E;E;E;
C 53 1 0;P;P;C 53 0 2;E;E;E;E;E;E;
C 21 3 0;P;P;E;E;E;E;E;E;E;
C 54 0 2;P;P;C 54 1 0;E;E;E;E;E;E;
C 22 0 3;P;P;E;E;E;E;E;E;E;
C 55 1 0;P;P;C 55 0 2;E;E;E;E;E;E;
C 23 3 0;P;P;E;E;E;E;E;E;E;
C 56 0 2;P;P;C 56 1 0;E;E;E;E;E;E;
C 24 0 3;P;P;E;E;E;E;E;E;E;
C 57 1 0;P;P;C 57 0 2;E;E;E;E;E;E;
C 25 3 0;P;P;E;E;E;E;E;E;E;
C 58 0 2;P;P;C 58 1 0;E;E;E;E;E;E;
C 26 0 3;P;P;E;E;E;E;E;E;E;
C 59 1 0;P;P;C 59 0 2;E;E;E;E;E;E;
C 27 3 0;P;P;E;E;E;E;E;E;E;
C 60 0 2;P;P;C 60 1 0;E;E;E;E;E;E;
C 28 0 3;P;P;E;E;E;E;E;E;E;
C 61 0 2;P;P;C 61 1 0;E;E;E;E;E;E;
C 29 0 3;P;P;E;E;E;E;E;E;E;
C 62 0 2;P;P;C 62 1 0;E;E;E;E;E;E;
C 30 0 3;P;P;E;E;E;E;E;E;E;
C 63 0 2;P;P;C 63 1 0;E;E;E;E;E;E;
C 31 0 3;P;P;E;E;E;E;E;E;E;
C 64 1 0;P;P;C 64 0 2;E;E;E;E;E;E;
C 32 3 0;P;P;E;E;E;E;E;E;E;
C 65 0 2;P;P;C 65 1 0;E;E;E;E;E;E;
C 33 0 3;P;P;E;E;E;E;E;E;E;
C 66 0 2;P;P;C 66 1 0;E;E;E;E;E;E;
C 34 0 3;P;P;E;E;E;E;E;E;E;
C 67 0 2;C 67 0 1;C 67 2 0;C 67 1 0;E;E;E;E;E;E;
C 35 1 2;C 35 0 3;E;E;E;E;E;E;E;E;
C 2 0 1;E;E;E;E;E;E;E;E;E].
(** fhevm/src/codegen/codegen_pc_update.rs:6417-7341 *)
Definition pc_update_9 : bit_circuit := BC 10%nat [
C 109 0 1;C 13 0 1;C 77 1 0;C 109 1 0;C 77 0 1;C 13 1 0;E;E;E;E;
C 77 0 3;C 77 3 0;P;C 12 1 5;C 76 4 2;P;C 13 0 3;C 13 3 0;E;E;
P;P;P;C 108 7 6;C 11 3 5;P;P;P;C 75 4 2;C 108 1 0;
C 74 8 2;C 10 4 5;P;C 12 7 3;C 12 3 6;P;C 76 9 0;C 76 1 9;E;E;
C 9 1 5;C 107 3 4;P;P;P;P;P;P;C 107 7 6;C 73 0 2;
C 8 0 5;C 72 9 2;P;C 11 1 4;C 75 8 6;P;C 75 7 8;C 11 3 1;E;E;
C 7 0 5;C 106 7 3;P;P;P;P;P;P;C 71 1 2;C 106 6 4;
C 74 9 4;C 6 0 5;C 70 8 2;C 74 6 9;C 10 1 3;C 10 7 1;E;E;E;E;
P;C 0 1 2;P;P;P;P;C 105 5 4;C 105 3 0;E;E;
C 1 1 2;C 73 7 0;P;C 73 3 7;C 9 5 6;C 9 6 4;E;E;E;E;
C 2 0 2;P;C 104 4 5;P;P;P;C 104 3 1;E;E;E;
P;C 72 6 1;C 72 3 6;C 8 4 2;C 8 2 5;E;E;E;E;E;
P;P;P;P;P;C 103 3 4;C 103 2 1;E;E;E;
P;C 7 3 5;C 71 6 1;C 7 5 4;C 71 2 6;E;E;E;E;E;
P;P;P;P;P;C 102 4 2;C 102 1 3;E;E;E;
P;C 70 4 5;C 6 1 6;C 6 6 3;C 70 5 2;E;E;E;E;E;
P;P;P;P;P;C 101 1 4;C 101 2 3;E;E;E;
P;C 69 5 4;C 69 1 5;C 5 6 3;C 5 2 6;E;E;E;E;E;
P;P;C 100 4 3;P;C 100 2 1;E;E;E;E;E;
P;C 4 2 3;C 68 4 1;E;E;E;E;E;E;E;
P;C 0 1 2;P;E;E;E;E;E;E;E;
P;C 1 1 2;P;E;E;E;E;E;E;E;
P;C 2 1 2;E;E;E;E;E;E;E;E;
P;P;C 0 1 0;C 1 1 0;C 0 0 1;E;E;E;E;E;
C 1 2 0;C 1 1 4;C 1 2 4;P;E;E;E;E;E;E;
C 2 3 1;C 2 2 0;C 2 1 3;C 2 0 2;E;E;E;E;E;E;
C 3 2 1;C 3 1 2;C 3 0 3;E;E;E;E;E;E;E;
P;P;C 36 2 0;C 36 1 2;E;E;E;E;E;E;
P;P;C 4 2 3;E;E;E;E;E;E;E;
P;P;C 37 2 0;C 37 1 2;E;E;E;E;E;E;
P;P;C 5 2 3;E;E;E;E;E;E;E;
P;P;C 38 2 0;C 38 1 2;E;E;E;E;E;E;
P;P;C 6 2 3;E;E;E;E;E;E;E;
P;P;C 39 2 0;C 39 1 2;E;E;E;E;E;E;
P;P;C 7 2 3;E;E;E;E;E;E;E;
P;P;C 40 2 0;C 40 1 2;E;E;E;E;E;E;
P;P;C 8 2 3;E;E;E;E;E;E;E;
P;P;C 41 1 2;C 41 2 0;E;E;E;E;E;E;
P;P;C 9 3 2;E;E;E;E;E;E;E;
P;P;C 42 2 0;C 42 1 2;E;E;E;E;E;E;
P;P;C 10 2 3;E;E;E;E;E;E;E;
P;P;C 43 1 2;C 43 2 0;E;E;E;E;E;E;
P;P;C 11 3 2;E;E;E;E;E;E;E;
P;P;C 44 1 2;C 44 2 0;E;E;E;E;E;E;
P;P;C 12 3 2;E;E;E;E;E;E;E;
P;P;C 45 1 2;C 45 2 0;E;E;E;E;E;E;
P;P;C 13 3 2;E;E;E;E;E;E;E;
P;P;C 46 1 2;C 46 2 0;E;E;E;E;E;E;
P;P;C 14 3 2;E;E;E;E;E;E;E;
P;P;C 47 1 2;C 47 2 0;E;E;E;E;E;E;
P;P;C 15 3 2;E;E;E;E;E;E;E;
P;P;C 48 2 0;C 48 1 2;E;E;E;E;E;E;
P;P;C 16 2 3;E;E;E;E;E;E;E;
P;P;C 49 2 0;C 49 1 2;E;E;E;E;E;E;
P;P;C 17 2 3;E;E;E;E;E;E;E;
P;P;C 50 1 2;C 50 2 0;E;E;E;E;E;E;
P;P;C 18 3 2;E;E;E;E;E;E;E;
P;P;C 51 2 0;C 51 1 2;E;E;E;E;E;E;
P;P;C 19 2 3;E;E;E;E;E;E;E;
P;P;C 52 2 0;C 52 1 2;E;E;E;E;E;E;
P;P;C 20 2 3;E;E;E;E;E;E;E;
P;P;C 53 2 0;C 53 1 2;E;E;E;E;E;E;
P;P;C 21 2 3;E;E;E;E;E;E;E;
P;P;C 54 2 0;C 54 1 2;E;E;E;E;E;E;
P;P;C 22 2 3;E;E;E;E;E;E;E;
P;P;C 55 1 2;C 55 2 0;E;E;E;E;E;E;
P;P;C 23 3 2;E;E;E;E;E;E;E;
P;P;C 56 1 2;C 56 2 0;E;E;E;E;E;E;
P;P;C 24 3 2;E;E;E;E;E;E;E;
P;P;C 57 2 0;C 57 1 2;E;E;E;E;E;E;
P;P;C 25 2 3;E;E;E;E;E;E;E;
P;P;C 58 1 2;C 58 2 0;E;E;E;E;E;E;
P;P;C 26 3 2;E;E;E;E;E;E;E;
P;P;C 59 1 2;C 59 2 0;E;E;E;E;E;E;
P;P;C 27 3 2;E;E;E;E;E;E;E;
P;P;C 60 2 0;C 60 1 2;E;E;E;E;E;E;
P;P;C 28 2 3;E;E;E;E;E;E;E;
P;P;C 61 1 2;C 61 2 0;E;E;E;E;E;E;
P;P;C 29 3 2;E;E;E;E;E;E;E;
P;P;C 62 2 0;C 62 1 2;E;E;E;E;E;E;
P;P;C 30 2 3;E;E;E;E;E;E;E;
P;P;C 63 1 2;C 63 2 0;E;E;E;E;E;E;
P;P;C 31 3 2;E;E;E;E;E;E;E;
P;P;C 64 1 2;C 64 2 0;E;E;E;E;E;E;
P;P;C 32 3 2;E;E;E;E;E;E;E;
P;P;C 65 2 0;C 65 1 2;E;E;E;E;E;E;
P;P;C 33 2 3;E;E;E;E;E;E;E;
P;P;C 66 2 0;C 66 1 2;E;E;E;E;E;E;
P;P;C 34 2 3;E;E;E;E;E;E;E;
C 67 0 2;C 67 2 1;C 67 2 0;C 67 1 2;E;E;E;E;E;E;
C 35 2 3;C 35 1 0;E;E;E;E;E;E;E;E;
C 2 1 0;E;E;E;E;E;E;E;E;E].
(** fhevm/src/codegen/codegen_pc_update.rs:7342-8286 *)
Definition pc_update_10 : bit_circuit := BC 10%nat [
C 110 1 0;C 78 1 0;C 14 0 1;C 110 0 1;C 78 0 1;C 14 1 0;E;E;E;E;
C 78 0 3;P;C 78 3 0;C 14 0 3;C 77 4 1;P;C 13 2 5;C 14 3 0;E;E;
P;P;P;P;C 76 4 1;P;C 12 6 5;P;C 109 0 2;C 109 3 7;
C 75 4 1;P;C 13 3 9;C 11 6 5;C 77 0 8;P;C 13 9 7;C 77 8 2;E;E;
C 108 2 6;P;P;C 74 0 1;P;P;P;P;C 10 3 5;C 108 4 7;
C 76 4 9;P;C 76 9 7;C 12 0 6;C 12 2 0;P;C 9 8 5;C 73 3 1;E;E;
P;P;P;P;P;P;C 107 0 2;C 72 7 1;C 107 4 3;C 8 6 5;
C 11 4 8;P;C 75 6 2;C 75 0 6;C 11 8 3;P;C 7 9 5;C 71 7 1;E;E;
P;C 70 7 1;P;P;P;C 106 3 2;C 106 0 4;C 6 6 5;E;E;
C 10 0 6;P;C 74 3 5;C 0 7 1;C 74 5 2;C 10 6 4;E;E;E;E;
P;P;P;C 105 2 4;P;P;C 105 0 5;C 1 3 1;E;E;
C 9 6 5;C 73 2 3;C 73 3 4;C 2 7 1;C 9 0 6;E;E;E;E;E;
P;P;P;P;P;C 104 4 0;C 104 1 2;E;E;E;
C 8 5 0;C 72 1 6;C 72 6 2;P;C 8 4 5;E;E;E;E;E;
P;P;P;P;P;C 103 4 0;C 103 1 2;E;E;E;
C 7 4 5;C 71 1 6;C 7 5 0;P;C 71 6 2;E;E;E;E;E;
P;P;P;P;P;C 102 0 2;C 102 1 4;E;E;E;
C 6 5 2;C 70 1 6;C 6 0 5;P;C 70 6 4;E;E;E;E;E;
P;P;P;P;P;C 101 2 0;C 101 1 4;E;E;E;
C 69 6 4;C 69 1 6;C 5 2 5;P;C 5 5 0;E;E;E;E;E;
P;C 100 2 4;C 100 1 0;P;P;E;E;E;E;E;
C 68 2 0;C 4 1 4;E;P;E;E;E;E;E;E;
P;C 0 1 0;E;P;E;E;E;E;E;E;
P;C 1 1 0;E;P;E;E;E;E;E;E;
C 2 1 0;E;E;P;E;E;E;E;E;E;
P;C 0 0 3;C 1 0 3;P;C 0 3 0;E;E;E;E;E;
C 1 1 3;C 1 0 4;P;C 1 1 4;E;E;E;E;E;E;
C 2 1 2;C 2 3 0;C 2 2 1;C 2 0 3;E;E;E;E;E;E;
C 3 0 1;C 3 2 3;C 3 1 0;E;E;E;E;E;E;E;
P;C 36 2 1;P;C 36 1 0;E;E;E;E;E;E;
P;C 4 3 1;P;E;E;E;E;E;E;E;
P;C 37 2 1;P;C 37 1 0;E;E;E;E;E;E;
P;C 5 3 1;P;E;E;E;E;E;E;E;
P;C 38 1 0;P;C 38 2 1;E;E;E;E;E;E;
P;C 6 1 3;P;E;E;E;E;E;E;E;
P;C 39 1 0;P;C 39 2 1;E;E;E;E;E;E;
P;C 7 1 3;P;E;E;E;E;E;E;E;
P;C 40 2 1;P;C 40 1 0;E;E;E;E;E;E;
P;C 8 3 1;P;E;E;E;E;E;E;E;
P;C 41 2 1;P;C 41 1 0;E;E;E;E;E;E;
P;C 9 3 1;P;E;E;E;E;E;E;E;
P;C 42 1 0;P;C 42 2 1;E;E;E;E;E;E;
P;C 10 1 3;P;E;E;E;E;E;E;E;
P;C 43 2 1;P;C 43 1 0;E;E;E;E;E;E;
P;C 11 3 1;P;E;E;E;E;E;E;E;
P;C 44 2 1;P;C 44 1 0;E;E;E;E;E;E;
P;C 12 3 1;P;E;E;E;E;E;E;E;
P;C 45 1 0;P;C 45 2 1;E;E;E;E;E;E;
P;C 13 1 3;P;E;E;E;E;E;E;E;
P;C 46 1 0;P;C 46 2 1;E;E;E;E;E;E;
P;C 14 1 3;P;E;E;E;E;E;E;E;
P;C 47 2 1;P;C 47 1 0;E;E;E;E;E;E;
P;C 15 3 1;P;E;E;E;E;E;E;E;
P;C 48 2 1;P;C 48 1 0;E;E;E;E;E;E;
P;C 16 3 1;P;E;E;E;E;E;E;E;
P;C 49 2 1;P;C 49 1 0;E;E;E;E;E;E;
P;C 17 3 1;P;E;E;E;E;E;E;E;
P;C 50 1 0;P;C 50 2 1;E;E;E;E;E;E;
P;C 18 1 3;P;E;E;E;E;E;E;E;
P;C 51 1 0;P;C 51 2 1;E;E;E;E;E;E;
P;C 19 1 3;P;E;E;E;E;E;E;E;
P;C 52 1 0;P;C 52 2 1;E;E;E;E;E;E;
P;C 20 1 3;P;E;E;E;E;E;E;E;
P;C 53 2 1;P;C 53 1 0;E;E;E;E;E;E;
P;C 21 3 1;P;E;E;E;E;E;E;E;
P;C 54 2 1;P;C 54 1 0;E;E;E;E;E;E;
P;C 22 3 1;P;E;E;E;E;E;E;E;
P;C 55 2 1;P;C 55 1 0;E;E;E;E;E;E;
P;C 23 3 1;P;E;E;E;E;E;E;E;
P;C 56 1 0;P;C 56 2 1;E;E;E;E;E;E;
P;C 24 1 3;P;E;E;E;E;E;E;E;
P;C 57 2 1;P;C 57 1 0;E;E;E;E;E;E;
P;C 25 3 1;P;E;E;E;E;E;E;E;
P;C 58 1 0;P;C 58 2 1;E;E;E;E;E;E;
P;C 26 1 3;P;E;E;E;E;E;E;E;
P;C 59 2 1;P;C 59 1 0;E;E;E;E;E;E;
P;C 27 3 1;P;E;E;E;E;E;E;E;
P;C 60 1 0;P;C 60 2 1;E;E;E;E;E;E;
P;C 28 1 3;P;E;E;E;E;E;E;E;
P;C 61 2 1;P;C 61 1 0;E;E;E;E;E;E;
P;C 29 3 1;P;E;E;E;E;E;E;E;
P;C 62 2 1;P;C 62 1 0;E;E;E;E;E;E;
P;C 30 3 1;P;E;E;E;E;E;E;E;
P;C 63 2 1;P;C 63 1 0;E;E;E;E;E;E;
P;C 31 3 1;P;E;E;E;E;E;E;E;
P;C 64 2 1;P;C 64 1 0;E;E;E;E;E;E;
P;C 32 3 1;P;E;E;E;E;E;E;E;
P;C 65 1 0;P;C 65 2 1;E;E;E;E;E;E;
P;C 33 1 3;P;E;E;E;E;E;E;E;
P;C 66 1 0;P;C 66 2 1;E;E;E;E;E;E;
P;C 34 1 3;P;E;E;E;E;E;E;E;
C 67 1 2;C 67 0 1;C 67 2 1;C 67 1 0;E;E;E;E;E;E;
C 35 3 2;C 35 0 1;E;E;E;E;E;E;E;E;
C 2 1 0;E;E;E;E;E;E;E;E;E].
(** fhevm/src/codegen/codegen_pc_update.rs:8287-9251 *)
Definition pc_update_11 : bit_circuit := BC 10%nat [
C 15 0 1;C 79 0 1;C 79 1 0;C 111 0 1;C 15 1 0;C 111 1 0;E;E;E;E;
C 14 0 4;C 79 5 3;P;C 78 1 2;P;C 79 3 5;C 15 3 5;C 15 5 3;E;E;
C 13 0 4;P;P;C 110 7 6;P;P;P;P;C 77 3 2;C 110 1 5;
C 76 8 2;C 14 3 6;P;C 78 1 9;P;C 14 7 3;C 78 9 5;C 12 0 4;E;E;
C 11 7 4;P;P;P;P;P;P;C 75 0 2;C 109 5 1;C 109 3 6;
C 13 8 1;C 74 7 2;P;C 10 0 4;P;C 77 9 6;C 13 5 8;C 77 3 9;E;E;
P;C 108 7 5;P;C 9 3 4;P;P;P;P;C 73 1 2;C 108 6 0;
C 76 7 1;C 12 9 0;P;C 76 1 5;P;C 72 8 2;C 8 3 4;C 12 6 9;E;E;
P;P;P;P;P;C 107 7 1;C 71 5 2;P;C 107 0 3;C 7 6 4;
C 11 7 5;C 6 9 4;C 70 6 2;C 75 0 8;C 11 5 1;C 75 8 3;E;E;E;E;
P;C 0 1 2;P;P;P;P;C 106 0 4;C 106 3 5;E;E;
C 74 3 7;C 1 1 2;P;C 10 6 4;C 10 0 6;C 74 7 5;E;E;E;E;
P;C 105 0 5;C 105 4 3;P;P;P;C 2 1 2;E;E;E;
C 73 1 5;C 9 2 3;C 73 0 1;C 9 4 2;E;E;P;E;E;E;
P;P;P;P;C 104 2 0;C 104 3 1;P;E;E;E;
C 72 2 4;C 8 5 1;C 8 3 5;C 72 4 0;E;E;P;E;E;E;
P;P;P;P;C 103 2 1;C 103 0 3;P;E;E;E;
C 71 5 3;C 71 0 5;C 7 2 4;C 7 4 1;E;E;P;E;E;E;
P;P;P;P;C 102 1 0;C 102 2 3;P;E;E;E;
C 70 4 0;C 6 5 3;C 70 1 4;C 6 2 5;E;E;P;E;E;E;
P;P;P;P;C 101 2 0;C 101 3 1;P;E;E;E;
C 5 5 1;C 69 4 0;C 69 2 4;C 5 3 5;E;E;P;E;E;E;
P;P;C 100 2 1;C 100 3 0;E;E;P;E;E;E;
C 68 2 1;C 4 3 0;E;E;E;E;P;E;E;E;
P;C 0 1 0;E;E;E;E;P;E;E;E;
P;C 1 1 0;E;E;E;E;P;E;E;E;
C 2 1 0;E;E;E;E;E;P;E;E;E;
P;C 0 6 0;C 0 0 6;C 1 0 6;E;E;P;E;E;E;
C 1 0 1;C 1 2 6;C 1 2 1;P;E;E;E;E;E;E;
C 2 3 0;C 2 0 3;C 2 1 2;C 2 2 1;E;E;E;E;E;E;
C 3 3 1;C 3 0 2;C 3 1 3;E;E;E;E;E;E;E;
P;C 36 0 1;P;C 36 1 2;E;E;E;E;E;E;
P;C 4 3 1;P;E;E;E;E;E;E;E;
P;C 37 0 1;P;C 37 1 2;E;E;E;E;E;E;
P;C 5 3 1;P;E;E;E;E;E;E;E;
P;C 38 1 2;P;C 38 0 1;E;E;E;E;E;E;
P;C 6 1 3;P;E;E;E;E;E;E;E;
P;C 39 0 1;P;C 39 1 2;E;E;E;E;E;E;
P;C 7 3 1;P;E;E;E;E;E;E;E;
P;C 40 0 1;P;C 40 1 2;E;E;E;E;E;E;
P;C 8 3 1;P;E;E;E;E;E;E;E;
P;C 41 0 1;P;C 41 1 2;E;E;E;E;E;E;
P;C 9 3 1;P;E;E;E;E;E;E;E;
P;C 42 0 1;P;C 42 1 2;E;E;E;E;E;E;
P;C 10 3 1;P;E;E;E;E;E;E;E;
P;C 43 0 1;P;C 43 1 2;E;E;E;E;E;E;
P;C 11 3 1;P;E;E;E;E;E;E;E;
P;C 44 1 2;P;C 44 0 1;E;E;E;E;E;E;
P;C 12 1 3;P;E;E;E;E;E;E;E;
P;C 45 1 2;P;C 45 0 1;E;E;E;E;E;E;
P;C 13 1 3;P;E;E;E;E;E;E;E;
P;C 46 0 1;P;C 46 1 2;E;E;E;E;E;E;
P;C 14 3 1;P;E;E;E;E;E;E;E;
P;C 47 0 1;P;C 47 1 2;E;E;E;E;E;E;
P;C 15 3 1;P;E;E;E;E;E;E;E;
P;C 48 1 2;P;C 48 0 1;E;E;E;E;E;E;
P;C 16 1 3;P;E;E;E;E;E;E;E;
P;C 49 0 1;P;C 49 1 2;E;E;E;E;E;E;
P;C 17 3 1;P;E;E;E;E;E;E;E;
P;C 50 1 2;P;C 50 0 1;E;E;E;E;E;E;
P;C 18 1 3;P;E;E;E;E;E;E;E;
P;C 51 1 2;P;C 51 0 1;E;E;E;E;E;E;
P;C 19 1 3;P;E;E;E;E;E;E;E;
P;C 52 0 1;P;C 52 1 2;E;E;E;E;E;E;
P;C 20 3 1;P;E;E;E;E;E;E;E;
P;C 53 1 2;P;C 53 0 1;E;E;E;E;E;E;
P;C 21 1 3;P;E;E;E;E;E;E;E;
P;C 54 0 1;P;C 54 1 2;E;E;E;E;E;E;
P;C 22 3 1;P;E;E;E;E;E;E;E;
P;C 55 1 2;P;C 55 0 1;E;E;E;E;E;E;
P;C 23 1 3;P;E;E;E;E;E;E;E;
P;C 56 0 1;P;C 56 1 2;E;E;E;E;E;E;
P;C 24 3 1;P;E;E;E;E;E;E;E;
P;C 57 1 2;P;C 57 0 1;E;E;E;E;E;E;
P;C 25 1 3;P;E;E;E;E;E;E;E;
P;C 58 1 2;P;C 58 0 1;E;E;E;E;E;E;
P;C 26 1 3;P;E;E;E;E;E;E;E;
P;C 59 1 2;P;C 59 0 1;E;E;E;E;E;E;
P;C 27 1 3;P;E;E;E;E;E;E;E;
P;C 60 0 1;P;C 60 1 2;E;E;E;E;E;E;
P;C 28 3 1;P;E;E;E;E;E;E;E;
P;C 61 1 2;P;C 61 0 1;E;E;E;E;E;E;
P;C 29 1 3;P;E;E;E;E;E;E;E;
P;C 62 1 2;P;C 62 0 1;E;E;E;E;E;E;
P;C 30 1 3;P;E;E;E;E;E;E;E;
P;C 63 1 2;P;C 63 0 1;E;E;E;E;E;E;
P;C 31 1 3;P;E;E;E;E;E;E;E;
P;C 64 1 2;P;C 64 0 1;E;E;E;E;E;E;
P;C 32 1 3;P;E;E;E;E;E;E;E;
P;C 65 0 1;P;C 65 1 2;E;E;E;E;E;E;
P;C 33 3 1;P;E;E;E;E;E;E;E;
P;C 66 0 1;P;C 66 1 2;E;E;E;E;E;E;
P;C 34 3 1;P;E;E;E;E;E;E;E;
C 67 0 1;C 67 2 1;C 67 1 2;C 67 1 0;E;E;E;E;E;E;
C 35 2 0;C 35 3 1;E;E;E;E;E;E;E;E;
C 2 1 0;E;E;E;E;E;E;E;E;E].
(** fhevm/src/codegen/codegen_pc_update.rs:9252-10236 *)
Definition pc_update_12 : bit_circuit := BC 10%nat [
C 112 1 0;C 112 0 1;C 80 0 1;C 16 0 1;C 80 1 0;C 16 1 0;E;E;E;E;
C 15 3 5;C 80 1 0;C 16 1 0;C 16 0 1;P;P;C 79 2 4;C 80 0 1;E;E;
C 78 6 4;P;P;P;P;P;C 111 3 2;P;C 14 0 5;C 111 7 1;
C 79 7 9;C 15 6 2;C 15 3 6;C 79 9 1;P;P;C 13 8 5;C 77 0 4;E;E;
P;P;P;P;P;P;C 12 6 5;C 110 2 1;C 110 0 3;C 76 7 4;
C 14 7 1;C 11 6 5;C 78 8 3;C 75 9 4;P;P;C 78 0 8;C 14 2 7;E;E;
P;C 109 6 2;P;C 74 3 4;P;P;P;P;C 109 7 0;C 10 1 5;
C 77 1 2;C 77 6 1;C 13 8 0;C 9 9 5;P;P;C 13 7 8;C 73 3 4;E;E;
P;P;P;C 108 6 2;P;P;P;C 8 3 5;C 72 7 4;C 108 1 0;
C 71 8 4;C 12 6 3;C 76 9 0;C 12 3 2;P;P;C 7 7 5;C 76 1 9;E;E;
C 6 6 5;P;P;P;C 107 1 3;C 107 7 2;C 70 0 4;P;E;E;
C 75 7 5;C 11 1 4;C 0 0 6;C 11 4 3;C 75 5 2;E;P;E;E;E;
P;P;C 106 1 3;P;P;C 106 0 4;P;C 1 2 6;E;E;
C 10 1 2;C 74 5 4;C 74 0 5;C 10 2 3;C 2 7 6;E;E;E;E;E;
P;P;P;P;P;C 105 0 3;C 105 2 1;E;E;E;
C 73 2 6;C 73 6 1;C 9 5 3;C 9 0 5;P;E;E;E;E;E;
P;P;P;P;P;C 104 0 1;C 104 3 2;E;E;E;
C 72 0 5;C 8 6 2;C 72 5 1;C 8 3 6;P;E;E;E;E;E;
P;P;P;P;P;C 103 0 2;C 103 3 1;E;E;E;
C 71 0 5;C 7 6 1;C 7 3 6;C 71 5 2;P;E;E;E;E;E;
P;P;P;P;P;C 102 2 1;C 102 0 3;E;E;E;
C 6 5 1;C 6 2 5;C 70 6 3;C 70 0 6;P;E;E;E;E;E;
P;P;P;P;P;C 101 1 0;C 101 3 2;E;E;E;
C 5 1 5;C 5 5 0;C 69 3 6;C 69 6 2;P;E;E;E;E;E;
C 100 2 3;P;C 100 0 1;P;P;E;E;E;E;E;
C 68 0 3;C 4 2 1;E;E;P;E;E;E;E;E;
P;C 0 1 0;E;E;P;E;E;E;E;E;
P;C 1 1 0;E;E;P;E;E;E;E;E;
C 2 1 0;E;E;E;P;E;E;E;E;E;
P;C 0 4 0;C 1 0 4;C 0 0 4;P;E;E;E;E;E;
C 1 3 4;C 1 3 1;P;C 1 0 1;E;E;E;E;E;E;
C 2 3 2;C 2 2 3;C 2 1 0;C 2 0 1;E;E;E;E;E;E;
C 3 1 3;C 3 0 2;C 3 2 0;E;E;E;E;E;E;E;
C 36 2 0;P;P;C 36 0 1;E;E;E;E;E;E;
C 4 3 0;P;P;E;E;E;E;E;E;E;
C 37 2 0;P;P;C 37 0 1;E;E;E;E;E;E;
C 5 3 0;P;P;E;E;E;E;E;E;E;
C 38 0 1;P;P;C 38 2 0;E;E;E;E;E;E;
C 6 0 3;P;P;E;E;E;E;E;E;E;
C 39 2 0;P;P;C 39 0 1;E;E;E;E;E;E;
C 7 3 0;P;P;E;E;E;E;E;E;E;
C 40 0 1;P;P;C 40 2 0;E;E;E;E;E;E;
C 8 0 3;P;P;E;E;E;E;E;E;E;
C 41 2 0;P;P;C 41 0 1;E;E;E;E;E;E;
C 9 3 0;P;P;E;E;E;E;E;E;E;
C 42 0 1;P;P;C 42 2 0;E;E;E;E;E;E;
C 10 0 3;P;P;E;E;E;E;E;E;E;
C 43 2 0;P;P;C 43 0 1;E;E;E;E;E;E;
C 11 3 0;P;P;E;E;E;E;E;E;E;
C 44 2 0;P;P;C 44 0 1;E;E;E;E;E;E;
C 12 3 0;P;P;E;E;E;E;E;E;E;
C 45 0 1;P;P;C 45 2 0;E;E;E;E;E;E;
C 13 0 3;P;P;E;E;E;E;E;E;E;
C 46 2 0;P;P;C 46 0 1;E;E;E;E;E;E;
C 14 3 0;P;P;E;E;E;E;E;E;E;
C 47 2 0;P;P;C 47 0 1;E;E;E;E;E;E;
C 15 3 0;P;P;E;E;E;E;E;E;E;
C 48 2 0;P;P;C 48 0 1;E;E;E;E;E;E;
C 16 3 0;P;P;E;E;E;E;E;E;E;
C 49 2 0;P;P;C 49 0 1;E;E;E;E;E;E;
C 17 3 0;P;P;E;E;E;E;E;E;E;
C 50 0 1;P;P;C 50 2 0;E;E;E;E;E;E;
C 18 0 3;P;P;E;E;E;E;E;E;E;
C 51 2 0;P;P;C 51 0 1;E;E;E;E;E;E;
C 19 3 0;P;P;E;E;E;E;E;E;E;
C 52 0 1;P;P;C 52 2 0;E;E;E;E;E;E;
C 20 0 3;P;P;E;E;E;E;E;E;E;
C 53 2 0;P;P;C 53 0 1;E;E;E;E;E;E;
C 21 3 0;P;P;E;E;E;E;E;E;E;
C 54 0 1;P;P;C 54 2 0;E;E;E;E;E;E;
C 22 0 3;P;P;E;E;E;E;E;E;E;
C 55 0 1;P;P;C 55 2 0;E;E;E;E;E;E;
C 23 0 3;P;P;E;E;E;E;E;E;E;
C 56 2 0;P;P;C 56 0 1;E;E;E;E;E;E;
C 24 3 0;P;P;E;E;E;E;E;E;E;
C 57 0 1;P;P;C 57 2 0;E;E;E;E;E;E;
C 25 0 3;P;P;E;E;E;E;E;E;E;
C 58 2 0;P;P;C 58 0 1;E;E;E;E;E;E;
C 26 3 0;P;P;E;E;E;E;E;E;E;
C 59 0 1;P;P;C 59 2 0;E;E;E;E;E;E;
C 27 0 3;P;P;E;E;E;E;E;E;E;
C 60 0 1;P;P;C 60 2 0;E;E;E;E;E;E;
C 28 0 3;P;P;E;E;E;E;E;E;E;
C 61 0 1;P;P;C 61 2 0;E;E;E;E;E;E;
C 29 0 3;P;P;E;E;E;E;E;E;E;
C 62 2 0;P;P;C 62 0 1;E;E;E;E;E;E;
C 30 3 0;P;P;E;E;E;E;E;E;E;
C 63 2 0;P;P;C 63 0 1;E;E;E;E;E;E;
C 31 3 0;P;P;E;E;E;E;E;E;E;
C 64 0 1;P;P;C 64 2 0;E;E;E;E;E;E;
C 32 0 3;P;P;E;E;E;E;E;E;E;
C 65 0 1;P;P;C 65 2 0;E;E;E;E;E;E;
C 33 0 3;P;P;E;E;E;E;E;E;E;
C 66 2 0;P;P;C 66 0 1;E;E;E;E;E;E;
C 34 3 0;P;P;E;E;E;E;E;E;E;
C 67 0 1;C 67 0 2;C 67 1 0;C 67 2 0;E;E;E;E;E;E;
C 35 0 3;C 35 1 2;E;E;E;E;E;E;E;E;
C 2 1 0;E;E;E;E;E;E;E;E;E].
(** fhevm/src/codegen/codegen_pc_update.rs:10237-11241 *)
Definition pc_update_13 : bit_circuit := BC 10%nat [
C 17 0 1;C 81 1 0;C 113 0 1;C 113 1 0;C 17 1 0;C 81 0 1;E;E;E;E;
C 17 2 3;P;C 80 5 1;C 81 3 2;P;C 81 2 3;C 17 3 2;C 16 0 4;E;E;
P;P;C 112 3 5;P;P;P;P;C 79 2 1;C 112 6 0;C 15 7 4;
C 80 3 2;P;C 78 7 1;C 80 2 5;P;C 14 9 4;C 16 8 0;C 16 6 8;E;E;
P;P;C 111 0 3;P;P;C 13 5 4;P;P;C 77 2 1;C 111 7 6;
C 76 8 1;P;C 15 9 6;C 12 5 4;P;C 79 2 3;C 15 7 9;C 79 0 2;E;E;
C 110 7 5;P;P;C 11 3 4;P;P;P;P;C 110 6 2;C 75 0 1;
C 78 7 0;P;C 74 9 1;C 14 6 8;P;C 78 0 5;C 14 8 2;C 10 3 4;E;E;
P;P;C 73 2 1;P;P;P;P;C 9 7 4;C 109 3 6;C 109 0 5;
C 8 7 4;P;C 13 8 6;C 13 3 8;P;C 77 0 9;C 77 9 5;C 72 2 1;E;E;
C 71 7 1;P;P;P;P;P;P;C 108 5 6;C 7 0 4;C 108 3 2;
C 76 5 7;C 12 3 9;C 12 9 2;C 6 8 4;C 76 7 6;C 70 0 1;E;E;E;E;
P;P;P;C 0 3 5;P;P;C 107 0 4;C 107 1 2;E;E;
C 75 0 6;C 75 6 4;C 11 7 2;C 1 3 5;C 11 1 7;P;E;E;E;E;
P;P;P;C 106 0 1;P;C 106 4 2;C 2 3 5;E;E;E;
C 10 4 5;C 10 5 2;C 74 3 1;C 74 0 3;E;E;P;E;E;E;
P;P;P;P;C 105 3 2;C 105 0 1;P;E;E;E;
C 9 0 5;C 73 3 4;C 73 4 2;C 9 5 1;E;E;P;E;E;E;
P;P;P;P;C 104 0 3;C 104 1 2;P;E;E;E;
C 72 1 5;C 8 4 3;C 8 0 4;C 72 5 2;E;E;P;E;E;E;
P;P;P;P;C 103 2 1;C 103 0 3;P;E;E;E;
C 7 4 1;C 71 0 5;C 71 5 3;C 7 2 4;E;E;P;E;E;E;
P;P;P;P;C 102 3 0;C 102 1 2;P;E;E;E;
C 6 4 0;C 6 3 4;C 70 1 5;C 70 5 2;E;E;P;E;E;E;
P;P;P;P;C 101 1 0;C 101 2 3;P;E;E;E;
C 5 4 0;C 69 2 5;C 5 1 4;C 69 5 3;E;E;P;E;E;E;
P;C 100 2 0;C 100 1 3;P;E;E;P;E;E;E;
C 68 2 3;C 4 1 0;E;E;E;E;P;E;E;E;
P;C 0 1 0;E;E;E;E;P;E;E;E;
P;C 1 1 0;E;E;E;E;P;E;E;E;
C 2 1 0;E;E;E;E;E;P;E;E;E;
P;C 1 0 6;C 0 0 6;C 0 6 0;E;E;P;E;E;E;
C 1 0 3;P;C 1 2 6;C 1 2 3;E;E;E;E;E;E;
C 2 3 2;C 2 2 3;C 2 0 1;C 2 1 0;E;E;E;E;E;E;
C 3 3 1;C 3 0 2;C 3 2 0;E;E;E;E;E;E;E;
C 36 1 0;P;P;C 36 0 2;E;E;E;E;E;E;
C 4 3 0;P;P;E;E;E;E;E;E;E;
C 37 0 2;P;P;C 37 1 0;E;E;E;E;E;E;
C 5 0 3;P;P;E;E;E;E;E;E;E;
C 38 0 2;P;P;C 38 1 0;E;E;E;E;E;E;
C 6 0 3;P;P;E;E;E;E;E;E;E;
C 39 1 0;P;P;C 39 0 2;E;E;E;E;E;E;
C 7 3 0;P;P;E;E;E;E;E;E;E;
C 40 0 2;P;P;C 40 1 0;E;E;E;E;E;E;
C 8 0 3;P;P;E;E;E;E;E;E;E;
C 41 1 0;P;P;C 41 0 2;E;E;E;E;E;E;
C 9 3 0;P;P;E;E;E;E;E;E;E;
C 42 0 2;P;P;C 42 1 0;E;E;E;E;E;E;
C 10 0 3;P;P;E;E;E;E;E;E;E;
C 43 1 0;P;P;C 43 0 2;E;E;E;E;E;E;
C 11 3 0;P;P;E;E;E;E;E;E;E;
C 44 0 2;P;P;C 44 1 0;E;E;E;E;E;E;
C 12 0 3;P;P;E;E;E;E;E;E;E;
C 45 1 0;P;P;C 45 0 2;E;E;E;E;E;E;
C 13 3 0;P;P;E;E;E;E;E;E;E;
C 46 1 0;P;P;C 46 0 2;E;E;E;E;E;E;
C 14 3 0;P;P;E;E;E;E;E;E;E;
C 47 0 2;P;P;C 47 1 0;E;E;E;E;E;E;
C 15 0 3;P;P;E;E;E;E;E;E;E;
C 48 1 0;P;P;C 48 0 2;E;E;E;E;E;E;
C 16 3 0;P;P;E;E;E;E;E;E;E;
C 49 1 0;P;P;C 49 0 2;E;E;E;E;E;E;
C 17 3 0;P;P;E;E;E;E;E;E;E;
C 50 0 2;P;P;C 50 1 0;E;E;E;E;E;E;
C 18 0 3;P;P;E;E;E;E;E;E;E;
C 51 0 2;P;P;C 51 1 0;E;E;E;E;E;E;
C 19 0 3;P;P;E;E;E;E;E;E;E;
C 52 1 0;P;P;C 52 0 2;E;E;E;E;E;E;
C 20 3 0;P;P;E;E;E;E;E;E;E;
C 53 1 0;P;P;C 53 0 2;E;E;E;E;E;E;
C 21 3 0;P;P;E;E;E;E;E;E;E;
C 54 1 0;P;P;C 54 0 2;E;E;E;E;E;E;
C 22 3 0;P;P;E;E;E;E;E;E;E;
C 55 0 2;P;P;C 55 1 0;E;E;E;E;E;E;
C 23 0 3;P;P;E;E;E;E;E;E;E;
C 56 0 2;P;P;C 56 1 0;E;E;E;E;E;E;
C 24 0 3;P;P;E;E;E;E;E;E;E;
C 57 0 2;P;P;C 57 1 0;E;E;E;E;E;E;
C 25 0 3;P;P;E;E;E;E;E;E;E;
C 58 1 0;P;P;C 58 0 2;E;E;E;E;E;E;
C 26 3 0;P;P;E;E;E;E;E;E;E;
C 59 1 0;P;P;C 59 0 2;E;E;E;E;E;E;
C 27 3 0;P;P;E;E;E;E;E;E;E;
C 60 0 2;P;P;C 60 1 0;E;E;E;E;E;E;
C 28 0 3;P;P;E;E;E;E;E;E;E;
C 61 0 2;P;P;C 61 1 0;E;E;E;E;E;E;
C 29 0 3;P;P;E;E;E;E;E;E;E;
C 62 1 0;P;P;C 62 0 2;E;E;E;E;E;E;
C 30 3 0;P;P;E;E;E;E;E;E;E;
C 63 0 2;P;P;C 63 1 0;E;E;E;E;E;E;
C 31 0 3;P;P;E;E;E;E;E;E;E;
C 64 1 0;P;P;C 64 0 2;E;E;E;E;E;E;
C 32 3 0;P;P;E;E;E;E;E;E;E;
C 65 1 0;P;P;C 65 0 2;E;E;E;E;E;E;
C 33 3 0;P;P;E;E;E;E;E;E;E;
C 66 0 2;P;P;C 66 1 0;E;E;E;E;E;E;
C 34 0 3;P;P;E;E;E;E;E;E;E;
C 67 1 0;C 67 2 0;C 67 0 1;C 67 0 2;E;E;E;E;E;E;
C 35 2 1;C 35 3 0;E;E;E;E;E;E;E;E;
C 2 0 1;E;E;E;E;E;E;E;E;E].
(** fhevm/src/codegen/codegen_pc_update.rs:11242-12266 *)
Definition pc_update_14 : bit_circuit := BC 10%nat [
C 18 1 0;C 82 0 1;C 82 1 0;C 114 1 0;C 114 0 1;C 18 0 1;E;E;E;E;
P;C 81 1 2;P;C 18 4 3;C 82 3 4;C 82 4 3;C 18 3 4;C 17 5 0;E;E;
P;C 113 4 5;P;P;P;P;P;C 16 7 0;C 80 1 2;C 113 6 3;
P;C 17 9 3;P;C 79 8 2;C 81 1 5;C 15 7 0;C 81 4 1;C 17 6 9;E;E;
P;P;P;C 112 7 1;P;C 78 3 2;P;P;C 112 6 4;C 14 5 0;
P;C 80 8 4;P;C 16 3 1;C 13 9 0;C 77 5 2;C 80 6 8;C 16 7 3;E;E;
P;P;P;P;C 76 5 2;C 12 4 0;P;P;C 111 7 3;C 111 6 1;
P;C 75 4 2;P;C 15 8 3;C 11 5 0;C 15 7 8;C 79 6 9;C 79 9 1;E;E;
P;C 110 5 3;P;P;C 74 1 2;P;P;P;C 110 6 7;C 10 4 0;
P;C 78 8 7;P;C 73 4 2;C 78 6 8;C 9 9 0;C 14 5 1;C 14 1 3;E;E;
P;P;P;C 8 5 0;P;C 109 6 7;P;P;C 109 4 1;C 72 3 2;
P;C 77 4 8;P;C 7 3 0;C 13 5 7;C 77 8 1;C 13 6 5;C 71 9 2;E;E;
C 108 6 4;P;C 70 7 2;C 108 1 5;P;P;P;C 6 3 0;E;E;
C 12 6 0;C 76 1 3;P;C 12 0 4;C 76 3 5;C 0 7 2;E;E;E;E;
P;P;P;P;P;C 107 1 4;C 107 0 3;C 1 5 2;E;E;
C 11 6 3;C 11 0 6;C 2 7 2;C 75 1 5;C 75 5 4;E;E;E;E;E;
P;P;P;P;P;C 106 1 0;C 106 3 4;E;E;E;
C 74 3 6;C 10 5 0;P;C 74 6 4;C 10 1 5;E;E;E;E;E;
P;P;P;P;P;C 105 4 1;C 105 0 3;E;E;E;
C 73 0 6;C 9 5 1;P;C 73 6 3;C 9 4 5;E;E;E;E;E;
P;P;P;P;P;C 104 4 1;C 104 0 3;E;E;E;
C 8 4 5;C 72 0 6;P;C 72 6 3;C 8 5 1;E;E;E;E;E;
P;P;P;P;P;C 103 0 4;C 103 1 3;E;E;E;
C 71 6 3;C 71 1 6;P;C 7 5 4;C 7 0 5;E;E;E;E;E;
P;P;P;P;P;C 102 1 0;C 102 4 3;E;E;E;
C 6 4 6;C 70 1 5;P;C 70 5 0;C 6 6 3;E;E;E;E;E;
P;P;P;P;P;C 101 0 4;C 101 1 3;E;E;E;
C 5 5 4;C 69 1 6;P;C 69 6 3;C 5 0 5;E;E;E;E;E;
P;C 100 1 3;P;P;C 100 4 0;E;E;E;E;E;
C 68 1 3;C 4 4 0;P;E;E;E;E;E;E;E;
P;C 0 1 0;P;E;E;E;E;E;E;E;
P;C 1 1 0;P;E;E;E;E;E;E;E;
C 2 1 0;E;P;E;E;E;E;E;E;E;
P;C 1 0 2;P;C 0 0 2;C 0 2 0;E;E;E;E;E;
C 1 3 4;P;C 1 3 2;C 1 0 4;E;E;E;E;E;E;
C 2 1 3;C 2 3 1;C 2 0 2;C 2 2 0;E;E;E;E;E;E;
C 3 0 3;C 3 1 2;C 3 2 1;E;E;E;E;E;E;E;
C 36 2 0;P;P;C 36 0 1;E;E;E;E;E;E;
C 4 3 0;P;P;E;E;E;E;E;E;E;
C 37 0 1;P;P;C 37 2 0;E;E;E;E;E;E;
C 5 0 3;P;P;E;E;E;E;E;E;E;
C 38 2 0;P;P;C 38 0 1;E;E;E;E;E;E;
C 6 3 0;P;P;E;E;E;E;E;E;E;
C 39 0 1;P;P;C 39 2 0;E;E;E;E;E;E;
C 7 0 3;P;P;E;E;E;E;E;E;E;
C 40 2 0;P;P;C 40 0 1;E;E;E;E;E;E;
C 8 3 0;P;P;E;E;E;E;E;E;E;
C 41 0 1;P;P;C 41 2 0;E;E;E;E;E;E;
C 9 0 3;P;P;E;E;E;E;E;E;E;
C 42 0 1;P;P;C 42 2 0;E;E;E;E;E;E;
C 10 0 3;P;P;E;E;E;E;E;E;E;
C 43 2 0;P;P;C 43 0 1;E;E;E;E;E;E;
C 11 3 0;P;P;E;E;E;E;E;E;E;
C 44 2 0;P;P;C 44 0 1;E;E;E;E;E;E;
C 12 3 0;P;P;E;E;E;E;E;E;E;
C 45 2 0;P;P;C 45 0 1;E;E;E;E;E;E;
C 13 3 0;P;P;E;E;E;E;E;E;E;
C 46 2 0;P;P;C 46 0 1;E;E;E;E;E;E;
C 14 3 0;P;P;E;E;E;E;E;E;E;
C 47 0 1;P;P;C 47 2 0;E;E;E;E;E;E;
C 15 0 3;P;P;E;E;E;E;E;E;E;
C 48 0 1;P;P;C 48 2 0;E;E;E;E;E;E;
C 16 0 3;P;P;E;E;E;E;E;E;E;
C 49 0 1;P;P;C 49 2 0;E;E;E;E;E;E;
C 17 0 3;P;P;E;E;E;E;E;E;E;
C 50 0 1;P;P;C 50 2 0;E;E;E;E;E;E;
C 18 0 3;P;P;E;E;E;E;E;E;E;
C 51 2 0;P;P;C 51 0 1;E;E;E;E;E;E;
C 19 3 0;P;P;E;E;E;E;E;E;E;
C 52 2 0;P;P;C 52 0 1;E;E;E;E;E;E;
C 20 3 0;P;P;E;E;E;E;E;E;E;
C 53 2 0;P;P;C 53 0 1;E;E;E;E;E;E;
C 21 3 0;P;P;E;E;E;E;E;E;E;
C 54 2 0;P;P;C 54 0 1;E;E;E;E;E;E;
C 22 3 0;P;P;E;E;E;E;E;E;E;
C 55 0 1;P;P;C 55 2 0;E;E;E;E;E;E;
C 23 0 3;P;P;E;E;E;E;E;E;E;
C 56 2 0;P;P;C 56 0 1;E;E;E;E;E;E;
C 24 3 0;P;P;E;E;E;E;E;E;E;
C 57 0 1;P;P;C 57 2 0;E;E;E;E;E;E;
C 25 0 3;P;P;E;E;E;E;E;E;E;
C 58 2 0;P;P;C 58 0 1;E;E;E;E;E;E;
C 26 3 0;P;P;E;E;E;E;E;E;E;
C 59 0 1;P;P;C 59 2 0;E;E;E;E;E;E;
C 27 0 3;P;P;E;E;E;E;E;E;E;
C 60 0 1;P;P;C 60 2 0;E;E;E;E;E;E;
C 28 0 3;P;P;E;E;E;E;E;E;E;
C 61 0 1;P;P;C 61 2 0;E;E;E;E;E;E;
C 29 0 3;P;P;E;E;E;E;E;E;E;
C 62 0 1;P;P;C 62 2 0;E;E;E;E;E;E;
C 30 0 3;P;P;E;E;E;E;E;E;E;
C 63 2 0;P;P;C 63 0 1;E;E;E;E;E;E;
C 31 3 0;P;P;E;E;E;E;E;E;E;
C 64 2 0;P;P;C 64 0 1;E;E;E;E;E;E;
C 32 3 0;P;P;E;E;E;E;E;E;E;
C 65 2 0;P;P;C 65 0 1;E;E;E;E;E;E;
C 33 3 0;P;P;E;E;E;E;E;E;E;
C 66 2 0;P;P;C 66 0 1;E;E;E;E;E;E;
C 34 3 0;P;P;E;E;E;E;E;E;E;
C 67 0 2;C 67 1 0;C 67 0 1;C 67 2 0;E;E;E;E;E;E;
C 35 2 3;C 35 0 1;E;E;E;E;E;E;E;E;
C 2 1 0;E;E;E;E;E;E;E;E;E].
(** fhevm/src/codegen/codegen_pc_update.rs:12267-13311 *)
Definition pc_update_15 : bit_circuit := BC 10%nat [
C 83 1 0;C 19 0 1;C 115 1 0;C 83 0 1;C 115 0 1;C 19 1 0;E;E;E;E;
P;C 19 2 4;C 82 3 0;C 18 1 5;C 83 2 4;P;C 83 4 2;C 19 4 2;E;E;
P;P;C 114 4 6;C 114 1 7;P;P;P;P;C 81 2 0;C 17 3 5;
P;C 80 8 0;C 18 3 7;C 18 1 3;C 16 9 5;P;C 82 2 6;C 82 4 2;E;E;
P;C 113 3 2;P;P;C 79 1 0;P;P;P;C 15 4 5;C 113 7 6;
P;C 78 4 0;C 81 7 9;C 81 9 6;C 17 1 2;P;C 17 3 1;C 14 8 5;E;E;
P;C 13 7 5;P;P;P;P;P;C 112 6 4;C 77 1 0;C 112 2 3;
P;C 80 9 3;C 76 8 0;C 16 7 4;C 16 6 7;P;C 12 1 5;C 80 2 9;E;E;
P;P;C 75 2 0;P;P;P;C 11 6 5;P;C 111 4 3;C 111 7 1;
P;C 15 4 8;C 15 8 3;C 10 6 5;C 74 2 0;P;C 79 9 1;C 79 7 9;E;E;
P;P;P;C 110 1 2;C 9 3 5;P;P;P;C 110 7 6;C 73 4 0;
P;C 14 3 2;C 78 7 8;C 78 8 6;C 8 4 5;P;C 72 9 0;C 14 1 3;E;E;
P;P;P;P;C 71 6 0;P;C 109 7 1;P;C 109 2 3;C 7 4 5;
C 77 2 8;C 13 7 6;C 70 4 0;C 6 9 5;C 13 6 1;C 77 8 3;E;E;E;E;
P;P;P;C 108 0 5;P;P;C 108 1 4;C 0 3 2;E;E;
C 76 3 5;C 76 0 3;P;C 12 1 6;C 12 6 4;C 1 7 2;E;E;E;E;
P;P;C 107 1 0;P;P;C 2 5 2;C 107 3 4;E;E;E;
C 75 1 2;C 11 3 6;C 75 2 0;C 11 6 4;E;P;E;E;E;E;
P;P;P;P;C 106 1 3;P;C 106 0 2;E;E;E;
C 10 1 4;C 74 0 6;C 74 6 2;C 10 4 3;E;P;E;E;E;E;
P;P;P;P;C 105 1 2;P;C 105 0 3;E;E;E;
C 9 0 6;C 73 1 4;C 9 6 3;C 73 4 2;E;P;E;E;E;E;
P;P;P;P;C 104 1 3;P;C 104 0 2;E;E;E;
C 8 0 6;C 72 4 3;C 8 6 2;C 72 1 4;E;P;E;E;E;E;
P;P;P;P;C 103 3 1;P;C 103 0 2;E;E;E;
C 7 0 6;C 71 4 1;C 7 6 2;C 71 3 4;E;P;E;E;E;E;
P;P;P;P;C 102 3 1;P;C 102 0 2;E;E;E;
C 6 0 6;C 70 4 1;C 70 3 4;C 6 6 2;E;P;E;E;E;E;
P;P;P;P;C 101 0 3;P;C 101 2 1;E;E;E;
C 5 0 4;C 69 2 6;C 69 6 1;C 5 4 3;E;P;E;E;E;E;
C 100 1 2;C 100 0 3;P;P;E;P;E;E;E;E;
C 68 0 2;C 4 1 3;E;E;E;P;E;E;E;E;
P;C 0 1 0;E;E;E;P;E;E;E;E;
P;C 1 1 0;E;E;E;P;E;E;E;E;
C 2 1 0;E;E;E;E;P;E;E;E;E;
P;C 0 5 0;C 1 0 5;C 0 0 5;E;P;E;E;E;E;
C 1 3 5;C 1 3 1;P;C 1 0 1;E;E;E;E;E;E;
C 2 3 2;C 2 2 3;C 2 1 0;C 2 0 1;E;E;E;E;E;E;
C 3 0 2;C 3 2 0;C 3 1 3;E;E;E;E;E;E;E;
P;P;C 36 2 0;C 36 1 2;E;E;E;E;E;E;
P;P;C 4 2 3;E;E;E;E;E;E;E;
P;P;C 37 2 0;C 37 1 2;E;E;E;E;E;E;
P;P;C 5 2 3;E;E;E;E;E;E;E;
P;P;C 38 1 2;C 38 2 0;E;E;E;E;E;E;
P;P;C 6 3 2;E;E;E;E;E;E;E;
P;P;C 39 1 2;C 39 2 0;E;E;E;E;E;E;
P;P;C 7 3 2;E;E;E;E;E;E;E;
P;P;C 40 1 2;C 40 2 0;E;E;E;E;E;E;
P;P;C 8 3 2;E;E;E;E;E;E;E;
P;P;C 41 1 2;C 41 2 0;E;E;E;E;E;E;
P;P;C 9 3 2;E;E;E;E;E;E;E;
P;P;C 42 1 2;C 42 2 0;E;E;E;E;E;E;
P;P;C 10 3 2;E;E;E;E;E;E;E;
P;P;C 43 1 2;C 43 2 0;E;E;E;E;E;E;
P;P;C 11 3 2;E;E;E;E;E;E;E;
P;P;C 44 2 0;C 44 1 2;E;E;E;E;E;E;
P;P;C 12 2 3;E;E;E;E;E;E;E;
P;P;C 45 1 2;C 45 2 0;E;E;E;E;E;E;
P;P;C 13 3 2;E;E;E;E;E;E;E;
P;P;C 46 1 2;C 46 2 0;E;E;E;E;E;E;
P;P;C 14 3 2;E;E;E;E;E;E;E;
P;P;C 47 2 0;C 47 1 2;E;E;E;E;E;E;
P;P;C 15 2 3;E;E;E;E;E;E;E;
P;P;C 48 1 2;C 48 2 0;E;E;E;E;E;E;
P;P;C 16 3 2;E;E;E;E;E;E;E;
P;P;C 49 2 0;C 49 1 2;E;E;E;E;E;E;
P;P;C 17 2 3;E;E;E;E;E;E;E;
P;P;C 50 1 2;C 50 2 0;E;E;E;E;E;E;
P;P;C 18 3 2;E;E;E;E;E;E;E;
P;P;C 51 2 0;C 51 1 2;E;E;E;E;E;E;
P;P;C 19 2 3;E;E;E;E;E;E;E;
P;P;C 52 2 0;C 52 1 2;E;E;E;E;E;E;
P;P;C 20 2 3;E;E;E;E;E;E;E;
P;P;C 53 1 2;C 53 2 0;E;E;E;E;E;E;
P;P;C 21 3 2;E;E;E;E;E;E;E;
P;P;C 54 2 0;C 54 1 2;E;E;E;E;E;E;
P;P;C 22 2 3;E;E;E;E;E;E;E;
P;P;C 55 2 0;C 55 1 2;E;E;E;E;E;E;
P;P;C 23 2 3;E;E;E;E;E;E;E;
P;P;C 56 1 2;C 56 2 0;E;E;E;E;E;E;
P;P;C 24 3 2;E;E;E;E;E;E;E;
P;P;C 57 1 2;C 57 2 0;E;E;E;E;E;E;
P;P;C 25 3 2;E;E;E;E;E;E;E;
P;P;C 58 2 0;C 58 1 2;E;E;E;E;E;E;
P;P;C 26 2 3;E;E;E;E;E;E;E;
P;P;C 59 1 2;C 59 2 0;E;E;E;E;E;E;
P;P;C 27 3 2;E;E;E;E;E;E;E;
P;P;C 60 1 2;C 60 2 0;E;E;E;E;E;E;
P;P;C 28 3 2;E;E;E;E;E;E;E;
P;P;C 61 2 0;C 61 1 2;E;E;E;E;E;E;
P;P;C 29 2 3;E;E;E;E;E;E;E;
P;P;C 62 1 2;C 62 2 0;E;E;E;E;E;E;
P;P;C 30 3 2;E;E;E;E;E;E;E;
P;P;C 63 1 2;C 63 2 0;E;E;E;E;E;E;
P;P;C 31 3 2;E;E;E;E;E;E;E;
P;P;C 64 1 2;C 64 2 0;E;E;E;E;E;E;
P;P;C 32 3 2;E;E;E;E;E;E;E;
P;P;C 65 2 0;C 65 1 2;E;E;E;E;E;E;
P;P;C 33 2 3;E;E;E;E;E;E;E;
P;P;C 66 2 0;C 66 1 2;E;E;E;E;E;E;
P;P;C 34 2 3;E;E;E;E;E;E;E;
C 67 0 2;C 67 1 2;C 67 2 1;C 67 2 0;E;E;E;E;E;E;
C 35 2 0;C 35 3 1;E;E;E;E;E;E;E;E;
C 2 0 1;E;E;E;E;E;E;E;E;E].
(** fhevm/src/codegen/codegen_pc_update.rs:13312-14376 *)
Definition pc_update_16 : bit_circuit := BC 10%nat [
C 84 1 0;C 116 1 0;C 20 0 1;C 84 0 1;C 20 1 0;C 116 0 1;E;E;E;E;
P;C 84 1 5;C 20 5 1;C 84 5 1;P;C 19 2 4;C 83 3 0;C 20 1 5;E;E;
P;P;P;P;P;C 115 7 2;C 82 6 0;P;C 18 5 4;C 115 1 3;
P;C 83 9 3;C 19 5 2;C 83 1 9;P;C 81 6 0;C 19 7 5;C 17 8 4;E;E;
P;P;P;P;P;C 80 5 0;P;C 114 6 2;C 114 3 1;C 16 7 4;
P;C 82 8 1;C 18 6 7;C 15 9 4;P;C 79 5 0;C 18 7 2;C 82 3 8;E;E;
P;P;P;C 113 7 1;P;C 78 5 0;P;P;C 14 3 4;C 113 2 6;
P;C 17 9 6;C 13 8 4;C 77 5 0;P;C 81 7 3;C 17 2 9;C 81 3 1;E;E;
P;P;C 12 2 4;C 112 5 7;P;P;P;P;C 76 3 0;C 112 6 1;
P;C 16 6 9;C 16 9 1;C 75 8 0;P;C 11 2 4;C 80 3 7;C 80 5 3;E;E;
P;P;P;C 74 3 0;P;C 111 1 2;P;P;C 111 7 6;C 10 5 4;
P;C 15 5 2;C 79 8 6;C 9 9 4;P;C 73 3 0;C 79 7 8;C 15 1 5;E;E;
P;P;P;C 8 3 4;P;C 72 5 0;P;P;C 110 7 1;C 110 6 2;
P;C 14 7 8;C 78 9 2;C 78 6 9;P;C 71 5 0;C 14 8 1;C 7 3 4;E;E;
C 70 5 0;P;P;P;C 109 3 2;C 109 1 6;P;C 6 7 4;E;E;
P;C 0 7 0;C 77 3 4;C 13 5 6;C 13 1 5;C 77 4 2;E;E;E;E;
P;C 108 4 3;P;P;P;P;C 1 1 0;C 108 2 5;E;E;
C 2 6 0;C 76 2 7;C 12 1 3;C 76 7 5;C 12 4 1;E;E;E;E;E;
P;P;P;P;P;C 107 1 3;C 107 4 2;E;E;E;
P;C 11 4 6;C 11 6 2;C 75 5 3;C 75 1 5;E;E;E;E;E;
P;P;P;P;P;C 106 1 2;C 106 4 3;E;E;E;
P;C 74 4 6;C 74 6 3;C 10 1 5;C 10 5 2;E;E;E;E;E;
P;P;P;P;P;C 105 3 4;C 105 1 2;E;E;E;
P;C 9 3 5;C 73 1 6;C 73 6 2;C 9 5 4;E;E;E;E;E;
P;P;P;P;P;C 104 1 4;C 104 2 3;E;E;E;
P;C 8 5 4;C 72 2 6;C 8 1 5;C 72 6 3;E;E;E;E;E;
P;P;P;P;P;C 103 2 4;C 103 3 1;E;E;E;
P;C 7 3 6;C 71 5 4;C 71 2 5;C 7 6 1;E;E;E;E;E;
P;P;P;P;P;C 102 3 2;C 102 1 4;E;E;E;
P;C 6 1 6;C 6 6 4;C 70 3 5;C 70 5 2;E;E;E;E;E;
P;P;P;P;P;C 101 3 4;C 101 1 2;E;E;E;
P;C 69 3 5;C 69 5 4;C 5 1 6;C 5 6 2;E;E;E;E;E;
P;C 100 3 4;P;C 100 1 2;P;E;E;E;E;E;
P;C 68 3 2;C 4 1 4;E;E;E;E;E;E;E;
P;P;C 0 2 1;E;E;E;E;E;E;E;
P;P;C 1 2 1;E;E;E;E;E;E;E;
P;C 2 2 1;E;E;E;E;E;E;E;E;
P;P;C 0 0 1;C 0 1 0;C 1 1 0;E;E;E;E;E;
C 1 3 2;C 1 3 0;C 1 1 2;E;P;E;E;E;E;E;
C 2 4 2;C 2 2 4;C 2 0 1;C 2 1 0;E;E;E;E;E;E;
C 3 2 1;C 3 0 3;C 3 1 2;E;E;E;E;E;E;E;
P;C 36 1 2;P;C 36 0 1;E;E;E;E;E;E;
P;C 4 1 3;P;E;E;E;E;E;E;E;
P;C 37 1 2;P;C 37 0 1;E;E;E;E;E;E;
P;C 5 1 3;P;E;E;E;E;E;E;E;
P;C 38 1 2;P;C 38 0 1;E;E;E;E;E;E;
P;C 6 1 3;P;E;E;E;E;E;E;E;
P;C 39 1 2;P;C 39 0 1;E;E;E;E;E;E;
P;C 7 1 3;P;E;E;E;E;E;E;E;
P;C 40 0 1;P;C 40 1 2;E;E;E;E;E;E;
P;C 8 3 1;P;E;E;E;E;E;E;E;
P;C 41 1 2;P;C 41 0 1;E;E;E;E;E;E;
P;C 9 1 3;P;E;E;E;E;E;E;E;
P;C 42 0 1;P;C 42 1 2;E;E;E;E;E;E;
P;C 10 3 1;P;E;E;E;E;E;E;E;
P;C 43 1 2;P;C 43 0 1;E;E;E;E;E;E;
P;C 11 1 3;P;E;E;E;E;E;E;E;
P;C 44 0 1;P;C 44 1 2;E;E;E;E;E;E;
P;C 12 3 1;P;E;E;E;E;E;E;E;
P;C 45 0 1;P;C 45 1 2;E;E;E;E;E;E;
P;C 13 3 1;P;E;E;E;E;E;E;E;
P;C 46 0 1;P;C 46 1 2;E;E;E;E;E;E;
P;C 14 3 1;P;E;E;E;E;E;E;E;
P;C 47 0 1;P;C 47 1 2;E;E;E;E;E;E;
P;C 15 3 1;P;E;E;E;E;E;E;E;
P;C 48 0 1;P;C 48 1 2;E;E;E;E;E;E;
P;C 16 3 1;P;E;E;E;E;E;E;E;
P;C 49 1 2;P;C 49 0 1;E;E;E;E;E;E;
P;C 17 1 3;P;E;E;E;E;E;E;E;
P;C 50 0 1;P;C 50 1 2;E;E;E;E;E;E;
P;C 18 3 1;P;E;E;E;E;E;E;E;
P;C 51 0 1;P;C 51 1 2;E;E;E;E;E;E;
P;C 19 3 1;P;E;E;E;E;E;E;E;
P;C 52 1 2;P;C 52 0 1;E;E;E;E;E;E;
P;C 20 1 3;P;E;E;E;E;E;E;E;
P;C 53 1 2;P;C 53 0 1;E;E;E;E;E;E;
P;C 21 1 3;P;E;E;E;E;E;E;E;
P;C 54 1 2;P;C 54 0 1;E;E;E;E;E;E;
P;C 22 1 3;P;E;E;E;E;E;E;E;
P;C 55 1 2;P;C 55 0 1;E;E;E;E;E;E;
P;C 23 1 3;P;E;E;E;E;E;E;E;
P;C 56 1 2;P;C 56 0 1;E;E;E;E;E;E;
P;C 24 1 3;P;E;E;E;E;E;E;E;
P;C 57 0 1;P;C 57 1 2;E;E;E;E;E;E;
P;C 25 3 1;P;E;E;E;E;E;E;E;
P;C 58 1 2;P;C 58 0 1;E;E;E;E;E;E;
P;C 26 1 3;P;E;E;E;E;E;E;E;
P;C 59 0 1;P;C 59 1 2;E;E;E;E;E;E;
P;C 27 3 1;P;E;E;E;E;E;E;E;
P;C 60 1 2;P;C 60 0 1;E;E;E;E;E;E;
P;C 28 1 3;P;E;E;E;E;E;E;E;
P;C 61 1 2;P;C 61 0 1;E;E;E;E;E;E;
P;C 29 1 3;P;E;E;E;E;E;E;E;
P;C 62 1 2;P;C 62 0 1;E;E;E;E;E;E;
P;C 30 1 3;P;E;E;E;E;E;E;E;
P;C 63 1 2;P;C 63 0 1;E;E;E;E;E;E;
P;C 31 1 3;P;E;E;E;E;E;E;E;
P;C 64 0 1;P;C 64 1 2;E;E;E;E;E;E;
P;C 32 3 1;P;E;E;E;E;E;E;E;
P;C 65 0 1;P;C 65 1 2;E;E;E;E;E;E;
P;C 33 3 1;P;E;E;E;E;E;E;E;
P;C 66 0 1;P;C 66 1 2;E;E;E;E;E;E;
P;C 34 3 1;P;E;E;E;E;E;E;E;
C 67 0 1;C 67 1 0;C 67 2 1;C 67 1 2;E;E;E;E;E;E;
C 35 3 0;C 35 1 2;E;E;E;E;E;E;E;E;
C 2 1 0;E;E;E;E;E;E;E;E;E].
(** fhevm/src/codegen/codegen_pc_update.rs:14377-15461 *)
Definition pc_update_17 : bit_circuit := BC 10%nat [
C 21 1 0;C 85 0 1;C 117 1 0;C 21 0 1;C 85 1 0;C 117 0 1;E;E;E;E;
P;C 21 2 5;C 85 2 5;C 84 1 4;P;C 20 3 0;C 21 5 2;C 85 5 2;E;E;
P;P;P;C 116 1 6;P;C 83 3 4;P;P;C 116 2 7;C 19 5 0;
P;C 18 9 0;C 20 1 3;C 84 8 7;P;C 20 3 6;C 84 2 8;C 82 5 4;E;E;
P;C 115 6 3;P;P;P;P;P;C 81 7 4;C 115 2 5;C 17 1 0;
P;C 19 2 8;C 19 8 5;C 80 7 4;P;C 83 6 1;C 16 9 0;C 83 1 3;E;E;
P;P;P;C 79 3 4;P;P;C 114 1 2;P;C 114 5 7;C 15 6 0;
P;C 82 8 7;C 18 6 2;C 14 9 0;P;C 82 5 8;C 78 3 4;C 18 1 6;E;E;
P;P;P;C 113 7 2;P;P;C 77 6 4;P;C 13 3 0;C 113 5 1;
P;C 81 5 9;C 81 9 1;C 12 8 0;P;C 17 3 2;C 76 6 4;C 17 7 3;E;E;
P;P;P;C 112 7 5;P;P;C 11 3 0;P;C 75 6 4;C 112 1 2;
P;C 10 6 0;C 74 8 4;C 16 7 3;P;C 16 3 5;C 80 1 9;C 80 9 2;E;E;
P;C 111 3 5;C 111 6 7;P;P;P;P;P;C 9 1 0;C 73 2 4;
P;C 79 6 2;C 15 3 1;C 72 9 4;P;C 15 1 5;C 8 8 0;C 79 2 7;E;E;
P;P;P;C 110 2 5;P;P;C 7 6 0;P;C 71 3 4;C 110 1 7;
C 6 6 0;C 78 9 7;C 14 3 5;C 78 1 9;C 14 2 3;C 70 8 4;E;E;E;E;
C 0 0 5;P;P;P;P;P;C 109 4 2;C 109 3 1;E;E;
C 1 0 5;C 13 4 6;C 77 3 7;C 77 7 1;C 13 6 2;P;E;E;E;E;
C 108 1 4;P;P;P;P;C 108 2 3;C 2 0 5;E;E;E;
C 76 5 3;C 12 0 4;C 76 2 5;C 12 1 0;E;E;P;E;E;E;
P;P;P;P;C 107 3 1;C 107 2 0;P;E;E;E;
C 11 3 4;C 75 2 5;C 75 5 0;C 11 4 1;E;E;P;E;E;E;
P;P;P;P;C 106 1 2;C 106 0 3;P;E;E;E;
C 10 5 3;C 74 1 4;C 74 4 2;C 10 0 5;E;E;P;E;E;E;
P;P;P;P;C 105 3 0;C 105 1 2;P;E;E;E;
C 9 4 0;C 9 3 4;C 73 1 5;C 73 5 2;E;E;P;E;E;E;
P;P;P;P;C 104 2 3;C 104 1 0;P;E;E;E;
C 72 4 3;C 8 1 5;C 8 5 0;C 72 2 4;E;E;P;E;E;E;
P;P;P;P;C 103 1 2;C 103 3 0;P;E;E;E;
C 7 1 4;C 71 3 5;C 71 5 0;C 7 4 2;E;E;P;E;E;E;
P;P;P;P;C 102 0 3;C 102 1 2;P;E;E;E;
C 70 5 2;C 70 1 5;C 6 0 4;C 6 4 3;E;E;P;E;E;E;
P;P;P;P;C 101 1 0;C 101 2 3;P;E;E;E;
C 5 2 5;C 69 4 0;C 69 1 4;C 5 5 3;E;E;P;E;E;E;
C 100 0 3;P;C 100 2 1;P;E;E;P;E;E;E;
C 68 2 1;C 4 0 3;E;E;E;E;P;E;E;E;
P;C 0 1 0;E;E;E;E;P;E;E;E;
P;C 1 1 0;E;E;E;E;P;E;E;E;
C 2 1 0;E;E;E;E;E;P;E;E;E;
P;C 0 6 0;C 0 0 6;C 1 0 6;E;E;P;E;E;E;
C 1 0 1;C 1 2 1;C 1 2 6;P;E;E;E;E;E;E;
C 2 3 0;C 2 0 3;C 2 1 2;C 2 2 1;E;E;E;E;E;E;
C 3 1 2;C 3 2 1;C 3 0 3;E;E;E;E;E;E;E;
P;P;C 36 1 2;C 36 2 0;E;E;E;E;E;E;
P;P;C 4 3 2;E;E;E;E;E;E;E;
P;P;C 37 1 2;C 37 2 0;E;E;E;E;E;E;
P;P;C 5 3 2;E;E;E;E;E;E;E;
P;P;C 38 2 0;C 38 1 2;E;E;E;E;E;E;
P;P;C 6 2 3;E;E;E;E;E;E;E;
P;P;C 39 2 0;C 39 1 2;E;E;E;E;E;E;
P;P;C 7 2 3;E;E;E;E;E;E;E;
P;P;C 40 2 0;C 40 1 2;E;E;E;E;E;E;
P;P;C 8 2 3;E;E;E;E;E;E;E;
P;P;C 41 1 2;C 41 2 0;E;E;E;E;E;E;
P;P;C 9 3 2;E;E;E;E;E;E;E;
P;P;C 42 2 0;C 42 1 2;E;E;E;E;E;E;
P;P;C 10 2 3;E;E;E;E;E;E;E;
P;P;C 43 1 2;C 43 2 0;E;E;E;E;E;E;
P;P;C 11 3 2;E;E;E;E;E;E;E;
P;P;C 44 2 0;C 44 1 2;E;E;E;E;E;E;
P;P;C 12 2 3;E;E;E;E;E;E;E;
P;P;C 45 1 2;C 45 2 0;E;E;E;E;E;E;
P;P;C 13 3 2;E;E;E;E;E;E;E;
P;P;C 46 2 0;C 46 1 2;E;E;E;E;E;E;
P;P;C 14 2 3;E;E;E;E;E;E;E;
P;P;C 47 1 2;C 47 2 0;E;E;E;E;E;E;
P;P;C 15 3 2;E;E;E;E;E;E;E;
P;P;C 48 1 2;C 48 2 0;E;E;E;E;E;E;
P;P;C 16 3 2;E;E;E;E;E;E;E;
P;P;C 49 1 2;C 49 2 0;E;E;E;E;E;E;
P;P;C 17 3 2;E;E;E;E;E;E;E;
P;P;C 50 2 0;C 50 1 2;E;E;E;E;E;E;
P;P;C 18 2 3;E;E;E;E;E;E;E;
P;P;C 51 2 0;C 51 1 2;E;E;E;E;E;E;
P;P;C 19 2 3;E;E;E;E;E;E;E;
P;P;C 52 2 0;C 52 1 2;E;E;E;E;E;E;
P;P;C 20 2 3;E;E;E;E;E;E;E;
P;P;C 53 1 2;C 53 2 0;E;E;E;E;E;E;
P;P;C 21 3 2;E;E;E;E;E;E;E;
P;P;C 54 1 2;C 54 2 0;E;E;E;E;E;E;
P;P;C 22 3 2;E;E;E;E;E;E;E;
P;P;C 55 2 0;C 55 1 2;E;E;E;E;E;E;
P;P;C 23 2 3;E;E;E;E;E;E;E;
P;P;C 56 1 2;C 56 2 0;E;E;E;E;E;E;
P;P;C 24 3 2;E;E;E;E;E;E;E;
P;P;C 57 2 0;C 57 1 2;E;E;E;E;E;E;
P;P;C 25 2 3;E;E;E;E;E;E;E;
P;P;C 58 2 0;C 58 1 2;E;E;E;E;E;E;
P;P;C 26 2 3;E;E;E;E;E;E;E;
P;P;C 59 1 2;C 59 2 0;E;E;E;E;E;E;
P;P;C 27 3 2;E;E;E;E;E;E;E;
P;P;C 60 1 2;C 60 2 0;E;E;E;E;E;E;
P;P;C 28 3 2;E;E;E;E;E;E;E;
P;P;C 61 1 2;C 61 2 0;E;E;E;E;E;E;
P;P;C 29 3 2;E;E;E;E;E;E;E;
P;P;C 62 1 2;C 62 2 0;E;E;E;E;E;E;
P;P;C 30 3 2;E;E;E;E;E;E;E;
P;P;C 63 2 0;C 63 1 2;E;E;E;E;E;E;
P;P;C 31 2 3;E;E;E;E;E;E;E;
P;P;C 64 1 2;C 64 2 0;E;E;E;E;E;E;
P;P;C 32 3 2;E;E;E;E;E;E;E;
P;P;C 65 2 0;C 65 1 2;E;E;E;E;E;E;
P;P;C 33 2 3;E;E;E;E;E;E;E;
P;P;C 66 2 0;C 66 1 2;E;E;E;E;E;E;
P;P;C 34 2 3;E;E;E;E;E;E;E;
C 67 2 1;C 67 0 2;C 67 1 2;C 67 2 0;E;E;E;E;E;E;
C 35 3 2;C 35 0 1;E;E;E;E;E;E;E;E;
C 2 1 0;E;E;E;E;E;E;E;E;E].
(** fhevm/src/codegen/codegen_pc_update.rs:15462-16566 *)
Definition pc_update_18 : bit_circuit := BC 10%nat [
C 86 1 0;C 22 0 1;C 86 0 1;C 118 1 0;C 118 0 1;C 22 1 0;E;E;E;E;
P;C 86 3 4;C 22 4 3;C 85 2 0;C 21 1 5;P;C 22 3 4;C 86 4 3;E;E;
P;P;P;C 117 6 2;C 84 3 0;P;P;P;C 117 1 7;C 20 4 5;
P;C 21 3 2;C 19 9 5;C 85 1 8;C 21 6 3;P;C 83 4 0;C 85 8 7;E;E;
P;P;C 18 2 5;P;P;P;C 82 6 0;P;C 116 4 1;C 116 3 7;
P;C 20 8 1;C 81 6 0;C 84 9 7;C 17 2 5;P;C 20 4 8;C 84 3 9;E;E;
P;P;C 115 7 3;P;C 16 4 5;P;P;P;C 115 6 1;C 80 2 0;
P;C 79 9 0;C 15 4 5;C 19 6 8;C 83 7 2;P;C 19 8 1;C 83 2 3;E;E;
P;C 78 1 0;C 14 2 5;P;P;P;P;P;C 114 3 6;C 114 4 7;
P;C 18 3 8;C 77 1 0;C 82 9 7;C 18 8 6;P;C 13 2 5;C 82 4 9;E;E;
P;P;C 113 7 3;P;P;P;C 12 6 5;P;C 113 1 4;C 76 2 0;
P;C 17 8 4;C 81 2 3;C 17 1 8;C 11 6 5;P;C 75 9 0;C 81 7 2;E;E;
P;P;P;P;C 112 7 2;P;C 10 4 5;P;C 74 6 0;C 112 3 1;
P;C 16 3 9;C 16 9 1;C 73 8 0;C 80 7 4;P;C 9 6 5;C 80 4 2;E;E;
P;P;P;C 111 1 2;P;P;C 8 6 5;P;C 72 3 0;C 111 4 7;
P;C 7 6 5;C 71 8 0;C 15 3 2;C 79 9 7;P;C 15 1 3;C 79 4 9;E;E;
C 6 1 5;C 70 2 0;C 110 6 3;P;P;C 110 7 4;P;P;E;E;
C 14 6 2;P;C 78 5 4;C 0 0 1;C 78 7 5;C 14 2 3;E;E;E;E;
P;P;P;C 109 0 5;P;P;C 109 4 2;C 1 3 1;E;E;
C 77 6 2;C 2 7 1;C 13 3 5;C 77 4 6;C 13 0 3;E;E;E;E;E;
P;P;P;P;P;C 108 4 2;C 108 3 0;E;E;E;
C 12 4 5;P;C 12 5 2;C 76 6 0;C 76 3 6;E;E;E;E;E;
P;P;P;P;P;C 107 0 2;C 107 4 3;E;E;E;
C 11 5 2;P;C 75 4 6;C 75 6 3;C 11 0 5;E;E;E;E;E;
P;P;P;P;P;C 106 4 0;C 106 2 3;E;E;E;
C 10 5 0;P;C 10 4 5;C 74 2 6;C 74 6 3;E;E;E;E;E;
P;P;P;P;P;C 105 3 4;C 105 2 0;E;E;E;
C 73 5 4;P;C 9 2 6;C 73 3 5;C 9 6 0;E;E;E;E;E;
P;P;P;P;P;C 104 3 0;C 104 2 4;E;E;E;
C 8 6 4;P;C 8 2 6;C 72 3 5;C 72 5 0;E;E;E;E;E;
P;P;P;P;P;C 103 2 0;C 103 3 4;E;E;E;
C 7 5 0;P;C 71 3 6;C 71 6 4;C 7 2 5;E;E;E;E;E;
P;P;P;P;P;C 102 4 0;C 102 2 3;E;E;E;
C 6 4 5;P;C 70 2 6;C 6 5 0;C 70 6 3;E;E;E;E;E;
P;P;P;P;P;C 101 2 4;C 101 0 3;E;E;E;
C 5 0 6;P;C 69 2 5;C 69 5 4;C 5 6 3;E;E;E;E;E;
C 100 2 3;P;C 100 0 4;P;P;E;E;E;E;E;
C 4 2 4;P;C 68 0 3;E;E;E;E;E;E;E;
C 0 0 2;P;P;E;E;E;E;E;E;E;
C 1 0 2;P;P;E;E;E;E;E;E;E;
C 2 0 2;P;E;E;E;E;E;E;E;E;
P;P;C 0 1 0;C 0 0 1;C 1 0 1;E;E;E;E;E;
C 1 3 1;C 1 0 2;C 1 3 2;E;P;E;E;E;E;E;
C 2 4 1;C 2 0 2;C 2 1 4;C 2 2 0;E;E;E;E;E;E;
C 3 2 3;C 3 0 1;C 3 3 2;E;E;E;E;E;E;E;
P;C 36 1 0;P;C 36 2 1;E;E;E;E;E;E;
P;C 4 1 3;P;E;E;E;E;E;E;E;
P;C 37 2 1;P;C 37 1 0;E;E;E;E;E;E;
P;C 5 3 1;P;E;E;E;E;E;E;E;
P;C 38 2 1;P;C 38 1 0;E;E;E;E;E;E;
P;C 6 3 1;P;E;E;E;E;E;E;E;
P;C 39 2 1;P;C 39 1 0;E;E;E;E;E;E;
P;C 7 3 1;P;E;E;E;E;E;E;E;
P;C 40 2 1;P;C 40 1 0;E;E;E;E;E;E;
P;C 8 3 1;P;E;E;E;E;E;E;E;
P;C 41 1 0;P;C 41 2 1;E;E;E;E;E;E;
P;C 9 1 3;P;E;E;E;E;E;E;E;
P;C 42 2 1;P;C 42 1 0;E;E;E;E;E;E;
P;C 10 3 1;P;E;E;E;E;E;E;E;
P;C 43 2 1;P;C 43 1 0;E;E;E;E;E;E;
P;C 11 3 1;P;E;E;E;E;E;E;E;
P;C 44 1 0;P;C 44 2 1;E;E;E;E;E;E;
P;C 12 1 3;P;E;E;E;E;E;E;E;
P;C 45 2 1;P;C 45 1 0;E;E;E;E;E;E;
P;C 13 3 1;P;E;E;E;E;E;E;E;
P;C 46 2 1;P;C 46 1 0;E;E;E;E;E;E;
P;C 14 3 1;P;E;E;E;E;E;E;E;
P;C 47 1 0;P;C 47 2 1;E;E;E;E;E;E;
P;C 15 1 3;P;E;E;E;E;E;E;E;
P;C 48 2 1;P;C 48 1 0;E;E;E;E;E;E;
P;C 16 3 1;P;E;E;E;E;E;E;E;
P;C 49 2 1;P;C 49 1 0;E;E;E;E;E;E;
P;C 17 3 1;P;E;E;E;E;E;E;E;
P;C 50 2 1;P;C 50 1 0;E;E;E;E;E;E;
P;C 18 3 1;P;E;E;E;E;E;E;E;
P;C 51 1 0;P;C 51 2 1;E;E;E;E;E;E;
P;C 19 1 3;P;E;E;E;E;E;E;E;
P;C 52 1 0;P;C 52 2 1;E;E;E;E;E;E;
P;C 20 1 3;P;E;E;E;E;E;E;E;
P;C 53 1 0;P;C 53 2 1;E;E;E;E;E;E;
P;C 21 1 3;P;E;E;E;E;E;E;E;
P;C 54 1 0;P;C 54 2 1;E;E;E;E;E;E;
P;C 22 1 3;P;E;E;E;E;E;E;E;
P;C 55 1 0;P;C 55 2 1;E;E;E;E;E;E;
P;C 23 1 3;P;E;E;E;E;E;E;E;
P;C 56 2 1;P;C 56 1 0;E;E;E;E;E;E;
P;C 24 3 1;P;E;E;E;E;E;E;E;
P;C 57 1 0;P;C 57 2 1;E;E;E;E;E;E;
P;C 25 1 3;P;E;E;E;E;E;E;E;
P;C 58 1 0;P;C 58 2 1;E;E;E;E;E;E;
P;C 26 1 3;P;E;E;E;E;E;E;E;
P;C 59 2 1;P;C 59 1 0;E;E;E;E;E;E;
P;C 27 3 1;P;E;E;E;E;E;E;E;
P;C 60 2 1;P;C 60 1 0;E;E;E;E;E;E;
P;C 28 3 1;P;E;E;E;E;E;E;E;
P;C 61 2 1;P;C 61 1 0;E;E;E;E;E;E;
P;C 29 3 1;P;E;E;E;E;E;E;E;
P;C 62 1 0;P;C 62 2 1;E;E;E;E;E;E;
P;C 30 1 3;P;E;E;E;E;E;E;E;
P;C 63 2 1;P;C 63 1 0;E;E;E;E;E;E;
P;C 31 3 1;P;E;E;E;E;E;E;E;
P;C 64 2 1;P;C 64 1 0;E;E;E;E;E;E;
P;C 32 3 1;P;E;E;E;E;E;E;E;
P;C 65 2 1;P;C 65 1 0;E;E;E;E;E;E;
P;C 33 3 1;P;E;E;E;E;E;E;E;
P;C 66 1 0;P;C 66 2 1;E;E;E;E;E;E;
P;C 34 1 3;P;E;E;E;E;E;E;E;
C 67 0 1;C 67 1 0;C 67 1 2;C 67 2 1;E;E;E;E;E;E;
C 35 1 3;C 35 2 0;E;E;E;E;E;E;E;E;
C 2 1 0;E;E;E;E;E;E;E;E;E].
(** fhevm/src/codegen/codegen_pc_update.rs:16567-17691 *)
Definition pc_update_19 : bit_circuit := BC 10%nat [
C 119 0 1;C 119 1 0;C 23 1 0;C 23 0 1;C 87 1 0;C 87 0 1;E;E;E;E;
C 87 0 1;C 86 5 4;P;C 23 1 0;P;C 23 0 1;C 87 1 0;C 22 3 2;E;E;
P;C 85 1 4;P;P;P;P;P;C 118 3 5;C 21 7 2;C 118 6 0;
C 22 3 7;C 86 9 0;P;C 20 8 2;P;C 86 6 9;C 22 7 5;C 84 1 4;E;E;
P;P;P;C 19 3 2;P;P;P;C 83 7 4;C 117 0 6;C 117 5 1;
C 85 5 9;C 21 8 6;P;C 82 7 4;P;C 18 3 2;C 21 0 8;C 85 9 1;E;E;
P;P;P;C 116 0 7;P;C 17 5 2;P;P;C 116 6 1;C 81 3 4;
C 16 5 2;C 84 0 3;P;C 20 6 8;P;C 20 8 1;C 80 9 4;C 84 3 7;E;E;
C 115 1 7;P;P;P;P;P;C 115 3 5;P;C 79 6 4;C 15 0 2;
C 83 0 7;C 83 1 0;P;C 19 3 6;P;C 19 6 5;C 78 8 4;C 14 9 2;E;E;
P;P;P;P;P;P;C 114 1 0;C 13 7 2;C 77 6 4;C 114 3 5;
C 82 6 0;C 18 3 9;P;C 76 8 4;P;C 82 1 6;C 18 9 5;C 12 7 2;E;E;
P;P;P;C 75 3 4;P;P;P;C 113 5 0;C 113 1 6;C 11 7 2;
C 10 9 2;C 74 3 4;P;C 81 5 7;P;C 17 8 6;C 81 7 0;C 17 1 8;E;E;
C 9 0 2;C 112 3 6;P;P;P;P;P;P;C 73 1 4;C 112 7 5;
C 80 1 6;C 16 9 5;P;C 16 7 9;P;C 8 0 2;C 72 8 4;C 80 3 1;E;E;
P;P;P;P;P;C 71 6 4;C 111 3 1;P;C 111 7 0;C 7 5 2;
C 15 3 6;C 15 6 1;C 6 9 2;C 79 7 8;C 70 5 4;C 79 8 0;E;E;E;E;
P;P;C 110 3 5;P;P;P;C 0 2 4;C 110 0 1;E;E;
C 1 6 4;C 78 2 5;C 14 7 1;C 14 0 7;P;C 78 3 2;E;E;E;E;
C 2 0 4;P;P;P;C 109 5 1;P;C 109 3 2;E;E;E;
P;C 13 6 2;C 13 3 6;C 77 4 1;C 77 5 4;E;E;E;E;E;
P;P;P;P;P;C 108 4 3;C 108 2 1;E;E;E;
P;C 12 2 6;C 12 6 1;C 76 5 3;C 76 4 5;E;E;E;E;E;
P;P;P;P;P;C 107 4 3;C 107 1 2;E;E;E;
P;C 11 1 6;C 75 4 5;C 75 5 3;C 11 6 2;E;E;E;E;E;
P;P;P;P;P;C 106 2 3;C 106 1 4;E;E;E;
P;C 74 5 3;C 74 2 5;C 10 1 6;C 10 6 4;E;E;E;E;E;
P;P;P;P;P;C 105 2 1;C 105 3 4;E;E;E;
P;C 73 2 5;C 73 5 1;C 9 6 4;C 9 3 6;E;E;E;E;E;
P;P;P;P;P;C 104 4 3;C 104 1 2;E;E;E;
P;C 72 6 2;C 72 1 6;C 8 4 5;C 8 5 3;E;E;E;E;E;
P;P;P;P;P;C 103 3 4;C 103 2 1;E;E;E;
P;C 71 2 6;C 71 6 1;C 7 3 5;C 7 5 4;E;E;E;E;E;
P;P;P;P;P;C 102 3 4;C 102 1 2;E;E;E;
P;C 70 1 6;C 6 3 5;C 6 5 4;C 70 6 2;E;E;E;E;E;
P;P;P;P;P;C 101 1 4;C 101 2 3;E;E;E;
P;C 69 1 5;C 5 6 3;C 69 5 4;C 5 2 6;E;E;E;E;E;
P;C 100 4 2;P;P;C 100 1 3;E;E;E;E;E;
P;C 4 1 2;C 68 4 3;E;E;E;E;E;E;E;
P;C 0 1 2;P;E;E;E;E;E;E;E;
P;C 1 1 2;P;E;E;E;E;E;E;E;
P;C 2 1 2;E;E;E;E;E;E;E;E;
P;P;C 1 1 0;C 0 1 0;C 0 0 1;E;E;E;E;E;
C 1 3 4;C 1 3 0;P;C 1 1 4;E;E;E;E;E;E;
C 2 0 1;C 2 1 0;C 2 3 2;C 2 2 3;E;E;E;E;E;E;
C 3 3 1;C 3 0 2;C 3 2 0;E;E;E;E;E;E;E;
C 36 0 2;P;P;C 36 1 0;E;E;E;E;E;E;
C 4 0 3;P;P;E;E;E;E;E;E;E;
C 37 0 2;P;P;C 37 1 0;E;E;E;E;E;E;
C 5 0 3;P;P;E;E;E;E;E;E;E;
C 38 0 2;P;P;C 38 1 0;E;E;E;E;E;E;
C 6 0 3;P;P;E;E;E;E;E;E;E;
C 39 1 0;P;P;C 39 0 2;E;E;E;E;E;E;
C 7 3 0;P;P;E;E;E;E;E;E;E;
C 40 1 0;P;P;C 40 0 2;E;E;E;E;E;E;
C 8 3 0;P;P;E;E;E;E;E;E;E;
C 41 0 2;P;P;C 41 1 0;E;E;E;E;E;E;
C 9 0 3;P;P;E;E;E;E;E;E;E;
C 42 1 0;P;P;C 42 0 2;E;E;E;E;E;E;
C 10 3 0;P;P;E;E;E;E;E;E;E;
C 43 0 2;P;P;C 43 1 0;E;E;E;E;E;E;
C 11 0 3;P;P;E;E;E;E;E;E;E;
C 44 0 2;P;P;C 44 1 0;E;E;E;E;E;E;
C 12 0 3;P;P;E;E;E;E;E;E;E;
C 45 1 0;P;P;C 45 0 2;E;E;E;E;E;E;
C 13 3 0;P;P;E;E;E;E;E;E;E;
C 46 0 2;P;P;C 46 1 0;E;E;E;E;E;E;
C 14 0 3;P;P;E;E;E;E;E;E;E;
C 47 0 2;P;P;C 47 1 0;E;E;E;E;E;E;
C 15 0 3;P;P;E;E;E;E;E;E;E;
C 48 1 0;P;P;C 48 0 2;E;E;E;E;E;E;
C 16 3 0;P;P;E;E;E;E;E;E;E;
C 49 0 2;P;P;C 49 1 0;E;E;E;E;E;E;
C 17 0 3;P;P;E;E;E;E;E;E;E;
C 50 0 2;P;P;C 50 1 0;E;E;E;E;E;E;
C 18 0 3;P;P;E;E;E;E;E;E;E;
C 51 1 0;P;P;C 51 0 2;E;E;E;E;E;E;
C 19 3 0;P;P;E;E;E;E;E;E;E;
C 52 0 2;P;P;C 52 1 0;E;E;E;E;E;E;
C 20 0 3;P;P;E;E;E;E;E;E;E;
C 53 0 2;P;P;C 53 1 0;E;E;E;E;E;E;
C 21 0 3;P;P;E;E;E;E;E;E;E;
C 54 0 2;P;P;C 54 1 0;E;E;E;E;E;E;
C 22 0 3;P;P;E;E;E;E;E;E;E;
C 55 0 2;P;P;C 55 1 0;E;E;E;E;E;E;
C 23 0 3;P;P;E;E;E;E;E;E;E;
C 56 1 0;P;P;C 56 0 2;E;E;E;E;E;E;
C 24 3 0;P;P;E;E;E;E;E;E;E;
C 57 0 2;P;P;C 57 1 0;E;E;E;E;E;E;
C 25 0 3;P;P;E;E;E;E;E;E;E;
C 58 1 0;P;P;C 58 0 2;E;E;E;E;E;E;
C 26 3 0;P;P;E;E;E;E;E;E;E;
C 59 1 0;P;P;C 59 0 2;E;E;E;E;E;E;
C 27 3 0;P;P;E;E;E;E;E;E;E;
C 60 1 0;P;P;C 60 0 2;E;E;E;E;E;E;
C 28 3 0;P;P;E;E;E;E;E;E;E;
C 61 0 2;P;P;C 61 1 0;E;E;E;E;E;E;
C 29 0 3;P;P;E;E;E;E;E;E;E;
C 62 1 0;P;P;C 62 0 2;E;E;E;E;E;E;
C 30 3 0;P;P;E;E;E;E;E;E;E;
C 63 0 2;P;P;C 63 1 0;E;E;E;E;E;E;
C 31 0 3;P;P;E;E;E;E;E;E;E;
C 64 1 0;P;P;C 64 0 2;E;E;E;E;E;E;
C 32 3 0;P;P;E;E;E;E;E;E;E;
C 65 0 2;P;P;C 65 1 0;E;E;E;E;E;E;
C 33 0 3;P;P;E;E;E;E;E;E;E;
C 66 0 2;P;P;C 66 1 0;E;E;E;E;E;E;
C 34 0 3;P;P;E;E;E;E;E;E;E;
C 67 0 2;C 67 2 0;C 67 1 0;C 67 0 1;E;E;E;E;E;E;
C 35 3 1;C 35 0 2;E;E;E;E;E;E;E;E;
C 2 0 1;E;E;E;E;E;E;E;E;E].
(** fhevm/src/codegen/codegen_pc_update.rs:17692-18826 *)
Definition pc_update_20 : bit_circuit := BC 10%nat [
C 88 1 0;C 24 0 1;C 88 0 1;C 24 1 0;E;E;E;E;E;E;
P;C 119 1 3;C 119 2 0;P;C 87 2 0;C 119 0 2;C 23 1 3;C 119 3 1;E;E;
P;C 23 3 1;C 23 7 3;P;C 22 6 3;C 86 4 0;C 87 0 2;C 87 5 0;E;E;
P;P;P;P;C 118 7 6;C 118 2 1;P;P;C 85 5 0;C 21 4 3;
P;C 86 7 4;C 84 8 0;P;C 20 9 3;C 86 4 6;C 22 2 5;C 22 5 1;E;E;
P;P;C 117 1 5;P;C 19 4 3;P;P;P;C 83 2 0;C 117 6 7;
P;C 82 8 0;C 18 4 3;P;C 21 6 9;C 21 9 7;C 85 2 5;C 85 1 2;E;E;
P;C 17 2 3;C 81 1 0;P;P;P;P;P;C 116 4 5;C 116 7 6;
P;C 20 8 5;C 20 4 8;P;C 84 7 9;C 16 1 3;C 84 9 6;C 80 2 0;E;E;
P;P;P;P;P;C 79 7 0;P;C 115 4 6;C 15 5 3;C 115 2 1;
P;C 19 2 9;C 78 5 0;P;C 83 4 7;C 19 9 1;C 14 8 3;C 83 7 6;E;E;
P;P;C 114 4 7;P;P;P;C 77 2 0;P;C 13 6 3;C 114 1 5;
P;C 76 6 0;C 18 9 5;P;C 82 2 7;C 18 1 9;C 82 4 2;C 12 8 3;E;E;
P;C 11 7 3;P;P;P;P;P;C 75 1 0;C 113 6 4;C 113 5 2;
P;C 81 6 8;C 17 9 2;P;C 81 8 4;C 10 1 3;C 74 7 0;C 17 5 9;E;E;
P;P;P;P;P;C 73 6 0;C 112 7 2;P;C 9 5 3;C 112 1 4;
P;C 16 7 6;C 80 1 9;P;C 16 6 2;C 80 9 4;C 8 8 3;C 72 5 0;E;E;
P;P;P;P;P;P;C 7 6 3;C 71 7 0;C 111 2 5;C 111 1 4;
C 15 1 9;C 79 2 8;C 70 7 0;C 6 6 3;C 15 9 4;C 79 8 5;E;E;E;E;
P;P;P;C 110 0 4;P;P;C 110 1 5;C 0 3 2;E;E;
C 1 7 2;C 78 6 5;P;C 14 0 3;C 14 3 4;C 78 1 6;E;E;E;E;
C 2 0 2;P;C 109 5 1;P;P;P;C 109 3 4;E;E;E;
P;C 13 6 4;C 77 5 2;C 77 2 1;C 13 3 6;E;E;E;E;E;
P;P;P;P;P;C 108 2 3;C 108 4 1;E;E;E;
P;C 76 2 5;C 76 5 3;C 12 4 6;C 12 6 1;E;E;E;E;E;
P;P;P;P;P;C 107 1 2;C 107 3 4;E;E;E;
P;C 75 1 5;C 75 5 2;C 11 6 4;C 11 3 6;E;E;E;E;E;
P;P;P;P;P;C 106 4 3;C 106 1 2;E;E;E;
P;C 74 6 2;C 10 4 5;C 74 1 6;C 10 5 3;E;E;E;E;E;
P;P;P;P;P;C 105 3 1;C 105 2 4;E;E;E;
P;C 73 3 5;C 9 2 6;C 73 5 1;C 9 6 4;E;E;E;E;E;
P;P;P;P;P;C 104 1 3;C 104 2 4;E;E;E;
P;C 8 6 4;C 8 2 6;C 72 5 3;C 72 1 5;E;E;E;E;E;
P;P;P;P;P;C 103 4 3;C 103 2 1;E;E;E;
P;C 71 5 3;C 7 2 6;C 71 4 5;C 7 6 1;E;E;E;E;E;
P;P;P;P;P;C 102 2 4;C 102 3 1;E;E;E;
P;C 70 6 1;C 6 5 4;C 6 2 5;C 70 3 6;E;E;E;E;E;
P;P;P;P;P;C 101 3 2;C 101 4 1;E;E;E;
P;C 5 5 2;C 69 4 6;C 5 3 5;C 69 6 1;E;E;E;E;E;
P;P;C 100 2 4;C 100 3 1;P;E;E;E;E;E;
P;C 68 2 4;C 4 3 1;E;E;E;E;E;E;E;
P;P;C 0 2 1;E;E;E;E;E;E;E;
P;P;C 1 2 1;E;E;E;E;E;E;E;
P;C 2 2 1;E;E;E;E;E;E;E;E;
P;P;C 1 1 0;C 0 1 0;C 0 0 1;E;E;E;E;E;
C 1 3 0;C 1 3 4;P;C 1 1 4;E;E;E;E;E;E;
C 2 1 0;C 2 2 3;C 2 0 1;C 2 3 2;E;E;E;E;E;E;
C 3 1 2;C 3 3 0;C 3 0 3;E;E;E;E;E;E;E;
C 36 0 1;P;P;C 36 2 0;E;E;E;E;E;E;
C 4 0 3;P;P;E;E;E;E;E;E;E;
C 37 2 0;P;P;C 37 0 1;E;E;E;E;E;E;
C 5 3 0;P;P;E;E;E;E;E;E;E;
C 38 2 0;P;P;C 38 0 1;E;E;E;E;E;E;
C 6 3 0;P;P;E;E;E;E;E;E;E;
C 39 0 1;P;P;C 39 2 0;E;E;E;E;E;E;
C 7 0 3;P;P;E;E;E;E;E;E;E;
C 40 2 0;P;P;C 40 0 1;E;E;E;E;E;E;
C 8 3 0;P;P;E;E;E;E;E;E;E;
C 41 2 0;P;P;C 41 0 1;E;E;E;E;E;E;
C 9 3 0;P;P;E;E;E;E;E;E;E;
C 42 2 0;P;P;C 42 0 1;E;E;E;E;E;E;
C 10 3 0;P;P;E;E;E;E;E;E;E;
C 43 0 1;P;P;C 43 2 0;E;E;E;E;E;E;
C 11 0 3;P;P;E;E;E;E;E;E;E;
C 44 0 1;P;P;C 44 2 0;E;E;E;E;E;E;
C 12 0 3;P;P;E;E;E;E;E;E;E;
C 45 0 1;P;P;C 45 2 0;E;E;E;E;E;E;
C 13 0 3;P;P;E;E;E;E;E;E;E;
C 46 2 0;P;P;C 46 0 1;E;E;E;E;E;E;
C 14 3 0;P;P;E;E;E;E;E;E;E;
C 47 0 1;P;P;C 47 2 0;E;E;E;E;E;E;
C 15 0 3;P;P;E;E;E;E;E;E;E;
C 48 2 0;P;P;C 48 0 1;E;E;E;E;E;E;
C 16 3 0;P;P;E;E;E;E;E;E;E;
C 49 2 0;P;P;C 49 0 1;E;E;E;E;E;E;
C 17 3 0;P;P;E;E;E;E;E;E;E;
C 50 2 0;P;P;C 50 0 1;E;E;E;E;E;E;
C 18 3 0;P;P;E;E;E;E;E;E;E;
C 51 2 0;P;P;C 51 0 1;E;E;E;E;E;E;
C 19 3 0;P;P;E;E;E;E;E;E;E;
C 52 2 0;P;P;C 52 0 1;E;E;E;E;E;E;
C 20 3 0;P;P;E;E;E;E;E;E;E;
C 53 0 1;P;P;C 53 2 0;E;E;E;E;E;E;
C 21 0 3;P;P;E;E;E;E;E;E;E;
C 54 0 1;P;P;C 54 2 0;E;E;E;E;E;E;
C 22 0 3;P;P;E;E;E;E;E;E;E;
C 55 0 1;P;P;C 55 2 0;E;E;E;E;E;E;
C 23 0 3;P;P;E;E;E;E;E;E;E;
C 56 0 1;P;P;C 56 2 0;E;E;E;E;E;E;
C 24 0 3;P;P;E;E;E;E;E;E;E;
C 57 2 0;P;P;C 57 0 1;E;E;E;E;E;E;
C 25 3 0;P;P;E;E;E;E;E;E;E;
C 58 2 0;P;P;C 58 0 1;E;E;E;E;E;E;
C 26 3 0;P;P;E;E;E;E;E;E;E;
C 59 0 1;P;P;C 59 2 0;E;E;E;E;E;E;
C 27 0 3;P;P;E;E;E;E;E;E;E;
C 60 0 1;P;P;C 60 2 0;E;E;E;E;E;E;
C 28 0 3;P;P;E;E;E;E;E;E;E;
C 61 0 1;P;P;C 61 2 0;E;E;E;E;E;E;
C 29 0 3;P;P;E;E;E;E;E;E;E;
C 62 0 1;P;P;C 62 2 0;E;E;E;E;E;E;
C 30 0 3;P;P;E;E;E;E;E;E;E;
C 63 2 0;P;P;C 63 0 1;E;E;E;E;E;E;
C 31 3 0;P;P;E;E;E;E;E;E;E;
C 64 0 1;P;P;C 64 2 0;E;E;E;E;E;E;
C 32 0 3;P;P;E;E;E;E;E;E;E;
C 65 2 0;P;P;C 65 0 1;E;E;E;E;E;E;
C 33 3 0;P;P;E;E;E;E;E;E;E;
C 66 2 0;P;P;C 66 0 1;E;E;E;E;E;E;
C 34 3 0;P;P;E;E;E;E;E;E;E;
C 67 0 1;C 67 2 0;C 67 1 0;C 67 0 2;E;E;E;E;E;E;
C 35 0 1;C 35 3 2;E;E;E;E;E;E;E;E;
C 2 1 0;E;E;E;E;E;E;E;E;E].
(** fhevm/src/codegen/codegen_pc_update.rs:18827-19971 *)
Definition pc_update_21 : bit_circuit := BC 10%nat [
C 25 1 0;C 89 1 0;C 25 0 1;C 89 0 1;E;E;E;E;E;E;
P;P;C 88 1 3;C 24 2 0;C 24 0 2;C 88 3 1;E;E;E;E;
P;P;C 23 3 0;C 87 5 1;C 119 2 1;C 119 1 5;C 119 0 3;C 119 4 0;E;E;
P;P;C 87 5 1;C 23 0 7;C 22 2 0;C 87 1 4;C 23 6 0;C 86 3 1;E;E;
P;P;P;P;C 21 4 0;P;P;C 118 2 5;C 118 6 3;C 85 7 1;
P;P;C 22 8 3;C 22 6 8;C 86 7 5;C 84 9 1;C 20 4 0;C 86 2 7;E;E;
P;P;P;P;P;C 117 3 2;C 83 5 1;P;C 117 7 4;C 19 6 0;
P;P;C 82 6 1;C 18 9 0;C 85 7 8;C 85 8 4;C 21 3 5;C 21 5 2;E;E;
P;P;C 81 2 1;C 116 4 5;P;P;P;P;C 116 6 7;C 17 3 0;
P;P;C 20 8 7;C 84 4 3;C 80 2 1;C 84 3 5;C 16 9 0;C 20 6 8;E;E;
P;P;P;P;C 115 3 5;P;C 115 7 2;P;C 79 4 1;C 15 6 0;
P;P;C 83 4 5;C 14 9 0;C 78 8 1;C 83 3 4;C 19 6 2;C 19 7 6;E;E;
P;P;P;C 114 7 6;C 13 3 0;P;P;P;C 114 5 2;C 77 4 1;
P;P;C 12 4 0;C 82 5 8;C 18 3 6;C 76 9 1;C 18 7 3;C 82 8 2;E;E;
P;P;C 11 2 0;P;P;C 113 3 7;P;P;C 75 5 1;C 113 6 4;
P;P;C 81 5 7;C 74 8 1;C 10 2 0;C 17 6 9;C 17 9 4;C 81 3 5;E;E;
P;P;P;C 112 5 6;C 73 3 1;P;P;P;C 112 7 2;C 9 4 0;
P;P;C 16 3 6;C 80 7 8;C 80 8 2;C 72 4 1;C 8 9 0;C 16 5 3;E;E;
P;P;P;P;P;C 111 3 4;C 7 6 0;P;C 71 5 1;C 111 7 2;
C 6 6 0;C 70 8 1;C 15 9 2;C 79 3 5;C 79 5 4;C 15 7 9;E;E;E;E;
C 0 0 1;P;P;P;P;P;C 110 3 4;C 110 5 2;E;E;
C 14 7 2;P;C 14 5 7;C 78 3 6;C 1 0 1;C 78 6 4;E;E;E;E;
P;C 109 2 0;P;P;C 109 3 5;P;C 2 4 1;E;E;E;
C 77 4 5;C 77 3 4;C 13 2 1;C 13 1 0;E;E;P;E;E;E;
P;P;P;P;C 108 2 3;C 108 1 0;P;E;E;E;
C 12 2 4;C 76 1 5;C 12 4 3;C 76 5 0;E;E;P;E;E;E;
P;P;P;P;C 107 0 2;C 107 1 3;P;E;E;E;
C 11 4 2;C 11 0 4;C 75 5 3;C 75 1 5;E;E;P;E;E;E;
P;P;P;P;C 106 1 0;C 106 3 2;P;E;E;E;
C 74 3 5;C 74 5 2;C 10 4 0;C 10 1 4;E;E;P;E;E;E;
P;P;P;P;C 105 0 1;C 105 3 2;P;E;E;E;
C 73 0 4;C 9 3 5;C 73 4 1;C 9 5 2;E;E;P;E;E;E;
P;P;P;P;C 104 0 2;C 104 1 3;P;E;E;E;
C 8 5 3;C 8 1 5;C 72 0 4;C 72 4 2;E;E;P;E;E;E;
P;P;P;P;C 103 2 3;C 103 1 0;P;E;E;E;
C 71 2 4;C 7 5 0;C 71 4 3;C 7 1 5;E;E;P;E;E;E;
P;P;P;P;C 102 0 2;C 102 3 1;P;E;E;E;
C 70 4 2;C 6 3 5;C 70 0 4;C 6 5 1;E;E;P;E;E;E;
P;P;P;P;C 101 1 3;C 101 2 0;P;E;E;E;
C 69 2 5;C 5 1 4;C 69 5 0;C 5 4 3;E;E;P;E;E;E;
C 100 0 2;C 100 1 3;P;P;E;E;P;E;E;E;
C 4 1 3;C 68 0 2;E;E;E;E;P;E;E;E;
C 0 0 1;P;E;E;E;E;P;E;E;E;
C 1 0 1;P;E;E;E;E;P;E;E;E;
C 2 0 1;E;E;E;E;E;P;E;E;E;
P;C 0 0 6;C 1 0 6;C 0 6 0;E;E;P;E;E;E;
C 1 1 3;C 1 0 3;P;C 1 1 6;E;E;E;E;E;E;
C 2 3 0;C 2 2 1;C 2 1 2;C 2 0 3;E;E;E;E;E;E;
C 3 2 3;C 3 3 2;C 3 1 0;E;E;E;E;E;E;E;
P;P;C 36 1 2;C 36 2 0;E;E;E;E;E;E;
P;P;C 4 3 2;E;E;E;E;E;E;E;
P;P;C 37 1 2;C 37 2 0;E;E;E;E;E;E;
P;P;C 5 3 2;E;E;E;E;E;E;E;
P;P;C 38 2 0;C 38 1 2;E;E;E;E;E;E;
P;P;C 6 2 3;E;E;E;E;E;E;E;
P;P;C 39 1 2;C 39 2 0;E;E;E;E;E;E;
P;P;C 7 3 2;E;E;E;E;E;E;E;
P;P;C 40 1 2;C 40 2 0;E;E;E;E;E;E;
P;P;C 8 3 2;E;E;E;E;E;E;E;
P;P;C 41 1 2;C 41 2 0;E;E;E;E;E;E;
P;P;C 9 3 2;E;E;E;E;E;E;E;
P;P;C 42 1 2;C 42 2 0;E;E;E;E;E;E;
P;P;C 10 3 2;E;E;E;E;E;E;E;
P;P;C 43 2 0;C 43 1 2;E;E;E;E;E;E;
P;P;C 11 2 3;E;E;E;E;E;E;E;
P;P;C 44 2 0;C 44 1 2;E;E;E;E;E;E;
P;P;C 12 2 3;E;E;E;E;E;E;E;
P;P;C 45 1 2;C 45 2 0;E;E;E;E;E;E;
P;P;C 13 3 2;E;E;E;E;E;E;E;
P;P;C 46 2 0;C 46 1 2;E;E;E;E;E;E;
P;P;C 14 2 3;E;E;E;E;E;E;E;
P;P;C 47 1 2;C 47 2 0;E;E;E;E;E;E;
P;P;C 15 3 2;E;E;E;E;E;E;E;
P;P;C 48 2 0;C 48 1 2;E;E;E;E;E;E;
P;P;C 16 2 3;E;E;E;E;E;E;E;
P;P;C 49 1 2;C 49 2 0;E;E;E;E;E;E;
P;P;C 17 3 2;E;E;E;E;E;E;E;
P;P;C 50 1 2;C 50 2 0;E;E;E;E;E;E;
P;P;C 18 3 2;E;E;E;E;E;E;E;
P;P;C 51 2 0;C 51 1 2;E;E;E;E;E;E;
P;P;C 19 2 3;E;E;E;E;E;E;E;
P;P;C 52 1 2;C 52 2 0;E;E;E;E;E;E;
P;P;C 20 3 2;E;E;E;E;E;E;E;
P;P;C 53 1 2;C 53 2 0;E;E;E;E;E;E;
P;P;C 21 3 2;E;E;E;E;E;E;E;
P;P;C 54 2 0;C 54 1 2;E;E;E;E;E;E;
P;P;C 22 2 3;E;E;E;E;E;E;E;
P;P;C 55 1 2;C 55 2 0;E;E;E;E;E;E;
P;P;C 23 3 2;E;E;E;E;E;E;E;
P;P;C 56 1 2;C 56 2 0;E;E;E;E;E;E;
P;P;C 24 3 2;E;E;E;E;E;E;E;
P;P;C 57 2 0;C 57 1 2;E;E;E;E;E;E;
P;P;C 25 2 3;E;E;E;E;E;E;E;
P;P;C 58 1 2;C 58 2 0;E;E;E;E;E;E;
P;P;C 26 3 2;E;E;E;E;E;E;E;
P;P;C 59 2 0;C 59 1 2;E;E;E;E;E;E;
P;P;C 27 2 3;E;E;E;E;E;E;E;
P;P;C 60 2 0;C 60 1 2;E;E;E;E;E;E;
P;P;C 28 2 3;E;E;E;E;E;E;E;
P;P;C 61 2 0;C 61 1 2;E;E;E;E;E;E;
P;P;C 29 2 3;E;E;E;E;E;E;E;
P;P;C 62 1 2;C 62 2 0;E;E;E;E;E;E;
P;P;C 30 3 2;E;E;E;E;E;E;E;
P;P;C 63 1 2;C 63 2 0;E;E;E;E;E;E;
P;P;C 31 3 2;E;E;E;E;E;E;E;
P;P;C 64 2 0;C 64 1 2;E;E;E;E;E;E;
P;P;C 32 2 3;E;E;E;E;E;E;E;
P;P;C 65 1 2;C 65 2 0;E;E;E;E;E;E;
P;P;C 33 3 2;E;E;E;E;E;E;E;
P;P;C 66 1 2;C 66 2 0;E;E;E;E;E;E;
P;P;C 34 3 2;E;E;E;E;E;E;E;
C 67 2 0;C 67 0 2;C 67 2 1;C 67 1 2;E;E;E;E;E;E;
C 35 0 3;C 35 2 1;E;E;E;E;E;E;E;E;
C 2 1 0;E;E;E;E;E;E;E;E;E].
(** fhevm/src/codegen/codegen_pc_update.rs:19972-21126 *)
Definition pc_update_22 : bit_circuit := BC 10%nat [
C 90 0 1;C 26 1 0;C 26 0 1;C 90 1 0;E;E;E;E;E;E;
C 25 2 1;P;C 89 0 3;P;C 89 3 0;C 25 1 2;E;E;E;E;
C 24 1 5;P;C 88 3 4;P;C 88 2 3;C 24 0 1;E;E;E;E;
C 23 5 1;P;C 119 1 5;P;C 119 3 4;C 119 2 3;C 87 4 3;C 119 0 1;E;E;
C 86 6 3;P;C 22 0 1;P;C 23 1 7;C 23 2 1;C 87 4 3;C 87 3 5;E;E;
C 118 6 7;P;C 85 0 3;P;P;P;P;P;C 21 2 1;C 118 5 4;
C 84 2 3;P;C 22 5 9;P;C 86 6 0;C 22 9 4;C 86 0 7;C 20 8 1;E;E;
C 83 0 3;P;P;P;P;P;P;C 117 4 6;C 117 2 5;C 19 7 1;
C 18 9 1;P;C 82 0 3;P;C 85 7 6;C 85 4 7;C 21 8 5;C 21 2 8;E;E;
C 81 2 3;P;C 116 7 6;P;P;P;P;P;C 116 5 4;C 17 0 1;
C 16 9 1;P;C 20 7 2;P;C 84 5 8;C 84 8 4;C 20 2 6;C 80 0 3;E;E;
C 115 4 5;P;P;P;P;P;P;C 79 7 3;C 15 0 1;C 115 2 6;
C 78 7 3;P;C 19 2 9;P;C 83 4 0;C 83 0 5;C 19 9 6;C 14 8 1;E;E;
C 114 4 5;P;P;P;P;P;P;C 114 2 6;C 13 7 1;C 77 0 3;
C 18 7 6;P;C 18 2 7;P;C 82 4 0;C 82 0 5;C 76 9 3;C 12 8 1;E;E;
P;P;P;P;P;P;C 113 2 0;C 75 6 3;C 11 7 1;C 113 4 5;
C 17 6 0;P;C 10 8 1;P;C 17 2 6;C 81 9 5;C 81 4 9;C 74 7 3;E;E;
P;P;C 73 7 3;P;P;P;P;C 112 4 0;C 112 6 5;C 9 2 1;
C 80 8 5;P;C 8 9 1;P;C 16 7 0;C 72 2 3;C 16 4 7;C 80 6 8;E;E;
P;P;C 111 7 0;P;P;C 111 6 4;P;P;C 7 2 1;C 71 5 3;
C 70 9 3;C 6 8 1;C 15 6 5;C 15 5 4;C 79 2 0;C 79 7 2;E;E;E;E;
P;C 0 1 0;P;P;P;P;C 110 5 4;C 110 2 3;E;E;
P;C 78 6 4;C 14 2 7;C 78 5 6;C 1 1 0;C 14 7 3;E;E;E;E;
C 109 3 1;P;P;P;C 109 2 5;P;C 2 4 0;E;E;E;
C 77 0 1;C 13 4 5;C 13 2 4;C 77 3 0;E;E;P;E;E;E;
P;P;P;P;C 108 2 1;C 108 3 0;P;E;E;E;
C 12 4 1;C 76 3 5;C 76 5 0;C 12 2 4;E;E;P;E;E;E;
P;P;P;P;C 107 3 0;C 107 1 2;P;E;E;E;
C 75 1 5;C 11 3 4;C 11 4 0;C 75 5 2;E;E;P;E;E;E;
P;P;P;P;C 106 1 2;C 106 0 3;P;E;E;E;
C 10 4 2;C 10 1 4;C 74 5 3;C 74 0 5;E;E;P;E;E;E;
P;P;P;P;C 105 3 2;C 105 1 0;P;E;E;E;
C 73 4 2;C 9 5 0;C 9 1 5;C 73 3 4;E;E;P;E;E;E;
P;P;P;P;C 104 2 1;C 104 3 0;P;E;E;E;
C 72 5 0;C 8 2 4;C 72 3 5;C 8 4 1;E;E;P;E;E;E;
P;P;P;P;C 103 1 3;C 103 2 0;P;E;E;E;
C 71 5 0;C 71 2 5;C 7 4 3;C 7 1 4;E;E;P;E;E;E;
P;P;P;P;C 102 3 2;C 102 1 0;P;E;E;E;
C 6 3 4;C 70 1 5;C 6 4 2;C 70 5 0;E;E;P;E;E;E;
P;P;P;P;C 101 1 3;C 101 0 2;P;E;E;E;
C 69 4 3;C 69 1 4;C 5 5 2;C 5 0 5;E;E;P;E;E;E;
P;C 100 1 0;P;C 100 3 2;E;E;P;E;E;E;
C 68 1 0;C 4 3 2;E;E;E;E;P;E;E;E;
P;C 0 1 0;E;E;E;E;P;E;E;E;
P;C 1 1 0;E;E;E;E;P;E;E;E;
C 2 1 0;E;E;E;E;E;P;E;E;E;
P;C 0 0 6;C 0 6 0;C 1 0 6;E;E;P;E;E;E;
C 1 1 6;C 1 0 2;C 1 1 2;P;E;E;E;E;E;E;
C 2 0 2;C 2 2 0;C 2 3 1;C 2 1 3;E;E;E;E;E;E;
C 3 3 1;C 3 1 3;C 3 2 0;E;E;E;E;E;E;E;
P;P;C 36 1 2;C 36 2 0;E;E;E;E;E;E;
P;P;C 4 3 2;E;E;E;E;E;E;E;
P;P;C 37 2 0;C 37 1 2;E;E;E;E;E;E;
P;P;C 5 2 3;E;E;E;E;E;E;E;
P;P;C 38 2 0;C 38 1 2;E;E;E;E;E;E;
P;P;C 6 2 3;E;E;E;E;E;E;E;
P;P;C 39 2 0;C 39 1 2;E;E;E;E;E;E;
P;P;C 7 2 3;E;E;E;E;E;E;E;
P;P;C 40 1 2;C 40 2 0;E;E;E;E;E;E;
P;P;C 8 3 2;E;E;E;E;E;E;E;
P;P;C 41 1 2;C 41 2 0;E;E;E;E;E;E;
P;P;C 9 3 2;E;E;E;E;E;E;E;
P;P;C 42 2 0;C 42 1 2;E;E;E;E;E;E;
P;P;C 10 2 3;E;E;E;E;E;E;E;
P;P;C 43 1 2;C 43 2 0;E;E;E;E;E;E;
P;P;C 11 3 2;E;E;E;E;E;E;E;
P;P;C 44 2 0;C 44 1 2;E;E;E;E;E;E;
P;P;C 12 2 3;E;E;E;E;E;E;E;
P;P;C 45 2 0;C 45 1 2;E;E;E;E;E;E;
P;P;C 13 2 3;E;E;E;E;E;E;E;
P;P;C 46 1 2;C 46 2 0;E;E;E;E;E;E;
P;P;C 14 3 2;E;E;E;E;E;E;E;
P;P;C 47 2 0;C 47 1 2;E;E;E;E;E;E;
P;P;C 15 2 3;E;E;E;E;E;E;E;
P;P;C 48 1 2;C 48 2 0;E;E;E;E;E;E;
P;P;C 16 3 2;E;E;E;E;E;E;E;
P;P;C 49 2 0;C 49 1 2;E;E;E;E;E;E;
P;P;C 17 2 3;E;E;E;E;E;E;E;
P;P;C 50 1 2;C 50 2 0;E;E;E;E;E;E;
P;P;C 18 3 2;E;E;E;E;E;E;E;
P;P;C 51 2 0;C 51 1 2;E;E;E;E;E;E;
P;P;C 19 2 3;E;E;E;E;E;E;E;
P;P;C 52 1 2;C 52 2 0;E;E;E;E;E;E;
P;P;C 20 3 2;E;E;E;E;E;E;E;
P;P;C 53 1 2;C 53 2 0;E;E;E;E;E;E;
P;P;C 21 3 2;E;E;E;E;E;E;E;
P;P;C 54 1 2;C 54 2 0;E;E;E;E;E;E;
P;P;C 22 3 2;E;E;E;E;E;E;E;
P;P;C 55 1 2;C 55 2 0;E;E;E;E;E;E;
P;P;C 23 3 2;E;E;E;E;E;E;E;
P;P;C 56 2 0;C 56 1 2;E;E;E;E;E;E;
P;P;C 24 2 3;E;E;E;E;E;E;E;
P;P;C 57 2 0;C 57 1 2;E;E;E;E;E;E;
P;P;C 25 2 3;E;E;E;E;E;E;E;
P;P;C 58 2 0;C 58 1 2;E;E;E;E;E;E;
P;P;C 26 2 3;E;E;E;E;E;E;E;
P;P;C 59 2 0;C 59 1 2;E;E;E;E;E;E;
P;P;C 27 2 3;E;E;E;E;E;E;E;
P;P;C 60 1 2;C 60 2 0;E;E;E;E;E;E;
P;P;C 28 3 2;E;E;E;E;E;E;E;
P;P;C 61 2 0;C 61 1 2;E;E;E;E;E;E;
P;P;C 29 2 3;E;E;E;E;E;E;E;
P;P;C 62 2 0;C 62 1 2;E;E;E;E;E;E;
P;P;C 30 2 3;E;E;E;E;E;E;E;
P;P;C 63 1 2;C 63 2 0;E;E;E;E;E;E;
P;P;C 31 3 2;E;E;E;E;E;E;E;
P;P;C 64 1 2;C 64 2 0;E;E;E;E;E;E;
P;P;C 32 3 2;E;E;E;E;E;E;E;
P;P;C 65 1 2;C 65 2 0;E;E;E;E;E;E;
P;P;C 33 3 2;E;E;E;E;E;E;E;
P;P;C 66 2 0;C 66 1 2;E;E;E;E;E;E;
P;P;C 34 2 3;E;E;E;E;E;E;E;
C 67 2 0;C 67 1 2;C 67 0 2;C 67 2 1;E;E;E;E;E;E;
C 35 3 2;C 35 0 1;E;E;E;E;E;E;E;E;
C 2 0 1;E;E;E;E;E;E;E;E;E].
(** fhevm/src/codegen/codegen_pc_update.rs:21127-22291 *)
Definition pc_update_23 : bit_circuit := BC 10%nat [
C 91 1 0;C 27 0 1;C 27 1 0;C 91 0 1;E;E;E;E;E;E;
P;C 26 1 2;P;C 90 0 3;C 26 2 1;C 90 3 0;E;E;E;E;
P;C 89 0 3;P;C 25 2 4;C 89 5 0;C 25 1 2;E;E;E;E;
P;C 88 0 1;P;C 24 5 2;C 88 4 0;C 24 2 3;E;E;E;E;
P;C 119 0 4;P;C 119 1 0;C 87 4 0;C 119 5 2;C 23 3 2;C 119 2 3;E;E;
P;C 87 1 0;P;C 22 6 2;C 23 7 2;C 86 4 0;C 23 2 5;C 87 0 3;E;E;
P;P;P;C 21 3 2;P;C 118 4 6;P;P;C 118 1 7;C 85 5 0;
P;C 86 1 8;P;C 22 5 6;C 20 3 2;C 84 9 0;C 86 8 7;C 22 4 5;E;E;
P;P;P;P;C 83 5 0;C 19 4 2;P;P;C 117 7 3;C 117 1 6;
P;C 85 9 6;P;C 21 8 3;C 18 5 2;C 21 7 8;C 82 4 0;C 85 1 9;E;E;
P;P;P;P;C 81 6 0;P;C 17 4 2;P;C 116 5 3;C 116 7 1;
P;C 16 6 2;P;C 84 9 1;C 84 7 9;C 20 8 3;C 80 4 0;C 20 5 8;E;E;
P;C 79 6 0;P;P;P;P;C 115 4 3;P;C 15 1 2;C 115 7 5;
P;C 14 8 2;P;C 78 1 0;C 83 4 6;C 19 9 5;C 83 6 3;C 19 7 9;E;E;
P;C 114 4 6;P;C 77 3 0;P;P;P;P;C 13 1 2;C 114 7 5;
P;C 18 7 9;P;C 76 3 0;C 82 1 6;C 18 9 5;C 82 4 1;C 12 8 2;E;E;
P;P;P;C 11 7 2;P;P;P;C 113 6 4;C 113 1 5;C 75 3 0;
P;C 81 7 4;P;C 10 3 2;C 17 1 8;C 74 9 0;C 17 8 5;C 81 6 7;E;E;
P;P;P;C 112 4 6;P;C 73 5 0;P;P;C 9 3 2;C 112 7 1;
P;C 8 8 2;P;C 80 9 1;C 80 7 9;C 16 3 6;C 72 5 0;C 16 4 3;E;E;
P;C 111 4 3;P;P;P;P;C 71 6 0;P;C 7 1 2;C 111 7 5;
C 79 1 3;C 15 9 5;C 70 6 0;C 15 7 9;C 6 8 2;C 79 4 1;E;E;E;E;
P;P;P;P;C 110 5 0;P;C 110 3 1;C 0 4 2;E;E;
C 14 3 6;C 14 6 1;P;C 78 4 0;C 78 5 4;C 1 7 2;E;E;E;E;
P;P;C 2 5 2;P;P;C 109 4 3;C 109 0 1;E;E;E;
C 77 5 3;C 13 6 1;P;C 77 4 5;C 13 0 6;E;E;E;E;E;
P;P;P;P;P;C 108 4 1;C 108 3 0;E;E;E;
C 76 6 0;C 12 4 5;P;C 12 5 1;C 76 3 6;E;E;E;E;E;
P;P;P;P;P;C 107 4 0;C 107 1 3;E;E;E;
C 75 5 0;C 75 4 5;P;C 11 1 6;C 11 6 3;E;E;E;E;E;
P;P;P;P;P;C 106 3 4;C 106 1 0;E;E;E;
C 10 3 5;C 74 1 6;P;C 74 6 0;C 10 5 4;E;E;E;E;E;
P;P;P;P;P;C 105 1 3;C 105 0 4;E;E;E;
C 9 0 6;C 73 1 5;P;C 73 5 3;C 9 6 4;E;E;E;E;E;
P;P;P;P;P;C 104 1 3;C 104 0 4;E;E;E;
C 8 0 6;C 72 1 5;P;C 72 5 3;C 8 6 4;E;E;E;E;E;
P;P;P;P;P;C 103 0 4;C 103 1 3;E;E;E;
C 7 0 5;C 71 6 3;P;C 71 1 6;C 7 5 4;E;E;E;E;E;
P;P;P;P;P;C 102 3 1;C 102 0 4;E;E;E;
C 6 6 4;C 70 3 5;P;C 70 5 1;C 6 0 6;E;E;E;E;E;
P;P;P;P;P;C 101 4 0;C 101 1 3;E;E;E;
C 5 5 0;C 69 1 6;P;C 69 6 3;C 5 4 5;E;E;E;E;E;
P;C 100 4 0;P;P;C 100 1 3;E;E;E;E;E;
C 4 1 0;C 68 4 3;P;E;E;E;E;E;E;E;
C 0 0 1;P;P;E;E;E;E;E;E;E;
C 1 0 1;P;P;E;E;E;E;E;E;E;
C 2 0 1;E;P;E;E;E;E;E;E;E;
P;C 0 2 0;P;C 1 0 2;C 0 0 2;E;E;E;E;E;
C 1 0 1;C 1 4 1;C 1 4 2;P;E;E;E;E;E;E;
C 2 1 2;C 2 3 0;C 2 0 3;C 2 2 1;E;E;E;E;E;E;
C 3 2 0;C 3 0 2;C 3 1 3;E;E;E;E;E;E;E;
P;P;C 36 2 0;C 36 1 2;E;E;E;E;E;E;
P;P;C 4 2 3;E;E;E;E;E;E;E;
P;P;C 37 2 0;C 37 1 2;E;E;E;E;E;E;
P;P;C 5 2 3;E;E;E;E;E;E;E;
P;P;C 38 2 0;C 38 1 2;E;E;E;E;E;E;
P;P;C 6 2 3;E;E;E;E;E;E;E;
P;P;C 39 2 0;C 39 1 2;E;E;E;E;E;E;
P;P;C 7 2 3;E;E;E;E;E;E;E;
P;P;C 40 2 0;C 40 1 2;E;E;E;E;E;E;
P;P;C 8 2 3;E;E;E;E;E;E;E;
P;P;C 41 1 2;C 41 2 0;E;E;E;E;E;E;
P;P;C 9 3 2;E;E;E;E;E;E;E;
P;P;C 42 1 2;C 42 2 0;E;E;E;E;E;E;
P;P;C 10 3 2;E;E;E;E;E;E;E;
P;P;C 43 2 0;C 43 1 2;E;E;E;E;E;E;
P;P;C 11 2 3;E;E;E;E;E;E;E;
P;P;C 44 2 0;C 44 1 2;E;E;E;E;E;E;
P;P;C 12 2 3;E;E;E;E;E;E;E;
P;P;C 45 2 0;C 45 1 2;E;E;E;E;E;E;
P;P;C 13 2 3;E;E;E;E;E;E;E;
P;P;C 46 2 0;C 46 1 2;E;E;E;E;E;E;
P;P;C 14 2 3;E;E;E;E;E;E;E;
P;P;C 47 1 2;C 47 2 0;E;E;E;E;E;E;
P;P;C 15 3 2;E;E;E;E;E;E;E;
P;P;C 48 1 2;C 48 2 0;E;E;E;E;E;E;
P;P;C 16 3 2;E;E;E;E;E;E;E;
P;P;C 49 1 2;C 49 2 0;E;E;E;E;E;E;
P;P;C 17 3 2;E;E;E;E;E;E;E;
P;P;C 50 2 0;C 50 1 2;E;E;E;E;E;E;
P;P;C 18 2 3;E;E;E;E;E;E;E;
P;P;C 51 1 2;C 51 2 0;E;E;E;E;E;E;
P;P;C 19 3 2;E;E;E;E;E;E;E;
P;P;C 52 2 0;C 52 1 2;E;E;E;E;E;E;
P;P;C 20 2 3;E;E;E;E;E;E;E;
P;P;C 53 1 2;C 53 2 0;E;E;E;E;E;E;
P;P;C 21 3 2;E;E;E;E;E;E;E;
P;P;C 54 1 2;C 54 2 0;E;E;E;E;E;E;
P;P;C 22 3 2;E;E;E;E;E;E;E;
P;P;C 55 1 2;C 55 2 0;E;E;E;E;E;E;
P;P;C 23 3 2;E;E;E;E;E;E;E;
P;P;C 56 2 0;C 56 1 2;E;E;E;E;E;E;
P;P;C 24 2 3;E;E;E;E;E;E;E;
P;P;C 57 2 0;C 57 1 2;E;E;E;E;E;E;
P;P;C 25 2 3;E;E;E;E;E;E;E;
P;P;C 58 2 0;C 58 1 2;E;E;E;E;E;E;
P;P;C 26 2 3;E;E;E;E;E;E;E;
P;P;C 59 1 2;C 59 2 0;E;E;E;E;E;E;
P;P;C 27 3 2;E;E;E;E;E;E;E;
P;P;C 60 1 2;C 60 2 0;E;E;E;E;E;E;
P;P;C 28 3 2;E;E;E;E;E;E;E;
P;P;C 61 2 0;C 61 1 2;E;E;E;E;E;E;
P;P;C 29 2 3;E;E;E;E;E;E;E;
P;P;C 62 2 0;C 62 1 2;E;E;E;E;E;E;
P;P;C 30 2 3;E;E;E;E;E;E;E;
P;P;C 63 1 2;C 63 2 0;E;E;E;E;E;E;
P;P;C 31 3 2;E;E;E;E;E;E;E;
P;P;C 64 2 0;C 64 1 2;E;E;E;E;E;E;
P;P;C 32 2 3;E;E;E;E;E;E;E;
P;P;C 65 1 2;C 65 2 0;E;E;E;E;E;E;
P;P;C 33 3 2;E;E;E;E;E;E;E;
P;P;C 66 1 2;C 66 2 0;E;E;E;E;E;E;
P;P;C 34 3 2;E;E;E;E;E;E;E;
C 67 1 2;C 67 2 0;C 67 2 1;C 67 0 2;E;E;E;E;E;E;
C 35 1 0;C 35 2 3;E;E;E;E;E;E;E;E;
C 2 1 0;E;E;E;E;E;E;E;E;E].
(** fhevm/src/codegen/codegen_pc_update.rs:22292-23466 *)
Definition pc_update_24 : bit_circuit := BC 10%nat [
C 92 1 0;C 28 1 0;C 92 0 1;C 28 0 1;E;E;E;E;E;E;
P;P;C 91 0 2;C 27 3 1;C 27 1 3;C 91 2 0;E;E;E;E;
P;P;C 90 0 2;C 26 3 1;C 26 1 4;C 90 5 0;E;E;E;E;
P;P;C 89 0 2;C 25 3 1;C 89 5 0;C 25 1 4;E;E;E;E;
P;P;C 24 1 5;C 88 4 0;C 24 3 1;C 88 0 2;E;E;E;E;
P;P;C 119 0 3;C 87 3 0;C 119 2 1;C 119 1 4;C 119 5 0;C 23 4 1;E;E;
P;P;C 86 3 0;C 23 1 4;C 87 2 0;C 23 5 1;C 22 7 1;C 87 0 6;E;E;
P;P;C 118 4 7;P;P;P;C 85 2 0;P;C 118 5 3;C 21 6 1;
P;P;C 86 2 7;C 84 6 0;C 22 5 8;C 86 4 2;C 22 8 3;C 20 9 1;E;E;
P;P;P;C 19 7 1;P;P;P;C 117 5 2;C 117 4 6;C 83 3 0;
P;P;C 85 5 7;C 82 9 0;C 18 3 1;C 21 8 6;C 21 4 8;C 85 7 2;E;E;
P;P;P;C 81 3 0;C 17 4 1;P;P;P;C 116 6 5;C 116 2 7;
P;P;C 80 3 0;C 84 2 9;C 20 6 8;C 84 9 7;C 20 8 5;C 16 4 1;E;E;
P;P;C 115 4 6;P;P;P;P;C 79 2 0;C 15 7 1;C 115 3 5;
P;P;C 78 7 0;C 19 4 2;C 83 9 5;C 19 2 6;C 14 8 1;C 83 3 9;E;E;
P;P;C 114 3 5;P;P;P;C 77 2 0;P;C 13 6 1;C 114 7 4;
P;P;C 18 2 5;C 82 9 4;C 12 8 1;C 18 3 2;C 82 7 9;C 76 6 0;E;E;
P;P;P;P;C 11 4 1;P;P;C 113 6 3;C 113 5 2;C 75 7 0;
P;P;C 81 7 3;C 10 4 1;C 74 9 0;C 17 5 8;C 17 8 2;C 81 6 7;E;E;
P;P;P;C 112 7 2;C 9 3 1;P;P;P;C 73 4 0;C 112 5 6;
P;P;C 80 3 2;C 80 7 3;C 72 8 0;C 8 4 1;C 16 9 6;C 16 5 9;E;E;
P;P;P;P;C 111 7 6;C 71 4 0;P;P;C 7 5 1;C 111 3 2;
C 70 5 0;C 79 3 9;C 6 8 1;C 15 4 6;C 15 7 4;C 79 9 2;E;E;E;E;
P;P;C 110 4 3;P;P;P;C 0 2 0;C 110 1 5;E;E;
P;C 78 7 5;C 1 6 0;C 78 1 7;C 14 4 2;C 14 2 3;E;E;E;E;
C 109 3 1;P;C 2 2 0;P;P;P;C 109 4 5;E;E;E;
C 13 6 5;C 13 4 6;P;C 77 0 1;C 77 3 0;E;E;E;E;E;
P;P;P;P;P;C 108 4 3;C 108 1 0;E;E;E;
C 76 5 3;C 12 6 0;P;C 12 1 6;C 76 4 5;E;E;E;E;E;
P;P;P;P;P;C 107 3 1;C 107 4 0;E;E;E;
C 75 4 6;C 75 6 0;P;C 11 3 5;C 11 5 1;E;E;E;E;E;
P;P;P;P;P;C 106 0 1;C 106 3 4;E;E;E;
C 74 5 1;C 10 6 4;P;C 74 0 5;C 10 3 6;E;E;E;E;E;
P;P;P;P;P;C 105 3 0;C 105 4 1;E;E;E;
C 9 6 1;C 73 3 5;P;C 73 5 0;C 9 4 6;E;E;E;E;E;
P;P;P;P;P;C 104 4 0;C 104 1 3;E;E;E;
C 72 1 6;C 72 6 3;P;C 8 5 0;C 8 4 5;E;E;E;E;E;
P;P;P;P;P;C 103 4 3;C 103 0 1;E;E;E;
C 7 4 5;C 71 0 6;P;C 7 5 3;C 71 6 1;E;E;E;E;E;
P;P;P;P;P;C 102 1 4;C 102 0 3;E;E;E;
C 6 0 6;C 6 6 3;P;C 70 1 5;C 70 5 4;E;E;E;E;E;
P;P;P;P;P;C 101 0 1;C 101 3 4;E;E;E;
C 69 3 6;C 5 0 5;P;C 69 6 4;C 5 5 1;E;E;E;E;E;
C 100 1 4;C 100 0 3;P;P;P;E;E;E;E;E;
C 4 0 4;C 68 1 3;P;E;E;E;E;E;E;E;
C 0 0 1;P;P;E;E;E;E;E;E;E;
C 1 0 1;P;P;E;E;E;E;E;E;E;
C 2 0 1;E;P;E;E;E;E;E;E;E;
P;C 1 0 2;P;C 0 0 2;C 0 2 0;E;E;E;E;E;
C 1 0 4;P;C 1 3 2;C 1 3 4;E;E;E;E;E;E;
C 2 0 1;C 2 1 0;C 2 3 2;C 2 2 3;E;E;E;E;E;E;
C 3 1 3;C 3 0 2;C 3 2 0;E;E;E;E;E;E;E;
C 36 2 0;P;P;C 36 0 1;E;E;E;E;E;E;
C 4 3 0;P;P;E;E;E;E;E;E;E;
C 37 2 0;P;P;C 37 0 1;E;E;E;E;E;E;
C 5 3 0;P;P;E;E;E;E;E;E;E;
C 38 0 1;P;P;C 38 2 0;E;E;E;E;E;E;
C 6 0 3;P;P;E;E;E;E;E;E;E;
C 39 2 0;P;P;C 39 0 1;E;E;E;E;E;E;
C 7 3 0;P;P;E;E;E;E;E;E;E;
C 40 2 0;P;P;C 40 0 1;E;E;E;E;E;E;
C 8 3 0;P;P;E;E;E;E;E;E;E;
C 41 2 0;P;P;C 41 0 1;E;E;E;E;E;E;
C 9 3 0;P;P;E;E;E;E;E;E;E;
C 42 2 0;P;P;C 42 0 1;E;E;E;E;E;E;
C 10 3 0;P;P;E;E;E;E;E;E;E;
C 43 2 0;P;P;C 43 0 1;E;E;E;E;E;E;
C 11 3 0;P;P;E;E;E;E;E;E;E;
C 44 2 0;P;P;C 44 0 1;E;E;E;E;E;E;
C 12 3 0;P;P;E;E;E;E;E;E;E;
C 45 2 0;P;P;C 45 0 1;E;E;E;E;E;E;
C 13 3 0;P;P;E;E;E;E;E;E;E;
C 46 2 0;P;P;C 46 0 1;E;E;E;E;E;E;
C 14 3 0;P;P;E;E;E;E;E;E;E;
C 47 2 0;P;P;C 47 0 1;E;E;E;E;E;E;
C 15 3 0;P;P;E;E;E;E;E;E;E;
C 48 2 0;P;P;C 48 0 1;E;E;E;E;E;E;
C 16 3 0;P;P;E;E;E;E;E;E;E;
C 49 0 1;P;P;C 49 2 0;E;E;E;E;E;E;
C 17 0 3;P;P;E;E;E;E;E;E;E;
C 50 0 1;P;P;C 50 2 0;E;E;E;E;E;E;
C 18 0 3;P;P;E;E;E;E;E;E;E;
C 51 0 1;P;P;C 51 2 0;E;E;E;E;E;E;
C 19 0 3;P;P;E;E;E;E;E;E;E;
C 52 2 0;P;P;C 52 0 1;E;E;E;E;E;E;
C 20 3 0;P;P;E;E;E;E;E;E;E;
C 53 0 1;P;P;C 53 2 0;E;E;E;E;E;E;
C 21 0 3;P;P;E;E;E;E;E;E;E;
C 54 0 1;P;P;C 54 2 0;E;E;E;E;E;E;
C 22 0 3;P;P;E;E;E;E;E;E;E;
C 55 2 0;P;P;C 55 0 1;E;E;E;E;E;E;
C 23 3 0;P;P;E;E;E;E;E;E;E;
C 56 0 1;P;P;C 56 2 0;E;E;E;E;E;E;
C 24 0 3;P;P;E;E;E;E;E;E;E;
C 57 2 0;P;P;C 57 0 1;E;E;E;E;E;E;
C 25 3 0;P;P;E;E;E;E;E;E;E;
C 58 2 0;P;P;C 58 0 1;E;E;E;E;E;E;
C 26 3 0;P;P;E;E;E;E;E;E;E;
C 59 2 0;P;P;C 59 0 1;E;E;E;E;E;E;
C 27 3 0;P;P;E;E;E;E;E;E;E;
C 60 0 1;P;P;C 60 2 0;E;E;E;E;E;E;
C 28 0 3;P;P;E;E;E;E;E;E;E;
C 61 2 0;P;P;C 61 0 1;E;E;E;E;E;E;
C 29 3 0;P;P;E;E;E;E;E;E;E;
C 62 0 1;P;P;C 62 2 0;E;E;E;E;E;E;
C 30 0 3;P;P;E;E;E;E;E;E;E;
C 63 0 1;P;P;C 63 2 0;E;E;E;E;E;E;
C 31 0 3;P;P;E;E;E;E;E;E;E;
C 64 2 0;P;P;C 64 0 1;E;E;E;E;E;E;
C 32 3 0;P;P;E;E;E;E;E;E;E;
C 65 2 0;P;P;C 65 0 1;E;E;E;E;E;E;
C 33 3 0;P;P;E;E;E;E;E;E;E;
C 66 0 1;P;P;C 66 2 0;E;E;E;E;E;E;
C 34 0 3;P;P;E;E;E;E;E;E;E;
C 67 1 0;C 67 0 2;C 67 2 0;C 67 0 1;E;E;E;E;E;E;
C 35 1 0;C 35 3 2;E;E;E;E;E;E;E;E;
C 2 0 1;E;E;E;E;E;E;E;E;E].
(** fhevm/src/codegen/codegen_pc_update.rs:23467-24651 *)
Definition pc_update_25 : bit_circuit := BC 10%nat [
C 29 0 1;C 93 1 0;C 93 0 1;C 29 1 0;E;E;E;E;E;E;
C 28 0 3;P;C 92 2 1;P;C 92 1 2;C 28 3 0;E;E;E;E;
C 91 1 4;P;C 27 3 5;P;C 91 2 1;C 27 0 3;E;E;E;E;
C 26 5 3;P;C 90 1 0;P;C 26 3 2;C 90 4 1;E;E;E;E;
C 25 3 4;P;C 25 0 3;P;C 89 5 1;C 89 1 2;E;E;E;E;
C 24 3 0;P;C 88 4 1;P;C 24 2 3;C 88 1 5;E;E;E;E;
C 23 4 3;P;C 119 1 2;P;C 119 3 4;C 119 5 1;C 87 2 1;C 119 0 3;E;E;
C 23 4 3;P;C 86 6 1;P;C 23 3 7;C 87 1 5;C 87 2 1;C 22 0 3;E;E;
P;P;C 118 0 4;P;P;P;P;C 21 7 3;C 85 2 1;C 118 6 5;
C 20 7 3;P;C 22 0 2;P;C 86 9 5;C 22 2 4;C 84 8 1;C 86 6 9;E;E;
C 117 2 5;P;P;P;P;P;C 83 6 1;P;C 19 0 3;C 117 7 4;
C 18 8 3;P;C 21 0 5;P;C 85 7 9;C 85 9 4;C 21 2 0;C 82 6 1;E;E;
C 116 4 5;P;P;P;P;P;P;C 17 0 3;C 116 6 2;C 81 7 1;
C 20 6 8;P;C 80 9 1;P;C 20 8 2;C 84 0 5;C 16 7 3;C 84 4 0;E;E;
P;P;C 15 6 3;P;P;P;C 79 2 1;P;C 115 7 5;C 115 0 4;
C 83 8 5;P;C 19 0 9;P;C 83 7 8;C 78 6 1;C 19 9 4;C 14 2 3;E;E;
P;P;P;P;P;C 114 2 6;P;C 13 7 3;C 114 4 0;C 77 5 1;
C 12 7 3;P;C 18 2 5;P;C 82 8 0;C 82 4 8;C 76 9 1;C 18 5 6;E;E;
C 75 6 1;P;P;P;P;P;C 113 2 7;P;C 11 0 3;C 113 5 4;
C 81 5 9;P;C 74 0 1;P;C 10 8 3;C 81 9 4;C 17 2 6;C 17 6 7;E;E;
P;P;C 112 6 7;P;C 112 0 5;P;P;P;C 9 4 3;C 73 2 1;
C 16 2 7;P;C 72 9 1;P;C 80 4 5;C 8 8 3;C 80 0 4;C 16 6 2;E;E;
P;P;C 111 6 4;P;P;C 71 2 1;P;P;C 111 7 0;C 7 5 3;
C 79 2 4;C 6 9 3;C 15 7 8;C 79 6 2;C 15 8 0;C 70 5 1;E;E;E;E;
P;C 110 2 4;P;P;P;P;C 0 1 5;C 110 3 0;E;E;
C 78 3 7;C 78 7 0;C 14 2 1;C 14 1 4;C 1 6 5;P;E;E;E;E;
P;P;P;P;C 2 4 5;C 109 0 1;C 109 2 3;E;E;E;
C 13 2 6;C 77 5 1;C 77 0 5;C 13 6 3;P;E;E;E;E;E;
P;P;P;P;P;C 108 0 3;C 108 2 1;E;E;E;
C 76 2 6;C 76 6 1;C 12 5 3;C 12 0 5;P;E;E;E;E;E;
P;P;P;P;P;C 107 3 2;C 107 0 1;E;E;E;
C 75 0 6;C 11 5 2;C 75 6 1;C 11 3 5;P;E;E;E;E;E;
P;P;P;P;P;C 106 0 2;C 106 3 1;E;E;E;
C 74 5 2;C 10 3 6;C 74 0 5;C 10 6 1;P;E;E;E;E;E;
P;P;P;P;P;C 105 1 3;C 105 2 0;E;E;E;
C 9 1 5;C 73 6 0;C 9 5 3;C 73 2 6;P;E;E;E;E;E;
P;P;P;P;P;C 104 3 1;C 104 0 2;E;E;E;
C 72 3 5;C 72 5 1;C 8 6 2;C 8 0 6;P;E;E;E;E;E;
P;P;P;P;P;C 103 3 2;C 103 0 1;E;E;E;
C 7 3 5;C 7 5 2;C 71 0 6;C 71 6 1;P;E;E;E;E;E;
P;P;P;P;P;C 102 2 3;C 102 0 1;E;E;E;
C 6 6 1;C 6 0 6;C 70 5 3;C 70 2 5;P;E;E;E;E;E;
P;P;P;P;P;C 101 1 0;C 101 3 2;E;E;E;
C 69 3 6;C 5 5 0;C 5 1 5;C 69 6 2;P;E;E;E;E;E;
C 100 0 3;P;C 100 2 1;P;P;E;E;E;E;E;
C 68 0 3;C 4 2 1;E;E;P;E;E;E;E;E;
P;C 0 1 0;E;E;P;E;E;E;E;E;
P;C 1 1 0;E;E;P;E;E;E;E;E;
C 2 1 0;E;E;E;P;E;E;E;E;E;
P;C 1 0 4;C 0 4 0;C 0 0 4;P;E;E;E;E;E;
C 1 3 2;P;C 1 3 4;C 1 0 2;E;E;E;E;E;E;
C 2 1 3;C 2 2 0;C 2 0 2;C 2 3 1;E;E;E;E;E;E;
C 3 3 2;C 3 0 1;C 3 2 3;E;E;E;E;E;E;E;
P;C 36 2 1;P;C 36 1 0;E;E;E;E;E;E;
P;C 4 3 1;P;E;E;E;E;E;E;E;
P;C 37 1 0;P;C 37 2 1;E;E;E;E;E;E;
P;C 5 1 3;P;E;E;E;E;E;E;E;
P;C 38 2 1;P;C 38 1 0;E;E;E;E;E;E;
P;C 6 3 1;P;E;E;E;E;E;E;E;
P;C 39 1 0;P;C 39 2 1;E;E;E;E;E;E;
P;C 7 1 3;P;E;E;E;E;E;E;E;
P;C 40 1 0;P;C 40 2 1;E;E;E;E;E;E;
P;C 8 1 3;P;E;E;E;E;E;E;E;
P;C 41 2 1;P;C 41 1 0;E;E;E;E;E;E;
P;C 9 3 1;P;E;E;E;E;E;E;E;
P;C 42 2 1;P;C 42 1 0;E;E;E;E;E;E;
P;C 10 3 1;P;E;E;E;E;E;E;E;
P;C 43 1 0;P;C 43 2 1;E;E;E;E;E;E;
P;C 11 1 3;P;E;E;E;E;E;E;E;
P;C 44 2 1;P;C 44 1 0;E;E;E;E;E;E;
P;C 12 3 1;P;E;E;E;E;E;E;E;
P;C 45 1 0;P;C 45 2 1;E;E;E;E;E;E;
P;C 13 1 3;P;E;E;E;E;E;E;E;
P;C 46 2 1;P;C 46 1 0;E;E;E;E;E;E;
P;C 14 3 1;P;E;E;E;E;E;E;E;
P;C 47 1 0;P;C 47 2 1;E;E;E;E;E;E;
P;C 15 1 3;P;E;E;E;E;E;E;E;
P;C 48 2 1;P;C 48 1 0;E;E;E;E;E;E;
P;C 16 3 1;P;E;E;E;E;E;E;E;
P;C 49 2 1;P;C 49 1 0;E;E;E;E;E;E;
P;C 17 3 1;P;E;E;E;E;E;E;E;
P;C 50 1 0;P;C 50 2 1;E;E;E;E;E;E;
P;C 18 1 3;P;E;E;E;E;E;E;E;
P;C 51 1 0;P;C 51 2 1;E;E;E;E;E;E;
P;C 19 1 3;P;E;E;E;E;E;E;E;
P;C 52 2 1;P;C 52 1 0;E;E;E;E;E;E;
P;C 20 3 1;P;E;E;E;E;E;E;E;
P;C 53 1 0;P;C 53 2 1;E;E;E;E;E;E;
P;C 21 1 3;P;E;E;E;E;E;E;E;
P;C 54 1 0;P;C 54 2 1;E;E;E;E;E;E;
P;C 22 1 3;P;E;E;E;E;E;E;E;
P;C 55 2 1;P;C 55 1 0;E;E;E;E;E;E;
P;C 23 3 1;P;E;E;E;E;E;E;E;
P;C 56 1 0;P;C 56 2 1;E;E;E;E;E;E;
P;C 24 1 3;P;E;E;E;E;E;E;E;
P;C 57 1 0;P;C 57 2 1;E;E;E;E;E;E;
P;C 25 1 3;P;E;E;E;E;E;E;E;
P;C 58 1 0;P;C 58 2 1;E;E;E;E;E;E;
P;C 26 1 3;P;E;E;E;E;E;E;E;
P;C 59 1 0;P;C 59 2 1;E;E;E;E;E;E;
P;C 27 1 3;P;E;E;E;E;E;E;E;
P;C 60 2 1;P;C 60 1 0;E;E;E;E;E;E;
P;C 28 3 1;P;E;E;E;E;E;E;E;
P;C 61 2 1;P;C 61 1 0;E;E;E;E;E;E;
P;C 29 3 1;P;E;E;E;E;E;E;E;
P;C 62 2 1;P;C 62 1 0;E;E;E;E;E;E;
P;C 30 3 1;P;E;E;E;E;E;E;E;
P;C 63 1 0;P;C 63 2 1;E;E;E;E;E;E;
P;C 31 1 3;P;E;E;E;E;E;E;E;
P;C 64 2 1;P;C 64 1 0;E;E;E;E;E;E;
P;C 32 3 1;P;E;E;E;E;E;E;E;
P;C 65 1 0;P;C 65 2 1;E;E;E;E;E;E;
P;C 33 1 3;P;E;E;E;E;E;E;E;
P;C 66 1 0;P;C 66 2 1;E;E;E;E;E;E;
P;C 34 1 3;P;E;E;E;E;E;E;E;
C 67 1 0;C 67 0 1;C 67 2 1;C 67 1 2;E;E;E;E;E;E;
C 35 0 2;C 35 3 1;E;E;E;E;E;E;E;E;
C 2 1 0;E;E;E;E;E;E;E;E;E].
(** fhevm/src/codegen/codegen_pc_update.rs:24652-25846 *)
Definition pc_update_26 : bit_circuit := BC 10%nat [
C 94 1 0;C 30 0 1;C 94 0 1;C 30 1 0;E;E;E;E;E;E;
P;C 29 3 1;C 93 2 0;P;C 93 0 2;C 29 1 3;E;E;E;E;
P;C 28 5 3;C 92 0 4;P;C 92 2 0;C 28 3 1;E;E;E;E;
P;C 27 1 3;C 91 4 0;P;C 27 3 5;C 91 0 2;E;E;E;E;
P;C 90 2 0;C 90 0 5;P;C 26 1 3;C 26 3 4;E;E;E;E;
P;C 25 3 5;C 25 4 3;P;C 89 1 0;C 89 0 2;E;E;E;E;
P;C 24 3 1;C 24 2 3;P;C 88 4 0;C 88 0 5;E;E;E;E;
P;C 23 2 3;C 119 5 0;P;C 87 4 0;C 119 3 2;C 119 0 4;C 119 1 3;E;E;
P;C 87 6 0;C 87 0 2;P;C 23 3 7;C 23 5 3;C 22 1 3;C 86 4 0;E;E;
P;P;P;P;P;P;C 21 6 3;C 118 5 4;C 118 1 2;C 85 7 0;
P;C 86 1 8;C 22 5 7;P;C 84 9 0;C 22 7 4;C 20 6 3;C 86 8 2;E;E;
P;P;P;P;C 117 2 5;P;C 19 6 3;P;C 83 4 0;C 117 1 7;
P;C 85 1 9;C 21 4 5;P;C 82 8 0;C 18 6 3;C 85 9 7;C 21 2 4;E;E;
P;P;P;P;C 81 4 0;C 17 5 3;P;P;C 116 1 6;C 116 7 2;
P;C 84 1 8;C 16 5 3;P;C 20 9 2;C 84 8 6;C 80 4 0;C 20 7 9;E;E;
P;P;C 115 7 4;P;P;P;C 79 6 0;P;C 115 1 5;C 15 2 3;
P;C 78 6 0;C 83 1 8;P;C 14 9 3;C 19 7 2;C 83 8 5;C 19 2 4;E;E;
P;C 13 4 3;P;P;C 114 2 6;P;P;P;C 77 1 0;C 114 5 7;
P;C 76 8 0;C 18 9 7;P;C 82 4 6;C 18 5 9;C 82 2 4;C 12 1 3;E;E;
P;C 11 7 3;P;P;P;P;P;C 113 5 2;C 113 6 4;C 75 1 0;
P;C 74 9 0;C 81 6 8;P;C 81 8 4;C 17 7 2;C 10 1 3;C 17 5 7;E;E;
P;C 112 2 4;P;P;P;P;C 73 1 0;P;C 9 6 3;C 112 7 5;
P;C 80 2 1;C 16 7 9;P;C 80 1 4;C 72 6 0;C 16 9 5;C 8 8 3;E;E;
P;P;P;P;P;C 7 7 3;P;C 111 2 6;C 71 5 0;C 111 1 4;
C 6 5 3;C 15 7 6;C 79 9 4;C 79 1 9;C 15 2 7;C 70 8 0;E;E;E;E;
C 110 3 2;P;P;P;P;P;C 0 0 5;C 110 4 1;E;E;
C 14 7 1;C 78 3 0;C 78 0 2;C 14 4 7;C 1 6 5;P;E;E;E;E;
P;P;P;P;C 2 4 5;C 109 3 0;C 109 1 2;E;E;E;
C 77 1 6;C 13 3 5;C 77 6 2;C 13 5 0;P;E;E;E;E;E;
P;P;P;P;P;C 108 0 2;C 108 1 3;E;E;E;
C 12 1 6;C 76 0 5;C 12 6 3;C 76 5 2;P;E;E;E;E;E;
P;P;P;P;P;C 107 1 3;C 107 0 2;E;E;E;
C 75 5 3;C 11 6 2;C 11 0 6;C 75 1 5;P;E;E;E;E;E;
P;P;P;P;P;C 106 3 0;C 106 2 1;E;E;E;
C 74 5 0;C 10 2 6;C 74 3 5;C 10 6 1;P;E;E;E;E;E;
P;P;P;P;P;C 105 2 0;C 105 1 3;E;E;E;
C 9 6 3;C 73 5 0;C 9 1 6;C 73 2 5;P;E;E;E;E;E;
P;P;P;P;P;C 104 2 0;C 104 3 1;E;E;E;
C 8 2 5;C 8 5 0;C 72 3 6;C 72 6 1;P;E;E;E;E;E;
P;P;P;P;P;C 103 0 1;C 103 2 3;E;E;E;
C 7 5 1;C 71 6 3;C 7 0 5;C 71 2 6;P;E;E;E;E;E;
P;P;P;P;P;C 102 3 1;C 102 2 0;E;E;E;
C 70 3 5;C 6 2 6;C 6 6 0;C 70 5 1;P;E;E;E;E;E;
P;P;P;P;P;C 101 1 2;C 101 0 3;E;E;E;
C 69 6 3;C 5 5 2;C 69 0 6;C 5 1 5;P;E;E;E;E;E;
P;P;C 100 2 0;C 100 3 1;P;E;E;E;E;E;
C 68 2 0;C 4 3 1;E;E;P;E;E;E;E;E;
P;C 0 1 0;E;E;P;E;E;E;E;E;
P;C 1 1 0;E;E;P;E;E;E;E;E;
C 2 1 0;E;E;E;P;E;E;E;E;E;
P;C 0 0 4;C 0 4 0;C 1 0 4;P;E;E;E;E;E;
C 1 0 2;C 1 1 4;C 1 1 2;P;E;E;E;E;E;E;
C 2 0 3;C 2 3 0;C 2 2 1;C 2 1 2;E;E;E;E;E;E;
C 3 1 3;C 3 0 2;C 3 2 0;E;E;E;E;E;E;E;
C 36 2 0;P;P;C 36 0 1;E;E;E;E;E;E;
C 4 3 0;P;P;E;E;E;E;E;E;E;
C 37 0 1;P;P;C 37 2 0;E;E;E;E;E;E;
C 5 0 3;P;P;E;E;E;E;E;E;E;
C 38 0 1;P;P;C 38 2 0;E;E;E;E;E;E;
C 6 0 3;P;P;E;E;E;E;E;E;E;
C 39 2 0;P;P;C 39 0 1;E;E;E;E;E;E;
C 7 3 0;P;P;E;E;E;E;E;E;E;
C 40 0 1;P;P;C 40 2 0;E;E;E;E;E;E;
C 8 0 3;P;P;E;E;E;E;E;E;E;
C 41 2 0;P;P;C 41 0 1;E;E;E;E;E;E;
C 9 3 0;P;P;E;E;E;E;E;E;E;
C 42 0 1;P;P;C 42 2 0;E;E;E;E;E;E;
C 10 0 3;P;P;E;E;E;E;E;E;E;
C 43 2 0;P;P;C 43 0 1;E;E;E;E;E;E;
C 11 3 0;P;P;E;E;E;E;E;E;E;
C 44 2 0;P;P;C 44 0 1;E;E;E;E;E;E;
C 12 3 0;P;P;E;E;E;E;E;E;E;
C 45 0 1;P;P;C 45 2 0;E;E;E;E;E;E;
C 13 0 3;P;P;E;E;E;E;E;E;E;
C 46 2 0;P;P;C 46 0 1;E;E;E;E;E;E;
C 14 3 0;P;P;E;E;E;E;E;E;E;
C 47 0 1;P;P;C 47 2 0;E;E;E;E;E;E;
C 15 0 3;P;P;E;E;E;E;E;E;E;
C 48 2 0;P;P;C 48 0 1;E;E;E;E;E;E;
C 16 3 0;P;P;E;E;E;E;E;E;E;
C 49 0 1;P;P;C 49 2 0;E;E;E;E;E;E;
C 17 0 3;P;P;E;E;E;E;E;E;E;
C 50 2 0;P;P;C 50 0 1;E;E;E;E;E;E;
C 18 3 0;P;P;E;E;E;E;E;E;E;
C 51 2 0;P;P;C 51 0 1;E;E;E;E;E;E;
C 19 3 0;P;P;E;E;E;E;E;E;E;
C 52 2 0;P;P;C 52 0 1;E;E;E;E;E;E;
C 20 3 0;P;P;E;E;E;E;E;E;E;
C 53 0 1;P;P;C 53 2 0;E;E;E;E;E;E;
C 21 0 3;P;P;E;E;E;E;E;E;E;
C 54 0 1;P;P;C 54 2 0;E;E;E;E;E;E;
C 22 0 3;P;P;E;E;E;E;E;E;E;
C 55 0 1;P;P;C 55 2 0;E;E;E;E;E;E;
C 23 0 3;P;P;E;E;E;E;E;E;E;
C 56 2 0;P;P;C 56 0 1;E;E;E;E;E;E;
C 24 3 0;P;P;E;E;E;E;E;E;E;
C 57 2 0;P;P;C 57 0 1;E;E;E;E;E;E;
C 25 3 0;P;P;E;E;E;E;E;E;E;
C 58 2 0;P;P;C 58 0 1;E;E;E;E;E;E;
C 26 3 0;P;P;E;E;E;E;E;E;E;
C 59 2 0;P;P;C 59 0 1;E;E;E;E;E;E;
C 27 3 0;P;P;E;E;E;E;E;E;E;
C 60 2 0;P;P;C 60 0 1;E;E;E;E;E;E;
C 28 3 0;P;P;E;E;E;E;E;E;E;
C 61 2 0;P;P;C 61 0 1;E;E;E;E;E;E;
C 29 3 0;P;P;E;E;E;E;E;E;E;
C 62 0 1;P;P;C 62 2 0;E;E;E;E;E;E;
C 30 0 3;P;P;E;E;E;E;E;E;E;
C 63 0 1;P;P;C 63 2 0;E;E;E;E;E;E;
C 31 0 3;P;P;E;E;E;E;E;E;E;
C 64 0 1;P;P;C 64 2 0;E;E;E;E;E;E;
C 32 0 3;P;P;E;E;E;E;E;E;E;
C 65 0 1;P;P;C 65 2 0;E;E;E;E;E;E;
C 33 0 3;P;P;E;E;E;E;E;E;E;
C 66 0 1;P;P;C 66 2 0;E;E;E;E;E;E;
C 34 0 3;P;P;E;E;E;E;E;E;E;
C 67 2 0;C 67 0 2;C 67 0 1;C 67 1 0;E;E;E;E;E;E;
C 35 2 0;C 35 1 3;E;E;E;E;E;E;E;E;
C 2 1 0;E;E;E;E;E;E;E;E;E].
(** fhevm/src/codegen/codegen_pc_update.rs:25847-27051 *)
Definition pc_update_27 : bit_circuit := BC 10%nat [
C 31 1 0;C 31 0 1;C 95 1 0;C 95 0 1;E;E;E;E;E;E;
P;C 94 3 2;P;C 94 2 3;C 30 1 0;C 30 0 1;E;E;E;E;
P;C 93 2 3;P;C 29 0 5;C 29 4 0;C 93 1 2;E;E;E;E;
P;C 28 4 0;P;C 92 5 2;C 28 0 3;C 92 2 1;E;E;E;E;
P;C 91 3 2;P;C 27 0 4;C 91 2 5;C 27 1 0;E;E;E;E;
P;C 90 1 2;P;C 26 0 3;C 90 2 4;C 26 5 0;E;E;E;E;
P;C 89 1 2;P;C 89 2 4;C 25 0 3;C 25 5 0;E;E;E;E;
P;C 88 1 2;P;C 88 2 3;C 24 0 4;C 24 5 0;E;E;E;E;
P;C 119 3 2;P;C 87 1 2;C 23 5 0;C 119 4 0;C 119 2 1;C 119 0 5;E;E;
P;C 23 7 0;P;C 22 4 0;C 23 0 5;C 87 2 1;C 86 3 2;C 87 6 2;E;E;
P;P;P;C 21 3 0;P;P;C 118 1 4;P;C 85 6 2;C 118 7 5;
P;C 22 1 6;P;C 84 8 2;C 20 3 0;C 86 7 9;C 86 9 5;C 22 6 4;E;E;
P;P;P;C 83 3 2;C 117 1 7;P;P;P;C 117 5 6;C 19 4 0;
P;C 85 8 6;P;C 21 4 7;C 82 3 2;C 21 1 4;C 18 9 0;C 85 5 8;E;E;
P;P;P;P;C 116 5 3;P;C 17 6 0;P;C 116 7 1;C 81 4 2;
P;C 16 6 0;P;C 84 8 1;C 80 9 2;C 84 7 8;C 20 4 3;C 20 5 4;E;E;
P;C 15 1 0;P;P;C 115 7 6;P;P;P;C 115 5 3;C 79 4 2;
P;C 83 5 8;P;C 19 7 4;C 83 8 3;C 78 9 2;C 19 4 6;C 14 1 0;E;E;
P;P;P;P;P;C 114 1 4;P;C 114 3 6;C 13 7 0;C 77 5 2;
P;C 82 5 4;P;C 18 3 7;C 82 1 5;C 76 9 2;C 18 7 6;C 12 8 0;E;E;
P;P;P;P;P;C 113 4 1;P;C 75 5 2;C 113 3 6;C 11 7 0;
P;C 81 5 1;P;C 81 4 5;C 74 7 2;C 10 9 0;C 17 3 8;C 17 8 6;E;E;
P;P;P;P;C 9 5 0;C 112 3 1;P;P;C 112 6 7;C 73 4 2;
P;C 16 8 7;P;C 72 9 2;C 8 4 0;C 80 5 1;C 16 6 8;C 80 3 5;E;E;
P;P;P;C 111 7 5;C 111 6 1;P;P;P;C 71 3 2;C 7 4 0;
C 15 4 1;C 79 7 3;C 6 9 0;C 15 6 4;C 79 3 5;C 70 8 2;E;E;E;E;
P;P;C 110 1 4;P;P;P;C 0 2 5;C 110 3 0;E;E;
C 14 7 0;C 78 2 4;C 1 6 5;C 78 1 2;C 14 3 7;P;E;E;E;E;
P;P;C 2 2 5;P;P;C 109 3 1;C 109 4 0;E;E;E;
C 77 5 1;C 13 4 6;P;C 77 3 5;C 13 6 0;E;E;E;E;E;
P;P;P;P;P;C 108 3 0;C 108 1 4;E;E;E;
C 12 6 4;C 76 3 5;P;C 12 1 6;C 76 5 0;E;E;E;E;E;
P;P;P;P;P;C 107 1 4;C 107 3 0;E;E;E;
C 75 5 4;C 75 1 5;P;C 11 6 0;C 11 3 6;E;E;E;E;E;
P;P;P;P;P;C 106 1 0;C 106 4 3;E;E;E;
C 10 4 6;C 74 5 0;P;C 74 1 5;C 10 6 3;E;E;E;E;E;
P;P;P;P;P;C 105 0 4;C 105 3 1;E;E;E;
C 9 5 4;C 73 6 1;P;C 9 0 5;C 73 3 6;E;E;E;E;E;
P;P;P;P;P;C 104 3 0;C 104 4 1;E;E;E;
C 72 4 6;C 72 6 1;P;C 8 5 0;C 8 3 5;E;E;E;E;E;
P;P;P;P;P;C 103 4 3;C 103 0 1;E;E;E;
C 71 0 6;C 7 5 3;P;C 71 6 1;C 7 4 5;E;E;E;E;E;
P;P;P;P;P;C 102 0 3;C 102 4 1;E;E;E;
C 70 5 3;C 70 0 5;P;C 6 4 6;C 6 6 1;E;E;E;E;E;
P;P;P;P;P;C 101 3 4;C 101 1 0;E;E;E;
C 5 3 5;C 5 5 4;P;C 69 1 6;C 69 6 0;E;E;E;E;E;
C 100 3 4;P;P;C 100 0 1;P;E;E;E;E;E;
C 68 0 4;C 4 3 1;P;E;E;E;E;E;E;E;
P;C 0 1 0;P;E;E;E;E;E;E;E;
P;C 1 1 0;P;E;E;E;E;E;E;E;
C 2 1 0;E;P;E;E;E;E;E;E;E;
P;C 1 0 2;P;C 0 0 2;C 0 2 0;E;E;E;E;E;
C 1 0 4;P;C 1 3 2;C 1 3 4;E;E;E;E;E;E;
C 2 3 2;C 2 1 0;C 2 0 1;C 2 2 3;E;E;E;E;E;E;
C 3 2 0;C 3 1 3;C 3 0 2;E;E;E;E;E;E;E;
P;C 36 1 0;P;C 36 2 1;E;E;E;E;E;E;
P;C 4 1 3;P;E;E;E;E;E;E;E;
P;C 37 1 0;P;C 37 2 1;E;E;E;E;E;E;
P;C 5 1 3;P;E;E;E;E;E;E;E;
P;C 38 1 0;P;C 38 2 1;E;E;E;E;E;E;
P;C 6 1 3;P;E;E;E;E;E;E;E;
P;C 39 2 1;P;C 39 1 0;E;E;E;E;E;E;
P;C 7 3 1;P;E;E;E;E;E;E;E;
P;C 40 1 0;P;C 40 2 1;E;E;E;E;E;E;
P;C 8 1 3;P;E;E;E;E;E;E;E;
P;C 41 1 0;P;C 41 2 1;E;E;E;E;E;E;
P;C 9 1 3;P;E;E;E;E;E;E;E;
P;C 42 1 0;P;C 42 2 1;E;E;E;E;E;E;
P;C 10 1 3;P;E;E;E;E;E;E;E;
P;C 43 2 1;P;C 43 1 0;E;E;E;E;E;E;
P;C 11 3 1;P;E;E;E;E;E;E;E;
P;C 44 1 0;P;C 44 2 1;E;E;E;E;E;E;
P;C 12 1 3;P;E;E;E;E;E;E;E;
P;C 45 1 0;P;C 45 2 1;E;E;E;E;E;E;
P;C 13 1 3;P;E;E;E;E;E;E;E;
P;C 46 2 1;P;C 46 1 0;E;E;E;E;E;E;
P;C 14 3 1;P;E;E;E;E;E;E;E;
P;C 47 2 1;P;C 47 1 0;E;E;E;E;E;E;
P;C 15 3 1;P;E;E;E;E;E;E;E;
P;C 48 1 0;P;C 48 2 1;E;E;E;E;E;E;
P;C 16 1 3;P;E;E;E;E;E;E;E;
P;C 49 1 0;P;C 49 2 1;E;E;E;E;E;E;
P;C 17 1 3;P;E;E;E;E;E;E;E;
P;C 50 1 0;P;C 50 2 1;E;E;E;E;E;E;
P;C 18 1 3;P;E;E;E;E;E;E;E;
P;C 51 2 1;P;C 51 1 0;E;E;E;E;E;E;
P;C 19 3 1;P;E;E;E;E;E;E;E;
P;C 52 2 1;P;C 52 1 0;E;E;E;E;E;E;
P;C 20 3 1;P;E;E;E;E;E;E;E;
P;C 53 2 1;P;C 53 1 0;E;E;E;E;E;E;
P;C 21 3 1;P;E;E;E;E;E;E;E;
P;C 54 2 1;P;C 54 1 0;E;E;E;E;E;E;
P;C 22 3 1;P;E;E;E;E;E;E;E;
P;C 55 1 0;P;C 55 2 1;E;E;E;E;E;E;
P;C 23 1 3;P;E;E;E;E;E;E;E;
P;C 56 2 1;P;C 56 1 0;E;E;E;E;E;E;
P;C 24 3 1;P;E;E;E;E;E;E;E;
P;C 57 1 0;P;C 57 2 1;E;E;E;E;E;E;
P;C 25 1 3;P;E;E;E;E;E;E;E;
P;C 58 2 1;P;C 58 1 0;E;E;E;E;E;E;
P;C 26 3 1;P;E;E;E;E;E;E;E;
P;C 59 1 0;P;C 59 2 1;E;E;E;E;E;E;
P;C 27 1 3;P;E;E;E;E;E;E;E;
P;C 60 2 1;P;C 60 1 0;E;E;E;E;E;E;
P;C 28 3 1;P;E;E;E;E;E;E;E;
P;C 61 1 0;P;C 61 2 1;E;E;E;E;E;E;
P;C 29 1 3;P;E;E;E;E;E;E;E;
P;C 62 2 1;P;C 62 1 0;E;E;E;E;E;E;
P;C 30 3 1;P;E;E;E;E;E;E;E;
P;C 63 2 1;P;C 63 1 0;E;E;E;E;E;E;
P;C 31 3 1;P;E;E;E;E;E;E;E;
P;C 64 1 0;P;C 64 2 1;E;E;E;E;E;E;
P;C 32 1 3;P;E;E;E;E;E;E;E;
P;C 65 2 1;P;C 65 1 0;E;E;E;E;E;E;
P;C 33 3 1;P;E;E;E;E;E;E;E;
P;C 66 1 0;P;C 66 2 1;E;E;E;E;E;E;
P;C 34 1 3;P;E;E;E;E;E;E;E;
C 67 1 0;C 67 0 1;C 67 1 2;C 67 2 1;E;E;E;E;E;E;
C 35 2 1;C 35 0 3;E;E;E;E;E;E;E;E;
C 2 0 1;E;E;E;E;E;E;E;E;E].
(** fhevm/src/codegen/codegen_pc_update.rs:27052-28266 *)
Definition pc_update_28 : bit_circuit := BC 10%nat [
C 96 1 0;C 32 0 1;C 96 0 1;C 32 1 0;E;E;E;E;E;E;
P;C 95 2 0;C 95 0 2;P;C 31 1 3;C 31 3 1;E;E;E;E;
P;C 94 1 0;C 30 3 5;P;C 30 4 3;C 94 0 2;E;E;E;E;
P;C 29 4 3;C 29 3 2;P;C 93 0 5;C 93 1 0;E;E;E;E;
P;C 28 3 2;C 92 0 4;P;C 92 5 0;C 28 1 3;E;E;E;E;
P;C 91 0 2;C 91 4 0;P;C 27 5 3;C 27 3 1;E;E;E;E;
P;C 90 0 1;C 26 3 5;P;C 26 4 3;C 90 2 0;E;E;E;E;
P;C 25 3 2;C 89 5 0;P;C 25 4 3;C 89 0 1;E;E;E;E;
P;C 24 3 1;C 24 4 3;P;C 88 2 0;C 88 0 5;E;E;E;E;
P;C 119 5 0;C 87 4 0;P;C 23 2 3;C 119 0 4;C 119 1 3;C 119 3 2;E;E;
P;C 86 2 0;C 23 3 6;P;C 22 4 3;C 87 5 0;C 23 7 3;C 87 0 1;E;E;
P;C 118 5 7;P;P;C 85 1 0;P;P;P;C 21 4 3;C 118 6 2;
P;C 20 8 3;C 86 1 7;P;C 86 5 1;C 22 6 9;C 84 4 0;C 22 9 2;E;E;
P;C 83 6 0;P;P;P;P;C 117 4 2;P;C 117 5 7;C 19 1 3;
P;C 21 8 7;C 21 5 8;P;C 85 4 6;C 85 6 2;C 82 1 0;C 18 9 3;E;E;
P;P;P;P;P;P;C 116 4 5;C 116 2 1;C 17 7 3;C 81 6 0;
P;C 20 7 1;C 20 2 7;P;C 80 9 0;C 84 4 6;C 16 8 3;C 84 6 5;E;E;
P;P;P;P;C 79 4 0;P;C 115 2 1;P;C 15 6 3;C 115 5 7;
P;C 14 8 3;C 19 6 1;P;C 19 2 6;C 83 9 7;C 83 5 9;C 78 4 0;E;E;
P;C 13 1 3;P;P;P;P;P;C 114 6 5;C 77 7 0;C 114 4 2;
P;C 82 6 7;C 18 9 2;P;C 12 1 3;C 76 8 0;C 18 4 9;C 82 7 5;E;E;
P;P;P;P;C 75 5 0;C 11 4 3;P;P;C 113 6 2;C 113 1 7;
P;C 81 9 7;C 17 6 8;P;C 10 5 3;C 17 8 2;C 81 1 9;C 74 4 0;E;E;
P;P;P;P;C 112 2 5;P;P;C 73 7 0;C 112 6 1;C 9 4 3;
P;C 16 2 4;C 80 8 1;P;C 16 4 5;C 80 6 8;C 8 9 3;C 72 7 0;E;E;
P;P;P;P;P;P;C 7 6 3;C 71 7 0;C 111 1 4;C 111 5 2;
C 15 8 4;C 79 5 9;C 6 6 3;C 70 7 0;C 15 1 8;C 79 9 2;E;E;E;E;
P;P;C 0 2 3;P;P;P;C 110 4 0;C 110 1 5;E;E;
C 1 2 3;C 14 4 6;C 78 7 5;P;C 14 6 0;C 78 1 7;E;E;E;E;
C 2 0 3;P;P;C 109 1 4;P;P;C 109 5 2;E;E;E;
P;C 13 1 3;C 13 3 4;C 77 5 6;C 77 6 2;E;E;E;E;E;
P;P;P;P;P;C 108 3 4;C 108 1 2;E;E;E;
P;C 12 6 2;C 76 5 4;C 76 3 5;C 12 1 6;E;E;E;E;E;
P;P;P;P;P;C 107 4 1;C 107 3 2;E;E;E;
P;C 75 6 2;C 75 3 6;C 11 5 1;C 11 4 5;E;E;E;E;E;
P;P;P;P;P;C 106 4 3;C 106 2 1;E;E;E;
P;C 10 5 3;C 10 4 5;C 74 6 1;C 74 2 6;E;E;E;E;E;
P;P;P;P;P;C 105 4 3;C 105 2 1;E;E;E;
P;C 73 5 3;C 9 2 6;C 73 4 5;C 9 6 1;E;E;E;E;E;
P;P;P;P;P;C 104 2 4;C 104 3 1;E;E;E;
P;C 8 5 4;C 72 6 1;C 72 3 6;C 8 2 5;E;E;E;E;E;
P;P;P;P;P;C 103 4 1;C 103 3 2;E;E;E;
P;C 7 4 5;C 71 6 2;C 71 3 6;C 7 5 1;E;E;E;E;E;
P;P;P;P;P;C 102 3 2;C 102 1 4;E;E;E;
P;C 70 5 2;C 6 1 6;C 6 6 4;C 70 3 5;E;E;E;E;E;
P;P;P;P;P;C 101 4 1;C 101 2 3;E;E;E;
P;C 5 6 3;C 69 4 5;C 5 2 6;C 69 5 1;E;E;E;E;E;
P;P;C 100 3 1;C 100 2 4;P;E;E;E;E;E;
P;C 4 2 1;C 68 3 4;E;E;E;E;E;E;E;
P;C 0 1 2;P;E;E;E;E;E;E;E;
P;C 1 1 2;P;E;E;E;E;E;E;E;
P;C 2 1 2;E;E;E;E;E;E;E;E;
P;P;C 1 1 0;C 0 0 1;C 0 1 0;E;E;E;E;E;
C 1 4 3;C 1 1 3;P;C 1 4 0;E;E;E;E;E;E;
C 2 3 0;C 2 2 1;C 2 1 2;C 2 0 3;E;E;E;E;E;E;
C 3 2 3;C 3 3 2;C 3 1 0;E;E;E;E;E;E;E;
P;P;C 36 2 0;C 36 1 2;E;E;E;E;E;E;
P;P;C 4 2 3;E;E;E;E;E;E;E;
P;P;C 37 1 2;C 37 2 0;E;E;E;E;E;E;
P;P;C 5 3 2;E;E;E;E;E;E;E;
P;P;C 38 2 0;C 38 1 2;E;E;E;E;E;E;
P;P;C 6 2 3;E;E;E;E;E;E;E;
P;P;C 39 2 0;C 39 1 2;E;E;E;E;E;E;
P;P;C 7 2 3;E;E;E;E;E;E;E;
P;P;C 40 2 0;C 40 1 2;E;E;E;E;E;E;
P;P;C 8 2 3;E;E;E;E;E;E;E;
P;P;C 41 2 0;C 41 1 2;E;E;E;E;E;E;
P;P;C 9 2 3;E;E;E;E;E;E;E;
P;P;C 42 2 0;C 42 1 2;E;E;E;E;E;E;
P;P;C 10 2 3;E;E;E;E;E;E;E;
P;P;C 43 2 0;C 43 1 2;E;E;E;E;E;E;
P;P;C 11 2 3;E;E;E;E;E;E;E;
P;P;C 44 1 2;C 44 2 0;E;E;E;E;E;E;
P;P;C 12 3 2;E;E;E;E;E;E;E;
P;P;C 45 2 0;C 45 1 2;E;E;E;E;E;E;
P;P;C 13 2 3;E;E;E;E;E;E;E;
P;P;C 46 1 2;C 46 2 0;E;E;E;E;E;E;
P;P;C 14 3 2;E;E;E;E;E;E;E;
P;P;C 47 2 0;C 47 1 2;E;E;E;E;E;E;
P;P;C 15 2 3;E;E;E;E;E;E;E;
P;P;C 48 1 2;C 48 2 0;E;E;E;E;E;E;
P;P;C 16 3 2;E;E;E;E;E;E;E;
P;P;C 49 1 2;C 49 2 0;E;E;E;E;E;E;
P;P;C 17 3 2;E;E;E;E;E;E;E;
P;P;C 50 2 0;C 50 1 2;E;E;E;E;E;E;
P;P;C 18 2 3;E;E;E;E;E;E;E;
P;P;C 51 1 2;C 51 2 0;E;E;E;E;E;E;
P;P;C 19 3 2;E;E;E;E;E;E;E;
P;P;C 52 2 0;C 52 1 2;E;E;E;E;E;E;
P;P;C 20 2 3;E;E;E;E;E;E;E;
P;P;C 53 2 0;C 53 1 2;E;E;E;E;E;E;
P;P;C 21 2 3;E;E;E;E;E;E;E;
P;P;C 54 2 0;C 54 1 2;E;E;E;E;E;E;
P;P;C 22 2 3;E;E;E;E;E;E;E;
P;P;C 55 1 2;C 55 2 0;E;E;E;E;E;E;
P;P;C 23 3 2;E;E;E;E;E;E;E;
P;P;C 56 2 0;C 56 1 2;E;E;E;E;E;E;
P;P;C 24 2 3;E;E;E;E;E;E;E;
P;P;C 57 2 0;C 57 1 2;E;E;E;E;E;E;
P;P;C 25 2 3;E;E;E;E;E;E;E;
P;P;C 58 2 0;C 58 1 2;E;E;E;E;E;E;
P;P;C 26 2 3;E;E;E;E;E;E;E;
P;P;C 59 1 2;C 59 2 0;E;E;E;E;E;E;
P;P;C 27 3 2;E;E;E;E;E;E;E;
P;P;C 60 1 2;C 60 2 0;E;E;E;E;E;E;
P;P;C 28 3 2;E;E;E;E;E;E;E;
P;P;C 61 2 0;C 61 1 2;E;E;E;E;E;E;
P;P;C 29 2 3;E;E;E;E;E;E;E;
P;P;C 62 2 0;C 62 1 2;E;E;E;E;E;E;
P;P;C 30 2 3;E;E;E;E;E;E;E;
P;P;C 63 1 2;C 63 2 0;E;E;E;E;E;E;
P;P;C 31 3 2;E;E;E;E;E;E;E;
P;P;C 64 1 2;C 64 2 0;E;E;E;E;E;E;
P;P;C 32 3 2;E;E;E;E;E;E;E;
P;P;C 65 1 2;C 65 2 0;E;E;E;E;E;E;
P;P;C 33 3 2;E;E;E;E;E;E;E;
P;P;C 66 2 0;C 66 1 2;E;E;E;E;E;E;
P;P;C 34 2 3;E;E;E;E;E;E;E;
C 67 0 2;C 67 2 1;C 67 1 2;C 67 2 0;E;E;E;E;E;E;
C 35 3 2;C 35 1 0;E;E;E;E;E;E;E;E;
C 2 1 0;E;E;E;E;E;E;E;E;E].
(** fhevm/src/codegen/codegen_pc_update.rs:28267-29491 *)
Definition pc_update_29 : bit_circuit := BC 10%nat [
C 97 0 1;C 33 1 0;C 33 0 1;C 97 1 0;E;E;E;E;E;E;
C 32 1 2;P;C 32 2 1;P;C 96 0 3;C 96 3 0;E;E;E;E;
C 31 2 1;P;C 31 1 0;P;C 95 3 5;C 95 4 3;E;E;E;E;
C 30 0 1;P;C 94 3 4;P;C 30 1 2;C 94 5 3;E;E;E;E;
C 93 3 2;P;C 29 0 1;P;C 29 1 4;C 93 5 3;E;E;E;E;
C 92 3 0;P;C 28 2 1;P;C 28 1 4;C 92 5 3;E;E;E;E;
C 27 1 4;P;C 91 5 3;P;C 91 3 0;C 27 2 1;E;E;E;E;
C 90 3 4;P;C 26 5 1;P;C 26 1 0;C 90 2 3;E;E;E;E;
C 25 2 1;P;C 89 5 3;P;C 89 3 0;C 25 1 4;E;E;E;E;
C 24 0 1;P;C 88 2 3;P;C 24 1 5;C 88 3 4;E;E;E;E;
C 119 5 3;P;C 119 4 1;P;C 119 3 2;C 23 0 1;C 87 2 3;C 119 1 0;E;E;
C 86 6 3;P;C 87 4 3;P;C 23 7 1;C 22 5 1;C 23 1 2;C 87 3 0;E;E;
C 85 0 3;P;P;P;P;C 118 4 6;P;P;C 118 2 7;C 21 5 1;
C 84 0 3;P;C 20 9 1;P;C 86 8 7;C 22 5 6;C 22 4 5;C 86 2 8;E;E;
C 83 0 3;P;C 19 2 1;P;P;P;P;P;C 117 6 5;C 117 7 4;
C 85 9 4;P;C 85 7 9;P;C 21 6 8;C 18 2 1;C 21 8 5;C 82 0 3;E;E;
P;P;P;P;P;C 116 4 6;P;C 81 7 3;C 17 5 1;C 116 2 0;
C 80 7 3;P;C 84 9 0;P;C 16 8 1;C 20 5 6;C 84 2 9;C 20 4 5;E;E;
C 115 6 2;P;P;P;C 79 0 3;P;P;P;C 115 7 5;C 15 4 1;
C 19 7 8;P;C 19 8 5;P;C 83 0 2;C 14 9 1;C 83 6 0;C 78 4 3;E;E;
P;P;P;P;P;C 114 6 4;P;C 114 0 2;C 13 5 1;C 77 7 3;
C 18 7 2;P;C 82 6 5;P;C 76 9 3;C 82 5 4;C 12 8 1;C 18 0 7;E;E;
P;P;P;P;C 75 4 3;P;C 113 2 5;P;C 11 6 1;C 113 7 0;
C 10 8 1;P;C 17 7 9;P;C 17 9 0;C 74 4 3;C 81 6 5;C 81 2 6;E;E;
C 9 0 1;P;P;P;P;C 112 7 6;P;P;C 112 2 4;C 73 5 3;
C 16 2 8;P;C 80 5 6;P;C 8 0 1;C 80 7 5;C 16 8 4;C 72 9 3;E;E;
P;P;P;P;C 7 4 1;P;P;C 111 0 6;C 111 5 2;C 71 7 3;
C 6 4 1;C 15 7 6;C 70 9 3;C 79 8 2;C 15 0 7;C 79 5 8;E;E;E;E;
C 110 5 3;P;P;P;P;P;C 110 4 1;C 0 0 2;E;E;
C 14 6 1;C 78 0 3;P;C 14 4 6;C 1 7 2;C 78 5 0;E;E;E;E;
P;P;C 2 4 2;P;C 109 3 0;P;C 109 5 1;E;E;E;
C 77 6 1;C 77 5 6;P;C 13 4 0;C 13 3 4;E;E;E;E;E;
P;P;P;P;P;C 108 1 0;C 108 4 3;E;E;E;
C 12 4 6;C 12 6 3;P;C 76 5 0;C 76 1 5;E;E;E;E;E;
P;P;P;P;P;C 107 4 3;C 107 0 1;E;E;E;
C 75 5 3;C 75 4 5;P;C 11 6 1;C 11 0 6;E;E;E;E;E;
P;P;P;P;P;C 106 4 3;C 106 1 0;E;E;E;
C 74 1 6;C 10 5 3;P;C 10 4 5;C 74 6 0;E;E;E;E;E;
P;P;P;P;P;C 105 0 4;C 105 3 1;E;E;E;
C 9 3 6;C 9 6 1;P;C 73 0 5;C 73 5 4;E;E;E;E;E;
P;P;P;P;P;C 104 3 4;C 104 0 1;E;E;E;
C 72 3 5;C 8 6 1;P;C 8 0 6;C 72 5 4;E;E;E;E;E;
P;P;P;P;P;C 103 0 4;C 103 3 1;E;E;E;
C 7 3 6;C 71 0 5;P;C 7 6 1;C 71 5 4;E;E;E;E;E;
P;P;P;P;P;C 102 1 4;C 102 0 3;E;E;E;
C 70 5 4;C 6 0 6;P;C 6 6 3;C 70 1 5;E;E;E;E;E;
P;P;P;P;P;C 101 4 0;C 101 1 3;E;E;E;
C 5 6 3;C 69 5 0;P;C 69 4 5;C 5 1 6;E;E;E;E;E;
P;P;P;C 100 4 0;C 100 3 1;E;E;E;E;E;
C 68 4 1;C 4 3 0;P;E;E;E;E;E;E;E;
P;C 0 1 0;P;E;E;E;E;E;E;E;
P;C 1 1 0;P;E;E;E;E;E;E;E;
C 2 1 0;E;P;E;E;E;E;E;E;E;
P;C 0 0 2;P;C 1 0 2;C 0 2 0;E;E;E;E;E;
C 1 1 2;C 1 0 4;C 1 1 4;P;E;E;E;E;E;E;
C 2 0 2;C 2 3 1;C 2 2 0;C 2 1 3;E;E;E;E;E;E;
C 3 2 3;C 3 3 2;C 3 1 0;E;E;E;E;E;E;E;
P;P;C 36 0 2;C 36 2 1;E;E;E;E;E;E;
P;P;C 4 3 2;E;E;E;E;E;E;E;
P;P;C 37 0 2;C 37 2 1;E;E;E;E;E;E;
P;P;C 5 3 2;E;E;E;E;E;E;E;
P;P;C 38 0 2;C 38 2 1;E;E;E;E;E;E;
P;P;C 6 3 2;E;E;E;E;E;E;E;
P;P;C 39 0 2;C 39 2 1;E;E;E;E;E;E;
P;P;C 7 3 2;E;E;E;E;E;E;E;
P;P;C 40 0 2;C 40 2 1;E;E;E;E;E;E;
P;P;C 8 3 2;E;E;E;E;E;E;E;
P;P;C 41 2 1;C 41 0 2;E;E;E;E;E;E;
P;P;C 9 2 3;E;E;E;E;E;E;E;
P;P;C 42 0 2;C 42 2 1;E;E;E;E;E;E;
P;P;C 10 3 2;E;E;E;E;E;E;E;
P;P;C 43 0 2;C 43 2 1;E;E;E;E;E;E;
P;P;C 11 3 2;E;E;E;E;E;E;E;
P;P;C 44 0 2;C 44 2 1;E;E;E;E;E;E;
P;P;C 12 3 2;E;E;E;E;E;E;E;
P;P;C 45 2 1;C 45 0 2;E;E;E;E;E;E;
P;P;C 13 2 3;E;E;E;E;E;E;E;
P;P;C 46 0 2;C 46 2 1;E;E;E;E;E;E;
P;P;C 14 3 2;E;E;E;E;E;E;E;
P;P;C 47 0 2;C 47 2 1;E;E;E;E;E;E;
P;P;C 15 3 2;E;E;E;E;E;E;E;
P;P;C 48 0 2;C 48 2 1;E;E;E;E;E;E;
P;P;C 16 3 2;E;E;E;E;E;E;E;
P;P;C 49 0 2;C 49 2 1;E;E;E;E;E;E;
P;P;C 17 3 2;E;E;E;E;E;E;E;
P;P;C 50 2 1;C 50 0 2;E;E;E;E;E;E;
P;P;C 18 2 3;E;E;E;E;E;E;E;
P;P;C 51 0 2;C 51 2 1;E;E;E;E;E;E;
P;P;C 19 3 2;E;E;E;E;E;E;E;
P;P;C 52 2 1;C 52 0 2;E;E;E;E;E;E;
P;P;C 20 2 3;E;E;E;E;E;E;E;
P;P;C 53 2 1;C 53 0 2;E;E;E;E;E;E;
P;P;C 21 2 3;E;E;E;E;E;E;E;
P;P;C 54 2 1;C 54 0 2;E;E;E;E;E;E;
P;P;C 22 2 3;E;E;E;E;E;E;E;
P;P;C 55 0 2;C 55 2 1;E;E;E;E;E;E;
P;P;C 23 3 2;E;E;E;E;E;E;E;
P;P;C 56 0 2;C 56 2 1;E;E;E;E;E;E;
P;P;C 24 3 2;E;E;E;E;E;E;E;
P;P;C 57 2 1;C 57 0 2;E;E;E;E;E;E;
P;P;C 25 2 3;E;E;E;E;E;E;E;
P;P;C 58 2 1;C 58 0 2;E;E;E;E;E;E;
P;P;C 26 2 3;E;E;E;E;E;E;E;
P;P;C 59 2 1;C 59 0 2;E;E;E;E;E;E;
P;P;C 27 2 3;E;E;E;E;E;E;E;
P;P;C 60 0 2;C 60 2 1;E;E;E;E;E;E;
P;P;C 28 3 2;E;E;E;E;E;E;E;
P;P;C 61 0 2;C 61 2 1;E;E;E;E;E;E;
P;P;C 29 3 2;E;E;E;E;E;E;E;
P;P;C 62 2 1;C 62 0 2;E;E;E;E;E;E;
P;P;C 30 2 3;E;E;E;E;E;E;E;
P;P;C 63 0 2;C 63 2 1;E;E;E;E;E;E;
P;P;C 31 3 2;E;E;E;E;E;E;E;
P;P;C 64 2 1;C 64 0 2;E;E;E;E;E;E;
P;P;C 32 2 3;E;E;E;E;E;E;E;
P;P;C 65 2 1;C 65 0 2;E;E;E;E;E;E;
P;P;C 33 2 3;E;E;E;E;E;E;E;
P;P;C 66 2 1;C 66 0 2;E;E;E;E;E;E;
P;P;C 34 2 3;E;E;E;E;E;E;E;
C 67 2 0;C 67 0 2;C 67 1 2;C 67 2 1;E;E;E;E;E;E;
C 35 3 1;C 35 0 2;E;E;E;E;E;E;E;E;
C 2 1 0;E;E;E;E;E;E;E;E;E].
(** fhevm/src/codegen/codegen_pc_update.rs:29492-30726 *)
Definition pc_update_30 : bit_circuit := BC 10%nat [
C 34 0 1;C 34 1 0;C 98 1 0;C 98 0 1;E;E;E;E;E;E;
C 33 0 1;P;P;C 97 2 3;C 33 1 0;C 97 3 2;E;E;E;E;
C 96 5 2;P;P;C 32 0 1;C 32 1 4;C 96 2 3;E;E;E;E;
C 95 2 5;P;P;C 95 0 2;C 31 1 4;C 31 3 1;E;E;E;E;
C 94 3 2;P;P;C 30 5 1;C 94 2 0;C 30 1 4;E;E;E;E;
C 93 2 4;P;P;C 29 1 5;C 29 3 1;C 93 0 2;E;E;E;E;
C 28 1 3;P;P;C 92 2 0;C 92 5 2;C 28 4 1;E;E;E;E;
C 27 5 1;P;P;C 91 2 3;C 27 1 0;C 91 4 2;E;E;E;E;
C 26 1 4;P;P;C 26 0 1;C 90 5 2;C 90 2 3;E;E;E;E;
C 89 4 2;P;P;C 89 2 5;C 25 3 1;C 25 1 0;E;E;E;E;
C 88 2 3;P;P;C 24 4 1;C 24 1 5;C 88 0 2;E;E;E;E;
C 87 5 2;P;P;C 119 2 5;C 119 0 2;C 119 1 3;C 119 4 1;C 23 3 1;E;E;
C 23 5 1;P;P;C 87 2 4;C 23 1 6;C 86 0 2;C 87 3 2;C 22 7 1;E;E;
P;P;P;P;P;C 118 0 4;P;C 21 7 1;C 118 6 3;C 85 5 2;
C 84 9 2;P;P;C 86 8 3;C 86 6 8;C 22 5 4;C 20 7 1;C 22 0 5;E;E;
C 19 6 1;P;P;P;P;P;C 83 0 2;P;C 117 4 3;C 117 7 5;
C 21 7 9;P;P;C 82 6 2;C 85 8 3;C 18 0 1;C 21 9 5;C 85 4 8;E;E;
P;P;P;C 116 7 4;P;C 17 5 1;P;P;C 81 3 2;C 116 0 6;
C 84 7 3;P;P;C 80 8 2;C 16 5 1;C 20 9 6;C 84 3 4;C 20 0 9;E;E;
P;P;P;C 79 3 2;C 15 4 1;P;P;P;C 115 7 5;C 115 0 6;
C 19 7 8;P;P;C 19 8 5;C 78 3 2;C 14 4 1;C 83 9 6;C 83 0 9;E;E;
P;P;P;P;C 13 5 1;C 77 4 2;P;P;C 114 0 3;C 114 7 6;
C 82 7 9;P;P;C 18 0 8;C 76 5 2;C 18 8 3;C 12 4 1;C 82 9 6;E;E;
P;P;P;P;C 113 0 7;P;C 75 4 2;P;C 113 3 5;C 11 6 1;
C 74 6 2;P;P;C 17 8 5;C 81 4 7;C 17 3 8;C 10 9 1;C 81 0 4;E;E;
C 112 5 3;P;P;P;P;P;C 9 6 1;P;C 73 0 2;C 112 7 4;
C 72 8 2;P;P;C 16 0 3;C 80 9 4;C 16 5 0;C 8 6 1;C 80 7 9;E;E;
C 111 5 3;P;P;P;P;P;C 111 7 4;P;C 71 0 2;C 7 6 1;
C 15 0 3;C 6 9 1;C 15 5 0;C 79 7 6;C 70 8 2;C 79 6 4;E;E;E;E;
P;C 110 2 0;P;P;P;P;C 0 1 4;C 110 3 5;E;E;
C 1 6 4;C 14 1 0;C 14 2 1;C 78 7 5;P;C 78 3 7;E;E;E;E;
C 109 2 1;P;P;P;C 2 0 4;P;C 109 5 3;E;E;E;
C 77 6 3;C 13 2 0;C 13 0 1;C 77 5 6;P;E;E;E;E;E;
P;P;P;P;P;C 108 1 2;C 108 3 0;E;E;E;
C 76 6 0;C 12 1 5;C 12 5 2;C 76 3 6;P;E;E;E;E;E;
P;P;P;P;P;C 107 3 0;C 107 1 2;E;E;E;
C 75 3 5;C 75 5 0;C 11 1 6;C 11 6 2;P;E;E;E;E;E;
P;P;P;P;P;C 106 0 1;C 106 2 3;E;E;E;
C 10 2 6;C 74 5 1;C 10 6 3;C 74 0 5;P;E;E;E;E;E;
P;P;P;P;P;C 105 3 1;C 105 0 2;E;E;E;
C 9 0 6;C 73 5 1;C 9 6 2;C 73 3 5;P;E;E;E;E;E;
P;P;P;P;P;C 104 0 2;C 104 3 1;E;E;E;
C 72 3 6;C 8 5 2;C 72 6 1;C 8 0 5;P;E;E;E;E;E;
P;P;P;P;P;C 103 0 2;C 103 3 1;E;E;E;
C 71 0 5;C 7 6 1;C 71 5 2;C 7 3 6;P;E;E;E;E;E;
P;P;P;P;P;C 102 0 2;C 102 3 1;E;E;E;
C 70 0 5;C 70 5 2;C 6 6 1;C 6 3 6;P;E;E;E;E;E;
P;P;P;P;P;C 101 0 1;C 101 3 2;E;E;E;
C 5 6 2;C 69 0 5;C 5 3 6;C 69 5 1;P;E;E;E;E;E;
P;C 100 2 0;C 100 1 3;P;P;E;E;E;E;E;
C 68 2 3;C 4 1 0;E;E;P;E;E;E;E;E;
P;C 0 1 0;E;E;P;E;E;E;E;E;
P;C 1 1 0;E;E;P;E;E;E;E;E;
C 2 1 0;E;E;E;P;E;E;E;E;E;
P;C 0 4 0;C 1 0 4;C 0 0 4;P;E;E;E;E;E;
C 1 0 1;C 1 3 1;P;C 1 3 4;E;E;E;E;E;E;
C 2 2 0;C 2 3 1;C 2 1 3;C 2 0 2;E;E;E;E;E;E;
C 3 2 3;C 3 3 2;C 3 0 1;E;E;E;E;E;E;E;
P;P;C 36 2 1;C 36 0 2;E;E;E;E;E;E;
P;P;C 4 2 3;E;E;E;E;E;E;E;
P;P;C 37 0 2;C 37 2 1;E;E;E;E;E;E;
P;P;C 5 3 2;E;E;E;E;E;E;E;
P;P;C 38 2 1;C 38 0 2;E;E;E;E;E;E;
P;P;C 6 2 3;E;E;E;E;E;E;E;
P;P;C 39 0 2;C 39 2 1;E;E;E;E;E;E;
P;P;C 7 3 2;E;E;E;E;E;E;E;
P;P;C 40 2 1;C 40 0 2;E;E;E;E;E;E;
P;P;C 8 2 3;E;E;E;E;E;E;E;
P;P;C 41 0 2;C 41 2 1;E;E;E;E;E;E;
P;P;C 9 3 2;E;E;E;E;E;E;E;
P;P;C 42 2 1;C 42 0 2;E;E;E;E;E;E;
P;P;C 10 2 3;E;E;E;E;E;E;E;
P;P;C 43 0 2;C 43 2 1;E;E;E;E;E;E;
P;P;C 11 3 2;E;E;E;E;E;E;E;
P;P;C 44 2 1;C 44 0 2;E;E;E;E;E;E;
P;P;C 12 2 3;E;E;E;E;E;E;E;
P;P;C 45 2 1;C 45 0 2;E;E;E;E;E;E;
P;P;C 13 2 3;E;E;E;E;E;E;E;
P;P;C 46 2 1;C 46 0 2;E;E;E;E;E;E;
P;P;C 14 2 3;E;E;E;E;E;E;E;
P;P;C 47 0 2;C 47 2 1;E;E;E;E;E;E;
P;P;C 15 3 2;E;E;E;E;E;E;E;
P;P;C 48 0 2;C 48 2 1;E;E;E;E;E;E;
P;P;C 16 3 2;E;E;E;E;E;E;E;
P;P;C 49 0 2;C 49 2 1;E;E;E;E;E;E;
P;P;C 17 3 2;E;E;E;E;E;E;E;
P;P;C 50 0 2;C 50 2 1;E;E;E;E;E;E;
P;P;C 18 3 2;E;E;E;E;E;E;E;
P;P;C 51 2 1;C 51 0 2;E;E;E;E;E;E;
P;P;C 19 2 3;E;E;E;E;E;E;E;
P;P;C 52 0 2;C 52 2 1;E;E;E;E;E;E;
P;P;C 20 3 2;E;E;E;E;E;E;E;
P;P;C 53 0 2;C 53 2 1;E;E;E;E;E;E;
P;P;C 21 3 2;E;E;E;E;E;E;E;
P;P;C 54 2 1;C 54 0 2;E;E;E;E;E;E;
P;P;C 22 2 3;E;E;E;E;E;E;E;
P;P;C 55 0 2;C 55 2 1;E;E;E;E;E;E;
P;P;C 23 3 2;E;E;E;E;E;E;E;
P;P;C 56 0 2;C 56 2 1;E;E;E;E;E;E;
P;P;C 24 3 2;E;E;E;E;E;E;E;
P;P;C 57 0 2;C 57 2 1;E;E;E;E;E;E;
P;P;C 25 3 2;E;E;E;E;E;E;E;
P;P;C 58 2 1;C 58 0 2;E;E;E;E;E;E;
P;P;C 26 2 3;E;E;E;E;E;E;E;
P;P;C 59 0 2;C 59 2 1;E;E;E;E;E;E;
P;P;C 27 3 2;E;E;E;E;E;E;E;
P;P;C 60 2 1;C 60 0 2;E;E;E;E;E;E;
P;P;C 28 2 3;E;E;E;E;E;E;E;
P;P;C 61 0 2;C 61 2 1;E;E;E;E;E;E;
P;P;C 29 3 2;E;E;E;E;E;E;E;
P;P;C 62 2 1;C 62 0 2;E;E;E;E;E;E;
P;P;C 30 2 3;E;E;E;E;E;E;E;
P;P;C 63 2 1;C 63 0 2;E;E;E;E;E;E;
P;P;C 31 2 3;E;E;E;E;E;E;E;
P;P;C 64 0 2;C 64 2 1;E;E;E;E;E;E;
P;P;C 32 3 2;E;E;E;E;E;E;E;
P;P;C 65 0 2;C 65 2 1;E;E;E;E;E;E;
P;P;C 33 3 2;E;E;E;E;E;E;E;
P;P;C 66 2 1;C 66 0 2;E;E;E;E;E;E;
P;P;C 34 2 3;E;E;E;E;E;E;E;
C 67 2 1;C 67 1 2;C 67 0 2;C 67 2 0;E;E;E;E;E;E;
C 35 0 2;C 35 3 1;E;E;E;E;E;E;E;E;
C 2 1 0;E;E;E;E;E;E;E;E;E].
(** fhevm/src/codegen/codegen_pc_update.rs:30727-31971 *)
Definition pc_update_31 : bit_circuit := BC 10%nat [
C 99 1 0;C 35 1 0;C 35 0 1;C 99 0 1;E;E;E;E;E;E;
P;P;C 98 0 3;C 34 2 1;C 34 1 2;C 98 3 0;E;E;E;E;
P;P;C 97 0 2;C 33 1 4;C 97 5 0;C 33 3 1;E;E;E;E;
P;P;C 96 0 2;C 32 5 1;C 96 4 0;C 32 1 3;E;E;E;E;
P;P;C 31 1 5;C 31 3 1;C 95 0 2;C 95 4 0;E;E;E;E;
P;P;C 94 0 4;C 30 1 2;C 94 5 0;C 30 3 1;E;E;E;E;
P;P;C 93 4 0;C 29 1 3;C 93 0 2;C 29 5 1;E;E;E;E;
P;P;C 28 5 1;C 92 2 0;C 28 1 3;C 92 0 4;E;E;E;E;
P;P;C 27 2 1;C 91 0 5;C 27 1 4;C 91 3 0;E;E;E;E;
P;P;C 26 2 1;C 90 5 0;C 90 0 3;C 26 1 4;E;E;E;E;
P;P;C 89 3 0;C 89 0 4;C 25 2 1;C 25 1 5;E;E;E;E;
P;P;C 88 0 3;C 24 4 1;C 88 2 0;C 24 1 5;E;E;E;E;
P;P;C 119 0 4;C 119 1 3;C 87 4 0;C 119 5 1;C 23 3 1;C 119 2 0;E;E;
P;P;C 87 0 7;C 86 4 0;C 23 1 5;C 23 3 1;C 22 6 1;C 87 2 0;E;E;
P;P;P;C 85 3 0;P;P;C 118 7 2;P;C 118 5 4;C 21 6 1;
P;P;C 86 7 6;C 22 5 8;C 86 6 2;C 20 9 1;C 22 8 4;C 84 3 0;E;E;
P;P;P;P;P;C 19 5 1;P;C 117 2 4;C 117 3 6;C 83 7 0;
P;P;C 85 2 7;C 82 9 0;C 21 3 8;C 18 5 1;C 85 7 4;C 21 8 6;E;E;
P;P;P;C 17 5 1;P;C 116 4 7;P;P;C 81 3 0;C 116 2 6;
P;P;C 80 8 0;C 20 5 7;C 84 2 9;C 16 3 1;C 20 4 5;C 84 9 6;E;E;
P;P;C 15 5 1;P;P;C 79 2 0;P;P;C 115 6 3;C 115 4 7;
P;P;C 83 4 9;C 14 2 1;C 83 9 7;C 78 5 0;C 19 8 3;C 19 6 8;E;E;
P;P;P;C 114 2 4;P;C 13 3 1;P;P;C 77 5 0;C 114 7 6;
P;P;C 18 7 9;C 18 9 6;C 76 8 0;C 82 2 3;C 82 3 4;C 12 5 1;E;E;
P;P;P;P;C 113 2 3;P;P;C 75 4 0;C 11 7 1;C 113 5 6;
P;P;C 10 8 1;C 74 7 0;C 17 2 4;C 17 4 3;C 81 9 6;C 81 5 9;E;E;
P;P;C 73 3 0;C 9 2 1;P;P;P;P;C 112 4 5;C 112 7 6;
P;P;C 80 7 9;C 16 4 8;C 16 8 5;C 80 9 6;C 72 2 0;C 8 3 1;E;E;
P;P;P;P;P;P;C 71 6 0;C 111 3 4;C 7 7 1;C 111 2 5;
C 15 7 4;C 6 8 1;C 15 3 7;C 70 6 0;C 79 9 5;C 79 2 9;E;E;E;E;
P;C 0 1 3;P;P;P;P;C 110 5 4;C 110 2 0;E;E;
C 78 6 4;C 14 2 7;C 14 7 0;P;C 1 1 3;C 78 5 6;E;E;E;E;
P;P;P;C 109 5 0;C 2 4 3;P;C 109 1 2;E;E;E;
C 77 3 0;C 13 6 2;C 13 1 6;C 77 5 3;P;E;E;E;E;E;
P;P;P;P;P;C 108 3 0;C 108 2 1;E;E;E;
C 12 6 1;C 76 5 0;C 76 3 5;C 12 2 6;P;E;E;E;E;E;
P;P;P;P;P;C 107 3 0;C 107 2 1;E;E;E;
C 11 5 0;C 75 2 6;C 11 3 5;C 75 6 1;P;E;E;E;E;E;
P;P;P;P;P;C 106 1 3;C 106 2 0;E;E;E;
C 74 5 3;C 10 6 0;C 10 2 6;C 74 1 5;P;E;E;E;E;E;
P;P;P;P;P;C 105 2 1;C 105 3 0;E;E;E;
C 73 3 6;C 9 5 1;C 73 6 0;C 9 2 5;P;E;E;E;E;E;
P;P;P;P;P;C 104 0 2;C 104 3 1;E;E;E;
C 72 5 2;C 72 0 5;C 8 3 6;C 8 6 1;P;E;E;E;E;E;
P;P;P;P;P;C 103 1 0;C 103 2 3;E;E;E;
C 71 1 5;C 71 5 0;C 7 2 6;C 7 6 3;P;E;E;E;E;E;
P;P;P;P;P;C 102 2 3;C 102 0 1;E;E;E;
C 70 6 1;C 6 2 5;C 70 0 6;C 6 5 3;P;E;E;E;E;E;
P;P;P;P;P;C 101 1 3;C 101 2 0;E;E;E;
C 5 1 5;C 69 2 6;C 5 5 3;C 69 6 0;P;E;E;E;E;E;
C 100 0 2;C 100 1 3;P;P;P;E;E;E;E;E;
C 4 0 2;C 68 1 3;E;E;P;E;E;E;E;E;
C 0 0 1;P;E;E;P;E;E;E;E;E;
C 1 0 1;P;E;E;P;E;E;E;E;E;
C 2 0 1;E;E;E;P;E;E;E;E;E;
P;C 1 0 4;C 0 0 4;C 0 4 0;P;E;E;E;E;E;
C 1 0 3;P;C 1 2 4;C 1 2 3;E;E;E;E;E;E;
C 2 2 3;C 2 0 1;C 2 3 2;C 2 1 0;E;E;E;E;E;E;
C 3 1 2;C 3 3 0;C 3 2 1;E;E;E;E;E;E;E;
P;C 36 1 0;P;C 36 2 1;E;E;E;E;E;E;
P;C 4 1 3;P;E;E;E;E;E;E;E;
P;C 37 1 0;P;C 37 2 1;E;E;E;E;E;E;
P;C 5 1 3;P;E;E;E;E;E;E;E;
P;C 38 1 0;P;C 38 2 1;E;E;E;E;E;E;
P;C 6 1 3;P;E;E;E;E;E;E;E;
P;C 39 2 1;P;C 39 1 0;E;E;E;E;E;E;
P;C 7 3 1;P;E;E;E;E;E;E;E;
P;C 40 1 0;P;C 40 2 1;E;E;E;E;E;E;
P;C 8 1 3;P;E;E;E;E;E;E;E;
P;C 41 1 0;P;C 41 2 1;E;E;E;E;E;E;
P;C 9 1 3;P;E;E;E;E;E;E;E;
P;C 42 2 1;P;C 42 1 0;E;E;E;E;E;E;
P;C 10 3 1;P;E;E;E;E;E;E;E;
P;C 43 2 1;P;C 43 1 0;E;E;E;E;E;E;
P;C 11 3 1;P;E;E;E;E;E;E;E;
P;C 44 2 1;P;C 44 1 0;E;E;E;E;E;E;
P;C 12 3 1;P;E;E;E;E;E;E;E;
P;C 45 2 1;P;C 45 1 0;E;E;E;E;E;E;
P;C 13 3 1;P;E;E;E;E;E;E;E;
P;C 46 1 0;P;C 46 2 1;E;E;E;E;E;E;
P;C 14 1 3;P;E;E;E;E;E;E;E;
P;C 47 2 1;P;C 47 1 0;E;E;E;E;E;E;
P;C 15 3 1;P;E;E;E;E;E;E;E;
P;C 48 1 0;P;C 48 2 1;E;E;E;E;E;E;
P;C 16 1 3;P;E;E;E;E;E;E;E;
P;C 49 1 0;P;C 49 2 1;E;E;E;E;E;E;
P;C 17 1 3;P;E;E;E;E;E;E;E;
P;C 50 2 1;P;C 50 1 0;E;E;E;E;E;E;
P;C 18 3 1;P;E;E;E;E;E;E;E;
P;C 51 1 0;P;C 51 2 1;E;E;E;E;E;E;
P;C 19 1 3;P;E;E;E;E;E;E;E;
P;C 52 2 1;P;C 52 1 0;E;E;E;E;E;E;
P;C 20 3 1;P;E;E;E;E;E;E;E;
P;C 53 1 0;P;C 53 2 1;E;E;E;E;E;E;
P;C 21 1 3;P;E;E;E;E;E;E;E;
P;C 54 2 1;P;C 54 1 0;E;E;E;E;E;E;
P;C 22 3 1;P;E;E;E;E;E;E;E;
P;C 55 2 1;P;C 55 1 0;E;E;E;E;E;E;
P;C 23 3 1;P;E;E;E;E;E;E;E;
P;C 56 2 1;P;C 56 1 0;E;E;E;E;E;E;
P;C 24 3 1;P;E;E;E;E;E;E;E;
P;C 57 1 0;P;C 57 2 1;E;E;E;E;E;E;
P;C 25 1 3;P;E;E;E;E;E;E;E;
P;C 58 2 1;P;C 58 1 0;E;E;E;E;E;E;
P;C 26 3 1;P;E;E;E;E;E;E;E;
P;C 59 2 1;P;C 59 1 0;E;E;E;E;E;E;
P;C 27 3 1;P;E;E;E;E;E;E;E;
P;C 60 2 1;P;C 60 1 0;E;E;E;E;E;E;
P;C 28 3 1;P;E;E;E;E;E;E;E;
P;C 61 1 0;P;C 61 2 1;E;E;E;E;E;E;
P;C 29 1 3;P;E;E;E;E;E;E;E;
P;C 62 1 0;P;C 62 2 1;E;E;E;E;E;E;
P;C 30 1 3;P;E;E;E;E;E;E;E;
P;C 63 1 0;P;C 63 2 1;E;E;E;E;E;E;
P;C 31 1 3;P;E;E;E;E;E;E;E;
P;C 64 2 1;P;C 64 1 0;E;E;E;E;E;E;
P;C 32 3 1;P;E;E;E;E;E;E;E;
P;C 65 2 1;P;C 65 1 0;E;E;E;E;E;E;
P;C 33 3 1;P;E;E;E;E;E;E;E;
P;C 66 1 0;P;C 66 2 1;E;E;E;E;E;E;
P;C 34 1 3;P;E;E;E;E;E;E;E;
C 67 1 0;C 67 0 1;C 67 1 2;C 67 2 1;E;E;E;E;E;E;
C 35 0 3;C 35 2 1;E;E;E;E;E;E;E;E;
C 2 1 0;E;E;E;E;E;E;E;E;E].

(** fhevm/src/codegen/codegen_pc_update.rs: OUTPUT_CIRCUITS, with the declared INPUT_BITS *)
Definition pc_update_circuit : circuit := MkCircuit 120 [
pc_update_0;
pc_update_1;
pc_update_2;
pc_update_3;
pc_update_4;
pc_update_5;
pc_update_6;
pc_update_7;
pc_update_8;
pc_update_9;
pc_update_10;
pc_update_11;
pc_update_12;
pc_update_13;
pc_update_14;
pc_update_15;
pc_update_16;
pc_update_17;
pc_update_18;
pc_update_19;
pc_update_20;
pc_update_21;
pc_update_22;
pc_update_23;
pc_update_24;
pc_update_25;
pc_update_26;
pc_update_27;
pc_update_28;
pc_update_29;
pc_update_30;
pc_update_31].
