(** * The allocator of the guests, translated

    Generated by tools/gen_guest.py from runtime/src/alloc.rs.
    Do not edit.  The operators are those of Rust.v, RustIter.v, RustStr.v and RustGuest.v. *)
Require Import ZArith List Bool.
From Verif Require Import Rust RustIter RustStr RustGuest.
Import ListNotations.
Open Scope Z_scope.
Local Notation u8 := (Rust.int Rust.U8).
Local Notation u16 := (Rust.int Rust.U16).
Local Notation u32 := (Rust.int Rust.U32).
Local Notation u64 := (Rust.int Rust.U64).
Local Notation usize := (Rust.int Rust.USize).
Local Notation i32 := (Rust.int Rust.I32).
Local Notation i64 := (Rust.int Rust.I64).

Section Text.
(** runtime/src/alloc.rs:17-17 *)
Definition alloc_MEMORY_GAP : u32 := Rust.lit 256.

(** runtime/src/alloc.rs:21-70 *)
Definition alloc_sys_alloc_aligned (p : Rust.profile) (_end : u32) (static_heap_pos : u32) (stack_ptr : u32) (bytes : u32) (align : u32) : option (u32 * u32) :=
  let heap_pos := static_heap_pos in
  heap_pos <- (if (Rust.eq heap_pos (Rust.lit 0))
    then (let heap_pos := _end in
      Some heap_pos)
    else (Some heap_pos)) ;;
  t1 <- Rust.sub p align (Rust.lit 1) ;;
  let offset := (Rust.band heap_pos t1) in
  heap_pos <- (if (Rust.ne offset (Rust.lit 0))
    then (t2 <- Rust.sub p align offset ;;
      t3 <- (Rust.checked_add heap_pos t2) ;;
      let heap_pos := t3 in
      Some heap_pos)
    else (Some heap_pos)) ;;
  let ptr := heap_pos in
  t4 <- (Rust.checked_add heap_pos bytes) ;;
  let heap_pos := t4 in
  t5 <- (Rust.checked_add heap_pos alloc_MEMORY_GAP) ;;
  let gap_check := t5 in
  _ <- (if (Rust.gt gap_check stack_ptr)
    then (None)
    else (Some tt)) ;;
  Some (heap_pos, ptr).

End Text.
