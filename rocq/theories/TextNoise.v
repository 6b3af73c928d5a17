(** * The noise of the encrypted memory, translated

    Generated by tools/gen_noise.py from fhevm/src/memory.rs.
    Do not edit.  The operators are those of Rust.v and RustIter.v; the library
    is the record of RustLib.v, the noise that of RustNoise.v. *)
Require Import ZArith List Bool.
From Verif Require Import Rust RustIter RustLib RustNoise.
From Verif Require Import TextMem.
Import ListNotations.
Open Scope Z_scope.
Local Notation u8 := (Rust.int Rust.U8).
Local Notation u16 := (Rust.int Rust.U16).
Local Notation u32 := (Rust.int Rust.U32).
Local Notation u64 := (Rust.int Rust.U64).
Local Notation usize := (Rust.int Rust.USize).
Local Notation i32 := (Rust.int Rust.I32).
Local Notation i64 := (Rust.int Rust.I64).

Section Text.
Variable L : library.
Variable F : meter L.
Local Notation Module := (RustLib.Module L).
Local Notation Keys := (RustLib.Keys L).
Local Notation Scratch := (RustLib.Scratch L).
Local Notation GLWE := (RustLib.GLWE L).
Local Notation FheUint := (RustLib.FheUint L).
Local Notation FheUintPrepared := (RustLib.FheUintPrepared L).
Local Notation GLWEBlindRetriever := (RustLib.GLWEBlindRetriever L).
Local Notation GLWELayout := (RustLib.GLWELayout L).
Local Notation GGLWELayout := (RustLib.GGLWELayout L).
Local Notation GGSWLayout := (RustLib.GGSWLayout L).
Local Notation GLWEPlaintext := (RustLib.GLWEPlaintext L).
Local Notation Secret := (RustLib.Secret L).
Local Notation Source := (RustLib.Source L).
Local Notation f64 := (RustNoise.f64 F).
Local Notation Stats := (RustNoise.Stats F).
Local Notation Memory := (TextMem.Memory L).
Local Notation BitArray := (TextMem.BitArray L).

(** fhevm/src/memory.rs:510-540 *)
Definition BitArray_noise (p : Rust.profile) (self : BitArray) (module : Module) (data : (list u8)) (sk_prepared : Secret) (scratch : Scratch) : option f64 :=
  t1 <- Rust.index (BitArray_data self) (Rust.lit 0) ;;
  t2 <- Scratch_take_glwe_plaintext L scratch (GLWE_glwe_layout L t1) ;;
  let '(pt, scratch_1) := t2 in
  t4 <- Scratch_take_slice L scratch_1 (Module_n L module) ;;
  let '(data_i64, scratch_2) := t4 in
  let max_noise : f64 := (f64_MIN F) in
  t6 <- RustIter.chunks data (Module_n L module) ;;
  '(pt, data_i64, max_noise) <- Rust.for_each (combine t6 (BitArray_data self)) (fun '(chunk, ct) '(pt, data_i64, max_noise) => '(t8, _) <- RustIter.for_mut (combine data_i64 chunk) (fun '(y, x) _ => let t7 : i64 := (Rust.cast Rust.I64 x) in
      let y := t7 in
      Some ((y, x), tt)) tt ;;
    let data_i64 := (RustIter.write_back data_i64 (map (fun x => (fst x)) t8)) in
    t9 <- GLWEPlaintext_encode_vec_i64 L pt data_i64 (Rust.lit 2) ;;
    let pt := t9 in
    '(t10, t11) <- GLWE_noise F ct module pt sk_prepared scratch_2 ;;
    let pt := t10 in
    let t15 : f64 := (f64_max F max_noise (f64_log2 F (Stats_max F t11))) in
    let max_noise := t15 in
    Some (pt, data_i64, max_noise)) (pt, data_i64, max_noise) ;;
  Some max_noise.

(** fhevm/src/memory.rs:110-138 *)
Definition Memory_noise (p : Rust.profile) (self : Memory) (module : Module) (data : (list u32)) (sk : Secret) (scratch : Scratch) : option (list f64) :=
  let max_addr : usize := (Memory_size self) in
  let ram_chunks : usize := (Rust.len (Memory_bits self)) in
  t1 <- Rust.div (Rust.len data) ram_chunks ;;
  if (Rust.le t1 max_addr) then let bits : (list u8) := (Rust.filled (Rust.lit (t := Rust.U8) 0) max_addr) in
  let noise : (list f64) := (Rust.filled (f64_zero F) (Rust.len (Memory_bits self))) in
  '(bits, noise) <- Rust.for_range (Rust.lit 0) ram_chunks (fun i '(bits, noise) => '(t4, _) <- RustIter.for_mut (combine bits data) (fun '(x, y) _ => let t3 : u8 := (u32_bit L y i) in
      let x := t3 in
      Some ((x, y), tt)) tt ;;
    let bits := (RustIter.write_back bits (map (fun x => (fst x)) t4)) in
    t5 <- Rust.index (Memory_bits self) i ;;
    t6 <- BitArray_noise p t5 module bits sk scratch ;;
    t7 <- Rust.store noise i t6 ;;
    let noise := t7 in
    Some (bits, noise)) (bits, noise) ;;
  Some noise else None.

End Text.


