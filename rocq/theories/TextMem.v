(** * The encrypted memory, translated

    Generated by tools/gen_lib.py from fhevm/src/memory.rs.
    Do not edit.  The operators are those of Rust.v and RustIter.v; the library
    is the record of RustLib.v. *)
Require Import ZArith List Bool.
From Verif Require Import Rust RustIter RustLib.
Import ListNotations.
Open Scope Z_scope.
Local Notation u8 := (Rust.int Rust.U8).
Local Notation u16 := (Rust.int Rust.U16).
Local Notation u32 := (Rust.int Rust.U32).
Local Notation u64 := (Rust.int Rust.U64).
Local Notation usize := (Rust.int Rust.USize).
Local Notation i32 := (Rust.int Rust.I32).
Local Notation i64 := (Rust.int Rust.I64).

Section Text.
Variable L : library.
Local Notation Module := (RustLib.Module L).
Local Notation Keys := (RustLib.Keys L).
Local Notation Scratch := (RustLib.Scratch L).
Local Notation GLWE := (RustLib.GLWE L).
Local Notation FheUint := (RustLib.FheUint L).
Local Notation FheUintPrepared := (RustLib.FheUintPrepared L).
Local Notation GLWEBlindRetriever := (RustLib.GLWEBlindRetriever L).
Local Notation GLWELayout := (RustLib.GLWELayout L).
Local Notation GGLWELayout := (RustLib.GGLWELayout L).
Local Notation GGSWLayout := (RustLib.GGSWLayout L).
Local Notation GLWEPlaintext := (RustLib.GLWEPlaintext L).
Local Notation Secret := (RustLib.Secret L).
Local Notation Source := (RustLib.Source L).

(** fhevm/src/memory.rs:436-440 *)
Record BitArray := mk_BitArray {
  BitArray_data : (list GLWE);
  BitArray_retriever : GLWEBlindRetriever;
  BitArray_bit_size : usize }.

Definition set_BitArray_data (s : BitArray) (x : (list GLWE)) : BitArray :=
  mk_BitArray x (BitArray_retriever s) (BitArray_bit_size s).

Definition set_BitArray_retriever (s : BitArray) (x : GLWEBlindRetriever) : BitArray :=
  mk_BitArray (BitArray_data s) x (BitArray_bit_size s).

Definition set_BitArray_bit_size (s : BitArray) (x : usize) : BitArray :=
  mk_BitArray (BitArray_data s) (BitArray_retriever s) x.

(** fhevm/src/memory.rs:22-27 *)
Record Memory := mk_Memory {
  Memory_bits : (list BitArray);
  Memory_size : usize;
  Memory_bit_size : usize;
  Memory_state : bool }.

Definition set_Memory_bits (s : Memory) (x : (list BitArray)) : Memory :=
  mk_Memory x (Memory_size s) (Memory_bit_size s) (Memory_state s).

Definition set_Memory_size (s : Memory) (x : usize) : Memory :=
  mk_Memory (Memory_bits s) x (Memory_bit_size s) (Memory_state s).

Definition set_Memory_bit_size (s : Memory) (x : usize) : Memory :=
  mk_Memory (Memory_bits s) (Memory_size s) x (Memory_state s).

Definition set_Memory_state (s : Memory) (x : bool) : Memory :=
  mk_Memory (Memory_bits s) (Memory_size s) (Memory_bit_size s) x.

(** fhevm/src/memory.rs:443-455 *)
Definition BitArray_alloc (p : Rust.profile) (infos : GLWELayout) (size : usize) : option BitArray :=
  let n : usize := (GLWELayout_n L infos) in
  t2 <- RustIter.div_ceil size n ;;
  t4 <- RustIter.collect_range (Rust.lit 0) t2 (fun _ => Some (GLWE_alloc_from_infos L infos)) ;;
  t6 <- Rust.sub p size (Rust.lit 1) ;;
  t7 <- Rust.sub p (Rust.bits_of Rust.USize) (RustIter.leading_zeros t6) ;;
  Some (mk_BitArray t4 (GLWEBlindRetriever_alloc L infos size) (Rust.cast Rust.USize t7)).

(** fhevm/src/memory.rs:30-42 *)
Definition Memory_alloc (p : Rust.profile) (infos : GLWELayout) (word_size : usize) (size : usize) : option Memory :=
  t2 <- RustIter.collect_range (Rust.lit 0) word_size (fun _ => t1 <- BitArray_alloc p infos size ;;
    Some t1) ;;
  t3 <- Rust.sub p size (Rust.lit 1) ;;
  t4 <- Rust.sub p (Rust.bits_of Rust.USize) (RustIter.leading_zeros t3) ;;
  Some (mk_Memory t2 size (Rust.cast Rust.USize t4) false).

(** fhevm/src/memory.rs:44-46 *)
Definition Memory_size_fn (p : Rust.profile) (self : Memory) : option usize :=
  Some (Memory_size self).

(** fhevm/src/memory.rs:457-483 *)
Definition BitArray_encrypt_sk (p : Rust.profile) (self : BitArray) (module : Module) (data : (list u8)) (sk_prepared : Secret) (source_xa : Source) (source_xe : Source) (scratch : Scratch) : option (BitArray * Source * Source) :=
  t1 <- Rust.index (BitArray_data self) (Rust.lit 0) ;;
  t2 <- Scratch_take_glwe_plaintext L scratch (GLWE_glwe_layout L t1) ;;
  let '(pt, scratch_1) := t2 in
  t4 <- Scratch_take_slice L scratch_1 (Module_n L module) ;;
  let '(data_i64, scratch_2) := t4 in
  t6 <- RustIter.chunks data (Module_n L module) ;;
  '(t13, (source_xa, source_xe, pt, data_i64)) <- RustIter.for_mut (combine t6 (BitArray_data self)) (fun '(chunk, ct) '(source_xa, source_xe, pt, data_i64) => let data_i64 := (RustIter.fill data_i64 (Rust.lit 0)) in
    '(t8, _) <- RustIter.for_mut (combine data_i64 chunk) (fun '(y, x) _ => let t7 : i64 := (Rust.cast Rust.I64 x) in
      let y := t7 in
      Some ((y, x), tt)) tt ;;
    let data_i64 := (RustIter.write_back data_i64 (map (fun x => (fst x)) t8)) in
    t9 <- GLWEPlaintext_encode_vec_i64 L pt data_i64 (Rust.lit 2) ;;
    let pt := t9 in
    '(t10, t11, t12) <- GLWE_encrypt_sk L ct module pt sk_prepared source_xa source_xe scratch_2 ;;
    let ct := t10 in
    let source_xa := t11 in
    let source_xe := t12 in
    Some ((chunk, ct), (source_xa, source_xe, pt, data_i64))) (source_xa, source_xe, pt, data_i64) ;;
  let self := (set_BitArray_data self (RustIter.write_back (BitArray_data self) (map (fun x => (snd x)) t13))) in
  Some (self, source_xa, source_xe).

(** fhevm/src/memory.rs:48-75 *)
Definition Memory_encrypt_sk (p : Rust.profile) (self : Memory) (module : Module) (data : (list u32)) (sk : Secret) (source_xa : Source) (source_xe : Source) (scratch : Scratch) : option (Memory * Source * Source) :=
  let size : usize := (Memory_size self) in
  let ram_chunks : usize := (Rust.len (Memory_bits self)) in
  t1 <- Rust.div (Rust.len data) ram_chunks ;;
  if (Rust.le t1 size) then let bits : (list u8) := (Rust.filled (Rust.lit (t := Rust.U8) 0) size) in
  '(self, source_xa, source_xe, bits) <- Rust.for_range (Rust.lit 0) ram_chunks (fun i '(self, source_xa, source_xe, bits) => '(t4, _) <- RustIter.for_mut (combine bits data) (fun '(x, y) _ => let t3 : u8 := (u32_bit L y i) in
      let x := t3 in
      Some ((x, y), tt)) tt ;;
    let bits := (RustIter.write_back bits (map (fun x => (fst x)) t4)) in
    t5 <- Rust.index (Memory_bits self) i ;;
    '(t6, t7, t8) <- BitArray_encrypt_sk p t5 module bits sk source_xa source_xe scratch ;;
    t9 <- Rust.store (Memory_bits self) i t6 ;;
    let self := (set_Memory_bits self t9) in
    let source_xa := t7 in
    let source_xe := t8 in
    Some (self, source_xa, source_xe, bits)) (self, source_xa, source_xe, bits) ;;
  Some (self, source_xa, source_xe) else None.

(** fhevm/src/memory.rs:486-507 *)
Definition BitArray_decrypt (p : Rust.profile) (self : BitArray) (module : Module) (data : (list u8)) (sk_prepared : Secret) (scratch : Scratch) : option (list u8) :=
  t1 <- Rust.index (BitArray_data self) (Rust.lit 0) ;;
  t2 <- Scratch_take_glwe_plaintext L scratch (GLWE_glwe_layout L t1) ;;
  let '(pt, scratch_1) := t2 in
  t4 <- Scratch_take_slice L scratch_1 (Module_n L module) ;;
  let '(data_i64, scratch_2) := t4 in
  t6 <- RustIter.chunks data (Module_n L module) ;;
  '(t11, (pt, data_i64)) <- RustIter.for_mut (combine t6 (BitArray_data self)) (fun '(chunk, ct) '(pt, data_i64) => t7 <- GLWE_decrypt L ct module pt sk_prepared scratch_2 ;;
    let pt := t7 in
    t8 <- GLWEPlaintext_decode_vec_i64 L pt data_i64 (Rust.lit 2) ;;
    let data_i64 := t8 in
    '(t10, _) <- RustIter.for_mut (combine data_i64 chunk) (fun '(y, x) _ => let t9 : u8 := (Rust.cast Rust.U8 y) in
      let x := t9 in
      Some ((y, x), tt)) tt ;;
    let chunk := (RustIter.write_back chunk (map (fun x => (snd x)) t10)) in
    Some ((chunk, ct), (pt, data_i64))) (pt, data_i64) ;;
  let data := (RustIter.write_back data (concat (map (fun x => (fst x)) t11))) in
  Some data.

(** fhevm/src/memory.rs:78-108 *)
Definition Memory_decrypt (p : Rust.profile) (self : Memory) (module : Module) (data : (list u32)) (sk : Secret) (scratch : Scratch) : option (list u32) :=
  let max_addr : usize := (Memory_size self) in
  let ram_chunks : usize := (Rust.len (Memory_bits self)) in
  t1 <- Rust.div (Rust.len data) ram_chunks ;;
  if (Rust.le t1 max_addr) then let bits : (list u8) := (Rust.filled (Rust.lit (t := Rust.U8) 0) max_addr) in
  '(data, bits) <- Rust.for_range (Rust.lit 0) ram_chunks (fun i '(data, bits) => t2 <- Rust.index (Memory_bits self) i ;;
    t3 <- BitArray_decrypt p t2 module bits sk scratch ;;
    let bits := t3 in
    '(t6, _) <- RustIter.for_mut (combine bits data) (fun '(x, y) _ => if (Rust.eq x (Rust.lit 1))
      then (t4 <- Rust.shl p (Rust.lit 1) i ;;
        let y := (Rust.bor y t4) in
        Some ((x, y), tt))
      else (t5 <- Rust.shl p (Rust.lit 1) i ;;
        let y := (Rust.band y (Rust.bnot t5)) in
        Some ((x, y), tt))) tt ;;
    let data := (RustIter.write_back data (map (fun x => (snd x)) t6)) in
    Some (data, bits)) (data, bits) ;;
  Some data else None.

(** fhevm/src/memory.rs:140-191 *)
Definition Memory_zero (p : Rust.profile) (self : Memory) (threads : usize) (module : Module) (addr : usize) (keys : Keys) (scratch : Scratch) : option Memory :=
  t2 <- Rust.div addr (Module_n L module) ;;
  let poly : usize := t2 in
  t4 <- Rust.rem poly (Module_n L module) ;;
  let idx : usize := t4 in
  t5 <- Rust.index (Memory_bits self) (Rust.lit 0) ;;
  t6 <- Rust.index (BitArray_data t5) (Rust.lit 0) ;;
  let glwe_infos : GLWELayout := (GLWE_glwe_layout L t6) in
  let key_infos : GGLWELayout := (Keys_automorphism_key_infos L keys) in
  t12 <- Rust.add p (RustIter.max (Module_glwe_rotate_tmp_bytes L module) (Module_glwe_trace_tmp_bytes L module glwe_infos glwe_infos key_infos)) (GLWE_bytes_of_from_infos L glwe_infos) ;;
  let scratch_thread_size : usize := t12 in
  t14 <- Rust.mul p threads scratch_thread_size ;;
  if (Rust.ge (Scratch_available L scratch) t14) then t15 <- Scratch_split_mut L scratch threads scratch_thread_size ;;
  let '(scratches, _) := t15 in
  t16 <- RustIter.div_ceil (Rust.len (Memory_bits self)) threads ;;
  let chunk_size : usize := t16 in
  t17 <- RustIter.chunks (Memory_bits self) chunk_size ;;
  '(t33, _) <- RustIter.for_mut (combine scratches t17) (fun '(scratch_thread, subram_chunk) _ => t18 <- Scratch_take_glwe L scratch_thread glwe_infos ;;
    let '(tmp, scratch_1) := t18 in
    '(t32, tmp) <- RustIter.for_mut subram_chunk (fun subram tmp => t19 <- Rust.index (BitArray_data subram) poly ;;
      t20 <- Rust.neg p (Rust.cast Rust.I64 idx) ;;
      t21 <- Rust.index (BitArray_data subram) poly ;;
      t22 <- Module_glwe_rotate_inplace L module t20 t21 scratch_1 ;;
      t23 <- Rust.store (BitArray_data subram) poly t22 ;;
      let subram := (set_BitArray_data subram t23) in
      t24 <- Rust.index (BitArray_data subram) poly ;;
      t25 <- Module_glwe_trace L module tmp (Rust.lit 0) t24 keys scratch_1 ;;
      let tmp := t25 in
      t26 <- Rust.index (BitArray_data subram) poly ;;
      t27 <- Module_glwe_sub_inplace L module t26 tmp ;;
      t28 <- Rust.store (BitArray_data subram) poly t27 ;;
      let subram := (set_BitArray_data subram t28) in
      t29 <- Rust.index (BitArray_data subram) poly ;;
      t30 <- Module_glwe_rotate_inplace L module (Rust.cast Rust.I64 idx) t29 scratch_1 ;;
      t31 <- Rust.store (BitArray_data subram) poly t30 ;;
      let subram := (set_BitArray_data subram t31) in
      Some (subram, tmp)) tmp ;;
    let subram_chunk := (RustIter.write_back subram_chunk t32) in
    Some ((scratch_thread, subram_chunk), tt)) tt ;;
  let self := (set_Memory_bits self (RustIter.write_back (Memory_bits self) (concat (map (fun x => (snd x)) t33)))) in
  Some self else None.

(** fhevm/src/memory.rs:542-550 *)
Definition BitArray_retrieve_stateless_tmp_bytes (p : Rust.profile) (module : Module) (res : GLWELayout) (addr : GGSWLayout) : option usize :=
  Some (RustIter.max (GLWEBlindRetriever_retrieve_tmp_bytes L module res addr) (Module_glwe_blind_rotation_tmp_bytes L module res addr)).

(** fhevm/src/memory.rs:552-583 *)
Definition BitArray_retrieve_stateless (p : Rust.profile) (self : BitArray) (module : Module) (res : GLWE) (address : FheUintPrepared) (offset : usize) (scratch : Scratch) : option (BitArray * GLWE) :=
  t2 <- Rust.add p offset (Module_log_n L module) ;;
  '(t3, t4) <- GLWEBlindRetriever_retrieve L (BitArray_retriever self) module res (BitArray_data self) address t2 scratch ;;
  let self := (set_BitArray_retriever self t3) in
  let res := t4 in
  t6 <- Module_glwe_blind_rotation_inplace L module res address false offset (RustIter.min (Module_log_n L module) (BitArray_bit_size self)) (Rust.lit 0) scratch ;;
  let res := t6 in
  Some (self, res).

(** fhevm/src/memory.rs:193-245 *)
Definition Memory_read_stateless (p : Rust.profile) (self : Memory) (threads : usize) (module : Module) (res : FheUint) (address : FheUintPrepared) (offset : usize) (keys : Keys) (scratch : Scratch) : option (Memory * FheUint) :=
  if (negb (Rust.eq (Rust.len (Memory_bits self)) (Rust.lit 0))) then if (Bool.eqb (Memory_state self) false) then t1 <- Scratch_take_glwe_slice L scratch (Rust.len (Memory_bits self)) (FheUint_glwe_layout L res) ;;
  let '(tmp_res, scratch_1) := t1 in
  t2 <- Rust.index (Memory_bits self) (Rust.lit 0) ;;
  t3 <- Rust.index (BitArray_data t2) (Rust.lit 0) ;;
  t4 <- BitArray_retrieve_stateless_tmp_bytes p module (GLWE_glwe_layout L t3) (FheUintPrepared_ggsw_layout L address) ;;
  let scratch_thread_size := t4 in
  t6 <- Rust.mul p threads scratch_thread_size ;;
  if (Rust.ge (Scratch_available L scratch_1) t6) then t7 <- Scratch_split_mut L scratch_1 threads scratch_thread_size ;;
  let '(scratches, _) := t7 in
  t8 <- RustIter.div_ceil (Rust.len (Memory_bits self)) threads ;;
  let chunk_size : usize := t8 in
  '(self, tmp_res) <- (t9 <- RustIter.chunks (Memory_bits self) chunk_size ;;
    t10 <- RustIter.chunks tmp_res chunk_size ;;
    '(t14, _) <- RustIter.for_mut (combine (combine scratches t9) t10) (fun '((scratch_thread, subram_chunk), tmp_chunk) _ => '(t13, _) <- RustIter.for_mut (combine subram_chunk tmp_chunk) (fun '(subram, res) _ => '(t11, t12) <- BitArray_retrieve_stateless p subram module res address offset scratch_thread ;;
        let subram := t11 in
        let res := t12 in
        Some ((subram, res), tt)) tt ;;
      let subram_chunk := (RustIter.write_back subram_chunk (map (fun x => (fst x)) t13)) in
      let tmp_chunk := (RustIter.write_back tmp_chunk (map (fun x => (snd x)) t13)) in
      Some (((scratch_thread, subram_chunk), tmp_chunk), tt)) tt ;;
    let self := (set_Memory_bits self (RustIter.write_back (Memory_bits self) (concat (map (fun x => (snd (fst x))) t14)))) in
    let tmp_res := (RustIter.write_back tmp_res (concat (map (fun x => (snd x)) t14))) in
    Some (self, tmp_res)) ;;
  t15 <- FheUint_pack L res module tmp_res keys scratch_1 ;;
  let res := t15 in
  Some (self, res) else None else None else None.

(** fhevm/src/memory.rs:585-604 *)
Definition BitArray_retrieve_statefull_tmp_bytes (p : Rust.profile) (module : Module) (bit_size : usize) (res : GLWELayout) (addr : GGSWLayout) : option usize :=
  let a : usize := (Module_glwe_blind_retrieval_tmp_bytes L module res addr) in
  t2 <- (if (Rust.gt bit_size (Module_log_n L module))
    then (Some (Module_glwe_blind_rotation_tmp_bytes L module res addr))
    else (Some (Rust.lit 0))) ;;
  let b : usize := t2 in
  Some (RustIter.max a b).

(** fhevm/src/memory.rs:606-638 *)
Definition BitArray_retrieve_statefull (p : Rust.profile) (self : BitArray) (module : Module) (res : GLWE) (address : FheUintPrepared) (offset : usize) (scratch : Scratch) : option (BitArray * GLWE) :=
  self <- (if (Rust.gt (BitArray_bit_size self) (Module_log_n L module))
    then (t3 <- Rust.add p offset (Module_log_n L module) ;;
      t5 <- Rust.sub p (BitArray_bit_size self) (Module_log_n L module) ;;
      t6 <- Module_glwe_blind_retrieval_statefull L module (BitArray_data self) address t3 t5 scratch ;;
      let self := (set_BitArray_data self t6) in
      Some self)
    else (Some self)) ;;
  t7 <- Rust.index (BitArray_data self) (Rust.lit 0) ;;
  t9 <- Module_glwe_blind_rotation_inplace L module t7 address false offset (RustIter.min (Module_log_n L module) (BitArray_bit_size self)) (Rust.lit 0) scratch ;;
  t10 <- Rust.store (BitArray_data self) (Rust.lit 0) t9 ;;
  let self := (set_BitArray_data self t10) in
  t11 <- Rust.index (BitArray_data self) (Rust.lit 0) ;;
  t12 <- Module_glwe_copy L module res t11 ;;
  let res := t12 in
  Some (self, res).

(** fhevm/src/memory.rs:247-306 *)
Definition Memory_read_statefull (p : Rust.profile) (self : Memory) (threads : usize) (module : Module) (res : FheUint) (address : FheUintPrepared) (offset : usize) (keys : Keys) (scratch : Scratch) : option (Memory * FheUint) :=
  if (negb (Rust.eq (Rust.len (Memory_bits self)) (Rust.lit 0))) then if (Bool.eqb (Memory_state self) false) then t1 <- Scratch_take_glwe_slice L scratch (Rust.len (Memory_bits self)) (FheUint_glwe_layout L res) ;;
  let '(tmp_res, scratch_1) := t1 in
  t2 <- Rust.index (Memory_bits self) (Rust.lit 0) ;;
  t3 <- Rust.index (BitArray_data t2) (Rust.lit 0) ;;
  t4 <- BitArray_retrieve_statefull_tmp_bytes p module (Memory_bit_size self) (GLWE_glwe_layout L t3) (FheUintPrepared_ggsw_layout L address) ;;
  let scratch_thread_size := t4 in
  t6 <- Rust.mul p threads scratch_thread_size ;;
  if (Rust.ge (Scratch_available L scratch_1) t6) then t7 <- Scratch_split_mut L scratch_1 threads scratch_thread_size ;;
  let '(scratches, _) := t7 in
  t8 <- RustIter.div_ceil (Rust.len (Memory_bits self)) threads ;;
  let chunk_size : usize := t8 in
  '(self, tmp_res) <- (t9 <- RustIter.chunks (Memory_bits self) chunk_size ;;
    t10 <- RustIter.chunks tmp_res chunk_size ;;
    '(t14, _) <- RustIter.for_mut (combine (combine scratches t9) t10) (fun '((scratch_thread, subram_chunk), tmp_chunk) _ => '(t13, _) <- RustIter.for_mut (combine subram_chunk tmp_chunk) (fun '(subram, res) _ => '(t11, t12) <- BitArray_retrieve_statefull p subram module res address offset scratch_thread ;;
        let subram := t11 in
        let res := t12 in
        Some ((subram, res), tt)) tt ;;
      let subram_chunk := (RustIter.write_back subram_chunk (map (fun x => (fst x)) t13)) in
      let tmp_chunk := (RustIter.write_back tmp_chunk (map (fun x => (snd x)) t13)) in
      Some (((scratch_thread, subram_chunk), tmp_chunk), tt)) tt ;;
    let self := (set_Memory_bits self (RustIter.write_back (Memory_bits self) (concat (map (fun x => (snd (fst x))) t14)))) in
    let tmp_res := (RustIter.write_back tmp_res (concat (map (fun x => (snd x)) t14))) in
    Some (self, tmp_res)) ;;
  t15 <- FheUint_pack L res module tmp_res keys scratch_1 ;;
  let res := t15 in
  let self := (set_Memory_state self true) in
  Some (self, res) else None else None else None.

(** fhevm/src/memory.rs:640-667 *)
Definition BitArray_retrieve_statefull_rev_tmp_bytes (p : Rust.profile) (module : Module) (bit_size : usize) (res : GLWELayout) (addr : GGSWLayout) (key : GGLWELayout) : option usize :=
  t4 <- Rust.add p (Module_glwe_trace_tmp_bytes L module res res key) (RustIter.max (GLWE_bytes_of_from_infos L res) (Module_glwe_normalize_tmp_bytes L module)) ;;
  let a : usize := t4 in
  let b : usize := (Module_glwe_blind_retrieval_tmp_bytes L module res addr) in
  t6 <- (if (Rust.gt bit_size (Module_log_n L module))
    then (Some (Module_glwe_blind_rotation_tmp_bytes L module res addr))
    else (Some (Rust.lit 0))) ;;
  let c : usize := t6 in
  Some (RustIter.max (RustIter.max a b) c).

(** fhevm/src/memory.rs:669-718 *)
Definition BitArray_retrieve_statefull_rev (p : Rust.profile) (self : BitArray) (module : Module) (res : GLWE) (address : FheUintPrepared) (keys : Keys) (offset : usize) (scratch : Scratch) : option BitArray :=
  self <- (t1 <- Rust.index (BitArray_data self) (Rust.lit 0) ;;
    t2 <- Scratch_take_glwe L scratch (GLWE_glwe_layout L t1) ;;
    let '(tmp, scratch_1) := t2 in
    t3 <- Rust.index (BitArray_data self) (Rust.lit 0) ;;
    t4 <- Module_glwe_trace L module tmp (Rust.lit 0) t3 keys scratch_1 ;;
    let tmp := t4 in
    t5 <- Rust.index (BitArray_data self) (Rust.lit 0) ;;
    t6 <- Module_glwe_sub_inplace L module t5 tmp ;;
    t7 <- Rust.store (BitArray_data self) (Rust.lit 0) t6 ;;
    let self := (set_BitArray_data self t7) in
    Some self) ;;
  t8 <- Rust.index (BitArray_data self) (Rust.lit 0) ;;
  t9 <- Module_glwe_add_inplace L module t8 res ;;
  t10 <- Rust.store (BitArray_data self) (Rust.lit 0) t9 ;;
  let self := (set_BitArray_data self t10) in
  t11 <- Rust.index (BitArray_data self) (Rust.lit 0) ;;
  t12 <- Module_glwe_normalize_inplace L module t11 scratch ;;
  t13 <- Rust.store (BitArray_data self) (Rust.lit 0) t12 ;;
  let self := (set_BitArray_data self t13) in
  t14 <- Rust.index (BitArray_data self) (Rust.lit 0) ;;
  t16 <- Module_glwe_blind_rotation_inplace L module t14 address true offset (RustIter.min (Module_log_n L module) (BitArray_bit_size self)) (Rust.lit 0) scratch ;;
  t17 <- Rust.store (BitArray_data self) (Rust.lit 0) t16 ;;
  let self := (set_BitArray_data self t17) in
  if (Rust.gt (BitArray_bit_size self) (Module_log_n L module))
  then (t20 <- Rust.add p offset (Module_log_n L module) ;;
    t22 <- Rust.sub p (BitArray_bit_size self) (Module_log_n L module) ;;
    t23 <- Module_glwe_blind_retrieval_statefull_rev L module (BitArray_data self) address t20 t22 scratch ;;
    let self := (set_BitArray_data self t23) in
    Some self)
  else (Some self).

(** fhevm/src/memory.rs:308-371 *)
Definition Memory_read_statefull_rev (p : Rust.profile) (self : Memory) (threads : usize) (module : Module) (w : FheUint) (address : FheUintPrepared) (offset : usize) (keys : Keys) (scratch : Scratch) : option Memory :=
  if (Bool.eqb (Memory_state self) true) then t1 <- Rust.index (Memory_bits self) (Rust.lit 0) ;;
  t2 <- Rust.index (BitArray_data t1) (Rust.lit 0) ;;
  t4 <- BitArray_retrieve_statefull_rev_tmp_bytes p module (Memory_bit_size self) (GLWE_glwe_layout L t2) (FheUintPrepared_ggsw_layout L address) (Keys_automorphism_key_infos L keys) ;;
  t6 <- Rust.add p t4 (GLWE_bytes_of_from_infos L (FheUint_glwe_layout L w)) ;;
  let scratch_thread_size := t6 in
  t8 <- Rust.mul p threads scratch_thread_size ;;
  if (Rust.ge (Scratch_available L scratch) t8) then t9 <- Scratch_split_mut L scratch threads scratch_thread_size ;;
  let '(scratches, _) := t9 in
  t10 <- RustIter.div_ceil (Rust.len (Memory_bits self)) threads ;;
  let chunk_size : usize := t10 in
  self <- (t11 <- RustIter.chunks (Memory_bits self) chunk_size ;;
    '(t18, _) <- RustIter.for_mut (RustIter.enumerate (combine scratches t11)) (fun '(idx, (scratch_thread, subram_chunk)) _ => '(t17, _) <- RustIter.for_mut (RustIter.enumerate subram_chunk) (fun '(i, subram) _ => t12 <- Scratch_take_glwe L scratch_thread (FheUint_glwe_layout L w) ;;
        let '(bit, scratch_1) := t12 in
        t13 <- Rust.mul p chunk_size idx ;;
        t14 <- Rust.add p t13 i ;;
        t15 <- FheUint_get_bit_glwe L w module t14 bit keys scratch_1 ;;
        let bit := t15 in
        t16 <- BitArray_retrieve_statefull_rev p subram module bit address keys offset scratch_1 ;;
        let subram := t16 in
        Some ((i, subram), tt)) tt ;;
      let subram_chunk := (RustIter.write_back subram_chunk (map (fun x => (snd x)) t17)) in
      Some ((idx, (scratch_thread, subram_chunk)), tt)) tt ;;
    let self := (set_Memory_bits self (RustIter.write_back (Memory_bits self) (concat (map (fun x => (snd (snd x))) t18)))) in
    Some self) ;;
  let self := (set_Memory_state self false) in
  Some self else None else None.

(** fhevm/src/memory.rs:720-738 *)
Definition BitArray_write_tmp_bytes (p : Rust.profile) (module : Module) (bit_size : usize) (res : GLWELayout) (addr : GGSWLayout) (key : GGLWELayout) : option usize :=
  t1 <- BitArray_retrieve_statefull_rev_tmp_bytes p module bit_size res addr key ;;
  Some t1.

(** fhevm/src/memory.rs:740-809 *)
Definition BitArray_write (p : Rust.profile) (self : BitArray) (module : Module) (res : GLWE) (address : FheUintPrepared) (keys : Keys) (offset : usize) (scratch : Scratch) : option BitArray :=
  self <- (if (Rust.gt (BitArray_bit_size self) (Module_log_n L module))
    then (t3 <- Rust.add p offset (Module_log_n L module) ;;
      t5 <- Rust.sub p (BitArray_bit_size self) (Module_log_n L module) ;;
      t6 <- Module_glwe_blind_retrieval_statefull L module (BitArray_data self) address t3 t5 scratch ;;
      let self := (set_BitArray_data self t6) in
      Some self)
    else (Some self)) ;;
  t7 <- Rust.index (BitArray_data self) (Rust.lit 0) ;;
  t9 <- Module_glwe_blind_rotation_inplace L module t7 address false offset (RustIter.min (Module_log_n L module) (BitArray_bit_size self)) (Rust.lit 0) scratch ;;
  t10 <- Rust.store (BitArray_data self) (Rust.lit 0) t9 ;;
  let self := (set_BitArray_data self t10) in
  self <- (t11 <- Rust.index (BitArray_data self) (Rust.lit 0) ;;
    t12 <- Scratch_take_glwe L scratch (GLWE_glwe_layout L t11) ;;
    let '(tmp, scratch_1) := t12 in
    t13 <- Rust.index (BitArray_data self) (Rust.lit 0) ;;
    t14 <- Module_glwe_trace L module tmp (Rust.lit 0) t13 keys scratch_1 ;;
    let tmp := t14 in
    t15 <- Rust.index (BitArray_data self) (Rust.lit 0) ;;
    t16 <- Module_glwe_sub_inplace L module t15 tmp ;;
    t17 <- Rust.store (BitArray_data self) (Rust.lit 0) t16 ;;
    let self := (set_BitArray_data self t17) in
    Some self) ;;
  t18 <- Rust.index (BitArray_data self) (Rust.lit 0) ;;
  t19 <- Module_glwe_add_inplace L module t18 res ;;
  t20 <- Rust.store (BitArray_data self) (Rust.lit 0) t19 ;;
  let self := (set_BitArray_data self t20) in
  t21 <- Rust.index (BitArray_data self) (Rust.lit 0) ;;
  t22 <- Module_glwe_normalize_inplace L module t21 scratch ;;
  t23 <- Rust.store (BitArray_data self) (Rust.lit 0) t22 ;;
  let self := (set_BitArray_data self t23) in
  t24 <- Rust.index (BitArray_data self) (Rust.lit 0) ;;
  t26 <- Module_glwe_blind_rotation_inplace L module t24 address true offset (RustIter.min (Module_log_n L module) (BitArray_bit_size self)) (Rust.lit 0) scratch ;;
  t27 <- Rust.store (BitArray_data self) (Rust.lit 0) t26 ;;
  let self := (set_BitArray_data self t27) in
  if (Rust.gt (BitArray_bit_size self) (Module_log_n L module))
  then (t30 <- Rust.add p offset (Module_log_n L module) ;;
    t32 <- Rust.sub p (BitArray_bit_size self) (Module_log_n L module) ;;
    t33 <- Module_glwe_blind_retrieval_statefull_rev L module (BitArray_data self) address t30 t32 scratch ;;
    let self := (set_BitArray_data self t33) in
    Some self)
  else (Some self).

(** fhevm/src/memory.rs:373-433 *)
Definition Memory_write (p : Rust.profile) (self : Memory) (threads : usize) (module : Module) (w : FheUint) (address : FheUintPrepared) (offset : usize) (keys : Keys) (scratch : Scratch) : option Memory :=
  if (Bool.eqb (Memory_state self) false) then t1 <- Rust.index (Memory_bits self) (Rust.lit 0) ;;
  t2 <- Rust.index (BitArray_data t1) (Rust.lit 0) ;;
  t4 <- BitArray_write_tmp_bytes p module (Memory_bit_size self) (GLWE_glwe_layout L t2) (FheUintPrepared_ggsw_layout L address) (Keys_automorphism_key_infos L keys) ;;
  t6 <- Rust.add p t4 (GLWE_bytes_of_from_infos L (FheUint_glwe_layout L w)) ;;
  let scratch_thread_size := t6 in
  t8 <- Rust.mul p threads scratch_thread_size ;;
  if (Rust.ge (Scratch_available L scratch) t8) then t9 <- Scratch_split_mut L scratch threads scratch_thread_size ;;
  let '(scratches, _) := t9 in
  t10 <- RustIter.div_ceil (Rust.len (Memory_bits self)) threads ;;
  let chunk_size : usize := t10 in
  t11 <- RustIter.chunks (Memory_bits self) chunk_size ;;
  '(t18, _) <- RustIter.for_mut (RustIter.enumerate (combine scratches t11)) (fun '(idx, (scratch_thread, subram_chunk)) _ => '(t17, _) <- RustIter.for_mut (RustIter.enumerate subram_chunk) (fun '(i, subram) _ => t12 <- Scratch_take_glwe L scratch_thread (FheUint_glwe_layout L w) ;;
      let '(bit, scratch_1) := t12 in
      t13 <- Rust.mul p chunk_size idx ;;
      t14 <- Rust.add p t13 i ;;
      t15 <- FheUint_get_bit_glwe L w module t14 bit keys scratch_1 ;;
      let bit := t15 in
      t16 <- BitArray_write p subram module bit address keys offset scratch_1 ;;
      let subram := t16 in
      Some ((i, subram), tt)) tt ;;
    let subram_chunk := (RustIter.write_back subram_chunk (map (fun x => (snd x)) t17)) in
    Some ((idx, (scratch_thread, subram_chunk)), tt)) tt ;;
  let self := (set_Memory_bits self (RustIter.write_back (Memory_bits self) (concat (map (fun x => (snd (snd x))) t18)))) in
  Some self else None else None.

End Text.

Arguments mk_BitArray {L}.
Arguments BitArray_data {L}. Arguments set_BitArray_data {L}.
Arguments BitArray_retriever {L}. Arguments set_BitArray_retriever {L}.
Arguments BitArray_bit_size {L}. Arguments set_BitArray_bit_size {L}.
Arguments mk_Memory {L}.
Arguments Memory_bits {L}. Arguments set_Memory_bits {L}.
Arguments Memory_size {L}. Arguments set_Memory_size {L}.
Arguments Memory_bit_size {L}. Arguments set_Memory_bit_size {L}.
Arguments Memory_state {L}. Arguments set_Memory_state {L}.
