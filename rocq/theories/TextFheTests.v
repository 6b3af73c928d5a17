(** * The repository's homomorphic tests, translated

    Generated by tools/gen_ftests.py from fhevm/src/tests/memory.rs, fhevm/src/tests/ram_offset.rs, fhevm/src/tests/pc_update.rs, fhevm/src/tests/interpreters.rs, fhevm/src/tests/cycle.rs.
    Do not edit.  The operators are those of Rust.v and RustIter.v; the library
    is the records of RustLib.v, RustEng.v, RustHost.v and RustTests.v. *)
Require Import ZArith List Bool.
From Verif Require Import Rust RustIter RustLib RustEng RustHost RustStr RustTests.
From Verif Require Import TextInstr.
From Verif Require Import TextInstrTests.
From Verif Require Import TextDebug.
From Verif Require Import TextMem.
From Verif Require Import TextEnc.
Import ListNotations.
Open Scope Z_scope.
Local Notation u8 := (Rust.int Rust.U8).
Local Notation u16 := (Rust.int Rust.U16).
Local Notation u32 := (Rust.int Rust.U32).
Local Notation u64 := (Rust.int Rust.U64).
Local Notation usize := (Rust.int Rust.USize).
Local Notation i32 := (Rust.int Rust.I32).
Local Notation i64 := (Rust.int Rust.I64).

Section Text.
Variable L : library.
Variable E : engine L.
Variable H : host L E.
Variable Q : tests L E H.
Local Notation Module := (RustLib.Module L).
Local Notation Keys := (RustLib.Keys L).
Local Notation Scratch := (RustLib.Scratch L).
Local Notation GLWE := (RustLib.GLWE L).
Local Notation FheUint := (RustLib.FheUint L).
Local Notation FheUintPrepared := (RustLib.FheUintPrepared L).
Local Notation GLWEBlindRetriever := (RustLib.GLWEBlindRetriever L).
Local Notation GLWELayout := (RustLib.GLWELayout L).
Local Notation GGLWELayout := (RustLib.GGLWELayout L).
Local Notation GGSWLayout := (RustLib.GGSWLayout L).
Local Notation GLWEPlaintext := (RustLib.GLWEPlaintext L).
Local Notation Secret := (RustLib.Secret L).
Local Notation Source := (RustLib.Source L).
Local Notation GGSWPrepared := (RustEng.GGSWPrepared E).
Local Notation GGSW := (RustEng.GGSW E).
Local Notation LWE := (RustEng.LWE E).
Local Notation CbtKey := (RustEng.CbtKey E).
Local Notation KsGlwe := (RustEng.KsGlwe E).
Local Notation KsLwe := (RustEng.KsLwe E).
Local Notation CryptographicParameters := (RustEng.CryptographicParameters E).
Local Notation ElfBytes := (RustHost.ElfBytes H).
Local Notation ScratchOwned := (RustHost.ScratchOwned H).
Local Notation GLWESecret := (RustHost.GLWESecret H).
Local Notation LWESecret := (RustHost.LWESecret H).
Local Notation VMKeys := (RustHost.VMKeys H).
Local Notation Degree := (RustHost.Degree H).
Local Notation Rank := (RustHost.Rank H).
Local Notation Stats := (RustTests.Stats Q).
Local Notation Real := (RustTests.Real Q).
Local Notation Interpreter := (TextEnc.Interpreter L).
Local Notation Memory := (TextMem.Memory L).

(** fhevm/src/tests/memory.rs:26-243 *)
Definition memory_test_fhe_ram (p : Rust.profile)  : option unit :=
  let threads := (Rust.lit 1) in
  let seed_xs : (list u8) := (Rust.filled (Rust.lit (t := Rust.U8) 0) (Rust.lit 32)) in
  let seed_xa : (list u8) := (Rust.filled (Rust.lit (t := Rust.U8) 0) (Rust.lit 32)) in
  let seed_xe : (list u8) := (Rust.filled (Rust.lit (t := Rust.U8) 0) (Rust.lit 32)) in
  let source_xs : Source := (Source_new H seed_xs) in
  let source_xa : Source := (Source_new H seed_xa) in
  let source_xe : Source := (Source_new H seed_xe) in
  let params : CryptographicParameters := CryptographicParameters_new H in
  let sk_glwe : GLWESecret := (GLWESecret_alloc H (CryptographicParameters_n_glwe H params) (CryptographicParameters_rank H params)) in
  '(t8, t9) <- GLWESecret_fill_ternary_prob H sk_glwe (0, 5) source_xs ;;
  let sk_glwe := t8 in
  let source_xs := t9 in
  let sk_lwe : LWESecret := (LWESecret_alloc H (CryptographicParameters_n_lwe H params)) in
  '(t13, t14) <- LWESecret_fill_binary_block H sk_lwe (CryptographicParameters_lwe_block_size H params) source_xs ;;
  let sk_lwe := t13 in
  let source_xs := t14 in
  let fhe_uint_infos : GLWELayout := (CryptographicParameters_fhe_uint_infos E params) in
  '(t16, t17, t18) <- VMKeys_encrypt_sk H params sk_lwe sk_glwe source_xa source_xe ;;
  let source_xa := t16 in
  let source_xe := t17 in
  let keys : VMKeys := t18 in
  t19 <- Rust.shl p (Rust.lit 1) (Rust.lit (t := Rust.I32) 24) ;;
  t20 <- ScratchOwned_alloc H t19 ;;
  let scratch : ScratchOwned := t20 in
  let sk_prep : Secret := (Secret_alloc H (CryptographicParameters_module E params) (GLWESecret_rank Q sk_glwe)) in
  t25 <- Secret_prepare H sk_prep (CryptographicParameters_module E params) sk_glwe ;;
  let sk_prep := t25 in
  let keys_prepared : Keys := (Keys_alloc H params) in
  t29 <- Keys_prepare H keys_prepared (CryptographicParameters_module E params) keys (ScratchOwned_borrow H scratch) ;;
  let keys_prepared := t29 in
  let source : Source := (Source_new H (Rust.filled (Rust.lit (t := Rust.U8) 5) (Rust.lit 32))) in
  let word_size : usize := (Rust.lit 32) in
  let size : usize := (Rust.lit 1024) in
  t31 <- Rust.shl p (Rust.lit (t := Rust.U64) 1) word_size ;;
  t32 <- Rust.sub p t31 (Rust.lit 1) ;;
  let mask : u32 := (Rust.cast Rust.U32 t32) in
  t34 <- Memory_alloc L p (CryptographicParameters_ram_infos E params) word_size size ;;
  let ram : Memory := t34 in
  t35 <- Memory_size_fn L p ram ;;
  let data : (list u32) := (Rust.filled (Rust.lit (t := Rust.U32) 0) t35) in
  '(t37, _) <- RustIter.for_mut (RustIter.enumerate data) (fun '(i, x) _ => let t36 : u32 := (Rust.cast Rust.U32 i) in
    let x := t36 in
    Some ((i, x), tt)) tt ;;
  let data := (RustIter.write_back data (map (fun x => (snd x)) t37)) in
  '(t40, t41, t42) <- Memory_encrypt_sk L p ram (CryptographicParameters_module E params) data sk_prep source_xa source_xe (ScratchOwned_borrow H scratch) ;;
  let ram := t40 in
  let source_xa := t41 in
  let source_xe := t42 in
  let addr : FheUintPrepared := (FheUintPrepared_alloc_from_infos E (CryptographicParameters_module E params) (CryptographicParameters_fhe_uint_prepared_infos E params)) in
  let idx : u32 := (Rust.lit 512) in
  '(t48, t49, t50) <- FheUintPrepared_encrypt_sk Q addr (CryptographicParameters_module E params) idx sk_prep source_xa source_xe (ScratchOwned_borrow H scratch) ;;
  let addr := t48 in
  let source_xa := t49 in
  let source_xe := t50 in
  let res : FheUint := (FheUint_alloc_from_infos E fhe_uint_infos) in
  '(t54, t55) <- Memory_read_stateless L p ram threads (CryptographicParameters_module E params) res addr (Rust.lit 0) keys_prepared (ScratchOwned_borrow H scratch) ;;
  let ram := t54 in
  let res := t55 in
  t56 <- Rust.index data (Rust.cast Rust.USize idx) ;;
  t59 <- FheUint_decrypt E res (CryptographicParameters_module E params) sk_prep (ScratchOwned_borrow H scratch) ;;
  if (Rust.eq t56 t59) then t61 <- Rust.index data (Rust.cast Rust.USize idx) ;;
  t63 <- FheUint_noise Q res (CryptographicParameters_module E params) t61 sk_prep (ScratchOwned_borrow H scratch) ;;
  let noise := (Real_log2 Q (Stats_std Q t63)) in
  if (Real_lt Q noise (-16, 0)) then '(t68, t69) <- Memory_read_statefull L p ram threads (CryptographicParameters_module E params) res addr (Rust.lit 0) keys_prepared (ScratchOwned_borrow H scratch) ;;
  let ram := t68 in
  let res := t69 in
  t70 <- Rust.index data (Rust.cast Rust.USize idx) ;;
  t73 <- FheUint_decrypt E res (CryptographicParameters_module E params) sk_prep (ScratchOwned_borrow H scratch) ;;
  if (Rust.eq t70 t73) then t75 <- Rust.index data (Rust.cast Rust.USize idx) ;;
  t77 <- FheUint_noise Q res (CryptographicParameters_module E params) t75 sk_prep (ScratchOwned_borrow H scratch) ;;
  let noise := (Real_log2 Q (Stats_std Q t77)) in
  if (Real_lt Q noise (-16, 0)) then '(t80, t81) <- Source_next_u32 Q source ;;
  let source := t80 in
  let value : u32 := (Rust.band t81 mask) in
  let ct_write : FheUint := (FheUint_alloc_from_infos E fhe_uint_infos) in
  '(t85, t86, t87) <- FheUint_encrypt_sk Q ct_write (CryptographicParameters_module E params) value sk_prep source_xa source_xe (ScratchOwned_borrow H scratch) ;;
  let ct_write := t85 in
  let source_xa := t86 in
  let source_xe := t87 in
  t88 <- Rust.store data (Rust.cast Rust.USize idx) value ;;
  let data := t88 in
  t91 <- Memory_read_statefull_rev L p ram threads (CryptographicParameters_module E params) ct_write addr (Rust.lit 0) keys_prepared (ScratchOwned_borrow H scratch) ;;
  let ram := t91 in
  '(t94, t95) <- Memory_read_stateless L p ram threads (CryptographicParameters_module E params) res addr (Rust.lit 0) keys_prepared (ScratchOwned_borrow H scratch) ;;
  let ram := t94 in
  let res := t95 in
  t96 <- Rust.index data (Rust.cast Rust.USize idx) ;;
  t99 <- FheUint_decrypt E res (CryptographicParameters_module E params) sk_prep (ScratchOwned_borrow H scratch) ;;
  if (Rust.eq t96 t99) then t101 <- Rust.index data (Rust.cast Rust.USize idx) ;;
  t103 <- FheUint_noise Q res (CryptographicParameters_module E params) t101 sk_prep (ScratchOwned_borrow H scratch) ;;
  let noise := (Real_log2 Q (Stats_std Q t103)) in
  if (Real_lt Q noise (-16, 0)) then t106 <- Memory_size_fn L p ram ;;
  let ram_decrypted : (list u32) := (Rust.filled (Rust.lit (t := Rust.U32) 0) t106) in
  t109 <- Memory_decrypt L p ram (CryptographicParameters_module E params) ram_decrypted sk_prep (ScratchOwned_borrow H scratch) ;;
  let ram_decrypted := t109 in
  t110 <- Rust.index ram_decrypted (Rust.cast Rust.USize idx) ;;
  t113 <- FheUint_decrypt E res (CryptographicParameters_module E params) sk_prep (ScratchOwned_borrow H scratch) ;;
  if (Rust.eq t110 t113) then Some tt else None else None else None else None else None else None else None.

(** fhevm/src/tests/ram_offset.rs:35-138 *)
Definition ram_offset_test_ram_offset (p : Rust.profile)  : option unit :=
  let threads := (Rust.lit 4) in
  let params : CryptographicParameters := CryptographicParameters_new H in
  let module : Module := (CryptographicParameters_module E params) in
  let source_xs : Source := (Source_new H (Rust.filled (Rust.lit (t := Rust.U8) 0) (Rust.lit 32))) in
  let source_xa : Source := (Source_new H (Rust.filled (Rust.lit (t := Rust.U8) 0) (Rust.lit 32))) in
  let source_xe : Source := (Source_new H (Rust.filled (Rust.lit (t := Rust.U8) 0) (Rust.lit 32))) in
  t6 <- Rust.shl p (Rust.lit 1) (Rust.lit (t := Rust.I32) 24) ;;
  t7 <- ScratchOwned_alloc H t6 ;;
  let scratch : ScratchOwned := t7 in
  let sk_glwe : GLWESecret := (GLWESecret_alloc H (CryptographicParameters_n_glwe H params) (CryptographicParameters_rank H params)) in
  '(t11, t12) <- GLWESecret_fill_ternary_prob H sk_glwe (0, 5) source_xs ;;
  let sk_glwe := t11 in
  let source_xs := t12 in
  let sk_lwe : LWESecret := (LWESecret_alloc H (CryptographicParameters_n_lwe H params)) in
  '(t16, t17) <- LWESecret_fill_binary_block H sk_lwe (CryptographicParameters_lwe_block_size H params) source_xs ;;
  let sk_lwe := t16 in
  let source_xs := t17 in
  let sk_glwe_prepared : Secret := (Secret_alloc H module (GLWESecret_rank Q sk_glwe)) in
  t20 <- Secret_prepare H sk_glwe_prepared module sk_glwe ;;
  let sk_glwe_prepared := t20 in
  let fhe_uint_prepared_infos : GGSWLayout := (CryptographicParameters_fhe_uint_prepared_infos E params) in
  let fhe_uint_infos : GLWELayout := (CryptographicParameters_fhe_uint_infos E params) in
  let rs1_prep : FheUintPrepared := (FheUintPrepared_alloc_from_infos E module fhe_uint_prepared_infos) in
  let imm_prep : FheUintPrepared := (FheUintPrepared_alloc_from_infos E module fhe_uint_prepared_infos) in
  let ram : FheUint := (FheUint_alloc_from_infos E fhe_uint_infos) in
  let rs1 : u32 := (Rust.lit 266208) in
  let imm : u32 := (Rust.lit 28) in
  t26 <- Rust.shl p (Rust.lit 1) (Rust.lit (t := Rust.I32) 18) ;;
  let offset : u32 := t26 in
  '(t28, t29, t30) <- FheUintPrepared_encrypt_sk Q rs1_prep module rs1 sk_glwe_prepared source_xa source_xe (ScratchOwned_borrow H scratch) ;;
  let rs1_prep := t28 in
  let source_xa := t29 in
  let source_xe := t30 in
  '(t32, t33, t34) <- FheUintPrepared_encrypt_sk Q imm_prep module imm sk_glwe_prepared source_xa source_xe (ScratchOwned_borrow H scratch) ;;
  let imm_prep := t32 in
  let source_xa := t33 in
  let source_xe := t34 in
  '(t35, t36, t37) <- VMKeys_encrypt_sk H params sk_lwe sk_glwe source_xa source_xe ;;
  let source_xa := t35 in
  let source_xe := t36 in
  let keys : VMKeys := t37 in
  let keys_prepared : Keys := (Keys_alloc H params) in
  t40 <- Keys_prepare H keys_prepared module keys (ScratchOwned_borrow H scratch) ;;
  let keys_prepared := t40 in
  t42 <- ram_offset_ram_offset L E p threads module ram rs1_prep imm_prep keys_prepared (ScratchOwned_borrow H scratch) ;;
  let ram := t42 in
  t44 <- FheUint_decrypt E ram module sk_glwe_prepared (ScratchOwned_borrow H scratch) ;;
  if (Rust.eq (Rust.wrapping_sub (Rust.wrapping_add rs1 imm) offset) t44) then Some tt else None.

(** fhevm/src/tests/pc_update.rs:35-261 *)
Definition pc_update_test_pc_update (p : Rust.profile)  : option unit :=
  let threads := (Rust.lit 2) in
  let params : CryptographicParameters := CryptographicParameters_new H in
  let module : Module := (CryptographicParameters_module E params) in
  let source_xs : Source := (Source_new H (Rust.filled (Rust.lit (t := Rust.U8) 0) (Rust.lit 32))) in
  let source_xa : Source := (Source_new H (Rust.filled (Rust.lit (t := Rust.U8) 0) (Rust.lit 32))) in
  let source_xe : Source := (Source_new H (Rust.filled (Rust.lit (t := Rust.U8) 0) (Rust.lit 32))) in
  t6 <- Rust.shl p (Rust.lit 1) (Rust.lit (t := Rust.I32) 24) ;;
  t7 <- ScratchOwned_alloc H t6 ;;
  let scratch : ScratchOwned := t7 in
  let sk_glwe : GLWESecret := (GLWESecret_alloc H (CryptographicParameters_n_glwe H params) (CryptographicParameters_rank H params)) in
  '(t11, t12) <- GLWESecret_fill_ternary_prob H sk_glwe (0, 5) source_xs ;;
  let sk_glwe := t11 in
  let source_xs := t12 in
  let sk_lwe : LWESecret := (LWESecret_alloc H (CryptographicParameters_n_lwe H params)) in
  '(t16, t17) <- LWESecret_fill_binary_block H sk_lwe (CryptographicParameters_lwe_block_size H params) source_xs ;;
  let sk_lwe := t16 in
  let source_xs := t17 in
  let sk_glwe_prepared : Secret := (Secret_alloc H module (GLWESecret_rank Q sk_glwe)) in
  t20 <- Secret_prepare H sk_glwe_prepared module sk_glwe ;;
  let sk_glwe_prepared := t20 in
  let fhe_uint_prepared_infos : GGSWLayout := (CryptographicParameters_fhe_uint_prepared_infos E params) in
  let fhe_uint_infos : GLWELayout := (CryptographicParameters_fhe_uint_infos E params) in
  let rs1_prep : FheUintPrepared := (FheUintPrepared_alloc_from_infos E module fhe_uint_prepared_infos) in
  let rs2_prep : FheUintPrepared := (FheUintPrepared_alloc_from_infos E module fhe_uint_prepared_infos) in
  let imm_prep : FheUintPrepared := (FheUintPrepared_alloc_from_infos E module fhe_uint_prepared_infos) in
  let pc_prep : FheUintPrepared := (FheUintPrepared_alloc_from_infos E module fhe_uint_prepared_infos) in
  let pc_id : FheUintPrepared := (FheUintPrepared_alloc_from_infos E module fhe_uint_prepared_infos) in
  let pc : FheUint := (FheUint_alloc_from_infos E fhe_uint_infos) in
  '(t29, t30, t31) <- VMKeys_encrypt_sk H params sk_lwe sk_glwe source_xa source_xe ;;
  let source_xa := t29 in
  let source_xe := t30 in
  let keys : VMKeys := t31 in
  let keys_prepared : Keys := (Keys_alloc H params) in
  t34 <- Keys_prepare H keys_prepared module keys (ScratchOwned_borrow H scratch) ;;
  let keys_prepared := t34 in
  t35 <- PCU_new p PC_UPDATE_BEQ ;;
  '(t36, t37) <- Source_next_u32 Q source_xa ;;
  let source_xa := t36 in
  t38 <- PCU_u_pc p t35 t37 ;;
  '(t39, t40) <- Source_next_u32 Q source_xa ;;
  let source_xa := t39 in
  t41 <- PCU_u_imm p t38 t40 ;;
  '(t42, t43) <- Source_next_u32 Q source_xa ;;
  let source_xa := t42 in
  t44 <- PCU_u_rs1 p t41 t43 ;;
  '(t45, t46) <- Source_next_u32 Q source_xa ;;
  let source_xa := t45 in
  t47 <- PCU_u_rs2 p t44 t46 ;;
  t48 <- PCU_set_rs2_equal_rs1 p t47 ;;
  t49 <- PCU_new p PC_UPDATE_BEQ ;;
  '(t50, t51) <- Source_next_u32 Q source_xa ;;
  let source_xa := t50 in
  t52 <- PCU_u_pc p t49 t51 ;;
  '(t53, t54) <- Source_next_u32 Q source_xa ;;
  let source_xa := t53 in
  t55 <- PCU_u_imm p t52 t54 ;;
  '(t56, t57) <- Source_next_u32 Q source_xa ;;
  let source_xa := t56 in
  t58 <- PCU_u_rs1 p t55 t57 ;;
  '(t59, t60) <- Source_next_u32 Q source_xa ;;
  let source_xa := t59 in
  t61 <- PCU_u_rs2 p t58 t60 ;;
  t62 <- PCU_set_rs1_lt_rs2 p t61 ;;
  t63 <- PCU_new p PC_UPDATE_BNE ;;
  '(t64, t65) <- Source_next_u32 Q source_xa ;;
  let source_xa := t64 in
  t66 <- PCU_u_pc p t63 t65 ;;
  '(t67, t68) <- Source_next_u32 Q source_xa ;;
  let source_xa := t67 in
  t69 <- PCU_u_imm p t66 t68 ;;
  '(t70, t71) <- Source_next_u32 Q source_xa ;;
  let source_xa := t70 in
  t72 <- PCU_u_rs1 p t69 t71 ;;
  '(t73, t74) <- Source_next_u32 Q source_xa ;;
  let source_xa := t73 in
  t75 <- PCU_u_rs2 p t72 t74 ;;
  t76 <- PCU_set_rs1_lt_rs2 p t75 ;;
  t77 <- PCU_new p PC_UPDATE_BNE ;;
  '(t78, t79) <- Source_next_u32 Q source_xa ;;
  let source_xa := t78 in
  t80 <- PCU_u_pc p t77 t79 ;;
  '(t81, t82) <- Source_next_u32 Q source_xa ;;
  let source_xa := t81 in
  t83 <- PCU_u_imm p t80 t82 ;;
  '(t84, t85) <- Source_next_u32 Q source_xa ;;
  let source_xa := t84 in
  t86 <- PCU_u_rs1 p t83 t85 ;;
  '(t87, t88) <- Source_next_u32 Q source_xa ;;
  let source_xa := t87 in
  t89 <- PCU_u_rs2 p t86 t88 ;;
  t90 <- PCU_set_rs2_equal_rs1 p t89 ;;
  t91 <- PCU_new p PC_UPDATE_BLTU ;;
  '(t92, t93) <- Source_next_u32 Q source_xa ;;
  let source_xa := t92 in
  t94 <- PCU_u_pc p t91 t93 ;;
  '(t95, t96) <- Source_next_u32 Q source_xa ;;
  let source_xa := t95 in
  t97 <- PCU_u_imm p t94 t96 ;;
  '(t98, t99) <- Source_next_u32 Q source_xa ;;
  let source_xa := t98 in
  t100 <- PCU_u_rs1 p t97 t99 ;;
  '(t101, t102) <- Source_next_u32 Q source_xa ;;
  let source_xa := t101 in
  t103 <- PCU_u_rs2 p t100 t102 ;;
  t104 <- PCU_set_rs1_lt_rs2 p t103 ;;
  t105 <- PCU_new p PC_UPDATE_BLTU ;;
  '(t106, t107) <- Source_next_u32 Q source_xa ;;
  let source_xa := t106 in
  t108 <- PCU_u_pc p t105 t107 ;;
  '(t109, t110) <- Source_next_u32 Q source_xa ;;
  let source_xa := t109 in
  t111 <- PCU_u_imm p t108 t110 ;;
  '(t112, t113) <- Source_next_u32 Q source_xa ;;
  let source_xa := t112 in
  t114 <- PCU_u_rs1 p t111 t113 ;;
  '(t115, t116) <- Source_next_u32 Q source_xa ;;
  let source_xa := t115 in
  t117 <- PCU_u_rs2 p t114 t116 ;;
  t118 <- PCU_set_rs1_gte_rs2 p t117 ;;
  t119 <- PCU_new p PC_UPDATE_BGEU ;;
  '(t120, t121) <- Source_next_u32 Q source_xa ;;
  let source_xa := t120 in
  t122 <- PCU_u_pc p t119 t121 ;;
  '(t123, t124) <- Source_next_u32 Q source_xa ;;
  let source_xa := t123 in
  t125 <- PCU_u_imm p t122 t124 ;;
  '(t126, t127) <- Source_next_u32 Q source_xa ;;
  let source_xa := t126 in
  t128 <- PCU_u_rs1 p t125 t127 ;;
  '(t129, t130) <- Source_next_u32 Q source_xa ;;
  let source_xa := t129 in
  t131 <- PCU_u_rs2 p t128 t130 ;;
  t132 <- PCU_set_rs1_gte_rs2 p t131 ;;
  t133 <- PCU_new p PC_UPDATE_BGEU ;;
  '(t134, t135) <- Source_next_u32 Q source_xa ;;
  let source_xa := t134 in
  t136 <- PCU_u_pc p t133 t135 ;;
  '(t137, t138) <- Source_next_u32 Q source_xa ;;
  let source_xa := t137 in
  t139 <- PCU_u_imm p t136 t138 ;;
  '(t140, t141) <- Source_next_u32 Q source_xa ;;
  let source_xa := t140 in
  t142 <- PCU_u_rs1 p t139 t141 ;;
  '(t143, t144) <- Source_next_u32 Q source_xa ;;
  let source_xa := t143 in
  t145 <- PCU_u_rs2 p t142 t144 ;;
  t146 <- PCU_set_rs1_lt_rs2 p t145 ;;
  t147 <- PCU_new p PC_UPDATE_BLT ;;
  '(t148, t149) <- Source_next_u32 Q source_xa ;;
  let source_xa := t148 in
  t150 <- PCU_u_pc p t147 t149 ;;
  '(t151, t152) <- Source_next_u32 Q source_xa ;;
  let source_xa := t151 in
  t153 <- PCU_u_imm p t150 t152 ;;
  '(t154, t155) <- Source_next_u32 Q source_xa ;;
  let source_xa := t154 in
  t156 <- PCU_u_rs1 p t153 t155 ;;
  '(t157, t158) <- Source_next_u32 Q source_xa ;;
  let source_xa := t157 in
  t159 <- PCU_u_rs2 p t156 t158 ;;
  t160 <- PCU_set_rs1_lt_rs2_signed p t159 ;;
  t161 <- PCU_new p PC_UPDATE_BLT ;;
  '(t162, t163) <- Source_next_u32 Q source_xa ;;
  let source_xa := t162 in
  t164 <- PCU_u_pc p t161 t163 ;;
  '(t165, t166) <- Source_next_u32 Q source_xa ;;
  let source_xa := t165 in
  t167 <- PCU_u_imm p t164 t166 ;;
  '(t168, t169) <- Source_next_u32 Q source_xa ;;
  let source_xa := t168 in
  t170 <- PCU_u_rs1 p t167 t169 ;;
  '(t171, t172) <- Source_next_u32 Q source_xa ;;
  let source_xa := t171 in
  t173 <- PCU_u_rs2 p t170 t172 ;;
  t174 <- PCU_set_rs1_gte_rs2_signed p t173 ;;
  t175 <- PCU_new p PC_UPDATE_BGE ;;
  '(t176, t177) <- Source_next_u32 Q source_xa ;;
  let source_xa := t176 in
  t178 <- PCU_u_pc p t175 t177 ;;
  '(t179, t180) <- Source_next_u32 Q source_xa ;;
  let source_xa := t179 in
  t181 <- PCU_u_imm p t178 t180 ;;
  '(t182, t183) <- Source_next_u32 Q source_xa ;;
  let source_xa := t182 in
  t184 <- PCU_u_rs1 p t181 t183 ;;
  '(t185, t186) <- Source_next_u32 Q source_xa ;;
  let source_xa := t185 in
  t187 <- PCU_u_rs2 p t184 t186 ;;
  t188 <- PCU_set_rs1_gte_rs2_signed p t187 ;;
  t189 <- PCU_new p PC_UPDATE_BGE ;;
  '(t190, t191) <- Source_next_u32 Q source_xa ;;
  let source_xa := t190 in
  t192 <- PCU_u_pc p t189 t191 ;;
  '(t193, t194) <- Source_next_u32 Q source_xa ;;
  let source_xa := t193 in
  t195 <- PCU_u_imm p t192 t194 ;;
  '(t196, t197) <- Source_next_u32 Q source_xa ;;
  let source_xa := t196 in
  t198 <- PCU_u_rs1 p t195 t197 ;;
  '(t199, t200) <- Source_next_u32 Q source_xa ;;
  let source_xa := t199 in
  t201 <- PCU_u_rs2 p t198 t200 ;;
  t202 <- PCU_set_rs1_lt_rs2_signed p t201 ;;
  t203 <- PCU_new p PC_UPDATE_JAL ;;
  '(t204, t205) <- Source_next_u32 Q source_xa ;;
  let source_xa := t204 in
  t206 <- PCU_u_pc p t203 t205 ;;
  '(t207, t208) <- Source_next_u32 Q source_xa ;;
  let source_xa := t207 in
  t209 <- PCU_u_imm p t206 t208 ;;
  '(t210, t211) <- Source_next_u32 Q source_xa ;;
  let source_xa := t210 in
  t212 <- PCU_u_rs1 p t209 t211 ;;
  '(t213, t214) <- Source_next_u32 Q source_xa ;;
  let source_xa := t213 in
  t215 <- PCU_u_rs2 p t212 t214 ;;
  t216 <- PCU_new p PC_UPDATE_JALR ;;
  '(t217, t218) <- Source_next_u32 Q source_xa ;;
  let source_xa := t217 in
  t219 <- PCU_u_pc p t216 t218 ;;
  '(t220, t221) <- Source_next_u32 Q source_xa ;;
  let source_xa := t220 in
  t222 <- PCU_u_imm p t219 t221 ;;
  '(t223, t224) <- Source_next_u32 Q source_xa ;;
  let source_xa := t223 in
  t225 <- PCU_u_rs1 p t222 t224 ;;
  '(t226, t227) <- Source_next_u32 Q source_xa ;;
  let source_xa := t226 in
  t228 <- PCU_u_rs2 p t225 t227 ;;
  t229 <- PCU_new p PC_UPDATE_NONE ;;
  '(t230, t231) <- Source_next_u32 Q source_xa ;;
  let source_xa := t230 in
  t232 <- PCU_u_pc p t229 t231 ;;
  '(t233, t234) <- Source_next_u32 Q source_xa ;;
  let source_xa := t233 in
  t235 <- PCU_u_imm p t232 t234 ;;
  '(t236, t237) <- Source_next_u32 Q source_xa ;;
  let source_xa := t236 in
  t238 <- PCU_u_rs1 p t235 t237 ;;
  '(t239, t240) <- Source_next_u32 Q source_xa ;;
  let source_xa := t239 in
  t241 <- PCU_u_rs2 p t238 t240 ;;
  '(source_xa, source_xe, rs1_prep, rs2_prep, imm_prep, pc_prep, pc_id, pc) <- Rust.for_each [t48; t62; t76; t90; t104; t118; t132; t146; t160; t174; t188; t202; t215; t228; t241] (fun pcu '(source_xa, source_xe, rs1_prep, rs2_prep, imm_prep, pc_prep, pc_id, pc) => '(t243, t244, t245) <- FheUintPrepared_encrypt_sk Q rs1_prep module (PCU_rs1 pcu) sk_glwe_prepared source_xa source_xe (ScratchOwned_borrow H scratch) ;;
    let rs1_prep := t243 in
    let source_xa := t244 in
    let source_xe := t245 in
    '(t247, t248, t249) <- FheUintPrepared_encrypt_sk Q rs2_prep module (PCU_rs2 pcu) sk_glwe_prepared source_xa source_xe (ScratchOwned_borrow H scratch) ;;
    let rs2_prep := t247 in
    let source_xa := t248 in
    let source_xe := t249 in
    '(t251, t252, t253) <- FheUintPrepared_encrypt_sk Q imm_prep module (PCU_imm pcu) sk_glwe_prepared source_xa source_xe (ScratchOwned_borrow H scratch) ;;
    let imm_prep := t251 in
    let source_xa := t252 in
    let source_xe := t253 in
    '(t255, t256, t257) <- FheUintPrepared_encrypt_sk Q pc_prep module (PCU_pc pcu) sk_glwe_prepared source_xa source_xe (ScratchOwned_borrow H scratch) ;;
    let pc_prep := t255 in
    let source_xa := t256 in
    let source_xe := t257 in
    '(t259, t260, t261) <- FheUintPrepared_encrypt_sk Q pc_id module (Rust.cast Rust.U32 (PC_UPDATE_discriminant (PCU_op_type pcu))) sk_glwe_prepared source_xa source_xe (ScratchOwned_borrow H scratch) ;;
    let pc_id := t259 in
    let source_xa := t260 in
    let source_xe := t261 in
    t263 <- pc_update_update_pc L E p threads module pc rs1_prep rs2_prep pc_prep imm_prep pc_id keys_prepared (ScratchOwned_borrow H scratch) ;;
    let pc := t263 in
    t264 <- PCU_expected_update p pcu ;;
    t266 <- FheUint_decrypt E pc module sk_glwe_prepared (ScratchOwned_borrow H scratch) ;;
    if (Rust.eq t264 t266) then Some (source_xa, source_xe, rs1_prep, rs2_prep, imm_prep, pc_prep, pc_id, pc) else None) (source_xa, source_xe, rs1_prep, rs2_prep, imm_prep, pc_prep, pc_id, pc) ;;
  Some tt.

(** fhevm/src/tests/interpreters.rs:36-185 *)
Definition interpreters_test_interpreter_init_one_instruction (p : Rust.profile) (fuel : nat)  : option unit :=
  let params : CryptographicParameters := CryptographicParameters_new H in
  let module : Module := (CryptographicParameters_module E params) in
  t3 <- Rust.shl p (Rust.lit 1) (Rust.lit (t := Rust.I32) 22) ;;
  t4 <- ScratchOwned_alloc H t3 ;;
  let scratch : ScratchOwned := t4 in
  t5 <- Rust.shl p (Rust.lit 1) (Rust.lit (t := Rust.I32) 10) ;;
  let rom_size := t5 in
  t6 <- Rust.shl p (Rust.lit 1) (Rust.lit (t := Rust.I32) 10) ;;
  let ram_size := t6 in
  t7 <- Interpreter_new L E p params rom_size ram_size ;;
  let interpreter : Interpreter := t7 in
  let source_xs : Source := (Source_new H (Rust.filled (Rust.lit (t := Rust.U8) 0) (Rust.lit 32))) in
  let source_xa : Source := (Source_new H (Rust.filled (Rust.lit (t := Rust.U8) 0) (Rust.lit 32))) in
  let source_xe : Source := (Source_new H (Rust.filled (Rust.lit (t := Rust.U8) 0) (Rust.lit 32))) in
  let sk_glwe : GLWESecret := (GLWESecret_alloc H (CryptographicParameters_n_glwe H params) (CryptographicParameters_rank H params)) in
  '(t14, t15) <- GLWESecret_fill_ternary_prob H sk_glwe (0, 5) source_xs ;;
  let sk_glwe := t14 in
  let source_xs := t15 in
  let sk_lwe : LWESecret := (LWESecret_alloc H (CryptographicParameters_n_lwe H params)) in
  '(t19, t20) <- LWESecret_fill_binary_block H sk_lwe (CryptographicParameters_lwe_block_size H params) source_xs ;;
  let sk_lwe := t19 in
  let source_xs := t20 in
  let sk_glwe_prepared : Secret := (Secret_alloc H module (GLWESecret_rank Q sk_glwe)) in
  t23 <- Secret_prepare H sk_glwe_prepared module sk_glwe ;;
  let sk_glwe_prepared := t23 in
  let instruction_u32 := (Rust.lit 258455) in
  t24 <- InstructionsParser_new p  ;;
  let instructions : InstructionsParser := t24 in
  t25 <- Instruction_new p instruction_u32 ;;
  t26 <- InstructionsParser_add p instructions t25 ;;
  let instructions := t26 in
  '(t28, t29, t30) <- Interpreter_instructions_encrypt_sk L p interpreter module instructions sk_glwe_prepared source_xa source_xe (ScratchOwned_borrow H scratch) ;;
  let interpreter := t28 in
  let source_xa := t29 in
  let source_xe := t30 in
  let idx := (Rust.lit 0) in
  t31 <- InstructionsParser_get_raw p instructions idx ;;
  let instruction : Instruction := t31 in
  t32 <- Instruction_get_imm p instruction ;;
  let correct_imm : u32 := t32 in
  t33 <- Instruction_get_registers p instruction ;;
  let '(rs2, rs1, rd) := t33 in
  let correct_rs1 : u32 := (Rust.cast Rust.U32 rs1) in
  let correct_rs2 : u32 := (Rust.cast Rust.U32 rs2) in
  let correct_rd : u32 := (Rust.cast Rust.U32 rd) in
  t34 <- Instruction_get_opid p instruction ;;
  let '(rdu, mu, pcu) := t34 in
  let correct_rdu : u32 := (Rust.cast Rust.U32 (RD_UPDATE_discriminant rdu)) in
  let correct_mu : u32 := (Rust.cast Rust.U32 (RAM_UPDATE_discriminant mu)) in
  let correct_pcu : u32 := (Rust.cast Rust.U32 (PC_UPDATE_discriminant pcu)) in
  '(t36, t37, t38) <- FheUint_encrypt_sk Q (Interpreter_pc_fhe_uint interpreter) module (Rust.cast Rust.U32 idx) sk_glwe_prepared source_xa source_xe (ScratchOwned_borrow H scratch) ;;
  let interpreter := (set_Interpreter_pc_fhe_uint interpreter t36) in
  let source_xa := t37 in
  let source_xe := t38 in
  '(t39, t40, t41) <- VMKeys_encrypt_sk H params sk_lwe sk_glwe source_xa source_xe ;;
  let source_xa := t39 in
  let source_xe := t40 in
  let key : VMKeys := t41 in
  let key_prepared : Keys := (Keys_alloc H params) in
  t44 <- Keys_prepare H key_prepared module key (ScratchOwned_borrow H scratch) ;;
  let key_prepared := t44 in
  t46 <- Interpreter_read_and_prepare_instruction_components L E p fuel interpreter (Rust.lit 1) module key_prepared (Some sk_glwe_prepared) (ScratchOwned_borrow H scratch) ;;
  let interpreter := t46 in
  t49 <- FheUint_decrypt E (Interpreter_rs1_addr_fhe_uint interpreter) (CryptographicParameters_module E params) sk_glwe_prepared (ScratchOwned_borrow H scratch) ;;
  let dec_rs1 : u32 := t49 in
  t52 <- FheUint_decrypt E (Interpreter_rs2_addr_fhe_uint interpreter) (CryptographicParameters_module E params) sk_glwe_prepared (ScratchOwned_borrow H scratch) ;;
  let dec_rs2 : u32 := t52 in
  t55 <- FheUint_decrypt E (Interpreter_rd_addr_fhe_uint interpreter) (CryptographicParameters_module E params) sk_glwe_prepared (ScratchOwned_borrow H scratch) ;;
  let dec_rd : u32 := t55 in
  t58 <- FheUint_decrypt E (Interpreter_imm_val_fhe_uint interpreter) (CryptographicParameters_module E params) sk_glwe_prepared (ScratchOwned_borrow H scratch) ;;
  let dec_imm : u32 := t58 in
  t61 <- FheUint_decrypt E (Interpreter_rdu_val_fhe_uint interpreter) (CryptographicParameters_module E params) sk_glwe_prepared (ScratchOwned_borrow H scratch) ;;
  let dec_rdu : u32 := t61 in
  t64 <- FheUint_decrypt E (Interpreter_mu_val_fhe_uint interpreter) (CryptographicParameters_module E params) sk_glwe_prepared (ScratchOwned_borrow H scratch) ;;
  let dec_mu : u32 := t64 in
  t67 <- FheUint_decrypt E (Interpreter_pcu_val_fhe_uint interpreter) (CryptographicParameters_module E params) sk_glwe_prepared (ScratchOwned_borrow H scratch) ;;
  let dec_pcu : u32 := t67 in
  if (Rust.eq correct_imm dec_imm) then if (Rust.eq correct_rs1 dec_rs1) then if (Rust.eq correct_rs2 dec_rs2) then if (Rust.eq correct_rd dec_rd) then if (Rust.eq correct_rdu dec_rdu) then if (Rust.eq correct_mu dec_mu) then if (Rust.eq correct_pcu dec_pcu) then Some tt else None else None else None else None else None else None else None.

(** fhevm/src/tests/interpreters.rs:192-340 *)
Definition interpreters_test_interpreter_init_one_op (p : Rust.profile) (fuel : nat)  : option unit :=
  let params : CryptographicParameters := CryptographicParameters_new H in
  let threads := (Rust.lit 4) in
  let module : Module := (CryptographicParameters_module E params) in
  t3 <- Rust.shl p (Rust.lit 1) (Rust.lit (t := Rust.I32) 22) ;;
  t4 <- Rust.mul p t3 threads ;;
  t5 <- ScratchOwned_alloc H t4 ;;
  let scratch : ScratchOwned := t5 in
  t6 <- Rust.shl p (Rust.lit 1) (Rust.lit (t := Rust.I32) 10) ;;
  let rom_size := t6 in
  t7 <- Rust.shl p (Rust.lit 1) (Rust.lit (t := Rust.I32) 10) ;;
  let ram_size := t7 in
  t8 <- Interpreter_new L E p params rom_size ram_size ;;
  let interpreter : Interpreter := t8 in
  let source_xs : Source := (Source_new H (Rust.filled (Rust.lit (t := Rust.U8) 0) (Rust.lit 32))) in
  let source_xa : Source := (Source_new H (Rust.filled (Rust.lit (t := Rust.U8) 0) (Rust.lit 32))) in
  let source_xe : Source := (Source_new H (Rust.filled (Rust.lit (t := Rust.U8) 0) (Rust.lit 32))) in
  let sk_glwe : GLWESecret := (GLWESecret_alloc H (CryptographicParameters_n_glwe H params) (CryptographicParameters_rank H params)) in
  '(t15, t16) <- GLWESecret_fill_ternary_prob H sk_glwe (0, 5) source_xs ;;
  let sk_glwe := t15 in
  let source_xs := t16 in
  let sk_lwe : LWESecret := (LWESecret_alloc H (CryptographicParameters_n_lwe H params)) in
  '(t20, t21) <- LWESecret_fill_binary_block H sk_lwe (CryptographicParameters_lwe_block_size H params) source_xs ;;
  let sk_lwe := t20 in
  let source_xs := t21 in
  let sk_glwe_prepared : Secret := (Secret_alloc H module (GLWESecret_rank Q sk_glwe)) in
  t24 <- Secret_prepare H sk_glwe_prepared module sk_glwe ;;
  let sk_glwe_prepared := t24 in
  '(t25, t26) <- Source_next_u32 Q source_xa ;;
  let source_xa := t25 in
  let imm_value : u32 := t26 in
  '(t27, t28) <- Source_next_u32 Q source_xa ;;
  let source_xa := t27 in
  let rs1_value : u32 := t28 in
  '(t29, t30) <- Source_next_u32 Q source_xa ;;
  let source_xa := t29 in
  let rs2_value : u32 := t30 in
  '(t31, t32) <- Source_next_u32 Q source_xa ;;
  let source_xa := t31 in
  let pc_value : u32 := t32 in
  '(t33, t34) <- Source_next_u32 Q source_xa ;;
  let source_xa := t33 in
  let ram_value : u32 := t34 in
  '(t35, t36, t37) <- VMKeys_encrypt_sk H params sk_lwe sk_glwe source_xa source_xe ;;
  let source_xa := t35 in
  let source_xe := t36 in
  let key : VMKeys := t37 in
  let key_prepared : Keys := (Keys_alloc H params) in
  t40 <- Keys_prepare H key_prepared module key (ScratchOwned_borrow H scratch) ;;
  let key_prepared := t40 in
  t42 <- Interpreter_read_and_prepare_instruction_components L E p fuel interpreter (Rust.lit 1) module key_prepared (Some sk_glwe_prepared) (ScratchOwned_borrow H scratch) ;;
  let interpreter := t42 in
  '(t44, t45, t46) <- FheUintPrepared_encrypt_sk Q (Interpreter_rs1_val_fhe_uint_prepared interpreter) module rs1_value sk_glwe_prepared source_xa source_xe (ScratchOwned_borrow H scratch) ;;
  let interpreter := (set_Interpreter_rs1_val_fhe_uint_prepared interpreter t44) in
  let source_xa := t45 in
  let source_xe := t46 in
  '(t48, t49, t50) <- FheUintPrepared_encrypt_sk Q (Interpreter_rs2_val_fhe_uint_prepared interpreter) module rs2_value sk_glwe_prepared source_xa source_xe (ScratchOwned_borrow H scratch) ;;
  let interpreter := (set_Interpreter_rs2_val_fhe_uint_prepared interpreter t48) in
  let source_xa := t49 in
  let source_xe := t50 in
  '(t52, t53, t54) <- FheUintPrepared_encrypt_sk Q (Interpreter_imm_val_fhe_uint_prepared interpreter) module imm_value sk_glwe_prepared source_xa source_xe (ScratchOwned_borrow H scratch) ;;
  let interpreter := (set_Interpreter_imm_val_fhe_uint_prepared interpreter t52) in
  let source_xa := t53 in
  let source_xe := t54 in
  '(t56, t57, t58) <- FheUintPrepared_encrypt_sk Q (Interpreter_pc_fhe_uint_prepared interpreter) module pc_value sk_glwe_prepared source_xa source_xe (ScratchOwned_borrow H scratch) ;;
  let interpreter := (set_Interpreter_pc_fhe_uint_prepared interpreter t56) in
  let source_xa := t57 in
  let source_xe := t58 in
  '(t60, t61, t62) <- FheUint_encrypt_sk Q (Interpreter_ram_val_fhe_uint interpreter) module ram_value sk_glwe_prepared source_xa source_xe (ScratchOwned_borrow H scratch) ;;
  let interpreter := (set_Interpreter_ram_val_fhe_uint interpreter t60) in
  let source_xa := t61 in
  let source_xe := t62 in
  let res := (FheUint_alloc_from_infos E (CryptographicParameters_fhe_uint_infos E params)) in
  res <- Rust.for_each instructions_RD_UPDATE_RV32I_OP_LIST (fun op res => t66 <- RD_UPDATE_eval_enc L E p op threads module res (Interpreter_rs1_val_fhe_uint_prepared interpreter) (Interpreter_rs2_val_fhe_uint_prepared interpreter) (Interpreter_imm_val_fhe_uint_prepared interpreter) (Interpreter_pc_fhe_uint_prepared interpreter) (Interpreter_ram_val_fhe_uint interpreter) key_prepared (ScratchOwned_borrow H scratch) ;;
    let res := t66 in
    t68 <- FheUint_decrypt E res module sk_glwe_prepared (ScratchOwned_borrow H scratch) ;;
    let have : u32 := t68 in
    t69 <- RD_UPDATE_eval_plain p op imm_value rs1_value rs2_value pc_value ram_value ;;
    let want : u32 := t69 in
    if (Rust.eq have want) then Some res else None) res ;;
  Some tt.

(** fhevm/src/tests/interpreters.rs:347-507 *)
Definition interpreters_test_interpreter_init_many_instructions (p : Rust.profile) (fuel : nat)  : option unit :=
  let params : CryptographicParameters := CryptographicParameters_new H in
  let module : Module := (CryptographicParameters_module E params) in
  let source_xs : Source := (Source_new H (Rust.filled (Rust.lit (t := Rust.U8) 0) (Rust.lit 32))) in
  let source_xa : Source := (Source_new H (Rust.filled (Rust.lit (t := Rust.U8) 0) (Rust.lit 32))) in
  let source_xe : Source := (Source_new H (Rust.filled (Rust.lit (t := Rust.U8) 0) (Rust.lit 32))) in
  t6 <- Rust.shl p (Rust.lit 1) (Rust.lit (t := Rust.I32) 24) ;;
  t7 <- ScratchOwned_alloc H t6 ;;
  let scratch : ScratchOwned := t7 in
  let sk_glwe : GLWESecret := (GLWESecret_alloc H (CryptographicParameters_n_glwe H params) (CryptographicParameters_rank H params)) in
  '(t11, t12) <- GLWESecret_fill_ternary_prob H sk_glwe (0, 5) source_xs ;;
  let sk_glwe := t11 in
  let source_xs := t12 in
  let sk_lwe : LWESecret := (LWESecret_alloc H (CryptographicParameters_n_lwe H params)) in
  '(t16, t17) <- LWESecret_fill_binary_block H sk_lwe (CryptographicParameters_lwe_block_size H params) source_xs ;;
  let sk_lwe := t16 in
  let source_xs := t17 in
  t18 <- Rust.shl p (Rust.lit 1) (Rust.lit (t := Rust.I32) 10) ;;
  let rom_size := t18 in
  t19 <- Rust.shl p (Rust.lit 1) (Rust.lit (t := Rust.I32) 10) ;;
  let ram_size := t19 in
  t20 <- Interpreter_new L E p params rom_size ram_size ;;
  let interpreter : Interpreter := t20 in
  let instructions_u32 := [(Rust.lit 258455); (Rust.lit 33653139); (Rust.lit 512279); (Rust.lit 4286644499); (Rust.lit 66579); (Rust.lit 10507363); (Rust.lit 3221229683); (Rust.lit 8388847); (Rust.lit 3221229683); (Rust.lit 791); (Rust.lit 8585319); (Rust.lit 259383)] in
  t21 <- InstructionsParser_new p  ;;
  let instructions := t21 in
  instructions <- Rust.for_each instructions_u32 (fun inst instructions => t22 <- Instruction_new p inst ;;
    t23 <- InstructionsParser_add p instructions t22 ;;
    let instructions := t23 in
    Some instructions) instructions ;;
  let sk_glwe_prepared : Secret := (Secret_alloc H module (GLWESecret_rank Q sk_glwe)) in
  t26 <- Secret_prepare H sk_glwe_prepared module sk_glwe ;;
  let sk_glwe_prepared := t26 in
  '(t28, t29, t30) <- Interpreter_instructions_encrypt_sk L p interpreter module instructions sk_glwe_prepared source_xa source_xe (ScratchOwned_borrow H scratch) ;;
  let interpreter := t28 in
  let source_xa := t29 in
  let source_xe := t30 in
  t31 <- Rust.shl p (Rust.lit 1) (Rust.lit (t := Rust.I32) 24) ;;
  t32 <- ScratchOwned_alloc H t31 ;;
  let scratch : ScratchOwned := t32 in
  '(t33, t34, t35) <- VMKeys_encrypt_sk H params sk_lwe sk_glwe source_xa source_xe ;;
  let source_xa := t33 in
  let source_xe := t34 in
  let key : VMKeys := t35 in
  let key_prepared : Keys := (Keys_alloc H params) in
  t38 <- Keys_prepare H key_prepared module key (ScratchOwned_borrow H scratch) ;;
  let key_prepared := t38 in
  '(source_xa, source_xe, interpreter) <- Rust.for_range (Rust.lit 0) (Rust.len instructions_u32) (fun idx '(source_xa, source_xe, interpreter) => t39 <- InstructionsParser_get_raw p instructions idx ;;
    let instruction := t39 in
    t40 <- Instruction_get_imm p instruction ;;
    let correct_imm := t40 in
    t41 <- Instruction_get_registers p instruction ;;
    let '(rs2, rs1, rd) := t41 in
    let correct_rs1 : u32 := (Rust.cast Rust.U32 rs1) in
    let correct_rs2 : u32 := (Rust.cast Rust.U32 rs2) in
    let correct_rd : u32 := (Rust.cast Rust.U32 rd) in
    t42 <- Instruction_get_opid p instruction ;;
    let '(rdu, mu, pcu) := t42 in
    let correct_rdu : u32 := (Rust.cast Rust.U32 (RD_UPDATE_discriminant rdu)) in
    let correct_mu : u32 := (Rust.cast Rust.U32 (RAM_UPDATE_discriminant mu)) in
    let correct_pcu : u32 := (Rust.cast Rust.U32 (PC_UPDATE_discriminant pcu)) in
    t43 <- Rust.shl p idx (Rust.lit (t := Rust.I32) 2) ;;
    '(t45, t46, t47) <- FheUintPrepared_encrypt_sk Q (Interpreter_pc_fhe_uint_prepared interpreter) module (Rust.cast Rust.U32 t43) sk_glwe_prepared source_xa source_xe (ScratchOwned_borrow H scratch) ;;
    let interpreter := (set_Interpreter_pc_fhe_uint_prepared interpreter t45) in
    let source_xa := t46 in
    let source_xe := t47 in
    t49 <- Interpreter_read_and_prepare_instruction_components L E p fuel interpreter (Rust.lit 1) module key_prepared (Some sk_glwe_prepared) (ScratchOwned_borrow H scratch) ;;
    let interpreter := t49 in
    t51 <- FheUint_decrypt E (Interpreter_rs1_addr_fhe_uint interpreter) module sk_glwe_prepared (ScratchOwned_borrow H scratch) ;;
    let dec_rs1 : u32 := t51 in
    t53 <- FheUint_decrypt E (Interpreter_rs2_addr_fhe_uint interpreter) module sk_glwe_prepared (ScratchOwned_borrow H scratch) ;;
    let dec_rs2 : u32 := t53 in
    t55 <- FheUint_decrypt E (Interpreter_rd_addr_fhe_uint interpreter) module sk_glwe_prepared (ScratchOwned_borrow H scratch) ;;
    let dec_rd : u32 := t55 in
    t57 <- FheUint_decrypt E (Interpreter_imm_val_fhe_uint interpreter) module sk_glwe_prepared (ScratchOwned_borrow H scratch) ;;
    let dec_imm : u32 := t57 in
    t60 <- FheUint_decrypt E (Interpreter_rdu_val_fhe_uint interpreter) (CryptographicParameters_module E params) sk_glwe_prepared (ScratchOwned_borrow H scratch) ;;
    let dec_rdu : u32 := t60 in
    t63 <- FheUint_decrypt E (Interpreter_mu_val_fhe_uint interpreter) (CryptographicParameters_module E params) sk_glwe_prepared (ScratchOwned_borrow H scratch) ;;
    let dec_mu : u32 := t63 in
    t66 <- FheUint_decrypt E (Interpreter_pcu_val_fhe_uint interpreter) (CryptographicParameters_module E params) sk_glwe_prepared (ScratchOwned_borrow H scratch) ;;
    let dec_pcu : u32 := t66 in
    if (Rust.eq correct_imm dec_imm) then if (Rust.eq correct_rs1 dec_rs1) then if (Rust.eq correct_rs2 dec_rs2) then if (Rust.eq correct_rd dec_rd) then if (Rust.eq correct_rdu dec_rdu) then if (Rust.eq correct_mu dec_mu) then if (Rust.eq correct_pcu dec_pcu) then Some (source_xa, source_xe, interpreter) else None else None else None else None else None else None else None) (source_xa, source_xe, interpreter) ;;
  Some tt.

(** fhevm/src/tests/interpreters.rs:514-620 *)
Definition interpreters_test_interpreter_cycle_single_instruction_noop (p : Rust.profile) (fuel : nat)  : option unit :=
  let params : CryptographicParameters := CryptographicParameters_new H in
  let module : Module := (CryptographicParameters_module E params) in
  let source_xs : Source := (Source_new H (Rust.filled (Rust.lit (t := Rust.U8) 0) (Rust.lit 32))) in
  let source_xa : Source := (Source_new H (Rust.filled (Rust.lit (t := Rust.U8) 0) (Rust.lit 32))) in
  let source_xe : Source := (Source_new H (Rust.filled (Rust.lit (t := Rust.U8) 0) (Rust.lit 32))) in
  t6 <- Rust.shl p (Rust.lit 1) (Rust.lit (t := Rust.I32) 24) ;;
  t7 <- ScratchOwned_alloc H t6 ;;
  let scratch : ScratchOwned := t7 in
  let sk_glwe : GLWESecret := (GLWESecret_alloc H (CryptographicParameters_n_glwe H params) (CryptographicParameters_rank H params)) in
  '(t11, t12) <- GLWESecret_fill_ternary_prob H sk_glwe (0, 5) source_xs ;;
  let sk_glwe := t11 in
  let source_xs := t12 in
  let sk_lwe : LWESecret := (LWESecret_alloc H (CryptographicParameters_n_lwe H params)) in
  '(t16, t17) <- LWESecret_fill_binary_block H sk_lwe (CryptographicParameters_lwe_block_size H params) source_xs ;;
  let sk_lwe := t16 in
  let source_xs := t17 in
  t18 <- Rust.shl p (Rust.lit 1) (Rust.lit (t := Rust.I32) 10) ;;
  let rom_size := t18 in
  t19 <- Rust.shl p (Rust.lit 1) (Rust.lit (t := Rust.I32) 10) ;;
  let ram_size := t19 in
  t20 <- Interpreter_new L E p params rom_size ram_size ;;
  let interpreter : Interpreter := t20 in
  let instructions_u32 := [(Rust.lit 115); (Rust.lit 115)] in
  t21 <- InstructionsParser_new p  ;;
  let instructions := t21 in
  instructions <- Rust.for_each instructions_u32 (fun inst instructions => t22 <- Instruction_new p inst ;;
    t23 <- InstructionsParser_add p instructions t22 ;;
    let instructions := t23 in
    Some instructions) instructions ;;
  let sk_glwe_prepared : Secret := (Secret_alloc H module (GLWESecret_rank Q sk_glwe)) in
  t26 <- Secret_prepare H sk_glwe_prepared module sk_glwe ;;
  let sk_glwe_prepared := t26 in
  '(t28, t29, t30) <- Interpreter_instructions_encrypt_sk L p interpreter module instructions sk_glwe_prepared source_xa source_xe (ScratchOwned_borrow H scratch) ;;
  let interpreter := t28 in
  let source_xa := t29 in
  let source_xe := t30 in
  '(t32, t33, t34) <- FheUint_encrypt_sk Q (Interpreter_pc_fhe_uint interpreter) module (Rust.lit 0) sk_glwe_prepared source_xa source_xe (ScratchOwned_borrow H scratch) ;;
  let interpreter := (set_Interpreter_pc_fhe_uint interpreter t32) in
  let source_xa := t33 in
  let source_xe := t34 in
  t35 <- Rust.shl p (Rust.lit 1) (Rust.lit (t := Rust.I32) 28) ;;
  t36 <- ScratchOwned_alloc H t35 ;;
  let scratch : ScratchOwned := t36 in
  '(t37, t38, t39) <- VMKeys_encrypt_sk H params sk_lwe sk_glwe source_xa source_xe ;;
  let source_xa := t37 in
  let source_xe := t38 in
  let key : VMKeys := t39 in
  let key_prepared : Keys := (Keys_alloc H params) in
  t42 <- Keys_prepare H key_prepared module key (ScratchOwned_borrow H scratch) ;;
  let key_prepared := t42 in
  t43 <- Interpreter_set_verbose_timings L p interpreter true ;;
  let interpreter := t43 in
  t44 <- Interpreter_set_threads L p interpreter (Rust.lit 16) ;;
  let interpreter := t44 in
  t46 <- Interpreter_cycle_fn L E p fuel interpreter module key_prepared (ScratchOwned_borrow H scratch) ;;
  let interpreter := t46 in
  t48 <- FheUint_decrypt E (Interpreter_pc_fhe_uint interpreter) module sk_glwe_prepared (ScratchOwned_borrow H scratch) ;;
  let pc := t48 in
  if (Rust.eq pc (Rust.lit 4)) then Some tt else None.

(** fhevm/src/tests/cycle.rs:34-140 *)
Definition cycle_test_interpreter_cycles (p : Rust.profile) (fuel : nat)  : option unit :=
  t1 <- RV32I_new p RV32I_LUI ;;
  t2 <- Rust.shl p (Rust.lit 1) (Rust.lit (t := Rust.I32) 6) ;;
  t3 <- Instruction_set_imm p t1 t2 ;;
  t4 <- Instruction_set_rd p t3 (Rust.lit 31) ;;
  t5 <- RV32I_new p RV32I_LUI ;;
  t6 <- Instruction_set_imm p t5 (Rust.lit 43981) ;;
  t7 <- Instruction_set_rd p t6 (Rust.lit 1) ;;
  t8 <- RV32I_new p RV32I_LUI ;;
  t9 <- Instruction_set_imm p t8 (Rust.lit 61200) ;;
  t10 <- Instruction_set_rd p t9 (Rust.lit 2) ;;
  t11 <- RV32I_new p RV32I_ADDI ;;
  t12 <- Instruction_set_imm p t11 (Rust.lit 1) ;;
  t13 <- Instruction_set_rs1 p t12 (Rust.lit 1) ;;
  t14 <- Instruction_set_rd p t13 (Rust.lit 3) ;;
  t15 <- RV32I_new p RV32I_SW ;;
  t16 <- Instruction_set_imm p t15 (Rust.lit 0) ;;
  t17 <- Instruction_set_rs1 p t16 (Rust.lit 31) ;;
  t18 <- Instruction_set_rs2 p t17 (Rust.lit 3) ;;
  t19 <- RV32I_new p RV32I_ADDI ;;
  t20 <- Instruction_set_imm p t19 (Rust.lit 4) ;;
  t21 <- Instruction_set_rs1 p t20 (Rust.lit 31) ;;
  t22 <- Instruction_set_rd p t21 (Rust.lit 31) ;;
  t23 <- RV32I_new p RV32I_SLTI ;;
  t24 <- Instruction_set_imm p t23 (Rust.lit 61200) ;;
  t25 <- Instruction_set_rs1 p t24 (Rust.lit 1) ;;
  t26 <- Instruction_set_rd p t25 (Rust.lit 3) ;;
  t27 <- RV32I_new p RV32I_SW ;;
  t28 <- Instruction_set_imm p t27 (Rust.lit 0) ;;
  t29 <- Instruction_set_rs1 p t28 (Rust.lit 31) ;;
  t30 <- Instruction_set_rs2 p t29 (Rust.lit 3) ;;
  t31 <- RV32I_new p RV32I_ADDI ;;
  t32 <- Instruction_set_imm p t31 (Rust.lit 4) ;;
  t33 <- Instruction_set_rs1 p t32 (Rust.lit 31) ;;
  t34 <- Instruction_set_rd p t33 (Rust.lit 31) ;;
  let rom : (list Instruction) := [t4; t7; t10; t14; t18; t22; t26; t30; t34] in
  let ram : (list u32) := (Rust.filled (Rust.lit (t := Rust.U32) 0) (Rust.lit 64)) in
  let params : CryptographicParameters := CryptographicParameters_new H in
  let module : Module := (CryptographicParameters_module E params) in
  let source_xs : Source := (Source_new H (Rust.filled (Rust.lit (t := Rust.U8) 0) (Rust.lit 32))) in
  let source_xa : Source := (Source_new H (Rust.filled (Rust.lit (t := Rust.U8) 0) (Rust.lit 32))) in
  let source_xe : Source := (Source_new H (Rust.filled (Rust.lit (t := Rust.U8) 0) (Rust.lit 32))) in
  t40 <- Rust.shl p (Rust.lit 1) (Rust.lit (t := Rust.I32) 24) ;;
  t41 <- ScratchOwned_alloc H t40 ;;
  let scratch : ScratchOwned := t41 in
  let sk_glwe : GLWESecret := (GLWESecret_alloc H (CryptographicParameters_n_glwe H params) (CryptographicParameters_rank H params)) in
  '(t45, t46) <- GLWESecret_fill_ternary_prob H sk_glwe (0, 5) source_xs ;;
  let sk_glwe := t45 in
  let source_xs := t46 in
  let sk_lwe : LWESecret := (LWESecret_alloc H (CryptographicParameters_n_lwe H params)) in
  '(t50, t51) <- LWESecret_fill_binary_block H sk_lwe (CryptographicParameters_lwe_block_size H params) source_xs ;;
  let sk_lwe := t50 in
  let source_xs := t51 in
  t52 <- Interpreter_new_with_debug L E p params (Rust.len rom) (Rust.len ram) ;;
  let interpreter : Interpreter := t52 in
  t53 <- InstructionsParser_new p  ;;
  let instructions := t53 in
  instructions <- Rust.for_each rom (fun inst instructions => t54 <- InstructionsParser_add p instructions inst ;;
    let instructions := t54 in
    Some instructions) instructions ;;
  let sk_glwe_prepared : Secret := (Secret_alloc H module (GLWESecret_rank Q sk_glwe)) in
  t57 <- Secret_prepare H sk_glwe_prepared module sk_glwe ;;
  let sk_glwe_prepared := t57 in
  '(t59, t60, t61) <- Interpreter_instructions_encrypt_sk L p interpreter module instructions sk_glwe_prepared source_xa source_xe (ScratchOwned_borrow H scratch) ;;
  let interpreter := t59 in
  let source_xa := t60 in
  let source_xe := t61 in
  '(t63, t64, t65) <- Interpreter_ram_encrypt_sk L p interpreter module ram sk_glwe_prepared source_xa source_xe (ScratchOwned_borrow H scratch) ;;
  let interpreter := t63 in
  let source_xa := t64 in
  let source_xe := t65 in
  t66 <- Rust.shl p (Rust.lit 1) (Rust.lit (t := Rust.I32) 28) ;;
  t67 <- ScratchOwned_alloc H t66 ;;
  let scratch : ScratchOwned := t67 in
  '(t68, t69, t70) <- VMKeys_encrypt_sk H params sk_lwe sk_glwe source_xa source_xe ;;
  let source_xa := t68 in
  let source_xe := t69 in
  let key : VMKeys := t70 in
  let key_prepared : Keys := (Keys_alloc H params) in
  t73 <- Keys_prepare H key_prepared module key (ScratchOwned_borrow H scratch) ;;
  let key_prepared := t73 in
  t74 <- Interpreter_set_verbose_timings L p interpreter true ;;
  let interpreter := t74 in
  interpreter <- Rust.for_range (Rust.lit 0) (Rust.len rom) (fun _ interpreter => t76 <- Interpreter_cycle_debug L E p fuel interpreter module key_prepared sk_glwe_prepared (ScratchOwned_borrow H scratch) ;;
    let interpreter := t76 in
    Some interpreter) interpreter ;;
  Some tt.

End Text.


