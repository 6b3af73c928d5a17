(** * The host side, translated

    Generated by tools/gen_host.py from compiler/src/interpreter.rs.
    Do not edit.  The operators are those of Rust.v and RustIter.v; the library
    is the records of RustLib.v, RustEng.v and RustHost.v. *)
Require Import ZArith List Bool.
From Verif Require Import Rust RustIter RustLib RustEng RustHost RustStr.
From Verif Require Import TextInstr.
From Verif Require Import TextTest.
From Verif Require Import TextDebug.
From Verif Require Import TextMem.
From Verif Require Import TextEnc.
Import ListNotations.
Open Scope Z_scope.
Local Notation u8 := (Rust.int Rust.U8).
Local Notation u16 := (Rust.int Rust.U16).
Local Notation u32 := (Rust.int Rust.U32).
Local Notation u64 := (Rust.int Rust.U64).
Local Notation usize := (Rust.int Rust.USize).
Local Notation i32 := (Rust.int Rust.I32).
Local Notation i64 := (Rust.int Rust.I64).

Section Text.
Variable L : library.
Variable E : engine L.
Variable H : host L E.
Local Notation Module := (RustLib.Module L).
Local Notation Keys := (RustLib.Keys L).
Local Notation Scratch := (RustLib.Scratch L).
Local Notation GLWE := (RustLib.GLWE L).
Local Notation FheUint := (RustLib.FheUint L).
Local Notation FheUintPrepared := (RustLib.FheUintPrepared L).
Local Notation GLWEBlindRetriever := (RustLib.GLWEBlindRetriever L).
Local Notation GLWELayout := (RustLib.GLWELayout L).
Local Notation GGLWELayout := (RustLib.GGLWELayout L).
Local Notation GGSWLayout := (RustLib.GGSWLayout L).
Local Notation GLWEPlaintext := (RustLib.GLWEPlaintext L).
Local Notation Secret := (RustLib.Secret L).
Local Notation Source := (RustLib.Source L).
Local Notation GGSWPrepared := (RustEng.GGSWPrepared E).
Local Notation GGSW := (RustEng.GGSW E).
Local Notation LWE := (RustEng.LWE E).
Local Notation CbtKey := (RustEng.CbtKey E).
Local Notation KsGlwe := (RustEng.KsGlwe E).
Local Notation KsLwe := (RustEng.KsLwe E).
Local Notation CryptographicParameters := (RustEng.CryptographicParameters E).
Local Notation ElfBytes := (RustHost.ElfBytes H).
Local Notation ScratchOwned := (RustHost.ScratchOwned H).
Local Notation GLWESecret := (RustHost.GLWESecret H).
Local Notation LWESecret := (RustHost.LWESecret H).
Local Notation VMKeys := (RustHost.VMKeys H).
Local Notation Degree := (RustHost.Degree H).
Local Notation Rank := (RustHost.Rank H).
Local Notation Interpreter := (TextEnc.Interpreter L).
(** compiler/src/interpreter.rs:40-40 *)
Definition host_RAM_SIZE : usize := Rust.lit 4096.

(** compiler/src/interpreter.rs:109-118 *)
Record EncryptedVM := mk_EncryptedVM {
  EncryptedVM_params : CryptographicParameters;
  EncryptedVM_sk_prepared : Secret;
  EncryptedVM_key_prepared : Keys;
  EncryptedVM_interpreter : Interpreter;
  EncryptedVM_output_info : OutputInfo;
  EncryptedVM_ram_offset : usize;
  EncryptedVM_max_cycles : usize;
  EncryptedVM_phantom_debug : bool }.

Definition set_EncryptedVM_params (s : EncryptedVM) (x : CryptographicParameters) : EncryptedVM :=
  mk_EncryptedVM x (EncryptedVM_sk_prepared s) (EncryptedVM_key_prepared s) (EncryptedVM_interpreter s) (EncryptedVM_output_info s) (EncryptedVM_ram_offset s) (EncryptedVM_max_cycles s) (EncryptedVM_phantom_debug s).

Definition set_EncryptedVM_sk_prepared (s : EncryptedVM) (x : Secret) : EncryptedVM :=
  mk_EncryptedVM (EncryptedVM_params s) x (EncryptedVM_key_prepared s) (EncryptedVM_interpreter s) (EncryptedVM_output_info s) (EncryptedVM_ram_offset s) (EncryptedVM_max_cycles s) (EncryptedVM_phantom_debug s).

Definition set_EncryptedVM_key_prepared (s : EncryptedVM) (x : Keys) : EncryptedVM :=
  mk_EncryptedVM (EncryptedVM_params s) (EncryptedVM_sk_prepared s) x (EncryptedVM_interpreter s) (EncryptedVM_output_info s) (EncryptedVM_ram_offset s) (EncryptedVM_max_cycles s) (EncryptedVM_phantom_debug s).

Definition set_EncryptedVM_interpreter (s : EncryptedVM) (x : Interpreter) : EncryptedVM :=
  mk_EncryptedVM (EncryptedVM_params s) (EncryptedVM_sk_prepared s) (EncryptedVM_key_prepared s) x (EncryptedVM_output_info s) (EncryptedVM_ram_offset s) (EncryptedVM_max_cycles s) (EncryptedVM_phantom_debug s).

Definition set_EncryptedVM_output_info (s : EncryptedVM) (x : OutputInfo) : EncryptedVM :=
  mk_EncryptedVM (EncryptedVM_params s) (EncryptedVM_sk_prepared s) (EncryptedVM_key_prepared s) (EncryptedVM_interpreter s) x (EncryptedVM_ram_offset s) (EncryptedVM_max_cycles s) (EncryptedVM_phantom_debug s).

Definition set_EncryptedVM_ram_offset (s : EncryptedVM) (x : usize) : EncryptedVM :=
  mk_EncryptedVM (EncryptedVM_params s) (EncryptedVM_sk_prepared s) (EncryptedVM_key_prepared s) (EncryptedVM_interpreter s) (EncryptedVM_output_info s) x (EncryptedVM_max_cycles s) (EncryptedVM_phantom_debug s).

Definition set_EncryptedVM_max_cycles (s : EncryptedVM) (x : usize) : EncryptedVM :=
  mk_EncryptedVM (EncryptedVM_params s) (EncryptedVM_sk_prepared s) (EncryptedVM_key_prepared s) (EncryptedVM_interpreter s) (EncryptedVM_output_info s) (EncryptedVM_ram_offset s) x (EncryptedVM_phantom_debug s).

Definition set_EncryptedVM_phantom_debug (s : EncryptedVM) (x : bool) : EncryptedVM :=
  mk_EncryptedVM (EncryptedVM_params s) (EncryptedVM_sk_prepared s) (EncryptedVM_key_prepared s) (EncryptedVM_interpreter s) (EncryptedVM_output_info s) (EncryptedVM_ram_offset s) (EncryptedVM_max_cycles s) x.

(** compiler/src/interpreter.rs:170-176 *)
Record Phantom := mk_Phantom {
  Phantom_boot_rom : BootMemory;
  Phantom_boot_ram : BootMemory;
  Phantom_output_info : OutputInfo;
  Phantom_input_info : InputInfo;
  Phantom__elf_bytes : (option (list u8)) }.

Definition set_Phantom_boot_rom (s : Phantom) (x : BootMemory) : Phantom :=
  mk_Phantom x (Phantom_boot_ram s) (Phantom_output_info s) (Phantom_input_info s) (Phantom__elf_bytes s).

Definition set_Phantom_boot_ram (s : Phantom) (x : BootMemory) : Phantom :=
  mk_Phantom (Phantom_boot_rom s) x (Phantom_output_info s) (Phantom_input_info s) (Phantom__elf_bytes s).

Definition set_Phantom_output_info (s : Phantom) (x : OutputInfo) : Phantom :=
  mk_Phantom (Phantom_boot_rom s) (Phantom_boot_ram s) x (Phantom_input_info s) (Phantom__elf_bytes s).

Definition set_Phantom_input_info (s : Phantom) (x : InputInfo) : Phantom :=
  mk_Phantom (Phantom_boot_rom s) (Phantom_boot_ram s) (Phantom_output_info s) x (Phantom__elf_bytes s).

Definition set_Phantom__elf_bytes (s : Phantom) (x : (option (list u8))) : Phantom :=
  mk_Phantom (Phantom_boot_rom s) (Phantom_boot_ram s) (Phantom_output_info s) (Phantom_input_info s) x.

(** compiler/src/interpreter.rs:121-138 *)
Definition EncryptedVM_execute (p : Rust.profile) (fuel : nat) (self : EncryptedVM) : option EncryptedVM :=
  t1 <- Rust.shl p (Rust.lit 1) (Rust.lit (t := Rust.I32) 24) ;;
  t2 <- Interpreter_threads_fn L p (EncryptedVM_interpreter self) ;;
  t3 <- Rust.mul p t1 t2 ;;
  t4 <- ScratchOwned_alloc H t3 ;;
  let scratch : ScratchOwned := t4 in
  self <- Rust.for_range (Rust.lit 0) (EncryptedVM_max_cycles self) (fun _current_cycle self => if (EncryptedVM_phantom_debug self)
    then (t7 <- Interpreter_cycle_debug L E p fuel (EncryptedVM_interpreter self) (CryptographicParameters_module E (EncryptedVM_params self)) (EncryptedVM_key_prepared self) (EncryptedVM_sk_prepared self) (ScratchOwned_borrow H scratch) ;;
      let self := (set_EncryptedVM_interpreter self t7) in
      Some self)
    else (t10 <- Interpreter_cycle_fn L E p fuel (EncryptedVM_interpreter self) (CryptographicParameters_module E (EncryptedVM_params self)) (EncryptedVM_key_prepared self) (ScratchOwned_borrow H scratch) ;;
      let self := (set_EncryptedVM_interpreter self t10) in
      Some self)) self ;;
  Some self.

(** compiler/src/interpreter.rs:140-166 *)
Definition EncryptedVM_output_tape (p : Rust.profile) (self : EncryptedVM) : option (EncryptedVM * (list u8)) :=
  t1 <- Rust.shl p (Rust.lit 1) (Rust.lit (t := Rust.I32) 24) ;;
  t2 <- ScratchOwned_alloc H t1 ;;
  let scratch : ScratchOwned := t2 in
  t3 <- Rust.shr p host_RAM_SIZE (Rust.lit (t := Rust.I32) 2) ;;
  let data_decrypted : (list u32) := (Rust.filled (Rust.lit (t := Rust.U32) 0) t3) in
  '(t6, t7) <- Interpreter_ram_decrypt L p (EncryptedVM_interpreter self) (CryptographicParameters_module E (EncryptedVM_params self)) data_decrypted (EncryptedVM_sk_prepared self) (ScratchOwned_borrow H scratch) ;;
  let self := (set_EncryptedVM_interpreter self t6) in
  let data_decrypted := t7 in
  t8 <- Rust.mul p (Rust.len data_decrypted) (Rust.lit 4) ;;
  let mem_bytes := [] in
  mem_bytes <- Rust.for_each data_decrypted (fun word mem_bytes => let mem_bytes := (Rust.push mem_bytes (Rust.cast Rust.U8 (Rust.band word (Rust.lit 255)))) in
    t9 <- Rust.shr p word (Rust.lit (t := Rust.I32) 8) ;;
    let mem_bytes := (Rust.push mem_bytes (Rust.cast Rust.U8 (Rust.band t9 (Rust.lit 255)))) in
    t10 <- Rust.shr p word (Rust.lit (t := Rust.I32) 16) ;;
    let mem_bytes := (Rust.push mem_bytes (Rust.cast Rust.U8 (Rust.band t10 (Rust.lit 255)))) in
    t11 <- Rust.shr p word (Rust.lit (t := Rust.I32) 24) ;;
    let mem_bytes := (Rust.push mem_bytes (Rust.cast Rust.U8 (Rust.band t11 (Rust.lit 255)))) in
    Some mem_bytes) mem_bytes ;;
  let output := [] in
  output <- Rust.for_range (Rust.lit 0) (OutputInfo_size (EncryptedVM_output_info self)) (fun i output => t12 <- Rust.add p (OutputInfo_start_addr (EncryptedVM_output_info self)) i ;;
    t13 <- Rust.sub p t12 (EncryptedVM_ram_offset self) ;;
    t14 <- Rust.rem t13 host_RAM_SIZE ;;
    t15 <- Rust.index mem_bytes t14 ;;
    let output := (Rust.push output t15) in
    Some output) output ;;
  Some (self, output).

(** compiler/src/interpreter.rs:179-283 *)
Definition Phantom_from_elf (p : Rust.profile) (elf_bytes : (list u8)) : option Phantom :=
  t2 <- (ElfBytes_minimal_parse H elf_bytes) ;;
  let elf := t2 in
  t4 <- (ElfBytes_segments H elf) ;;
  t5 <- RustStr.filter t4 (fun ph => Some (Rust.eq (ProgramHeader_p_type ph) abi_PT_LOAD)) ;;
  let phdrs : (list ProgramHeader) := t5 in
  t7 <- RustIter.find phdrs (fun p_ => t6 <- Rust.add p abi_PF_R abi_PF_X ;;
    Some (Rust.eq (ProgramHeader_p_flags p_) t6)) ;;
  t8 <- t7 ;;
  let txthdr := t8 in
  if (Rust.eq (ProgramHeader_p_filesz txthdr) (ProgramHeader_p_memsz txthdr)) then if (Rust.eq (ProgramHeader_p_vaddr txthdr) (Rust.lit 0)) then t9 <- Rust.add p (ProgramHeader_p_offset txthdr) (ProgramHeader_p_memsz txthdr) ;;
  t10 <- RustStr.slice elf_bytes (Rust.cast Rust.USize (ProgramHeader_p_offset txthdr)) (Rust.cast Rust.USize t9) ;;
  t11 <- BootMemory_new p (Rust.cast Rust.USize (ProgramHeader_p_vaddr txthdr)) (Rust.cast Rust.USize (ProgramHeader_p_memsz txthdr)) t10 ;;
  let boot_rom := t11 in
  t14 <- RustStr.filter phdrs (fun p_ => t13 <- (if (Rust.eq (ProgramHeader_p_flags p_) abi_PF_R) then Some true else t12 <- Rust.add p abi_PF_R abi_PF_W ;; Some (Rust.eq (ProgramHeader_p_flags p_) t12)) ;;
    Some t13) ;;
  let hdrs : (list ProgramHeader) := t14 in
  let ram_offset := (Rust.lit 0) in
  let boot_ram_data := (Rust.filled (Rust.lit (t := Rust.U8) 0) host_RAM_SIZE) in
  '(ram_offset, boot_ram_data) <- (if (Rust.gt (Rust.len hdrs) (Rust.lit 0))
    then (t15 <- Rust.index hdrs (Rust.lit 0) ;;
      let t16 := (Rust.cast Rust.USize (ProgramHeader_p_vaddr t15)) in
      let ram_offset := t16 in
      boot_ram_data <- Rust.for_each hdrs (fun ph boot_ram_data => if ((Rust.gt (ProgramHeader_p_memsz ph) (Rust.lit 0)) && (Rust.eq (ProgramHeader_p_filesz ph) (ProgramHeader_p_memsz ph)))
        then (let vaddr := (Rust.cast Rust.USize (ProgramHeader_p_vaddr ph)) in
          t20 <- Rust.sub p vaddr ram_offset ;;
          t21 <- Rust.add p vaddr (Rust.cast Rust.USize (ProgramHeader_p_memsz ph)) ;;
          t22 <- Rust.sub p t21 ram_offset ;;
          t17 <- Rust.add p (ProgramHeader_p_memsz ph) (ProgramHeader_p_offset ph) ;;
          t18 <- RustStr.slice elf_bytes (Rust.cast Rust.USize (ProgramHeader_p_offset ph)) (Rust.cast Rust.USize t17) ;;
          t19 <- Rust.copy_range boot_ram_data t20 t22 t18 ;;
          let boot_ram_data := t19 in
          Some boot_ram_data)
        else (Some boot_ram_data)) boot_ram_data ;;
      Some (ram_offset, boot_ram_data))
    else (Some (ram_offset, boot_ram_data))) ;;
  t23 <- BootMemory_new p ram_offset host_RAM_SIZE boot_ram_data ;;
  let boot_ram := t23 in
  t25 <- (ElfBytes_section_header_by_name H elf (RustStr.str [46; 105; 110; 112; 100; 97; 116; 97])) ;;
  t26 <- t25 ;;
  let inpdata_sec := t26 in
  let input_info := (mk_InputInfo (Rust.cast Rust.USize (SectionHeader_sh_addr inpdata_sec)) (Rust.cast Rust.USize (SectionHeader_sh_size inpdata_sec))) in
  t28 <- (ElfBytes_section_header_by_name H elf (RustStr.str [46; 111; 117; 116; 100; 97; 116; 97])) ;;
  t29 <- t28 ;;
  let outdata_sec := t29 in
  let output_info := (mk_OutputInfo (Rust.cast Rust.USize (SectionHeader_sh_addr outdata_sec)) (Rust.cast Rust.USize (SectionHeader_sh_size outdata_sec))) in
  Some (mk_Phantom boot_rom boot_ram output_info input_info (Some elf_bytes)) else None else None.

(** compiler/src/interpreter.rs:301-410 *)
Definition Phantom_encrypted_vm (p : Rust.profile) (self : Phantom) (input_tape : (list u8)) (max_cycles : usize) : option EncryptedVM :=
  t1 <- Rust.rem (Rust.len (BootMemory_data (Phantom_boot_rom self))) (Rust.lit 4) ;;
  if (Rust.eq t1 (Rust.lit 0)) then t2 <- InstructionsParser_new p  ;;
  let parser := t2 in
  t3 <- RustStr.chunks_exact (BootMemory_data (Phantom_boot_rom self)) (Rust.lit 4) ;;
  t9 <- RustIter.collect t3 (fun four_bytes => let inst := (Rust.lit (t := Rust.U32) 0) in
    inst <- Rust.for_range (Rust.lit 0) (Rust.lit 4) (fun i inst => t4 <- Rust.index four_bytes i ;;
      t5 <- Rust.mul p i (Rust.lit 8) ;;
      t6 <- Rust.shl p (Rust.cast Rust.U32 t4) t5 ;;
      t7 <- Rust.add p inst t6 ;;
      let inst := t7 in
      Some inst) inst ;;
    t8 <- Instruction_new p inst ;;
    Some t8) ;;
  parser <- Rust.for_each t9 (fun i parser => t10 <- InstructionsParser_add p parser i ;;
    let parser := t10 in
    Some parser) parser ;;
  let ram_offset : usize := (BootMemory_offset (Phantom_boot_ram self)) in
  let ram_with_input : (list u8) := (BootMemory_data (Phantom_boot_ram self)) in
  if (Rust.eq (Rust.len input_tape) (InputInfo_size (Phantom_input_info self))) then t12 <- Rust.sub p (InputInfo_start_addr (Phantom_input_info self)) ram_offset ;;
  t13 <- Rust.add p (InputInfo_start_addr (Phantom_input_info self)) (InputInfo_size (Phantom_input_info self)) ;;
  t14 <- Rust.sub p t13 ram_offset ;;
  t11 <- Rust.copy_range ram_with_input t12 t14 input_tape ;;
  let ram_with_input := t11 in
  t15 <- RustStr.chunks_exact ram_with_input (Rust.lit 4) ;;
  t20 <- RustIter.collect t15 (fun four_bytes => let date_u32 := (Rust.lit (t := Rust.U32) 0) in
    date_u32 <- Rust.for_range (Rust.lit 0) (Rust.lit 4) (fun i date_u32 => t16 <- Rust.index four_bytes i ;;
      t17 <- Rust.mul p i (Rust.lit 8) ;;
      t18 <- Rust.shl p (Rust.cast Rust.U32 t16) t17 ;;
      t19 <- Rust.add p date_u32 t18 ;;
      let date_u32 := t19 in
      Some date_u32) date_u32 ;;
    Some date_u32) ;;
  let ram_data_u32 := t20 in
  t22 <- RustStr.map_option (env_var H (RustStr.str [80; 72; 65; 78; 84; 79; 77; 95; 86; 69; 82; 66; 79; 83; 69; 95; 84; 73; 77; 73; 78; 71; 83])) (fun val => Some ((RustIter.eq_list val (RustStr.str [49])) || (RustStr.eq_ignore_ascii_case val (RustStr.str [116; 114; 117; 101])))) ;;
  let verbose_timings := (RustStr.unwrap_or t22 false) in
  let default_threads := num_cpus_get_physical H in
  t25 <- RustStr.map_option (env_var H (RustStr.str [80; 72; 65; 78; 84; 79; 77; 95; 84; 72; 82; 69; 65; 68; 83])) (fun val => Some (RustStr.unwrap_or (RustStr.parse_usize val) default_threads)) ;;
  let threads := (RustStr.unwrap_or t25 default_threads) in
  t27 <- RustStr.map_option (env_var H (RustStr.str [80; 72; 65; 78; 84; 79; 77; 95; 68; 69; 66; 85; 71])) (fun val => Some ((RustIter.eq_list val (RustStr.str [49])) || (RustStr.eq_ignore_ascii_case val (RustStr.str [116; 114; 117; 101])))) ;;
  let phantom_debug := (RustStr.unwrap_or t27 false) in
  let params := CryptographicParameters_new H in
  let source_xs : Source := (Source_new H (Rust.filled (Rust.lit (t := Rust.U8) 0) (Rust.lit 32))) in
  let source_xa : Source := (Source_new H (Rust.filled (Rust.lit (t := Rust.U8) 0) (Rust.lit 32))) in
  let source_xe : Source := (Source_new H (Rust.filled (Rust.lit (t := Rust.U8) 0) (Rust.lit 32))) in
  t32 <- Rust.shl p (Rust.lit 1) (Rust.lit (t := Rust.I32) 24) ;;
  t33 <- ScratchOwned_alloc H t32 ;;
  let scratch : ScratchOwned := t33 in
  let sk_glwe : GLWESecret := (GLWESecret_alloc H (CryptographicParameters_n_glwe H params) (CryptographicParameters_rank H params)) in
  '(t37, t38) <- GLWESecret_fill_ternary_prob H sk_glwe (0, 5) source_xs ;;
  let sk_glwe := t37 in
  let source_xs := t38 in
  let sk_lwe : LWESecret := (LWESecret_alloc H (CryptographicParameters_n_lwe H params)) in
  '(t42, t43) <- LWESecret_fill_binary_block H sk_lwe (CryptographicParameters_lwe_block_size H params) source_xs ;;
  let sk_lwe := t42 in
  let source_xs := t43 in
  t44 <- (if phantom_debug
    then (t45 <- Rust.shr p (BootMemory_size (Phantom_boot_rom self)) (Rust.lit (t := Rust.I32) 2) ;;
      t46 <- Rust.shr p (BootMemory_size (Phantom_boot_ram self)) (Rust.lit (t := Rust.I32) 2) ;;
      t47 <- Interpreter_new_with_debug L E p params t45 t46 ;;
      Some t47)
    else (t48 <- Rust.shr p (BootMemory_size (Phantom_boot_rom self)) (Rust.lit (t := Rust.I32) 2) ;;
      t49 <- Rust.shr p (BootMemory_size (Phantom_boot_ram self)) (Rust.lit (t := Rust.I32) 2) ;;
      t50 <- Interpreter_new L E p params t48 t49 ;;
      Some t50)) ;;
  let interpreter : Interpreter := t44 in
  let sk_prepared : Secret := (Secret_alloc H (CryptographicParameters_module E params) (CryptographicParameters_rank H params)) in
  t55 <- Secret_prepare H sk_prepared (CryptographicParameters_module E params) sk_glwe ;;
  let sk_prepared := t55 in
  '(t58, t59, t60) <- Interpreter_instructions_encrypt_sk L p interpreter (CryptographicParameters_module E params) parser sk_prepared source_xa source_xe (ScratchOwned_borrow H scratch) ;;
  let interpreter := t58 in
  let source_xa := t59 in
  let source_xe := t60 in
  '(t61, t62, t63) <- VMKeys_encrypt_sk H params sk_lwe sk_glwe source_xa source_xe ;;
  let source_xa := t61 in
  let source_xe := t62 in
  let key : VMKeys := t63 in
  let key_prepared : Keys := (Keys_alloc H params) in
  t67 <- Keys_prepare H key_prepared (CryptographicParameters_module E params) key (ScratchOwned_borrow H scratch) ;;
  let key_prepared := t67 in
  '(t70, t71, t72) <- Interpreter_ram_encrypt_sk L p interpreter (CryptographicParameters_module E params) ram_data_u32 sk_prepared source_xa source_xe (ScratchOwned_borrow H scratch) ;;
  let interpreter := t70 in
  let source_xa := t71 in
  let source_xe := t72 in
  t73 <- Interpreter_set_verbose_timings L p interpreter verbose_timings ;;
  let interpreter := t73 in
  t74 <- Interpreter_set_threads L p interpreter threads ;;
  let interpreter := t74 in
  Some (mk_EncryptedVM params sk_prepared key_prepared interpreter (Phantom_output_info self) (BootMemory_offset (Phantom_boot_ram self)) max_cycles phantom_debug) else None else None.

(** compiler/src/interpreter.rs:412-420 *)
Definition Phantom_test_vm (p : Rust.profile) (self : Phantom) (max_cycles : usize) : option TestVM :=
  t1 <- TestVM_init p (Phantom_boot_rom self) (Phantom_boot_ram self) (Phantom_input_info self) (Phantom_output_info self) max_cycles ;;
  Some t1.

End Text.

Arguments mk_EncryptedVM {L E}.
Arguments EncryptedVM_params {L E}. Arguments set_EncryptedVM_params {L E}.
Arguments EncryptedVM_sk_prepared {L E}. Arguments set_EncryptedVM_sk_prepared {L E}.
Arguments EncryptedVM_key_prepared {L E}. Arguments set_EncryptedVM_key_prepared {L E}.
Arguments EncryptedVM_interpreter {L E}. Arguments set_EncryptedVM_interpreter {L E}.
Arguments EncryptedVM_output_info {L E}. Arguments set_EncryptedVM_output_info {L E}.
Arguments EncryptedVM_ram_offset {L E}. Arguments set_EncryptedVM_ram_offset {L E}.
Arguments EncryptedVM_max_cycles {L E}. Arguments set_EncryptedVM_max_cycles {L E}.
Arguments EncryptedVM_phantom_debug {L E}. Arguments set_EncryptedVM_phantom_debug {L E}.
