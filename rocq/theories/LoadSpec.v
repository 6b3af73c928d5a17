(** * What loading an image should do *)
Require Import ZArith List Bool.
Require Import Verif.Word Verif.Isa Verif.Loader Verif.RunSpec Verif.TestRunSpec.
Require Verif.Codec Verif.DecodeSpec Verif.DebugVM Verif.Glwe Verif.EncMem Verif.EncVM.
Import ListNotations.
Open Scope Z_scope.

Definition is_u32 (x : Z) : Prop := 0 <= x < 2 ^ 32.
(** the fields of a 32-bit ELF file *)
Definition phdr_ok (h : phdr) : Prop :=
  is_u32 (p_offset h) /\ is_u32 (p_vaddr h) /\ is_u32 (p_filesz h) /\ is_u32 (p_memsz h).
Definition info_ok (i : T.io_info) : Prop := is_u32 (T.start_addr i) /\ is_u32 (T.io_size i).
Definition elf_ok (e : elf) : Prop :=
  Forall is_byte (e_bytes e) /\ Forall phdr_ok (e_phdrs e) /\
  (forall i, e_inpdata e = Some i -> info_ok i) /\ (forall i, e_outdata e = Some i -> info_ok i).

(** a loadable segment with permissions read or read-write *)
Definition data_segment (e : elf) (h : phdr) : Prop :=
  In h (e_phdrs e) /\ p_type h = 1 /\ (p_flags h = 4 \/ p_flags h = 6).
(** address [a] is one of the bytes of the segment present in the file, and that byte *)
Definition in_file (h : phdr) (a : Z) : Prop := p_vaddr h <= a < p_vaddr h + p_filesz h.
Definition file_byte (e : elf) (h : phdr) (a : Z) : option Z :=
  nth_error (e_bytes e) (Z.to_nat (p_offset h + (a - p_vaddr h))).
(** the byte at address [a] of the RAM image *)
Definition ram_at (ph : phantom) (a : Z) : option Z :=
  if b_offset (boot_ram ph) <=? a then nth_error (b_data (boot_ram ph)) (Z.to_nat (a - b_offset (boot_ram ph))) else None.

(** every byte the file has for a data segment is in RAM at its address *)
Definition all_loaded (e : elf) (ph : phantom) : Prop :=
  forall h a, data_segment e h -> in_file h a -> ram_at ph a = file_byte e h a.
(** RAM bytes the file has nothing for are zero *)
Definition rest_zero (e : elf) (ph : phantom) : Prop :=
  forall a b, ram_at ph a = Some b -> (forall h, data_segment e h -> ~ in_file h a) -> b = 0.
(** the file has as many bytes for the segment as the segment has in memory *)
Definition whole (h : phdr) : Prop := p_filesz h = p_memsz h.

(** bytes [bs] with [tape] put at position [k] *)
Definition with_tape (bs : list Z) (k : Z) (tape : list Z) (i : nat) : option Z :=
  if (k <=? Z.of_nat i) && (Z.of_nat i <? k + Z.of_nat (length tape))
  then nth_error tape (i - Z.to_nat k) else nth_error bs i.

(** the decoded tables, as the key owner decrypts them *)
Definition dec_rom (v : EncVM.evm Glwe.poly bool (list Z)) : option DebugVM.roms :=
  let n := EncVM.v_rom_size v in
  let d m := EncMem.mem_decrypt m (repeat 0 n) in
  let r := EncVM.v_rom v in
  do a <- d (EncVM.e_imm r); do b <- d (EncVM.e_rs1 r); do c <- d (EncVM.e_rs2 r); do e <- d (EncVM.e_rd r);
  do f <- d (EncVM.e_rdu r); do g <- d (EncVM.e_mu r); do h <- d (EncVM.e_pcu r);
  Some {| DebugVM.imm_rom := a; DebugVM.rs1_rom := b; DebugVM.rs2_rom := c; DebugVM.rd_rom := e;
          DebugVM.rdu_rom := f; DebugVM.mu_rom := g; DebugVM.pcu_rom := h |}.
(** entry [k] of the tables is what the decoder returns for the word [w] *)
Definition row_of (dbg : bool) (r : DebugVM.roms) (k : nat) (w : Z) : Prop :=
  exists o1 o2 o3 rs2 rs1 rd imm, DecodeSpec.decoded dbg w (o1, o2, o3) (rs2, rs1, rd) imm /\
    nth_error (DebugVM.imm_rom r) k = Some imm /\
    nth_error (DebugVM.rs1_rom r) k = Some rs1 /\ nth_error (DebugVM.rs2_rom r) k = Some rs2 /\
    nth_error (DebugVM.rd_rom r) k = Some rd /\ nth_error (DebugVM.rdu_rom r) k = Some (Codec.rd_id o1) /\
    nth_error (DebugVM.mu_rom r) k = Some (Codec.ram_id o2) /\ nth_error (DebugVM.pcu_rom r) k = Some (Codec.pc_id o3).

(** ** starting a program *)
(** the tape has the declared size and the input section lies in RAM *)
Definition input_fits (ph : phantom) (tape : list Z) : Prop :=
  Z.of_nat (length tape) = T.io_size (inp_info ph) /\ b_offset (boot_ram ph) <= T.start_addr (inp_info ph) /\
  T.start_addr (inp_info ph) + T.io_size (inp_info ph) <= b_offset (boot_ram ph) + RAM_SIZE.
Definition output_fits (ph : phantom) : Prop :=
  b_offset (boot_ram ph) <= T.start_addr (out_info ph) /\
  T.start_addr (out_info ph) + T.io_size (out_info ph) <= b_offset (boot_ram ph) + RAM_SIZE.
(** the RISC-V machine the image and the tape describe: the tape in the input
    section, the data segments elsewhere *)
Definition boot_mem (ph : phantom) (tape : list Z) (a : Z) : Z :=
  let k := a - T.start_addr (inp_info ph) in
  match (if (0 <=? k) && (k <? Z.of_nat (length tape)) then nth_error tape (Z.to_nat k) else ram_at ph a) with
  | Some b => b
  | None => 0
  end.
Definition boot_machine (ph : phantom) (tape : list Z) : mach :=
  {| m_pc := 0; m_rf := fun _ => 0; m_mem := boot_mem ph tape |}.

(** The supported set: RV32I instructions whose accesses stay in RAM (at
    [off]), whose loads are word aligned, whose stores are naturally aligned,
    that load no negative byte with LB, jump at most 2^19 bytes away with JAL,
    and only jump to multiples of four. *)
Definition supported (off : Z) (i : instr) (m : mach) : Prop :=
  match i with
  | LOAD k _ rs1 o => let a := ea m rs1 o in
      off <= a /\ a + ld_size k <= off + RAM_SIZE /\ a mod 4 = 0 /\ (k = LB -> m_mem m a < 128)
  | STORE k rs1 _ o => let a := ea m rs1 o in
      off <= a /\ a + st_size k <= off + RAM_SIZE /\ a mod st_size k = 0
  | OPM _ _ _ _ => False
  | JAL _ o => - 2 ^ 19 <= o < 2 ^ 19 /\ m_pc (isa_step i m) mod 4 = 0
  | JALR _ _ _ | BRANCH _ _ _ _ => m_pc (isa_step i m) mod 4 = 0
  | _ => True
  end.
(** the output section of the machine's memory *)
Definition output_of (ph : phantom) (m : mach) : list Z :=
  map (fun i => m_mem m (T.start_addr (out_info ph) + Z.of_nat i)) (seq 0 (Z.to_nat (T.io_size (out_info ph)))).
