(** * The cleartext reference VM

    Model of compiler/src/interpreter/testvm.rs.  Panics are [None].
    [chk] tells whether arithmetic overflow checks are compiled in (debug
    profile); without them unsigned arithmetic wraps.  Printing is omitted. *)
Require Import ZArith List Bool.
From Verif Require Import Word.
Import ListNotations.
Open Scope Z_scope.

(** testvm.rs:5-10 ([_is_write] is never read) *)
Record memory := { data : list Z; offset : Z; size : Z }.

(** testvm.rs:13-20 *)
Definition mem_new (off sz : Z) : memory :=
  {| data := repeat 0 (Z.to_nat sz); offset := off; size := sz |}.

(** [a - b] on [usize] *)
Definition usub (chk : bool) (a b : Z) : option Z :=
  if b <=? a then Some (a - b) else if chk then None else Some (u64 (a - b)).
(** [i % size]; panics for [size = 0] *)
Definition index (m : memory) (i : Z) : option nat :=
  if size m =? 0 then None else Some (Z.to_nat (i mod size m)).
Definition set_byte (m : memory) (i : nat) (v : Z) : option memory :=
  do d <- set_nth (data m) i v;
  Some {| data := d; offset := offset m; size := size m |}.

(** testvm.rs:22-25 *)
Definition write_byte (chk : bool) (m : memory) (addr v : Z) : option memory :=
  do a <- usub chk addr (offset m); do i <- index m a; set_byte m i v.

(** testvm.rs:27-33 and 35-41: the loop body, byte [i] of [v] *)
Definition write_nth (chk : bool) (v addr : Z) (om : option memory) (i : Z) : option memory :=
  do m <- om;
  do a <- usub chk (addr + i) (offset m); do k <- index m a;
  set_byte m k (Z.land (Z.shiftr v (i * 8)) 255).
Definition write_half (chk : bool) (m : memory) (addr v : Z) : option memory :=
  fold_left (write_nth chk v addr) [0; 1] (Some m).
Definition write_word (chk : bool) (m : memory) (addr v : Z) : option memory :=
  fold_left (write_nth chk v addr) [0; 1; 2; 3] (Some m).

(** testvm.rs:43-46; slicing and [clone_from_slice] panic unless the range is
    inside the vector *)
Definition load_memory (chk : bool) (m : memory) (start_at : Z) (values : list Z) : option memory :=
  do s <- usub chk start_at (offset m);
  assert (s + Z.of_nat (length values) <=? Z.of_nat (length (data m)));
  Some {| data := firstn (Z.to_nat s) (data m) ++ values ++
                  skipn (Z.to_nat s + length values) (data m);
          offset := offset m; size := size m |}.

(** testvm.rs:48-50 *)
Definition read_byte (chk : bool) (m : memory) (addr : Z) : option Z :=
  do a <- usub chk addr (offset m); do i <- index m a; nth_error (data m) i.

(** testvm.rs:52-63 and 65-77: loop body.  [(addr - offset) + i] may wrap
    without checks. *)
Definition read_nth (chk : bool) (m : memory) (addr : Z) (acc : option Z) (i : Z) : option Z :=
  do o <- acc;
  do a <- usub chk addr (offset m);
  do k <- index m (u64 (a + i));
  do b <- nth_error (data m) k;
  Some (o + Z.shiftl b (i * 8)).
Definition read_half (chk : bool) (m : memory) (addr : Z) : option Z :=
  assert (addr mod 2 =? 0);
  fold_left (read_nth chk m addr) [0; 1] (Some 0).
Definition read_word (chk : bool) (m : memory) (addr : Z) : option Z :=
  assert (addr mod 4 =? 0);
  fold_left (read_nth chk m addr) [0; 1; 2; 3] (Some 0).

(** testvm.rs:80-144 *)
Inductive inst :=
| ADD (rs1 rs2 rd : Z) | SUB (rs1 rs2 rd : Z) | SLL (rs1 rs2 rd : Z) | SLT (rs1 rs2 rd : Z)
| SLTU (rs1 rs2 rd : Z) | XOR (rs1 rs2 rd : Z) | SRL (rs1 rs2 rd : Z) | SRA (rs1 rs2 rd : Z)
| OR (rs1 rs2 rd : Z) | AND (rs1 rs2 rd : Z)
| ADDI (rs1 rd imm : Z) | SLTI (rs1 rd imm : Z) | SLTIU (rs1 rd imm : Z) | XORI (rs1 rd imm : Z)
| ORI (rs1 rd imm : Z) | ANDI (rs1 rd imm : Z) | SLLI (rs1 rd sh : Z) | SRLI (rs1 rd sh : Z)
| SRAI (rs1 rd sh : Z)
| MUL (rs1 rs2 rd : Z) | MULH (rs1 rs2 rd : Z) | MULHSU (rs1 rs2 rd : Z) | MULHU (rs1 rs2 rd : Z)
| DIV (rs1 rs2 rd : Z) | DIVU (rs1 rs2 rd : Z) | REM (rs1 rs2 rd : Z) | REMU (rs1 rs2 rd : Z)
| LUI (rd imm : Z) | AUIPC (rd imm : Z)
| JAL (rd off : Z) | JALR (rs1 rd imm : Z)
| BEQ (rs1 rs2 imm : Z) | BNE (rs1 rs2 imm : Z) | BLT (rs1 rs2 imm : Z) | BGE (rs1 rs2 imm : Z)
| BLTU (rs1 rs2 imm : Z) | BGEU (rs1 rs2 imm : Z)
| LB (rs1 rd imm : Z) | LH (rs1 rd imm : Z) | LW (rs1 rd imm : Z) | LBU (rs1 rd imm : Z)
| LHU (rs1 rd imm : Z)
| SB (rs1 rs2 imm : Z) | SH (rs1 rs2 imm : Z) | SW (rs1 rs2 imm : Z).

(** testvm.rs:1176-1178 *)
Definition extract_bits (v bits : Z) : Z := Z.land v (shl32 1 bits - 1).
(** testvm.rs:1180-1189; the sum never overflows for the calls made (the
    assertion holds), so it is written with wrap-around *)
Definition sign_extend (v bitlen : Z) : option Z :=
  assert (Z.shiftr v bitlen =? 0);
  let msb := Z.land (Z.shiftr v (bitlen - 1)) 1 in
  Some (fold_left (fun o i => u32 (o + shl32 msb (Z.of_nat i)))
          (seq (Z.to_nat bitlen) (32 - Z.to_nat bitlen)) v).

(** testvm.rs:206-391.  [RegisterIndex::from] asserts an index below 32, which
    5 extracted bits always satisfy; it is not repeated here. *)
Definition decode_inst (w : Z) : option inst :=
  let opcode := extract_bits w 7 in
  let ex s k := extract_bits (Z.shiftr w s) k in
  let rd := ex 7 5 in
  let rs1 := ex 15 5 in
  let rs2 := ex 20 5 in
  let f3 := ex 12 3 in
  let bit30 := Z.land (Z.shiftr w 30) 1 in
  if opcode =? 0x13 then
    do imm <- sign_extend (ex 20 12) 12;
    if f3 =? 0 then Some (ADDI rs1 rd imm)
    else if f3 =? 2 then Some (SLTI rs1 rd imm)
    else if f3 =? 3 then Some (SLTIU rs1 rd imm)
    else if f3 =? 4 then Some (XORI rs1 rd imm)
    else if f3 =? 6 then Some (ORI rs1 rd imm)
    else if f3 =? 7 then Some (ANDI rs1 rd imm)
    else let shift := ex 20 5 in
      if f3 =? 1 then Some (SLLI rs1 rd shift)
      else if f3 =? 5 then
        if bit30 =? 0 then Some (SRLI rs1 rd shift) else Some (SRAI rs1 rd shift)
      else None
  else if opcode =? 0x37 then Some (LUI rd (shl32 (ex 12 20) 12))
  else if opcode =? 0x17 then Some (AUIPC rd (shl32 (ex 12 20) 12))
  else if opcode =? 0x33 then
    if Z.land (Z.shiftr w 25) 1 =? 0 then
      if f3 =? 0 then
        if bit30 =? 0 then Some (ADD rs1 rs2 rd) else Some (SUB rs1 rs2 rd)
      else if f3 =? 1 then Some (SLL rs1 rs2 rd)
      else if f3 =? 2 then Some (SLT rs1 rs2 rd)
      else if f3 =? 3 then Some (SLTU rs1 rs2 rd)
      else if f3 =? 4 then Some (XOR rs1 rs2 rd)
      else if f3 =? 6 then Some (OR rs1 rs2 rd)
      else if f3 =? 7 then Some (AND rs1 rs2 rd)
      else if f3 =? 5 then
        if bit30 =? 0 then Some (SRL rs1 rs2 rd) else Some (SRA rs1 rs2 rd)
      else None
    else
      if f3 =? 0 then Some (MUL rs1 rs2 rd)
      else if f3 =? 1 then Some (MULH rs1 rs2 rd)
      else if f3 =? 2 then Some (MULHSU rs1 rs2 rd)
      else if f3 =? 3 then Some (MULHU rs1 rs2 rd)
      else if f3 =? 4 then Some (DIV rs1 rs2 rd)
      else if f3 =? 5 then Some (DIVU rs1 rs2 rd)
      else if f3 =? 6 then Some (REM rs1 rs2 rd)
      else if f3 =? 7 then Some (REMU rs1 rs2 rd)
      else None
  else if opcode =? 0x6F then
    do imm <- sign_extend (shl32 (ex 21 10) 1 + shl32 (ex 20 1) 11
                           + shl32 (ex 12 8) 12 + shl32 (ex 31 1) 20) 21;
    Some (JAL rd imm)
  else if (opcode =? 0x67) && (f3 =? 0) then
    do imm <- sign_extend (ex 20 12) 12; Some (JALR rs1 rd imm)
  else if opcode =? 0x63 then
    do imm <- sign_extend (shl32 (ex 8 4) 1 + shl32 (ex 25 6) 5
                           + shl32 (ex 7 1) 11 + shl32 (ex 31 1) 12) 13;
    if f3 =? 0 then Some (BEQ rs1 rs2 imm)
    else if f3 =? 1 then Some (BNE rs1 rs2 imm)
    else if f3 =? 4 then Some (BLT rs1 rs2 imm)
    else if f3 =? 5 then Some (BGE rs1 rs2 imm)
    else if f3 =? 6 then Some (BLTU rs1 rs2 imm)
    else if f3 =? 7 then Some (BGEU rs1 rs2 imm)
    else None
  else if opcode =? 0x03 then
    do imm <- sign_extend (ex 20 12) 12;
    if f3 =? 0 then Some (LB rs1 rd imm)
    else if f3 =? 1 then Some (LH rs1 rd imm)
    else if f3 =? 2 then Some (LW rs1 rd imm)
    else if f3 =? 4 then Some (LBU rs1 rd imm)
    else if f3 =? 5 then Some (LHU rs1 rd imm)
    else None
  else if opcode =? 0x23 then
    do imm <- sign_extend (ex 7 5 + shl32 (ex 25 7) 5) 12;
    if f3 =? 0 then Some (SB rs1 rs2 imm)
    else if f3 =? 1 then Some (SH rs1 rs2 imm)
    else if f3 =? 2 then Some (SW rs1 rs2 imm)
    else None
  else None.

(** testvm.rs:164-179 *)
Record io_info := { start_addr : Z; io_size : Z }.
Record vm := {
  registers : list Z;
  rom : memory;
  ram : memory;
  pc : Z;
  input_info : io_info;
  output_info : io_info;
  max_cycles : nat }.

Definition with_cpu (s : vm) (r : list Z) (m : memory) (p : Z) : vm :=
  {| registers := r; rom := rom s; ram := m; pc := p; input_info := input_info s;
     output_info := output_info s; max_cycles := max_cycles s |}.

(** testvm.rs:182-204 *)
Definition init (chk : bool) (rom_off rom_size : Z) (rom_data : list Z)
    (ram_off ram_size : Z) (ram_data : list Z) (inp out : io_info) (cycles : nat) : option vm :=
  do ro <- load_memory chk (mem_new rom_off rom_size) rom_off rom_data;
  do ra <- load_memory chk (mem_new ram_off ram_size) ram_off ram_data;
  Some {| registers := repeat 0 32%nat; rom := ro; ram := ra; pc := 0; input_info := inp;
          output_info := out; max_cycles := cycles |}.

(** testvm.rs:393-395 *)
Definition register (s : vm) (r : Z) : option Z := nth_error (registers s) (Z.to_nat r).

(** [self.pc += 4] *)
Definition pc4 (chk : bool) (p : Z) : option Z :=
  if p + 4 <? 4294967296 then Some (p + 4) else if chk then None else Some (u32 (p + 4)).

(** [*self.register_mut(rd) = v; self.pc += 4] *)
Definition set_rd (chk : bool) (s : vm) (rd v : Z) : option vm :=
  do r <- set_nth (registers s) (Z.to_nat rd) v;
  do p <- pc4 chk (pc s);
  Some (with_cpu s r (ram s) p).
(** [assert!(jump_target % 4 == 0); ...; self.pc = jump_target] *)
Definition link (chk : bool) (s : vm) (rd target : Z) : option vm :=
  assert (target mod 4 =? 0);
  do r <- set_nth (registers s) (Z.to_nat rd) (wadd (pc s) 4);
  Some (with_cpu s r (ram s) target).
Definition branch (chk : bool) (s : vm) (b : bool) (imm : Z) : option vm :=
  let target := wadd imm (pc s) in
  if b then assert (target mod 4 =? 0); Some (with_cpu s (registers s) (ram s) target)
  else do p <- pc4 chk (pc s); Some (with_cpu s (registers s) (ram s) p).
(** [(addr % 4 == 0) || ((addr - 1) % 4 == 0) || ((addr - 2) % 4 == 0)];
    the subtractions are only evaluated when they cannot underflow *)
Definition half_ok (addr : Z) : bool :=
  (addr mod 4 =? 0) || ((addr - 1) mod 4 =? 0) || ((addr - 2) mod 4 =? 0).
Definition stored (chk : bool) (s : vm) (om : option memory) : option vm :=
  do m <- om; do p <- pc4 chk (pc s); Some (with_cpu s (registers s) m p).

(** native [/] and [%] on [i32]: panic for a zero divisor and for
    [i32::MIN / -1] whatever the profile *)
Definition i32_div (a b : Z) : option Z :=
  if (b =? 0) || ((a =? -2147483648) && (b =? -1)) then None else Some (Z.quot a b).
Definition i32_rem (a b : Z) : option Z :=
  if (b =? 0) || ((a =? -2147483648) && (b =? -1)) then None else Some (Z.rem a b).
Definition u32_div (a b : Z) : option Z := if b =? 0 then None else Some (Z.quot a b).
Definition u32_rem (a b : Z) : option Z := if b =? 0 then None else Some (Z.rem a b).

(** testvm.rs:424-1145, the [match] *)
Definition exec (chk : bool) (s : vm) (i : inst) : option vm :=
  let x := register s in
  let alu rs1 rs2 rd (f : Z -> Z -> Z) :=
    do a <- x rs1; do b <- x rs2; set_rd chk s rd (f a b) in
  let alui rs1 rd (f : Z -> Z) := do a <- x rs1; set_rd chk s rd (f a) in
  let br rs1 rs2 imm (f : Z -> Z -> bool) :=
    do a <- x rs1; do b <- x rs2; branch chk s (f a b) imm in
  match i with
  | ADDI rs1 rd imm => alui rs1 rd (fun a => wadd a imm)
  | SLTI rs1 rd imm => alui rs1 rd (fun a => b2w (i32 a <? i32 imm))
  | SLTIU rs1 rd imm => alui rs1 rd (fun a => b2w (a <? imm))
  | XORI rs1 rd imm => alui rs1 rd (fun a => Z.lxor a imm)
  | ORI rs1 rd imm => alui rs1 rd (fun a => Z.lor a imm)
  | ANDI rs1 rd imm => alui rs1 rd (fun a => Z.land a imm)
  | SLLI rs1 rd sh => alui rs1 rd (fun a => shl32 a sh)
  | SRLI rs1 rd sh => alui rs1 rd (fun a => shr32 a sh)
  | SRAI rs1 rd sh => alui rs1 rd (fun a => sar32 a sh)
  | LUI rd imm => set_rd chk s rd imm
  | AUIPC rd imm => set_rd chk s rd (wadd imm (pc s))
  | ADD rs1 rs2 rd => alu rs1 rs2 rd wadd
  | SUB rs1 rs2 rd => alu rs1 rs2 rd wsub
  | SLL rs1 rs2 rd => alu rs1 rs2 rd (fun a b => shl32 a (extract_bits b 5))
  | SLT rs1 rs2 rd => alu rs1 rs2 rd (fun a b => b2w (i32 a <? i32 b))
  | SLTU rs1 rs2 rd => alu rs1 rs2 rd (fun a b => b2w (a <? b))
  | XOR rs1 rs2 rd => alu rs1 rs2 rd Z.lxor
  | OR rs1 rs2 rd => alu rs1 rs2 rd Z.lor
  | AND rs1 rs2 rd => alu rs1 rs2 rd Z.land
  | SRL rs1 rs2 rd => alu rs1 rs2 rd (fun a b => shr32 a (extract_bits b 5))
  | SRA rs1 rs2 rd => alu rs1 rs2 rd (fun a b => sar32 a (extract_bits b 5))
  | JAL rd off => link chk s rd (wadd (pc s) off)
  | JALR rs1 rd imm => do a <- x rs1; link chk s rd (shl32 (shr32 (wadd a imm) 1) 1)
  | BEQ rs1 rs2 imm => br rs1 rs2 imm Z.eqb
  | BNE rs1 rs2 imm => br rs1 rs2 imm (fun a b => negb (a =? b))
  | BLT rs1 rs2 imm => br rs1 rs2 imm (fun a b => i32 a <? i32 b)
  | BLTU rs1 rs2 imm => br rs1 rs2 imm Z.ltb
  | BGE rs1 rs2 imm => br rs1 rs2 imm (fun a b => i32 a >=? i32 b)
  | BGEU rs1 rs2 imm => br rs1 rs2 imm Z.geb
  | LB rs1 rd imm =>
      do a <- x rs1; do b <- read_byte chk (ram s) (wadd a imm);
      do v <- sign_extend b 8; set_rd chk s rd v
  | LH rs1 rd imm =>
      do a <- x rs1; let addr := wadd a imm in
      assert (half_ok addr);
      do h <- read_half chk (ram s) addr; do v <- sign_extend h 16; set_rd chk s rd v
  | LW rs1 rd imm =>
      do a <- x rs1; let addr := wadd a imm in
      assert (addr mod 4 =? 0);
      do v <- read_word chk (ram s) addr; set_rd chk s rd v
  | LBU rs1 rd imm =>
      do a <- x rs1; do b <- read_byte chk (ram s) (wadd a imm); set_rd chk s rd b
  | LHU rs1 rd imm =>
      do a <- x rs1; let addr := wadd a imm in
      assert (half_ok addr);
      do h <- read_half chk (ram s) addr; set_rd chk s rd h
  | SB rs1 rs2 imm =>
      do a <- x rs1; do b <- x rs2;
      stored chk s (write_byte chk (ram s) (wadd a imm) (extract_bits b 8))
  | SH rs1 rs2 imm =>
      do a <- x rs1; do b <- x rs2; let addr := wadd a imm in
      assert (half_ok addr);
      stored chk s (write_half chk (ram s) addr (extract_bits b 16))
  | SW rs1 rs2 imm =>
      do a <- x rs1; do b <- x rs2; let addr := wadd a imm in
      assert (addr mod 4 =? 0);
      stored chk s (write_word chk (ram s) addr b)
  | MUL rs1 rs2 rd => alu rs1 rs2 rd wmul
  | MULH rs1 rs2 rd =>
      alu rs1 rs2 rd (fun a b => u32 (Z.shiftr (u64 (i64 (i32 a * i32 b))) 32))
  | MULHU rs1 rs2 rd => alu rs1 rs2 rd (fun a b => u32 (Z.shiftr (u64 (a * b)) 32))
  | MULHSU rs1 rs2 rd =>
      alu rs1 rs2 rd (fun a b => u32 (Z.shiftr (u64 (i64 (i32 a * b))) 32))
  | DIV rs1 rs2 rd =>
      do a <- x rs1; do b <- x rs2; do q <- i32_div (i32 a) (i32 b); set_rd chk s rd (u32 q)
  | DIVU rs1 rs2 rd =>
      do a <- x rs1; do b <- x rs2; do q <- u32_div a b; set_rd chk s rd q
  | REM rs1 rs2 rd =>
      do a <- x rs1; do b <- x rs2; do q <- i32_rem (i32 a) (i32 b); set_rd chk s rd (u32 q)
  | REMU rs1 rs2 rd =>
      do a <- x rs1; do b <- x rs2; do q <- u32_rem a b; set_rd chk s rd q
  end.

(** testvm.rs:413-1149 *)
Definition run (chk : bool) (s : vm) : option vm :=
  do w <- read_word chk (rom s) (pc s);
  do i <- decode_inst w;
  do s' <- exec chk s i;
  do r <- set_nth (registers s') 0 0;
  Some (with_cpu s' r (ram s') (pc s')).

(** testvm.rs:404-411 *)
Fixpoint run_n (chk : bool) (n : nat) (s : vm) : option vm :=
  match n with
  | O => Some s
  | S n' => do s' <- run chk s; run_n chk n' s'
  end.
Definition execute (chk : bool) (s : vm) : option vm := run_n chk (max_cycles s) s.

(** testvm.rs:1151-1158 *)
Definition read_input_tape (chk : bool) (s : vm) (tape : list Z) : option vm :=
  assert (Z.of_nat (length tape) =? io_size (input_info s));
  do m <- load_memory chk (ram s) (start_addr (input_info s)) tape;
  Some (with_cpu s (registers s) m (pc s)).

(** testvm.rs:1160-1173 *)
Fixpoint mapM {A B} (f : A -> option B) (l : list A) : option (list B) :=
  match l with
  | [] => Some []
  | h :: t => do x <- f h; do r <- mapM f t; Some (x :: r)
  end.
Definition output_tape (chk : bool) (s : vm) : option (list Z) :=
  mapM (fun i => read_byte chk (ram s) (start_addr (output_info s) + Z.of_nat i))
    (seq 0 (Z.to_nat (io_size (output_info s)))).
