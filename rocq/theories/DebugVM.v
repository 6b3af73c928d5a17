(** * The plaintext shadow VM

    Model of fhevm/src/debug.rs.  Panics (failed assertion, index out of
    bounds, missing key in a map) are [None].  [dbg] selects
    [debug_assertions] in the instruction accessors. *)
Require Import ZArith List Bool.
From Verif Require Import Word Codec EvalPlain.
Import ListNotations.
Open Scope Z_scope.

(** debug.rs:10-16: the seven instruction tables *)
Record roms := {
  imm_rom : list Z; rs1_rom : list Z; rs2_rom : list Z; rd_rom : list Z;
  rdu_rom : list Z; mu_rom : list Z; pcu_rom : list Z }.
(** debug.rs:19-30: the values latched during a cycle *)
Record latches := {
  ram_addr : Z; imm : Z; rs1_val : Z; rs2_val : Z; ram_val : Z; rd_val : Z;
  rs1_addr : Z; rs2_addr : Z; rd_addr : Z; rdu : Z; pcu : Z; mu : Z }.
(** debug.rs:5-31 *)
Record dvm := {
  ram_size : Z; rom_size : Z; dpc : Z; drom : roms;
  dregs : list Z; dram : list Z; lat : latches }.

(** debug.rs:34-61 *)
Definition dvm_new (rom_sz ram_sz : nat) : dvm :=
  let z := repeat 0 rom_sz in
  {| ram_size := u32 (Z.of_nat ram_sz); rom_size := u32 (Z.of_nat rom_sz); dpc := 0;
     drom := {| imm_rom := z; rs1_rom := z; rs2_rom := z; rd_rom := z; rdu_rom := z;
                mu_rom := z; pcu_rom := z |};
     dregs := repeat 0 32%nat; dram := repeat 0 ram_sz;
     lat := {| ram_addr := 0; imm := 0; rs1_val := 0; rs2_val := 0; ram_val := 0; rd_val := 0;
               rs1_addr := 0; rs2_addr := 0; rd_addr := 0; rdu := 0; pcu := 0; mu := 0 |} |}.

(** debug.rs:63-76, one iteration of the loop: the decoded components of a raw
    word [(imm, rs1, rs2, rd, rdu, mu, pcu)] *)
Definition components (dbg : bool) (w : Z) : option (Z * Z * Z * Z * Z * Z * Z) :=
  do im <- get_imm dbg w;
  do (rs2, rs1, rd) <- get_registers dbg w;
  do (o1, o2, o3) <- get_opid dbg w;
  Some (im, rs1, rs2, rd, rd_id o1, ram_id o2, pc_id o3).
Fixpoint fill (dbg : bool) (ws : list Z) : option roms :=
  match ws with
  | [] => Some {| imm_rom := []; rs1_rom := []; rs2_rom := []; rd_rom := []; rdu_rom := [];
                  mu_rom := []; pcu_rom := [] |}
  | w :: t =>
      do (im, rs1, rs2, rd, a, b, c) <- components dbg w;
      do r <- fill dbg t;
      Some {| imm_rom := im :: imm_rom r; rs1_rom := rs1 :: rs1_rom r; rs2_rom := rs2 :: rs2_rom r;
              rd_rom := rd :: rd_rom r; rdu_rom := a :: rdu_rom r; mu_rom := b :: mu_rom r;
              pcu_rom := c :: pcu_rom r |}
  end.
(** debug.rs:63-76.  The loop runs over all entries and the assertion makes the
    lengths equal, so the tables are replaced as a whole. *)
Definition set_instructions (dbg : bool) (s : dvm) (p : parser) : option dvm :=
  assert (Nat.eqb (length (imm_rom (drom s))) (length (p_ins p)));
  assert (Nat.leb (length (p_ins p)) (length (p_raw p))); (* [get_raw(i)] in bounds *)
  do r <- fill dbg (firstn (length (p_ins p)) (p_raw p));
  Some {| ram_size := ram_size s; rom_size := rom_size s; dpc := dpc s; drom := r;
          dregs := dregs s; dram := dram s; lat := lat s |}.

(** debug.rs:78-81 *)
Definition set_ram (s : dvm) (d : list Z) : option dvm :=
  assert (Nat.eqb (length (dram s)) (length d));
  Some {| ram_size := ram_size s; rom_size := rom_size s; dpc := dpc s; drom := drom s;
          dregs := dregs s; dram := d; lat := lat s |}.

Definition with_lat (s : dvm) (l : latches) : dvm :=
  {| ram_size := ram_size s; rom_size := rom_size s; dpc := dpc s; drom := drom s;
     dregs := dregs s; dram := dram s; lat := l |}.

(** debug.rs:83-92 *)
Definition read_instructions (s : dvm) : option dvm :=
  let i := Z.to_nat (Z.shiftr (dpc s) 2) in
  let r := drom s in
  do v_imm <- nth_error (imm_rom r) i;
  do v_rs1 <- nth_error (rs1_rom r) i;
  do v_rs2 <- nth_error (rs2_rom r) i;
  do v_rd <- nth_error (rd_rom r) i;
  do v_rdu <- nth_error (rdu_rom r) i;
  do v_pcu <- nth_error (pcu_rom r) i;
  do v_mu <- nth_error (mu_rom r) i;
  let l := lat s in
  Some (with_lat s {| ram_addr := ram_addr l; imm := v_imm; rs1_val := rs1_val l;
    rs2_val := rs2_val l; ram_val := ram_val l; rd_val := rd_val l; rs1_addr := v_rs1;
    rs2_addr := v_rs2; rd_addr := v_rd; rdu := v_rdu; pcu := v_pcu; mu := v_mu |}).

(** debug.rs:94-97 *)
Definition read_registers (s : dvm) : option dvm :=
  let l := lat s in
  do a <- nth_error (dregs s) (Z.to_nat (rs1_addr l));
  do b <- nth_error (dregs s) (Z.to_nat (rs2_addr l));
  Some (with_lat s {| ram_addr := ram_addr l; imm := imm l; rs1_val := a;
    rs2_val := b; ram_val := ram_val l; rd_val := rd_val l; rs1_addr := rs1_addr l;
    rs2_addr := rs2_addr l; rd_addr := rd_addr l; rdu := rdu l; pcu := pcu l; mu := mu l |}).

(** [(ram_addr >> 2) as usize % ram_size as usize]; panics when the size is 0 *)
Definition ram_index (s : dvm) (a : Z) : option nat :=
  if ram_size s =? 0 then None else Some (Z.to_nat (Z.shiftr a 2 mod ram_size s)).

(** debug.rs:99-102 *)
Definition read_ram (s : dvm) : option dvm :=
  let l := lat s in
  let a := wsub (wadd (imm l) (rs1_val l)) (shl32 1 18) in
  do i <- ram_index s a;
  do v <- nth_error (dram s) i;
  Some (with_lat s {| ram_addr := a; imm := imm l; rs1_val := rs1_val l;
    rs2_val := rs2_val l; ram_val := v; rd_val := rd_val l; rs1_addr := rs1_addr l;
    rs2_addr := rs2_addr l; rd_addr := rd_addr l; rdu := rdu l; pcu := pcu l; mu := mu l |}).

(** The [HashMap] built by a loop of [insert], then looked up: every operation
    of the list is evaluated (and may panic) before the lookup; the last entry
    with the key wins. *)
Fixpoint build_map {A} (id : A -> Z) (ev : A -> option Z) (ops : list A) (m : list (Z * Z))
    : option (list (Z * Z)) :=
  match ops with
  | [] => Some m
  | o :: t => do v <- ev o; build_map id ev t ((id o, v) :: m)
  end.
Fixpoint lookup (k : Z) (m : list (Z * Z)) : option Z :=
  match m with
  | [] => None
  | (k', v) :: t => if k =? k' then Some v else lookup k t
  end.

(** debug.rs:104-121 *)
Definition update_registers (ops : list rd_op) (s : dvm) : option dvm :=
  let l := lat s in
  do m <- build_map rd_id (fun o => rd_eval o (imm l) (rs1_val l) (rs2_val l) (dpc s) (ram_val l)) ops [];
  do v <- lookup (rdu l) m;
  do r <- set_nth (dregs s) (Z.to_nat (rd_addr l)) v;
  do r' <- set_nth r 0 0;
  Some {| ram_size := ram_size s; rom_size := rom_size s; dpc := dpc s; drom := drom s;
          dregs := r'; dram := dram s;
          lat := {| ram_addr := ram_addr l; imm := imm l; rs1_val := rs1_val l;
            rs2_val := rs2_val l; ram_val := ram_val l; rd_val := v; rs1_addr := rs1_addr l;
            rs2_addr := rs2_addr l; rd_addr := rd_addr l; rdu := rdu l; pcu := pcu l; mu := mu l |} |}.

(** debug.rs:123-135 *)
Definition update_ram (s : dvm) : option dvm :=
  let l := lat s in
  let off := Z.land (ram_addr l) 3 in
  do m <- build_map ram_id (fun o => Some (ram_eval o (rs2_val l) (ram_val l) off)) RAM_LIST [];
  do v <- lookup (mu l) m;
  do i <- ram_index s (ram_addr l);
  do d <- set_nth (dram s) i v;
  Some {| ram_size := ram_size s; rom_size := rom_size s; dpc := dpc s; drom := drom s;
          dregs := dregs s; dram := d;
          lat := {| ram_addr := ram_addr l; imm := imm l; rs1_val := rs1_val l;
            rs2_val := rs2_val l; ram_val := v; rd_val := rd_val l; rs1_addr := rs1_addr l;
            rs2_addr := rs2_addr l; rd_addr := rd_addr l; rdu := rdu l; pcu := pcu l; mu := mu l |} |}.

(** debug.rs:137-149 *)
Definition update_pc (s : dvm) : option dvm :=
  let l := lat s in
  do m <- build_map pc_id (fun o => Some (pc_eval o (imm l) (rs1_val l) (rs2_val l) (dpc s))) PC_LIST [];
  do v <- lookup (pcu l) m;
  Some {| ram_size := ram_size s; rom_size := rom_size s; dpc := v; drom := drom s;
          dregs := dregs s; dram := dram s; lat := l |}.

(** One cycle: the calls at fhevm/src/interpreter.rs:778, 961, 1058, 1203, 1348
    and 1417, in the order of the stages in [cycle_internal] (interpreter.rs:553-608). *)
Definition dcycle (ops : list rd_op) (s : dvm) : option dvm :=
  do s <- read_instructions s;
  do s <- read_registers s;
  do s <- read_ram s;
  do s <- update_registers ops s;
  do s <- update_ram s;
  update_pc s.
Fixpoint dcycles (ops : list rd_op) (n : nat) (s : dvm) : option dvm :=
  match n with
  | O => Some s
  | S n' => do s' <- dcycle ops s; dcycles ops n' s'
  end.
