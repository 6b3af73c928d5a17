(** * Plans: what a run does, without the data

    Expressions over the library operations whose leaves are positions in the
    encrypted state.  They contain no branch: an expression is a fixed sequence
    of operations. *)
Require Import ZArith List Bool.
Require Import Verif.Word Verif.Glwe Verif.EncMem Verif.EncVM.
Import ListNotations.
Open Scope nat_scope.

(** the memories of the machine *)
Inductive store := S_imm | S_rs1 | S_rs2 | S_rd | S_rdu | S_mu | S_pcu | S_regs | S_ram.

Inductive cexp :=
| CCell (s : store) (plane poly : nat)     (* a ciphertext of the initial state *)
| CZero | CRot (k : Z) (x : cexp) | CTrace (x : cexp) | CAdd (x y : cexp) | CSub (x y : cexp)
| CRotBit (b : pexp) (k : Z) (x : cexp)
| CSwapL (b : pexp) (x y : cexp) | CSwapR (b : pexp) (x y : cexp)
| CRetrieve (bs : list pexp) (l : list cexp) | CBit (w : fexp) (i : nat)
with pexp :=
| PPc (i : nat)                            (* a prepared pc bit of the initial state *)
| PZero | PBoot (w : fexp) (i : nat)
with fexp :=
| FPc                                      (* the encrypted pc of the initial state *)
| FZero | FPack (l : list cexp) | FSelect (m : list (nat * fexp)) (bs : list pexp) | FIdent (bs : list pexp)
| FCirc2 (k : circ2) (a b : list pexp) | FPcup (a b c d e : list pexp)
| FZeroByte (k : nat) (w : fexp) | FSext (k : nat) (w : fexp)
| FSplice8 (i j : nat) (v w : fexp) | FSplice16 (i j : nat) (v w : fexp).

(** the implementation that only records *)
Definition Syntax (log : nat) : alg cexp pexp fexp := {|
  log_n := log; a_zero := CZero; a_rot := CRot; a_trace := CTrace; a_add := CAdd; a_sub := CSub; a_crot := CRotBit;
  a_cswap := fun b x y => (CSwapL b x y, CSwapR b x y); a_retrieve := CRetrieve; a_pack := FPack; a_bit := CBit;
  a_boot := PBoot; a_pzero := PZero; a_fzero := FZero; a_select := FSelect; a_ident := FIdent; a_circ2 := FCirc2;
  a_pcup := FPcup; a_zero_byte := FZeroByte; a_sext := FSext; a_splice8 := FSplice8; a_splice16 := FSplice16 |}.

(** ** carrying out an expression with a given implementation *)
Section Eval.
Context {ct pb fu : Type} (B : alg ct pb fu) (cell : store -> nat -> nat -> ct) (pcb : nat -> pb) (pc : fu).
Fixpoint cval (e : cexp) : ct :=
  match e with
  | CCell s i j => cell s i j
  | CZero => a_zero B
  | CRot k x => a_rot B k (cval x)
  | CTrace x => a_trace B (cval x)
  | CAdd x y => a_add B (cval x) (cval y)
  | CSub x y => a_sub B (cval x) (cval y)
  | CRotBit b k x => a_crot B (pval b) k (cval x)
  | CSwapL b x y => fst (a_cswap B (pval b) (cval x) (cval y))
  | CSwapR b x y => snd (a_cswap B (pval b) (cval x) (cval y))
  | CRetrieve bs l => a_retrieve B (map pval bs) (map cval l)
  | CBit w i => a_bit B (fval w) i
  end
with pval (e : pexp) : pb :=
  match e with
  | PPc i => pcb i
  | PZero => a_pzero B
  | PBoot w i => a_boot B (fval w) i
  end
with fval (e : fexp) : fu :=
  match e with
  | FPc => pc
  | FZero => a_fzero B
  | FPack l => a_pack B (map cval l)
  | FSelect m bs => a_select B (map (fun kw => match kw with (k, w) => (k, fval w) end) m) (map pval bs)
  | FIdent bs => a_ident B (map pval bs)
  | FCirc2 k a b => a_circ2 B k (map pval a) (map pval b)
  | FPcup a b c d e => a_pcup B (map pval a) (map pval b) (map pval c) (map pval d) (map pval e)
  | FZeroByte k w => a_zero_byte B k (fval w)
  | FSext k w => a_sext B k (fval w)
  | FSplice8 i j v w => a_splice8 B i j (fval v) (fval w)
  | FSplice16 i j v w => a_splice16 B i j (fval v) (fval w)
  end.
End Eval.

(** ** replacing the ciphertexts of a machine; the shadow VM is dropped *)
Section Map.
Context {ct pb fu ct' pb' fu' : Type} (f : store -> nat -> nat -> ct -> ct') (g : nat -> pb -> pb') (h : fu -> fu').
Fixpoint mapi {X Y} (k : nat -> X -> Y) (i : nat) (l : list X) : list Y :=
  match l with [] => [] | x :: r => k i x :: mapi k (S i) r end.
Definition map_mem (s : store) (m : memory ct) : memory ct' :=
  Memory (mapi (fun i b => BitArray (mapi (f s i) 0 (ba_data b)) (ba_bits b)) 0 (m_planes m)) (m_size m) (m_bits m) (m_state m).
Definition map_vm (v : evm ct pb fu) : evm ct' pb' fu' := {|
  v_cycle := v_cycle v; v_debug := None; v_rom_bits := v_rom_bits v; v_rom_size := v_rom_size v;
  v_rom := let r := v_rom v in
    ERoms (map_mem S_imm (e_imm r)) (map_mem S_rs1 (e_rs1 r)) (map_mem S_rs2 (e_rs2 r)) (map_mem S_rd (e_rd r))
          (map_mem S_rdu (e_rdu r)) (map_mem S_mu (e_mu r)) (map_mem S_pcu (e_pcu r));
  v_regs := map_mem S_regs (v_regs v); v_ram_bits := v_ram_bits v; v_ram_size := v_ram_size v; v_ram := map_mem S_ram (v_ram v);
  v_pc := h (v_pc v); v_pcp := mapi g 0 (v_pcp v) |}.
End Map.

(** the public part of a machine: sizes, numbers of ciphertexts, state flags,
    cycle number *)
Definition public {ct pb fu} (v : evm ct pb fu) : evm unit unit unit :=
  map_vm (fun _ _ _ _ => tt) (fun _ _ => tt) (fun _ => tt) v.
(** every ciphertext named by its position *)
Definition named (p : evm unit unit unit) : evm cexp pexp fexp :=
  map_vm (fun s i j _ => CCell s i j) (fun i _ => PPc i) (fun _ => FPc) p.
(** the plan of a run: computed from public data only *)
Definition plan (log : nat) (chk : bool) (es : list env) (p : evm unit unit unit) : option (evm cexp pexp fexp) :=
  ecycles (Syntax log) None chk es (named p).

(** what is at a position of a machine *)
Definition mem_of {ct pb fu} (v : evm ct pb fu) (s : store) : memory ct :=
  let r := v_rom v in
  match s with
  | S_imm => e_imm r | S_rs1 => e_rs1 r | S_rs2 => e_rs2 r | S_rd => e_rd r | S_rdu => e_rdu r | S_mu => e_mu r
  | S_pcu => e_pcu r | S_regs => v_regs v | S_ram => v_ram v
  end.
Definition cell_of {ct pb fu} (B : alg ct pb fu) (v : evm ct pb fu) (s : store) (i j : nat) : ct :=
  match nth_error (m_planes (mem_of v s)) i with Some b => nth j (ba_data b) (a_zero B) | None => a_zero B end.
Definition pcb_of {ct pb fu} (B : alg ct pb fu) (v : evm ct pb fu) (i : nat) : pb := nth i (v_pcp v) (a_pzero B).
(** carrying out a plan, starting from [v] *)
Definition carry_out {ct pb fu} (B : alg ct pb fu) (v : evm ct pb fu) (x : evm cexp pexp fexp) : evm ct pb fu :=
  map_vm (fun _ _ _ => cval B (cell_of B v) (pcb_of B v) (v_pc v)) (fun _ => pval B (cell_of B v) (pcb_of B v) (v_pc v))
         (fval B (cell_of B v) (pcb_of B v) (v_pc v)) x.
Definition without_shadow {ct pb fu} (v : evm ct pb fu) : evm ct pb fu :=
  {| v_cycle := v_cycle v; v_debug := None; v_rom_bits := v_rom_bits v; v_rom_size := v_rom_size v; v_rom := v_rom v;
     v_regs := v_regs v; v_ram_bits := v_ram_bits v; v_ram_size := v_ram_size v; v_ram := v_ram v; v_pc := v_pc v; v_pcp := v_pcp v |}.
