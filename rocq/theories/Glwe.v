(** * The homomorphic operations used by the VM

    The FHE library (poulpy) is outside /repo.  The VM's code is modelled over
    an abstract signature [alg] of the library operations it calls, so that
    nothing in it can depend on the content of a ciphertext.  [Ideal log_n] is
    the ideal functionality: a ciphertext is its message, without noise or
    keys.  [Ideal] is part of the trusted base (DESIGN.md section 2). *)
Require Import ZArith List Bool.
Require Import Verif.Word Verif.Bdd.
Require Import Verif.CircLui Verif.CircJalr Verif.CircAuipc Verif.CircRamOffset Verif.CircPcUpdate.
Import ListNotations.
Open Scope Z_scope.

(** two-operand circuits: the library's word operations (rd_update.rs:115-133),
    and those of fhevm/src/codegen (rd_update.rs:19-44, ram_offset.rs:17-54). *)
Inductive circ2 :=
| KAdd | KSub | KSll | KSlt | KSltu | KXor | KSrl | KSra | KOr | KAnd
| KLui | KJalr | KAuipc | KRamOffset.

(** [ct]: GLWE ciphertext of a polynomial; [pb]: prepared (GGSW) bit;
    [fu]: [FheUint<u32>]. *)
Record alg (ct pb fu : Type) := {
  log_n : nat;                              (* module.log_n() *)
  a_zero : ct;                              (* GLWE::alloc_from_infos: zero ciphertext *)
  a_rot : Z -> ct -> ct;                    (* glwe_rotate_inplace *)
  a_trace : ct -> ct;                       (* glwe_trace(.., 0, ..) *)
  a_add : ct -> ct -> ct;                   (* glwe_add_inplace *)
  a_sub : ct -> ct -> ct;                   (* glwe_sub_inplace *)
  a_crot : pb -> Z -> ct -> ct;             (* rotation by k under an encrypted bit *)
  a_cswap : pb -> ct -> ct -> ct * ct;      (* swap under an encrypted bit *)
  a_retrieve : list pb -> list ct -> ct;    (* GLWEBlindRetriever::retrieve *)
  a_pack : list ct -> fu;                   (* FheUint::pack *)
  a_bit : fu -> nat -> ct;                  (* FheUint::get_bit_glwe *)
  a_boot : fu -> nat -> pb;                 (* get_bit_lwe + execute_to_constant + prepare *)
  a_pzero : pb;                             (* zeroed prepared bit *)
  a_fzero : fu;                             (* FheUint::alloc_from_infos: zero *)
  a_select : list (nat * fu) -> list pb -> fu;  (* glwe_blind_selection *)
  a_ident : list pb -> fu;                  (* FheUint::identity / from_fhe_uint_prepared *)
  a_circ2 : circ2 -> list pb -> list pb -> fu;
  a_pcup : list pb -> list pb -> list pb -> list pb -> list pb -> fu;
  a_zero_byte : nat -> fu -> fu;
  a_sext : nat -> fu -> fu;
  a_splice8 : nat -> nat -> fu -> fu -> fu;
  a_splice16 : nat -> nat -> fu -> fu -> fu }.

Arguments log_n {ct pb fu}. Arguments a_zero {ct pb fu}. Arguments a_rot {ct pb fu}.
Arguments a_trace {ct pb fu}. Arguments a_add {ct pb fu}. Arguments a_sub {ct pb fu}.
Arguments a_crot {ct pb fu}. Arguments a_cswap {ct pb fu}. Arguments a_retrieve {ct pb fu}.
Arguments a_pack {ct pb fu}. Arguments a_bit {ct pb fu}. Arguments a_boot {ct pb fu}.
Arguments a_pzero {ct pb fu}. Arguments a_fzero {ct pb fu}. Arguments a_select {ct pb fu}.
Arguments a_ident {ct pb fu}. Arguments a_circ2 {ct pb fu}. Arguments a_pcup {ct pb fu}.
Arguments a_zero_byte {ct pb fu}. Arguments a_sext {ct pb fu}. Arguments a_splice8 {ct pb fu}.
Arguments a_splice16 {ct pb fu}.

(** ** the ideal functionality *)
(** [module.n()] *)
Definition ring (log : nat) : nat := (2 ^ log)%nat.
(** a polynomial of degree below [N = ring log], [X^N = -1]. *)
Notation poly := (list Z).
Definition zero_poly (log : nat) : poly := repeat 0 (ring log).
(** [X^k * p] *)
Definition rotate (log : nat) (k : Z) (p : poly) : poly :=
  let n := ring log in
  map (fun i =>
         let j := Z.to_nat ((Z.of_nat i - k) mod (2 * Z.of_nat n)) in
         if (j <? n)%nat then nth j p 0 else - nth (j - n) p 0) (seq 0 n).
(** the constant coefficient, as a polynomial *)
Definition const_poly (log : nat) (c : Z) : poly :=
  map (fun i => if (i =? 0)%nat then c else 0) (seq 0 (ring log)).
Definition padd (p q : poly) : poly := map (fun xy => fst xy + snd xy) (combine p q).
Definition psub (p q : poly) : poly := map (fun xy => fst xy - snd xy) (combine p q).

(** the value of a list of bits, least significant first *)
Definition bits_val (bs : list bool) : nat :=
  fold_right (fun (b : bool) acc => (if b then 1 else 0) + 2 * acc)%nat 0%nat bs.

(** the encryption of a word; a bit is set iff its coefficient is 1
    (memory.rs:101). *)
Definition fhe_of_word (w : Z) : list Z :=
  map (fun i => Z.b2z (Z.testbit w (Z.of_nat i))) (seq 0 32).
Definition boot (c : Z) : bool := c =? 1.
Definition decrypt_word (c : list Z) : Z := pack_bits (map boot c).

(** A [HashMap] given by its insertions: the last one with a key counts. *)
Fixpoint find_key {A} (k : nat) (m : list (nat * A)) : option A :=
  match m with
  | [] => None
  | (k', x) :: r =>
      match find_key k r with Some y => Some y | None => if (k =? k')%nat then Some x else None end
  end.

(** The library's word operations: 32-bit arithmetic, shifts by the low five
    bits, comparisons giving 0 or 1.  The circuits of fhevm/src/codegen are
    evaluated gate by gate ([Bdd]). *)
Definition circ2_word (k : circ2) (a b : Z) : option Z :=
  match k with
  | KAdd => Some (wadd a b)
  | KSub => Some (wsub a b)
  | KSll => Some (shl32 a (Z.land b 31))
  | KSlt => Some (b2w (i32 a <? i32 b))
  | KSltu => Some (b2w (a <? b))
  | KXor => Some (Z.lxor a b)
  | KSrl => Some (shr32 a (Z.land b 31))
  | KSra => Some (sar32 a (Z.land b 31))
  | KOr => Some (Z.lor a b)
  | KAnd => Some (Z.land a b)
  | KLui => eval_circuit lui_circuit (inp2 a b)
  | KJalr => eval_circuit jalr_circuit (inp2 a b)
  | KAuipc => eval_circuit auipc_circuit (inp2 a b)
  | KRamOffset => eval_circuit ram_offset_circuit (inp2 a b)
  end.
(** an evaluation that reads an undefined slot yields no coefficients at all. *)
Definition fhe_of_option (o : option Z) : list Z :=
  match o with Some w => fhe_of_word w | None => [] end.

(** [zero_byte(k)]; [sext(k)]: byte [k] is the top byte kept;
    [splice(dst, src, a, b)]: piece [dst] of [a] replaced by piece [src] of [b]. *)
Definition zero_byte (k : nat) (c : list Z) : list Z :=
  map (fun i => if (i / 8 =? k)%nat then 0 else nth i c 0) (seq 0 32).
Definition sext_byte (k : nat) (c : list Z) : list Z :=
  map (fun i => if (i / 8 <=? k)%nat then nth i c 0 else nth (8 * k + 7) c 0) (seq 0 32).
Definition splice (size dst src : nat) (a b : list Z) : list Z :=
  map (fun i => if (i / size =? dst)%nat then nth (i - dst * size + src * size) b 0 else nth i a 0) (seq 0 32).

Definition Ideal (log : nat) : alg poly bool (list Z) := {|
  log_n := log;
  a_zero := zero_poly log;
  a_rot := rotate log;
  a_trace := fun p => const_poly log (nth 0 p 0);
  a_add := padd;
  a_sub := psub;
  a_crot := fun (b : bool) k p => if b then rotate log k p else p;
  a_cswap := fun (b : bool) x y => if b then (y, x) else (x, y);
  a_retrieve := fun bs data => nth (bits_val bs) data (zero_poly log);
  a_pack := fun ps : list poly => map (fun p : poly => nth 0 p 0) ps;
  a_bit := fun w i => const_poly log (nth i w 0);
  a_boot := fun w i => boot (nth i w 0);
  a_pzero := false;
  a_fzero := repeat 0 32;
  a_select := fun m sel => match find_key (bits_val sel) m with Some c => c | None => repeat 0 32 end;
  a_ident := map Z.b2z;
  a_circ2 := fun k a b => fhe_of_option (circ2_word k (pack_bits a) (pack_bits b));
  a_pcup := fun op rs1 rs2 pc imm =>
    fhe_of_option (eval_circuit pc_update_circuit
      (inp_pc (pack_bits op) (pack_bits rs1) (pack_bits rs2) (pack_bits pc) (pack_bits imm)));
  a_zero_byte := zero_byte;
  a_sext := sext_byte;
  a_splice8 := splice 8;
  a_splice16 := splice 16 |}.

(** ** composite library operations *)
(** indexed write, no effect out of range *)
Fixpoint upd {A} (l : list A) (n : nat) (x : A) : list A :=
  match l, n with
  | [], _ => []
  | _ :: t, O => x :: t
  | h :: t, S n' => h :: upd t n' x
  end.

Section Composite.
Context {ct pb fu : Type} (A : alg ct pb fu).

(** [glwe_blind_rotation_inplace(p, addr, sign, rsh, mask, 0)]: one
    conditional rotation by [2^i] per address bit, to the left ([X^-]) for
    [sign = false], to the right for [sign = true] (called at memory.rs:574-582,
    628-636, 700-708, 771-779, 790-798).  [None]: an address bit that does not
    exist. *)
Definition blind_rotate (sign : bool) (addr : list pb) (rsh mask : nat) (p : ct) : option ct :=
  assert (rsh + mask <=? length addr)%nat;
  Some (fold_left (fun p i =>
          a_crot A (nth (rsh + i) addr (a_pzero A))
            (if sign then 2 ^ Z.of_nat i else - 2 ^ Z.of_nat i) p)
        (seq 0 mask) p).

(** one level of the swap network *)
Definition swap (b : pb) (i j : nat) (l : list ct) : list ct :=
  match nth_error l i, nth_error l j with
  | Some x, Some y => let (x', y') := a_cswap A b x y in upd (upd l i x') j y'
  | _, _ => l
  end.
Definition swap_level (b : pb) (t : nat) (l : list ct) : list ct :=
  fold_left (fun l j => if (j + t <? length l)%nat then swap b j (j + t) l else l) (seq 0 t) l.
(** [glwe_blind_retrieval_statefull(data, addr, rsh, mask)] (called at
    memory.rs:620-626, 763-769): levels from the most significant address bit
    down; [_rev] (memory.rs:710-716, 801-807): the same levels in the opposite
    order. *)
Definition net (addr : list pb) (rsh : nat) (ls : list nat) (l : list ct) : list ct :=
  fold_left (fun l i => swap_level (nth (rsh + i) addr (a_pzero A)) (2 ^ i) l) ls l.
Definition retrieval_statefull (addr : list pb) (rsh mask : nat) (l : list ct) : option (list ct) :=
  assert (rsh + mask <=? length addr)%nat; Some (net addr rsh (rev (seq 0 mask)) l).
Definition retrieval_statefull_rev (addr : list pb) (rsh mask : nat) (l : list ct) : option (list ct) :=
  assert (rsh + mask <=? length addr)%nat; Some (net addr rsh (seq 0 mask) l).

(** [retriever.retrieve(res, data, addr, rsh)] (called at memory.rs:565-572):
    uses as many address bits as indexing [data] takes. *)
Definition blind_retrieve (data : list ct) (addr : list pb) (rsh : nat) : option ct :=
  let k := Nat.log2_up (length data) in
  assert ((k =? 0) || (rsh + k <=? length addr))%nat; Some (a_retrieve A (firstn k (skipn rsh addr)) data).

(** [glwe_blind_selection(res, map, sel, rsh, mask)] (called at
    ram_update.rs:96,110; interpreter.rs:1158-1165,1305-1312) *)
Definition blind_select (m : list (nat * fu)) (sel : list pb) (rsh mask : nat) : option fu :=
  assert (rsh + mask <=? length sel)%nat; Some (a_select A m (firstn mask (skipn rsh sel))).
End Composite.
