(** * The operations on words the translated text is run with

    An instance of [RustEng.engine] beside the library of TextLib.v: the
    operations on encrypted words are those of [alg] (Glwe.v), over which the
    model of the encrypted machine is written, and they take the bytes of
    scratch space CycleScratch.v counts.  What the instance adds:

    - words and prepared words carry their layout, a prepared bit too;
    - a bit taken from scratch space has no value until something is written to
      it, and reading it is a panic;
    - a circuit is evaluated from the bits its helper gives ([bdd]);
    - the entries of a map come in any order ([shuffle]).

    It cites no line of the repository: it stands for the library. *)
Require Import ZArith List Bool Permutation.
From Verif Require Import Rust RustIter RustLib RustEng TextLib.
Require Verif.Word Verif.Codec Verif.Glwe Verif.Prepare Verif.Scratch Verif.CycleScratch.
Module G := Verif.Glwe.
Module Y := Verif.CycleScratch.
Import ListNotations.
Open Scope Z_scope.

(** bytes of scratch space, as functions of the layouts and the number of threads *)
Record word_space (GL KL SL : Type) := {
  w_bits : Z -> Z -> SL -> GL -> KL -> Z;    (* fhe_uint_prepare_tmp_bytes *)
  w_block : KL -> Z;                         (* cbt.block_size() *)
  w_ggsw : SL -> Z; w_lwe : GL -> Z;         (* take_ggsw, take_lwe *)
  w_bit_lwe : GL -> KL -> Z;                 (* get_bit_lwe *)
  w_cbt : KL -> Z;                           (* execute_to_constant *)
  w_fill : SL -> Z;                          (* prepare *)
  w_prepare : Z -> Z -> SL -> GL -> KL -> Z; (* prepare_custom_multi_thread: bits, threads *)
  w_circuit : Circuits -> Z -> Z;            (* execute_bdd_circuit_multi_thread *)
  w_word2 : G.circ2 -> Z -> GL -> SL -> SL -> KL -> Z; (* the circuits of two words *)
  w_identity : Z -> GL -> SL -> KL -> Z;     (* identity_multi_thread *)
  w_zero_byte : GL -> KL -> Z; w_sext : GL -> KL -> Z;
  w_splice8 : GL -> GL -> GL -> KL -> Z; w_splice16 : GL -> GL -> GL -> KL -> Z;
  w_blind : Z -> GL -> SL -> Z;              (* glwe_blind_selection by that many bits *)
  w_dec_bits : SL -> KL -> Z; w_dec : GL -> Z (* decrypt *) }.
Arguments w_bits {GL KL SL}. Arguments w_block {GL KL SL}. Arguments w_ggsw {GL KL SL}.
Arguments w_lwe {GL KL SL}. Arguments w_bit_lwe {GL KL SL}. Arguments w_cbt {GL KL SL}.
Arguments w_fill {GL KL SL}. Arguments w_prepare {GL KL SL}. Arguments w_circuit {GL KL SL}.
Arguments w_word2 {GL KL SL}. Arguments w_identity {GL KL SL}. Arguments w_zero_byte {GL KL SL}.
Arguments w_sext {GL KL SL}. Arguments w_splice8 {GL KL SL}. Arguments w_splice16 {GL KL SL}.
Arguments w_blind {GL KL SL}. Arguments w_dec_bits {GL KL SL}. Arguments w_dec {GL KL SL}.

(** the layouts the parameters give *)
Record layouts (GL SL : Type) := { i_rom : GL; i_ram : GL; i_word : GL; i_prepared : SL }.
Arguments i_rom {GL SL}. Arguments i_ram {GL SL}. Arguments i_word {GL SL}. Arguments i_prepared {GL SL}.

Section Eng.
Context {ct pb fu GL KL SL Src : Type}.
Variable A : G.alg ct pb fu.
Variable sp : space GL KL SL.
Variable garbage : Z -> nat -> ct.
Variable garbage_i64 : Z -> nat -> int I64.
Variable gl_n : GL -> Z.
Variable enc : Z -> list Z -> ct.
Variable dec : Z -> ct -> list Z.
Variable next : Src -> Src.
Variable sw : word_space GL KL SL.
(** the output bits of a circuit, from its input bits; decryption of words *)
Variable bdd : Circuits -> list pb -> list ct.
Variable dec_word : fu -> Z.
Variable dec_prepared : list pb -> Z.
(** the order in which a [HashMap] gives its entries *)
Variable shuffle : list (nat * fu) -> list (nat * fu).
Notation L := (lib A sp garbage garbage_i64 gl_n enc dec next).

Definition some_word (l : GL) (x : fu) : GL * fu := (l, x).
(** the circuit of two words *)
Definition word2 (k : G.circ2) (r : GL * fu) (threads : int USize) (a b : SL * list pb) (kl : KL) (s : Z) : option (GL * fu) :=
  given s (w_word2 sw k (val threads) (fst r) (fst a) (fst b) kl) (Some (fst r, G.a_circ2 A k (snd a) (snd b))).
(** the tables of fhevm/src/codegen that are circuits of two words *)
Definition table2 (c : Circuits) : option G.circ2 :=
  match c with
  | codegen_lui => Some G.KLui | codegen_jalr => Some G.KJalr | codegen_auipc => Some G.KAuipc
  | codegen_ram_offset => Some G.KRamOffset | codegen_pc_update => None
  end.

Definition eng : engine L := Build_engine L
  (SL * pb) (option pb) (option pb) KL KL KL (layouts GL SL)
  i_rom i_ram i_word i_prepared (fun _ => tt)
  (* FheUint_alloc_from_infos, FheUintPrepared_alloc_from_infos *)
  (fun l => (l, G.a_fzero A))
  (fun _ sl => (sl, repeat (G.a_pzero A) 32))
  (* FheUint_decrypt, FheUintPrepared_decrypt *)
  (fun w _ _ s => given s (w_dec sw (fst w)) (Some (Int (dec_word (snd w)))))
  (fun w _ _ k s => given s (w_dec_bits sw (fst w) k) (Some (Int (dec_prepared (snd w)))))
  (* FheUintPrepared_get_bit, put_bit, get_bits, put_bits *)
  (fun w i => option_map (pair (fst w)) (nth_error (snd w) (nat_of i)))
  (fun w i b => option_map (pair (fst w)) (Verif.Word.set_nth (snd w) (nat_of i) (snd b)))
  (fun w a n => if (nat_of a + nat_of n <=? length (snd w))%nat
     then Some (map (pair (fst w)) (firstn (nat_of n) (skipn (nat_of a) (snd w)))) else None)
  (fun w a n bs => if (nat_of a + nat_of n <=? length (snd w))%nat && (length bs =? nat_of n)%nat
     then Some (fst w, firstn (nat_of a) (snd w) ++ map snd bs ++ skipn (nat_of a + nat_of n) (snd w)) else None)
  (* GGSWPrepared_ggsw_layout, zero, prepare *)
  fst
  (fun b _ => Some (fst b, G.a_pzero A))
  (fun b _ x s => given s (w_fill sw (fst b)) (option_map (pair (fst b)) x))
  (* Keys_get_cbt_key, CbtKey_block_size, execute_to_constant *)
  (fun k => (k, k, k))
  (fun k => Int (w_block sw k))
  (fun k _ _ x m n s => given s (w_cbt sw k) (if (val m =? 1) && (val n =? 1) then option_map Some x else None))
  (fun _ block n sl l k => Int (w_bits sw (val block) (val n) sl l k))
  (* Scratch_take_ggsw, take_lwe *)
  (fun s sl => given s (w_ggsw sw sl) (Some (None, s - w_ggsw sw sl)))
  (fun s l => given s (w_lwe sw l) (Some (None, s - w_lwe sw l)))
  (* FheUint_get_bit_lwe, prepare_custom_multi_thread, identity_multi_thread *)
  (fun w _ i _ k _ s => given s (w_bit_lwe sw (fst w) k) (Some (Some (G.a_boot A (snd w) (nat_of i)))))
  (fun q threads _ w start n k s => given s (w_prepare sw (val n) (val threads) (fst q) (fst w) k)
     (if (val start =? 0) && (val n <=? 32) then Some (fst q, Verif.Prepare.prepare_custom A (snd w) (nat_of n)) else None))
  (fun r threads _ q k s => given s (w_identity sw (val threads) (fst r) (fst q) k) (Some (fst r, G.a_ident A (snd q))))
  (* Module_execute_bdd_circuit_multi_thread *)
  (fun _ threads out bits c s => given s (w_circuit sw c (val threads))
     (n <- fst bits ;;
      bs <- collect (counting (nat_of n) 0) (snd bits) ;;
      Some (relay out (bdd c (map snd bs)))))
  (* FheUint_bdd_2w_to_1w_multi_thread *)
  (fun r c threads _ a b k s => k2 <- table2 c ;; word2 k2 r threads a b k s)
  (fun r threads _ => word2 G.KAdd r threads) (fun r threads _ => word2 G.KSub r threads)
  (fun r threads _ => word2 G.KSll r threads) (fun r threads _ => word2 G.KSlt r threads)
  (fun r threads _ => word2 G.KSltu r threads) (fun r threads _ => word2 G.KXor r threads)
  (fun r threads _ => word2 G.KSrl r threads) (fun r threads _ => word2 G.KSra r threads)
  (fun r threads _ => word2 G.KOr r threads) (fun r threads _ => word2 G.KAnd r threads)
  (* Module_glwe_copy of words, zero_byte, sext, splice_u8, splice_u16 *)
  (fun _ r a => Some (fst r, snd a))
  (fun r _ i k s => given s (w_zero_byte sw (fst r) k) (Some (fst r, G.a_zero_byte A (nat_of i) (snd r))))
  (fun r _ i k s => given s (w_sext sw (fst r) k) (Some (fst r, G.a_sext A (nat_of i) (snd r))))
  (fun r _ i j a b k s => given s (w_splice8 sw (fst r) (fst a) (fst b) k)
     (Some (fst r, G.a_splice8 A (nat_of i) (nat_of j) (snd a) (snd b))))
  (fun r _ i j a b k s => given s (w_splice16 sw (fst r) (fst a) (fst b) k)
     (Some (fst r, G.a_splice16 A (nat_of i) (nat_of j) (snd a) (snd b))))
  (* Module_glwe_blind_selection *)
  (fun _ r m q rsh n s => given s (w_blind sw (val n) (fst r) (fst q))
     (option_map (some_word (fst r))
        (G.blind_select A (shuffle (map (fun e => (nat_of (fst e), snd (snd e))) m)) (snd q) (nat_of rsh) (nat_of n)))).

(** the amounts of CycleScratch.v: entries and words of layout [l], prepared
    words of layout [sl], keys of layout [kl] *)
Definition alu_circ (o : Verif.Codec.rd_op) : option G.circ2 :=
  match o with
  | Verif.Codec.RADD | Verif.Codec.RADDI => Some G.KAdd
  | Verif.Codec.RSUB => Some G.KSub
  | Verif.Codec.RSLL | Verif.Codec.RSLLI => Some G.KSll
  | Verif.Codec.RSLT | Verif.Codec.RSLTI => Some G.KSlt
  | Verif.Codec.RSLTU | Verif.Codec.RSLTIU => Some G.KSltu
  | Verif.Codec.RXOR | Verif.Codec.RXORI => Some G.KXor
  | Verif.Codec.RSRL | Verif.Codec.RSRLI => Some G.KSrl
  | Verif.Codec.RSRA | Verif.Codec.RSRAI => Some G.KSra
  | Verif.Codec.ROR | Verif.Codec.RORI => Some G.KOr
  | Verif.Codec.RAND | Verif.Codec.RANDI => Some G.KAnd
  | Verif.Codec.RLUI => Some G.KLui
  | Verif.Codec.RAUIPC => Some G.KAuipc
  | Verif.Codec.RJAL | Verif.Codec.RJALR => Some G.KJalr
  | _ => None
  end.
Definition cycle_costs_at (l : GL) (sl : SL) (kl : KL) : Y.cycle_costs := {|
  Y.y_rom := costs_at sp l l sl kl; Y.y_reg := costs_at sp l l sl kl; Y.y_ram := costs_at sp l l sl kl;
  Y.y_prepare := fun n t => w_prepare sw n t sl l kl;
  Y.y_bits := w_bits sw (w_block sw kl) 1 sl l kl;
  Y.y_ggsw := w_ggsw sw sl; Y.y_lwe := w_lwe sw l;
  Y.y_bit_lwe := w_bit_lwe sw l kl; Y.y_cbt := w_cbt sw kl; Y.y_fill := w_fill sw sl;
  Y.y_word := s_glwe sp l; Y.y_pack := s_pack sp l l kl;
  Y.y_offset := w_circuit sw codegen_ram_offset; Y.y_pcu := w_circuit sw codegen_pc_update;
  Y.y_alu := fun o t => match alu_circ o with Some k => w_word2 sw k t l sl sl kl | None => 0 end;
  Y.y_identity := fun t => w_identity sw t l sl kl;
  Y.y_zero_byte := w_zero_byte sw l kl; Y.y_sext := w_sext sw l kl;
  Y.y_splice8 := w_splice8 sw l l l kl; Y.y_splice16 := w_splice16 sw l l l kl;
  Y.y_blind := fun n => w_blind sw n l sl;
  Y.y_decrypt_bits := w_dec_bits sw sl kl; Y.y_decrypt := w_dec sw l; Y.y_noise := 0 |}.

(** the library evaluates the two tables the VM passes to it itself as the
    circuits of [A] *)
Definition circuits_agree : Prop :=
  (forall a b, length a = 32%nat -> length b = 32%nat ->
     length (bdd codegen_ram_offset (a ++ b)) = 32%nat /\
     G.a_pack A (bdd codegen_ram_offset (a ++ b)) = G.a_circ2 A G.KRamOffset a b) /\
  (forall op rs1 rs2 pc imm,
     length op = 32%nat -> length rs1 = 32%nat -> length rs2 = 32%nat -> length pc = 32%nat -> length imm = 32%nat ->
     length (bdd codegen_pc_update (firstn 4 op ++ rs1 ++ rs2 ++ pc ++ firstn 20 imm)) = 32%nat /\
     G.a_pack A (bdd codegen_pc_update (firstn 4 op ++ rs1 ++ rs2 ++ pc ++ firstn 20 imm))
       = G.a_pcup A op rs1 rs2 pc imm).
(** a map has its entries in some order; the choice made by [glwe_blind_selection] does not depend
    on it *)
Definition shuffles : Prop := forall m, Permutation m (shuffle m).
Definition select_unordered : Prop :=
  forall m m' sel, NoDup (map fst m) -> Permutation m m' -> G.a_select A m sel = G.a_select A m' sel.
End Eng.
