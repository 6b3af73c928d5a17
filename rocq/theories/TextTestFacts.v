(** * The translated reference machine equals its model (proofs) *)
Require Import ZArith List Bool Lia.
From Verif Require Import Rust TextFacts.
Require Verif.Isa Verif.Bits Verif.ListFacts Verif.Word Verif.TestVM Verif.TestDecode Verif.TextTest.
Import ListNotations.
Open Scope Z_scope.
Module V := Verif.TestVM.
Module X := Verif.TextTest.
Local Notation chk := overflow_checks.
Notation b64 := 18446744073709551616.

(** ** Conversions *)
Definition mem_of (w : bool) (m : V.memory) : X.Memory :=
  X.mk_Memory (map Int (V.data m)) (Int (V.offset m)) w (Int (V.size m)).
Definition in_of (i : V.io_info) : X.InputInfo := X.mk_InputInfo (Int (V.start_addr i)) (Int (V.io_size i)).
Definition out_of (i : V.io_info) : X.OutputInfo := X.mk_OutputInfo (Int (V.start_addr i)) (Int (V.io_size i)).
Definition vm_of (s : V.vm) : X.TestVM :=
  X.mk_TestVM (map Int (V.registers s)) (mem_of false (V.rom s)) (mem_of true (V.ram s)) (Int (V.pc s))
    (in_of (V.input_info s)) (out_of (V.output_info s)) (Int (Z.of_nat (V.max_cycles s))).
Definition r_of (r : Z) : X.RegisterIndex := X.mk_RegisterIndex (Int r).
Definition inst_of (i : V.inst) : X.Inst :=
  match i with
  | V.ADD a b d => X.Inst_ADD (r_of a) (r_of b) (r_of d)
  | V.SUB a b d => X.Inst_SUB (r_of a) (r_of b) (r_of d)
  | V.SLL a b d => X.Inst_SLL (r_of a) (r_of b) (r_of d)
  | V.SLT a b d => X.Inst_SLT (r_of a) (r_of b) (r_of d)
  | V.SLTU a b d => X.Inst_SLTU (r_of a) (r_of b) (r_of d)
  | V.XOR a b d => X.Inst_XOR (r_of a) (r_of b) (r_of d)
  | V.SRL a b d => X.Inst_SRL (r_of a) (r_of b) (r_of d)
  | V.SRA a b d => X.Inst_SRA (r_of a) (r_of b) (r_of d)
  | V.OR a b d => X.Inst_OR (r_of a) (r_of b) (r_of d)
  | V.AND a b d => X.Inst_AND (r_of a) (r_of b) (r_of d)
  | V.ADDI a d i => X.Inst_ADDI (r_of a) (r_of d) (Int i)
  | V.SLTI a d i => X.Inst_SLTI (r_of a) (r_of d) (Int i)
  | V.SLTIU a d i => X.Inst_SLTIU (r_of a) (r_of d) (Int i)
  | V.XORI a d i => X.Inst_XORI (r_of a) (r_of d) (Int i)
  | V.ORI a d i => X.Inst_ORI (r_of a) (r_of d) (Int i)
  | V.ANDI a d i => X.Inst_ANDI (r_of a) (r_of d) (Int i)
  | V.SLLI a d i => X.Inst_SLLI (r_of a) (r_of d) (Int i)
  | V.SRLI a d i => X.Inst_SRLI (r_of a) (r_of d) (Int i)
  | V.SRAI a d i => X.Inst_SRAI (r_of a) (r_of d) (Int i)
  | V.MUL a b d => X.Inst_MUL (r_of a) (r_of b) (r_of d)
  | V.MULH a b d => X.Inst_MULH (r_of a) (r_of b) (r_of d)
  | V.MULHSU a b d => X.Inst_MULHSU (r_of a) (r_of b) (r_of d)
  | V.MULHU a b d => X.Inst_MULHU (r_of a) (r_of b) (r_of d)
  | V.DIV a b d => X.Inst_DIV (r_of a) (r_of b) (r_of d)
  | V.DIVU a b d => X.Inst_DIVU (r_of a) (r_of b) (r_of d)
  | V.REM a b d => X.Inst_REM (r_of a) (r_of b) (r_of d)
  | V.REMU a b d => X.Inst_REMU (r_of a) (r_of b) (r_of d)
  | V.LUI d i => X.Inst_LUI (r_of d) (Int i)
  | V.AUIPC d i => X.Inst_AUIPC (r_of d) (Int i)
  | V.JAL d i => X.Inst_JAL (r_of d) (Int i)
  | V.JALR a d i => X.Inst_JALR (r_of a) (r_of d) (Int i)
  | V.BEQ a b i => X.Inst_BEQ (r_of a) (r_of b) (Int i)
  | V.BNE a b i => X.Inst_BNE (r_of a) (r_of b) (Int i)
  | V.BLT a b i => X.Inst_BLT (r_of a) (r_of b) (Int i)
  | V.BGE a b i => X.Inst_BGE (r_of a) (r_of b) (Int i)
  | V.BLTU a b i => X.Inst_BLTU (r_of a) (r_of b) (Int i)
  | V.BGEU a b i => X.Inst_BGEU (r_of a) (r_of b) (Int i)
  | V.LB a d i => X.Inst_LB (r_of a) (r_of d) (Int i)
  | V.LH a d i => X.Inst_LH (r_of a) (r_of d) (Int i)
  | V.LW a d i => X.Inst_LW (r_of a) (r_of d) (Int i)
  | V.LBU a d i => X.Inst_LBU (r_of a) (r_of d) (Int i)
  | V.LHU a d i => X.Inst_LHU (r_of a) (r_of d) (Int i)
  | V.SB a b i => X.Inst_SB (r_of a) (r_of b) (Int i)
  | V.SH a b i => X.Inst_SH (r_of a) (r_of b) (Int i)
  | V.SW a b i => X.Inst_SW (r_of a) (r_of b) (Int i)
  end.

(** the values are values of their Rust types, and a vector has at most
    [isize::MAX] bytes *)
Definition u8_val (b : Z) : Prop := 0 <= b < 256.
Definition usize_val (z : Z) : Prop := 0 <= z < b64.
Definition mem_typed (m : V.memory) : Prop :=
  usize_val (V.offset m) /\ usize_val (V.size m) /\ Forall u8_val (V.data m) /\
  Z.of_nat (length (V.data m)) < 9223372036854775808.
Definition vm_typed (s : V.vm) : Prop :=
  Forall word (V.registers s) /\ word (V.pc s) /\ mem_typed (V.rom s) /\ mem_typed (V.ram s).

(** ** Arithmetic on [usize] *)
Lemma usub_eq : forall p a b, usize_val a -> usize_val b ->
  sub p (@Int USize a) (Int b) = option_map Int (V.usub (chk p) a b).
Proof.
  intros p a b A B. unfold usize_val in *. unfold sub, checked, fits, V.usub, val, least, largest, wrap, is_signed, card.
  destruct (Z.leb_spec b a).
  - rewrite (proj2 (Z.leb_le _ _)) by lia. rewrite (proj2 (Z.leb_le _ _)) by lia. reflexivity.
  - rewrite (proj2 (Z.leb_gt _ _)) by lia. cbn [andb]. destruct (chk p); reflexivity.
Qed.
Lemma usub_val : forall c a b z, usize_val a -> usize_val b -> V.usub c a b = Some z -> usize_val z.
Proof.
  intros c a b z A B. unfold usize_val, V.usub in *. destruct (Z.leb_spec b a); [ | destruct c; [ discriminate | ] ].
  - intro Q; injection Q as <-. lia.
  - intro Q; injection Q as <-. apply Z.mod_pos_bound. reflexivity.
Qed.
Lemma rem_unsigned : forall t a b, is_signed t = false -> 0 <= a -> 0 <= b ->
  rem (@Int t a) (Int b) = if b =? 0 then None else Some (Int (a mod b)).
Proof.
  intros t a b S A B. unfold rem, div_ok, val. rewrite S. cbn [andb negb].
  rewrite andb_true_r. destruct (Z.eqb_spec b 0); cbn [negb]; [ reflexivity | ].
  rewrite Z.rem_mod_nonneg by lia. reflexivity.
Qed.
Lemma div_unsigned : forall t a b, is_signed t = false -> 0 <= a -> 0 <= b ->
  div (@Int t a) (Int b) = if b =? 0 then None else Some (Int (Z.quot a b)).
Proof.
  intros t a b S A B. unfold div, div_ok, val. rewrite S. cbn [andb negb].
  rewrite andb_true_r. destruct (Z.eqb_spec b 0); reflexivity.
Qed.
Lemma rem_lit : forall t a b, is_signed t = false -> 0 <= a -> 0 < b ->
  rem (@Int t a) (@lit t b) = Some (Int (a mod b)).
Proof.
  intros t a b S A B. unfold lit. rewrite rem_unsigned by (auto; lia).
  rewrite (proj2 (Z.eqb_neq _ _)) by lia. reflexivity.
Qed.
Lemma rem_size : forall m z, mem_typed m -> usize_val z ->
  rem (@Int USize z) (Int (V.size m)) = option_map (fun n => Int (Z.of_nat n)) (V.index m z).
Proof.
  intros m z (O & S & _ & _) Z0. unfold usize_val in *. rewrite rem_unsigned by (try reflexivity; lia). unfold V.index.
  destruct (Z.eqb_spec (V.size m) 0); [ reflexivity | ]. cbn [option_map]. rewrite Z2Nat.id; [ reflexivity | ].
  apply Z.mod_pos_bound. lia.
Qed.
Lemma index_int : forall t (l : list Z) n, index (map (@Int t) l) (Int (Z.of_nat n)) = option_map Int (nth_error l n).
Proof. intros. apply index_map. Qed.
Lemma replace_map : forall {A B} (f : A -> B) l n x, replace (map f l) n (f x) = option_map (map f) (Word.set_nth l n x).
Proof.
  intros A B f l. induction l as [ | h l IH ]; intros [ | n ] x; cbn; auto.
  rewrite IH. destruct (Word.set_nth l n x); reflexivity.
Qed.
Lemma store_int : forall t (l : list Z) n v, store (map (@Int t) l) (Int (Z.of_nat n)) (Int v)
  = option_map (map Int) (Word.set_nth l n v).
Proof. intros. unfold store, val. rewrite Nat2Z.id. apply replace_map. Qed.
Lemma store_at : forall t (l : list Z) z v, store (map (@Int t) l) (Int z) (Int v)
  = option_map (map Int) (Word.set_nth l (Z.to_nat z) v).
Proof. intros. unfold store, val. apply replace_map. Qed.
Lemma index_at : forall t (l : list Z) z, index (map (@Int t) l) (Int z) = option_map Int (nth_error l (Z.to_nat z)).
Proof. intros. unfold index, val. apply nth_error_map. Qed.

Ltac mflds := cbn [mem_of X.Memory_data X.Memory_offset X.Memory_size X.Memory__is_write X.set_Memory_data
  V.data V.offset V.size].

Lemma new_eq : forall p o z w, X.Memory_new p (Int o) (Int z) w = Some (mem_of w (V.mem_new o z)).
Proof.
  intros. unfold X.Memory_new, V.mem_new, mem_of, filled, lit, val. cbn [V.data V.offset V.size].
  rewrite map_repeat. reflexivity.
Qed.
Lemma new_typed : forall o z, usize_val o -> 0 <= z < 9223372036854775808 -> mem_typed (V.mem_new o z).
Proof.
  intros o z O Z0. unfold V.mem_new, mem_typed. cbn [V.data V.offset V.size]. split; [ exact O | ].
  split; [ unfold usize_val; lia | ]. rewrite repeat_length, Z2Nat.id by lia. split; [ | lia ].
  apply Forall_forall. intros x H. apply repeat_spec in H. unfold u8_val. lia.
Qed.

Lemma write_byte_eq : forall p w m a v, mem_typed m -> usize_val a ->
  X.Memory_write_byte p (mem_of w m) (Int a) (Int v) = option_map (mem_of w) (V.write_byte (chk p) m a v).
Proof.
  intros p w m a v M A. unfold X.Memory_write_byte, V.write_byte, V.set_byte. mflds.
  rewrite usub_eq by (auto; apply M). destruct (V.usub (chk p) a (V.offset m)) as [ z | ] eqn:E; [ cbn [option_map] | reflexivity ].
  rewrite rem_size by (auto; exact (usub_val _ _ _ _ A (proj1 M) E)).
  destruct (V.index m z) as [ n | ]; [ cbn [option_map] | reflexivity ].
  rewrite store_int. destruct (Word.set_nth (V.data m) n v); reflexivity.
Qed.
Lemma set_byte_typed : forall m n v m', mem_typed m -> u8_val v -> V.set_byte m n v = Some m' -> mem_typed m'.
Proof.
  intros m n v m' (A & B & C & D) W H. unfold V.set_byte in H.
  destruct (Word.set_nth (V.data m) n v) as [ d | ] eqn:E; [ | discriminate ]. injection H as <-.
  unfold mem_typed. cbn [V.data V.offset V.size]. split; [ exact A | ]. split; [ exact B | ]. split.
  - eapply ListFacts.set_nth_Forall; eauto.
  - erewrite ListFacts.set_nth_length; eauto.
Qed.
Lemma write_byte_typed : forall c m a v m', mem_typed m -> u8_val v -> V.write_byte c m a v = Some m' -> mem_typed m'.
Proof.
  intros c m a v m' M W H. unfold V.write_byte in H.
  destruct (V.usub c a (V.offset m)); [ | discriminate ]. destruct (V.index m z); [ | discriminate ].
  eapply set_byte_typed; eauto.
Qed.

(** a loop over literal indices against a fold over options *)
Lemma for_fold : forall {A B S : Type} (P : B -> Prop) (f : B -> S) (g : option B -> A -> option B) {t}
    (idx : A -> int t) body l b,
  (forall x, g None x = None) ->
  (forall x b, In x l -> P b -> body (idx x) (f b) = option_map f (g (Some b) x)) ->
  (forall x b b', In x l -> P b -> g (Some b) x = Some b' -> P b') -> P b ->
  for_each (map idx l) body (f b) = option_map f (fold_left g l (Some b))
  /\ (forall b', fold_left g l (Some b) = Some b' -> P b').
Proof.
  intros A B S P f g t idx body l. induction l as [ | x l IH ]; intros b N H K Pb; cbn [map for_each fold_left].
  - split; [ reflexivity | ]. intros b' E. injection E as <-. exact Pb.
  - rewrite H by (auto; left; auto). destruct (g (Some b) x) as [ b1 | ] eqn:E; cbn [option_map].
    + apply IH; [ exact N | intros; apply H; auto; right; assumption | | ].
      * intros y c c' I. apply K. right. exact I.
      * eapply K; [ left; reflexivity | exact Pb | exact E ].
    + assert (F : fold_left g l None = None) by (clear -N; induction l; cbn; auto; rewrite N; auto).
      rewrite F. split; [ reflexivity | discriminate ].
Qed.

Lemma byte_of : forall v k, u8_val (Z.land (Z.shiftr v k) 255).
Proof.
  intros v k. unfold u8_val. change 255 with (Z.ones 8). rewrite Z.land_ones by lia.
  apply Z.mod_pos_bound. reflexivity.
Qed.
Lemma byte_cast : forall t z, u8_val z -> cast U8 (@Int t z) = Int z.
Proof.
  intros t z H. unfold u8_val in H. unfold cast, val. destruct (widens t U8); [ reflexivity | ].
  unfold wrap, is_signed, card. rewrite Z.mod_small by lia. reflexivity.
Qed.
Lemma uadd_small : forall p a b, 0 <= a + b < b64 -> add p (@Int USize a) (Int b) = Some (Int (a + b)).
Proof.
  intros p a b H. unfold add, checked, fits, val, least, largest.
  rewrite (proj2 (Z.leb_le _ _)) by lia. rewrite (proj2 (Z.leb_le _ _)) by lia. reflexivity.
Qed.
Lemma umul_small : forall p a b, 0 <= a * b < b64 -> mul p (@Int USize a) (Int b) = Some (Int (a * b)).
Proof.
  intros p a b H. unfold mul, checked, fits, val, least, largest.
  rewrite (proj2 (Z.leb_le _ _)) by lia. rewrite (proj2 (Z.leb_le _ _)) by lia. reflexivity.
Qed.
Lemma shr_in : forall t s p a k, 0 <= k < bits t -> shr p (@Int t a) (@Int s k) = Some (Int (Z.shiftr a k)).
Proof.
  intros t s p a k H. unfold shr, amount, val.
  rewrite (proj2 (Z.leb_le _ _)) by lia. rewrite (proj2 (Z.ltb_lt _ _)) by lia. reflexivity.
Qed.
Lemma shl_in : forall t s p a k, 0 <= k < bits t -> shl p (@Int t a) (@Int s k) = Some (Int (wrap t (Z.shiftl a k))).
Proof.
  intros t s p a k H. unfold shl, amount, val.
  rewrite (proj2 (Z.leb_le _ _)) by lia. rewrite (proj2 (Z.ltb_lt _ _)) by lia. reflexivity.
Qed.

Lemma write_step : forall t p w a v m i, mem_typed m -> 0 <= a -> a + i < b64 -> 0 <= i -> i * 8 < bits t ->
  8 < bits t -> least t = 0 -> 255 <= largest t -> wrap t (Z.shiftl 1 8) = 256 -> 256 <= largest t ->
  (let self := mem_of w m in
   let value := @Int t v in
   let addr := Int a in
   let i := Int i in
   t1 <- mul p i (lit 8) ;;
   t2 <- shr p value t1 ;;
   t3 <- shl p (lit 1) (lit (t := I32) 8) ;;
   t4 <- sub p t3 (lit 1) ;;
   let vbyte := cast U8 (band t2 t4) in
   t5 <- add p addr i ;;
   t6 <- sub p t5 (X.Memory_offset self) ;;
   t7 <- rem t6 (X.Memory_size self) ;;
   t8 <- store (X.Memory_data self) t7 vbyte ;;
   let self := X.set_Memory_data self t8 in
   Some self) = option_map (mem_of w) (V.write_nth (chk p) v a (Some m) i).
Proof.
  intros t p w a v m i M A AI I0 I8 B8 L0 L1 W L2. cbv zeta. unfold lit.
  rewrite umul_small by (assert (bits t <= 64) by (destruct t; cbn; lia); lia).
  rewrite shr_in by lia. rewrite shl_in by lia. rewrite W.
  unfold sub at 1. unfold checked, fits, val. rewrite L0.
  change (256 - 1) with 255. change (0 <=? 255) with true. rewrite (proj2 (Z.leb_le 255 _)) by lia. cbn [andb].
  rewrite uadd_small by lia. unfold band, val. rewrite byte_cast by apply byte_of.
  unfold V.write_nth, V.set_byte. mflds.
  assert (U : usize_val (a + i)) by (unfold usize_val; lia).
  rewrite usub_eq by (auto; apply M).
  destruct (V.usub (chk p) (a + i) (V.offset m)) as [ z | ] eqn:E; [ cbn [option_map] | reflexivity ].
  rewrite rem_size by (auto; exact (usub_val _ _ _ _ U (proj1 M) E)).
  destruct (V.index m z) as [ n | ]; [ cbn [option_map] | reflexivity ].
  rewrite store_int. destruct (Word.set_nth (V.data m) n _); reflexivity.
Qed.
Lemma write_nth_typed : forall c v a m i m', mem_typed m -> V.write_nth c v a (Some m) i = Some m' -> mem_typed m'.
Proof.
  intros c v a m i m' M H. unfold V.write_nth in H.
  destruct (V.usub c (a + i) (V.offset m)); [ | discriminate ]. destruct (V.index m z); [ | discriminate ].
  eapply set_byte_typed; eauto. apply byte_of.
Qed.
Lemma write_half_eq : forall p w m a v, mem_typed m -> 0 <= a -> a + 2 <= b64 ->
  X.Memory_write_half p (mem_of w m) (Int a) (Int v) = option_map (mem_of w) (V.write_half (chk p) m a v)
  /\ (forall m', V.write_half (chk p) m a v = Some m' -> mem_typed m').
Proof.
  intros p w m a v M A B. unfold X.Memory_write_half, V.write_half.
  unfold for_range, lit, val. change (Z.to_nat (2 - 0)) with 2%nat.
  change (@counting USize 2 0) with (map (@Int USize) [0; 1]).
  match goal with |- context [for_each (map Int [0; 1]) ?b _] => set (body := b) end.
  destruct (for_fold mem_typed (mem_of w) (V.write_nth (chk p) v a) (@Int USize) body [0; 1] m) as (E & K); auto.
  - intros x b I P. assert (0 <= x <= 1) by (cbn in I; lia). unfold body.
    apply (write_step U16); auto; try lia; try reflexivity; cbn; lia.
  - intros x b b' _ P. apply write_nth_typed. exact P.
  - rewrite E. split; [ | exact K ]. destruct (fold_left _ _ _); reflexivity.
Qed.
Lemma write_word_eq : forall p w m a v, mem_typed m -> 0 <= a -> a + 4 <= b64 ->
  X.Memory_write_word p (mem_of w m) (Int a) (Int v) = option_map (mem_of w) (V.write_word (chk p) m a v)
  /\ (forall m', V.write_word (chk p) m a v = Some m' -> mem_typed m').
Proof.
  intros p w m a v M A B. unfold X.Memory_write_word, V.write_word.
  unfold for_range, lit, val. change (Z.to_nat (4 - 0)) with 4%nat.
  change (@counting USize 4 0) with (map (@Int USize) [0; 1; 2; 3]).
  match goal with |- context [for_each (map Int [0; 1; 2; 3]) ?b _] => set (body := b) end.
  destruct (for_fold mem_typed (mem_of w) (V.write_nth (chk p) v a) (@Int USize) body [0; 1; 2; 3] m) as (E & K); auto.
  - intros x b I P. assert (0 <= x <= 3) by (cbn in I; lia). unfold body.
    apply (write_step U32); auto; try lia; try reflexivity; cbn; lia.
  - intros x b b' _ P. apply write_nth_typed. exact P.
  - rewrite E. split; [ | exact K ]. destruct (fold_left _ _ _); reflexivity.
Qed.

(** ** Loading and reading *)
Lemma uadd_eq : forall p a b, usize_val a -> usize_val b ->
  (chk p = true -> a + b < b64) -> add p (@Int USize a) (Int b) = Some (Int (Word.u64 (a + b))).
Proof.
  intros p a b A B H. unfold usize_val in *. unfold add, checked, fits, val, least, largest, Word.u64.
  rewrite (proj2 (Z.leb_le 0 _)) by lia. cbn [andb]. destruct (Z.leb_spec (a + b) 18446744073709551615).
  - rewrite Z.mod_small by lia. reflexivity.
  - destruct (chk p); [ specialize (H eq_refl); lia | reflexivity ].
Qed.
Lemma load_eq : forall p w m a l, mem_typed m -> usize_val a -> Z.of_nat (length l) < 9223372036854775808 ->
  X.Memory_load_memory p (mem_of w m) (Int a) (map Int l) = option_map (mem_of w) (V.load_memory (chk p) m a l).
Proof.
  intros p w m a l M A L. unfold X.Memory_load_memory, V.load_memory. mflds.
  rewrite usub_eq by (auto; apply M). destruct (V.usub (chk p) a (V.offset m)) as [ z | ] eqn:E; [ cbn [option_map] | reflexivity ].
  pose proof (usub_val _ _ _ _ A (proj1 M) E) as Z0. unfold usize_val in Z0. destruct M as (M1 & M2 & M3 & M4).
  unfold len. rewrite map_length. unfold add, checked, fits, val, least, largest. rewrite (proj2 (Z.leb_le 0 _)) by lia. cbn [andb].
  unfold copy_range. rewrite !map_length. unfold val. destruct (Z.leb_spec (z + Z.of_nat (length l)) 18446744073709551615).
  - rewrite (proj2 (Z.leb_le z _)) by lia. replace (z + Z.of_nat (length l) - z) with (Z.of_nat (length l)) by lia.
    rewrite Z.eqb_refl, andb_true_r. cbn [andb].
    destruct (z + Z.of_nat (length l) <=? Z.of_nat (length (V.data m))); [ | reflexivity ].
    cbn [option_map]. f_equal. unfold mem_of, X.set_Memory_data. cbn [X.Memory_offset X.Memory_size X.Memory__is_write V.data V.offset V.size].
    f_equal. rewrite !map_app, firstn_map, skipn_map, Z2Nat.inj_add, Nat2Z.id by lia. reflexivity.
  - rewrite (proj2 (Z.leb_gt (z + Z.of_nat (length l)) (Z.of_nat (length (V.data m))))) by lia.
    destruct (chk p); [ reflexivity | ]. unfold wrap, is_signed, card.
    assert (Q : (z + Z.of_nat (length l)) mod b64 = z + Z.of_nat (length l) - b64).
    { symmetry. apply (Z.mod_unique_pos _ _ 1); lia. }
    rewrite Q, (proj2 (Z.leb_gt z _)) by lia. reflexivity.
Qed.
Lemma forall_parts : forall {A} (P : A -> Prop) l n, Forall P l -> Forall P (firstn n l) /\ Forall P (skipn n l).
Proof. intros A P l n H. rewrite <- (firstn_skipn n l) in H. apply Forall_app in H. exact H. Qed.
Lemma load_typed : forall c m a l m', mem_typed m -> Forall u8_val l -> V.load_memory c m a l = Some m' -> mem_typed m'.
Proof.
  intros c m a l m' (M1 & M2 & M3 & M4) L H. unfold V.load_memory in H.
  destruct (V.usub c a (V.offset m)) as [ z | ] eqn:E; [ | discriminate ].
  destruct (Z.leb_spec (z + Z.of_nat (length l)) (Z.of_nat (length (V.data m)))); [ | discriminate ].
  injection H as <-. unfold mem_typed. cbn [V.data V.offset V.size]. split; [ exact M1 | ]. split; [ exact M2 | ].
  assert (0 <= z).
  { unfold V.usub in E. destruct (Z.leb_spec (V.offset m) a); [ injection E; lia | ].
    destruct c; [ discriminate | ]. injection E as <-. apply Z.mod_pos_bound. reflexivity. }
  split.
  - apply Forall_app. split; [ exact (proj1 (forall_parts _ _ _ M3)) | ]. apply Forall_app. split; [ auto | ].
    exact (proj2 (forall_parts _ _ _ M3)).
  - rewrite !app_length, firstn_length, skipn_length. lia.
Qed.

Lemma read_byte_eq : forall p w m a, mem_typed m -> usize_val a ->
  X.Memory_read_byte p (mem_of w m) (Int a) = option_map Int (V.read_byte (chk p) m a)
  /\ (forall v, V.read_byte (chk p) m a = Some v -> u8_val v).
Proof.
  intros p w m a M A. unfold X.Memory_read_byte, V.read_byte. mflds.
  rewrite usub_eq by (auto; apply M). destruct (V.usub (chk p) a (V.offset m)) as [ z | ] eqn:E;
    [ cbn [option_map] | split; [ reflexivity | discriminate ] ].
  rewrite rem_size by (auto; exact (usub_val _ _ _ _ A (proj1 M) E)).
  destruct (V.index m z) as [ n | ]; [ cbn [option_map] | split; [ reflexivity | discriminate ] ].
  rewrite index_int. split; [ destruct (nth_error (V.data m) n); reflexivity | ].
  intros v H. destruct M as (_ & _ & F & _). rewrite Forall_forall in F. apply F. eapply nth_error_In; eauto.
Qed.

(** a counting loop against a fold over options *)
Lemma for_count : forall {B S : Type} (P : nat -> B -> Prop) (f : B -> S) (g : option B -> nat -> option B) {t}
    (body : int t -> S -> option S) n k b,
  (forall i, g None i = None) ->
  (forall i b, (k <= i < k + n)%nat -> P i b -> body (Int (Z.of_nat i)) (f b) = option_map f (g (Some b) i)
     /\ (forall b', g (Some b) i = Some b' -> P (Datatypes.S i) b')) -> P k b ->
  for_each (counting n (Z.of_nat k)) body (f b) = option_map f (fold_left g (seq k n) (Some b))
  /\ (forall b', fold_left g (seq k n) (Some b) = Some b' -> P (k + n)%nat b').
Proof.
  intros B S P f g t body n. induction n as [ | n IH ]; intros k b N H Pb; cbn [counting for_each seq fold_left].
  - split; [ reflexivity | ]. intros b' E. injection E as <-. rewrite Nat.add_0_r. exact Pb.
  - destruct (H k b) as (E & K); [ lia | exact Pb | ]. rewrite E.
    destruct (g (Some b) k) as [ b1 | ]; cbn [option_map].
    + replace (Z.of_nat k + 1) with (Z.of_nat (Datatypes.S k)) by lia.
      replace (k + Datatypes.S n)%nat with (Datatypes.S k + n)%nat by lia.
      apply IH; [ exact N | | apply K; reflexivity ]. intros i c I. apply H. lia.
    + assert (F : forall l, fold_left g l None = None) by (induction l; cbn; auto; rewrite N; auto).
      rewrite F. split; [ reflexivity | discriminate ].
Qed.

Definition below (i : nat) (o : Z) : Prop := 0 <= o < 2 ^ (8 * Z.of_nat i).
Lemma read_step : forall t p w m a (i : nat) o, mem_typed m -> usize_val a ->
  8 * Z.of_nat i + 8 <= bits t -> least t = 0 -> largest t = 2 ^ bits t - 1 -> (forall z, wrap t z = z mod 2 ^ bits t) ->
  widens U8 t = true ->
  (chk p = true -> a + Z.of_nat i < b64) -> below i o ->
  (let self := mem_of w m in let addr := Int a in let i := Int (Z.of_nat i) in let out := @Int t o in
   t2 <- sub p addr (X.Memory_offset self) ;;
   t3 <- add p t2 i ;;
   t4 <- rem t3 (X.Memory_size self) ;;
   t5 <- index (X.Memory_data self) t4 ;;
   t6 <- mul p i (lit 8) ;;
   t7 <- shl p (cast t t5) t6 ;;
   t8 <- add p out t7 ;;
   let out := t8 in
   Some out) = option_map Int (V.read_nth (chk p) m a (Some o) (Z.of_nat i))
  /\ (forall o', V.read_nth (chk p) m a (Some o) (Z.of_nat i) = Some o' -> below (S i) o').
Proof.
  intros t p w m a i o M A I8 L0 L1 WR WD CH O. cbv zeta. unfold V.read_nth, lit. mflds.
  rewrite usub_eq by (auto; apply M). destruct (V.usub (chk p) a (V.offset m)) as [ z | ] eqn:E;
    [ cbn [option_map] | split; [ reflexivity | discriminate ] ].
  pose proof (usub_val _ _ _ _ A (proj1 M) E) as Z0.
  assert (BT : bits t <= 64) by (destruct t; cbn; lia).
  rewrite uadd_eq; [ | exact Z0 | unfold usize_val; lia | ].
  2:{ intro C. specialize (CH C). rewrite C in E. unfold V.usub in E. destruct M as ((M0 & _) & _).
      destruct (V.offset m <=? a); [ injection E as <-; lia | discriminate ]. }
  assert (U : usize_val (Word.u64 (z + Z.of_nat i))) by (apply Z.mod_pos_bound; reflexivity).
  rewrite rem_size by auto.
  destruct (V.index m (Word.u64 (z + Z.of_nat i))) as [ n | ]; [ cbn [option_map] | split; [ reflexivity | discriminate ] ].
  rewrite index_int. destruct (nth_error (V.data m) n) as [ b | ] eqn:N; [ cbn [option_map] | split; [ reflexivity | discriminate ] ].
  rewrite umul_small by lia.
  unfold cast, val. rewrite WD. rewrite shl_in by lia. rewrite WR.
  assert (B : u8_val b) by (destruct M as (_ & _ & F & _); rewrite Forall_forall in F; apply F; eapply nth_error_In; eauto).
  unfold u8_val in B. unfold below in *.
  set (k := Z.of_nat i) in *. assert (K0 : 0 <= k) by lia. replace (Z.of_nat (S i)) with (k + 1) by lia.
  rewrite Z.shiftl_mul_pow2 by lia.
  assert (P8 : 2 ^ (8 * (k + 1)) = 256 * 2 ^ (8 * k)).
  { replace (8 * (k + 1)) with (8 + 8 * k) by lia. rewrite Z.pow_add_r by lia. reflexivity. }
  assert (PB : 2 ^ (8 * (k + 1)) <= 2 ^ bits t) by (apply Z.pow_le_mono_r; lia).
  replace (k * 8) with (8 * k) by lia. clearbody k.
  rewrite Z.mod_small by nia.
  assert (R : 0 <= o + b * 2 ^ (8 * k) < 2 ^ (8 * (k + 1))) by nia.
  unfold add, checked, fits, val. rewrite L0, L1.
  rewrite (proj2 (Z.leb_le 0 _)) by lia. rewrite (proj2 (Z.leb_le _ _)) by lia. cbn [andb option_map].
  split; [ reflexivity | ]. intros o' H. injection H as <-. exact R.
Qed.

Lemma read_half_eq : forall p w m a, mem_typed m -> usize_val a ->
  X.Memory_read_half p (mem_of w m) (Int a) = option_map Int (V.read_half (chk p) m a)
  /\ (forall v, V.read_half (chk p) m a = Some v -> 0 <= v < 65536).
Proof.
  intros p w m a M A. unfold X.Memory_read_half, V.read_half.
  rewrite rem_lit by (try reflexivity; unfold usize_val in A; lia).
  unfold Rust.eq, lit at 1. unfold val at 1 2. destruct (Z.eqb_spec (a mod 2) 0) as [ E | E ]; [ | split; [ reflexivity | discriminate ] ].
  cbv zeta. unfold for_range, lit, val. change (Z.to_nat (2 - 0)) with 2%nat.
  match goal with |- context [for_each (counting 2 _) ?b _] => set (body := b) end.
  destruct (for_count below (@Int U16) (fun a0 i => V.read_nth (chk p) m a a0 (Z.of_nat i)) body 2 0 0) as (F & K).
  - reflexivity.
  - intros i o I B. unfold body. apply (read_step U16); auto; try reflexivity.
    + cbn [bits]. lia.
    + intros _. unfold usize_val in A. assert (a mod 2 = 0) by exact E.
      assert (a <> 18446744073709551615) by (intro Q; rewrite Q in E; discriminate E). lia.
  - unfold below. cbn. lia.
  - change (Z.of_nat 0) with 0 in F. rewrite F.
    change (fold_left (fun a0 i => V.read_nth (chk p) m a a0 (Z.of_nat i)) (seq 0 2) (Some 0))
      with (fold_left (V.read_nth (chk p) m a) [0; 1] (Some 0)) in *.
    split; [ destruct (fold_left _ _ _); reflexivity | exact K ].
Qed.
Lemma read_word_eq : forall p w m a, mem_typed m -> usize_val a ->
  X.Memory_read_word p (mem_of w m) (Int a) = option_map Int (V.read_word (chk p) m a)
  /\ (forall v, V.read_word (chk p) m a = Some v -> word v).
Proof.
  intros p w m a M A. unfold X.Memory_read_word, V.read_word.
  rewrite rem_lit by (try reflexivity; unfold usize_val in A; lia).
  unfold Rust.eq, lit at 1. unfold val at 1 2. destruct (Z.eqb_spec (a mod 4) 0) as [ E | E ]; [ | split; [ reflexivity | discriminate ] ].
  cbv zeta. unfold for_range, lit, val. change (Z.to_nat (4 - 0)) with 4%nat.
  match goal with |- context [for_each (counting 4 _) ?b _] => set (body := b) end.
  destruct (for_count below (@Int U32) (fun a0 i => V.read_nth (chk p) m a a0 (Z.of_nat i)) body 4 0 0) as (F & K).
  - reflexivity.
  - intros i o I B. unfold body. apply (read_step U32); auto; try reflexivity.
    + cbn [bits]. lia.
    + intros _. unfold usize_val in A. pose proof (Z.div_mod a 4). assert (a mod 4 = 0) by exact E. lia.
  - unfold below. cbn. lia.
  - change (Z.of_nat 0) with 0 in F. rewrite F.
    change (fold_left (fun a0 i => V.read_nth (chk p) m a a0 (Z.of_nat i)) (seq 0 4) (Some 0))
      with (fold_left (V.read_nth (chk p) m a) [0; 1; 2; 3] (Some 0)) in *.
    split; [ destruct (fold_left _ _ _); reflexivity | exact K ].
Qed.

(** ** Bit fields *)
Lemma extract_eq : forall p v k, 0 <= k < 32 ->
  X.utils_extract_bits p (Int v) (Int k) = Some (Int (V.extract_bits v k)).
Proof.
  intros p v k K. unfold X.utils_extract_bits, lit. rewrite shl_in by (cbn; lia).
  unfold V.extract_bits, Word.shl32, wrap, is_signed, card, Word.u32.
  rewrite Z.shiftl_mul_pow2, Z.mul_1_l by lia.
  assert (P : 1 <= 2 ^ k < 2 ^ 32) by (split; [ apply (Z.pow_le_mono_r 2 0); lia | apply Z.pow_lt_mono_r; lia ]).
  change (2 ^ 32) with 4294967296 in P. rewrite Z.mod_small by lia.
  unfold sub, checked, fits, val, least, largest.
  rewrite (proj2 (Z.leb_le 0 _)) by lia. rewrite (proj2 (Z.leb_le _ _)) by lia. reflexivity.
Qed.
Lemma extract_range : forall v k, 0 <= k < 32 -> 0 <= V.extract_bits v k < 2 ^ k.
Proof.
  intros v k K. unfold V.extract_bits, Word.shl32, Word.u32. rewrite Z.shiftl_mul_pow2, Z.mul_1_l by lia.
  assert (P : 1 <= 2 ^ k < 2 ^ 32) by (split; [ apply (Z.pow_le_mono_r 2 0); lia | apply Z.pow_lt_mono_r; lia ]).
  change (2 ^ 32) with 4294967296 in P. rewrite Z.mod_small by lia.
  replace (2 ^ k - 1) with (Z.ones k) by (rewrite Z.ones_equiv; lia).
  rewrite Z.land_ones by lia. apply Z.mod_pos_bound. lia.
Qed.
Lemma fold_some : forall {A B} (h : A -> B -> A) l a,
  fold_left (fun o i => match o with Some a => Some (h a i) | None => None end) l (Some a) = Some (fold_left h l a).
Proof. intros A B h l. induction l as [ | x l IH ]; intro a; cbn; auto. Qed.
Lemma sign_extend_eq : forall p v n, word v -> 1 <= n <= 31 ->
  X.utils_sign_extend p (Int v) (Int n) = option_map Int (V.sign_extend v n).
Proof.
  intros p v n W N. unfold X.utils_sign_extend, V.sign_extend.
  rewrite shr_in by (cbn; lia). unfold Rust.eq, lit at 1. unfold val at 1 2.
  destruct (Z.eqb_spec (Z.shiftr v n) 0) as [ E | E ]; [ | reflexivity ].
  unfold lit at 1. rewrite usub_eq by (unfold usize_val; lia). unfold V.usub.
  rewrite (proj2 (Z.leb_le 1 n)) by lia. cbn [option_map]. rewrite shr_in by (cbn; lia).
  unfold band, lit, val. cbv zeta.
  pose proof (bit_bound (Z.shiftr v (n - 1))) as MB. set (msb := Z.land (Z.shiftr v (n - 1)) 1) in *. clearbody msb.
  unfold for_range, val.
  destruct (Z_of_nat_complete n ltac:(lia)) as (k & ->). assert (Kn : (1 <= k <= 31)%nat) by lia.
  replace (Z.to_nat (32 - Z.of_nat k)) with (32 - k)%nat by lia. rewrite Nat2Z.id.
  match goal with |- context [for_each (counting _ _) ?b _] => set (body := b) end.
  destruct (for_count (fun i o => 0 <= o < 2 ^ Z.of_nat i) (@Int U32)
    (fun o i => match o with Some a => Some (Word.u32 (a + Word.shl32 msb (Z.of_nat i))) | None => None end)
    body (32 - k) k v) as (F & _).
  - reflexivity.
  - intros i o I O. assert (PI : 2 ^ (Z.of_nat i + 1) <= 2 ^ 32) by (apply Z.pow_le_mono_r; lia).
    assert (P2 : 2 ^ (Z.of_nat i + 1) = 2 * 2 ^ Z.of_nat i) by (rewrite Z.pow_add_r by lia; change (2 ^ 1) with 2; lia).
    change (2 ^ 32) with 4294967296 in PI.
    unfold body. rewrite shl_in by (cbn; lia). unfold wrap, is_signed, card.
    unfold Word.shl32, Word.u32. rewrite !Z.shiftl_mul_pow2 by lia. rewrite (Z.mod_small (msb * _)) by nia.
    assert (R : 0 <= o + msb * 2 ^ Z.of_nat i < 2 ^ (Z.of_nat i + 1)) by nia.
    rewrite ?(Z.mod_small (msb * _)) by nia. rewrite (Z.mod_small (o + _)) by lia.
    unfold add, checked, fits, val, least, largest.
    rewrite (proj2 (Z.leb_le 0 _)) by lia. rewrite (proj2 (Z.leb_le _ _)) by lia. cbn [andb option_map].
    split; [ reflexivity | ]. intros b' H. injection H as <-. replace (Z.of_nat (S i)) with (Z.of_nat i + 1) by lia. exact R.
  - unfold Isa.word in W. rewrite Z.shiftr_div_pow2 in E by lia.
    apply Z.div_small_iff in E; [ | apply Z.pow_nonzero; lia ]. lia.
  - rewrite F, fold_some. reflexivity.
Qed.
