(** * Bit-level lemmas (proofs only) *)
Require Import ZArith Lia Bool List.
Require Import ZifyBool ZifyNat.
From Verif Require Import Word Isa.
Open Scope Z_scope.

Ltac Zify.zify_post_hook ::= Z.div_mod_to_equations.

Lemma testbit_hi x n : 0 <= x < 2 ^ n -> forall m, n <= m -> Z.testbit x m = false.
Proof.
  intros Hx m Hm. destruct (Z.eq_dec x 0) as [->|Hne]; [apply Z.bits_0|].
  apply Z.bits_above_log2; [lia|].
  apply Z.log2_lt_pow2; [lia|].
  apply Z.lt_le_trans with (2 ^ n); [lia|].
  apply Z.pow_le_mono_r; lia.
Qed.

Lemma word_bits_eq a b :
  word a -> word b -> (forall n, 0 <= n < 32 -> Z.testbit a n = Z.testbit b n) -> a = b.
Proof.
  intros Ha Hb H. apply Z.bits_inj'. intros n Hn.
  destruct (Z_lt_ge_dec n 32); [apply H; lia|].
  unfold word in *.
  rewrite (testbit_hi a 32), (testbit_hi b 32); auto; lia.
Qed.

Lemma testbit_mod x k n :
  0 <= k -> 0 <= n -> Z.testbit (x mod 2 ^ k) n = (n <? k) && Z.testbit x n.
Proof.
  intros. destruct (Z.ltb_spec n k).
  - rewrite Z.mod_pow2_bits_low by lia. reflexivity.
  - rewrite Z.mod_pow2_bits_high by lia. reflexivity.
Qed.

Lemma testbit_u32 x n : 0 <= n -> Z.testbit (u32 x) n = (n <? 32) && Z.testbit x n.
Proof. intros. unfold u32. change 4294967296 with (2 ^ 32). apply testbit_mod; lia. Qed.

Lemma testbit_shl32 x k n :
  0 <= n -> Z.testbit (shl32 x k) n = (n <? 32) && (Z.testbit x (n - k)).
Proof.
  intros. unfold shl32. rewrite testbit_u32 by lia.
  rewrite Z.shiftl_spec by lia. reflexivity.
Qed.

Lemma testbit_shr32 x k n : 0 <= n -> Z.testbit (shr32 x k) n = Z.testbit x (n + k).
Proof. intros. unfold shr32. apply Z.shiftr_spec; lia. Qed.

(** a bit times a mask *)
Lemma testbit_wmul_bit x k m n :
  0 <= k -> 0 <= n -> word m ->
  Z.testbit (wmul (Z.land (shr32 x k) 1) m) n = Z.testbit x k && Z.testbit m n.
Proof.
  intros Hk Hn Hm. unfold wmul, shr32.
  change 1 with (Z.ones 1). rewrite Z.land_ones by lia.
  rewrite Z.shiftr_div_pow2 by lia. change (2 ^ 1) with 2.
  rewrite <- Z.testbit_spec' by lia.
  unfold word in Hm. unfold u32.
  destruct (Z.testbit x k); cbn [Z.b2z andb].
  - rewrite Z.mul_1_l, Z.mod_small by lia. reflexivity.
  - rewrite Z.mul_0_l, Z.mod_0_l by lia. apply Z.bits_0.
Qed.

Lemma testbit_cat lo k hi n :
  0 <= lo < 2 ^ k -> 0 <= k -> 0 <= n ->
  Z.testbit (cat lo k hi) n = if n <? k then Z.testbit lo n else Z.testbit hi (n - k).
Proof.
  intros Hlo Hk Hn. unfold cat.
  destruct (Z.ltb_spec n k).
  - rewrite <- (Z.mod_pow2_bits_low (lo + 2 ^ k * hi) k n) by lia.
    rewrite Z.mul_comm, Z.mod_add by (apply Z.pow_nonzero; lia).
    rewrite Z.mod_small by lia. reflexivity.
  - replace n with ((n - k) + k) at 1 by lia.
    rewrite <- Z.div_pow2_bits by lia.
    rewrite Z.mul_comm, Z.div_add by (apply Z.pow_nonzero; lia).
    rewrite Z.div_small by lia. f_equal.
Qed.

Lemma testbit_fld hi lo x n :
  0 <= lo <= hi -> 0 <= n ->
  Z.testbit (fld hi lo x) n = (n <? hi - lo + 1) && Z.testbit x (n + lo).
Proof.
  intros. unfold fld. rewrite testbit_mod by lia.
  rewrite Z.div_pow2_bits by lia. reflexivity.
Qed.

Lemma fld_range hi lo x : 0 <= lo <= hi -> 0 <= fld hi lo x < 2 ^ (hi - lo + 1).
Proof. intros. unfold fld. apply Z.mod_pos_bound. apply Z.pow_pos_nonneg; lia. Qed.

Lemma cat_range lo k hi m :
  0 <= k -> 0 <= m -> 0 <= lo < 2 ^ k -> 0 <= hi < 2 ^ m -> 0 <= cat lo k hi < 2 ^ (k + m).
Proof.
  intros. unfold cat. rewrite Z.pow_add_r by lia. nia.
Qed.

(** bits of a two's complement integer at the word level *)
Lemma testbit_to_word x n : 0 <= n -> Z.testbit (to_word x) n = (n <? 32) && Z.testbit x n.
Proof. intros. unfold to_word. apply testbit_mod; lia. Qed.

Lemma testbit_signed k x n :
  0 < k -> 0 <= n ->
  Z.testbit (signed k x) n = Z.testbit x (if n <? k then n else k - 1).
Proof.
  intros Hk Hn. unfold signed, low.
  assert (Hp : 2 ^ k = 2 * 2 ^ (k - 1)).
  { rewrite <- Z.pow_succ_r by lia. f_equal. lia. }
  assert (Hpp : 0 < 2 ^ (k - 1)) by (apply Z.pow_pos_nonneg; lia).
  pose proof (Z.mod_pos_bound x (2 ^ k) ltac:(lia)) as Hm.
  set (y := x mod 2 ^ k) in *.
  assert (Hy : forall m, 0 <= m < k -> Z.testbit y m = Z.testbit x m).
  { intros. unfold y. rewrite Z.mod_pow2_bits_low by lia. reflexivity. }
  assert (Hs : Z.testbit x (k - 1) = negb (y <? 2 ^ (k - 1))).
  { rewrite <- Hy by lia.
    destruct (Z.ltb_spec y (2 ^ (k - 1))).
    - cbn. apply (testbit_hi y (k - 1)); lia.
    - cbn. apply Z.testbit_true; [lia|].
      replace (y / 2 ^ (k - 1)) with 1; [reflexivity|].
      apply Z.div_unique with (y - 2 ^ (k - 1)); lia. }
  destruct (Z.ltb_spec y (2 ^ (k - 1))) as [Hlt|Hge].
  - destruct (Z.ltb_spec n k).
    + apply Hy; lia.
    + rewrite (testbit_hi y k) by lia. rewrite Hs. reflexivity.
  - destruct (Z.ltb_spec n k).
    + rewrite <- Hy by lia.
      rewrite <- (Z.mod_pow2_bits_low (y - 2 ^ k) k n) by lia.
      replace (y - 2 ^ k) with (y + (-1) * 2 ^ k) by lia.
      rewrite Z.mod_add by lia. rewrite Z.mod_small by lia. reflexivity.
    + rewrite Hs. cbn. replace (y - 2 ^ k) with (- (2 ^ k - y)) by lia.
      assert (- (2 ^ k - y) = Z.lnot (2 ^ k - y - 1)) as -> by (unfold Z.lnot; lia).
      rewrite Z.lnot_spec by lia.
      rewrite (testbit_hi (2 ^ k - y - 1) k) by lia. reflexivity.
Qed.

Lemma testbit_even x n : 0 <= n -> Z.testbit (x - x mod 2) n = (0 <? n) && Z.testbit x n.
Proof.
  intros. replace (x - x mod 2) with (2 * (x / 2)) by lia.
  destruct (Z.ltb_spec 0 n).
  - rewrite Z.double_bits. cbn [andb].
    change 2 with (2 ^ 1) at 1. rewrite Z.div_pow2_bits by lia. f_equal. lia.
  - replace n with 0 by lia. rewrite Z.testbit_even_0. reflexivity.
Qed.


(** ** Bit blasting for equations between 32-bit words

    Unconditional bit lemmas: one rewriting pass with a symbolic bit index,
    then a case split on the index; the bits of the variables are opaque
    functions, everything else is evaluated. *)
Lemma tb_shl32 x k n : 0 <= k -> Z.testbit (shl32 x k) n = (n <? 32) && Z.testbit x (n - k).
Proof.
  intros. destruct (Z_lt_ge_dec n 0); [|apply testbit_shl32; lia].
  rewrite !Z.testbit_neg_r by lia. apply eq_sym, andb_false_r.
Qed.
Lemma tb_shr32 x k n : Z.testbit (shr32 x k) n = (0 <=? n) && Z.testbit x (n + k).
Proof.
  intros. destruct (Z.leb_spec 0 n); [apply testbit_shr32; lia|].
  rewrite Z.testbit_neg_r by lia. reflexivity.
Qed.
Lemma tb_shiftr x k n : Z.testbit (Z.shiftr x k) n = (0 <=? n) && Z.testbit x (n + k).
Proof. apply tb_shr32. Qed.
Lemma tb_shiftl x k n : 0 <= k -> Z.testbit (Z.shiftl x k) n = Z.testbit x (n - k).
Proof.
  intros. destruct (Z_lt_ge_dec n 0); [|apply Z.shiftl_spec; lia].
  rewrite !Z.testbit_neg_r by lia. reflexivity.
Qed.
Lemma tb_wmul_bit x k m n :
  0 <= k -> word m -> Z.testbit (wmul (Z.land (shr32 x k) 1) m) n = Z.testbit x k && Z.testbit m n.
Proof.
  intros. destruct (Z_lt_ge_dec n 0); [|apply testbit_wmul_bit; auto; lia].
  rewrite (Z.testbit_neg_r _ n), (Z.testbit_neg_r m n) by lia. apply eq_sym, andb_false_r.
Qed.
Lemma tb_to_word x n : Z.testbit (to_word x) n = (0 <=? n) && (n <? 32) && Z.testbit x n.
Proof.
  intros. destruct (Z.leb_spec 0 n); [apply testbit_to_word; lia|].
  rewrite !Z.testbit_neg_r by lia. reflexivity.
Qed.
Lemma tb_u32 x n : Z.testbit (u32 x) n = (0 <=? n) && (n <? 32) && Z.testbit x n.
Proof. apply tb_to_word. Qed.
Lemma tb_mod x k n : 0 <= k -> Z.testbit (x mod 2 ^ k) n = (n <? k) && Z.testbit x n.
Proof.
  intros. destruct (Z_lt_ge_dec n 0); [|apply testbit_mod; lia].
  rewrite !Z.testbit_neg_r by lia. apply eq_sym, andb_false_r.
Qed.
Lemma tb_signed k x n :
  0 < k -> Z.testbit (signed k x) n = (0 <=? n) && Z.testbit x (if n <? k then n else k - 1).
Proof.
  intros. destruct (Z.leb_spec 0 n); [apply testbit_signed; lia|].
  rewrite Z.testbit_neg_r by lia. reflexivity.
Qed.
Lemma tb_fld hi lo x n :
  0 <= lo <= hi ->
  Z.testbit (fld hi lo x) n = (0 <=? n) && (n <? hi - lo + 1) && Z.testbit x (n + lo).
Proof.
  intros. destruct (Z.leb_spec 0 n); [apply testbit_fld; lia|].
  rewrite Z.testbit_neg_r by lia. reflexivity.
Qed.
Lemma tb_cat lo k hi n :
  0 <= lo < 2 ^ k -> 0 <= k ->
  Z.testbit (cat lo k hi) n = if n <? k then Z.testbit lo n else Z.testbit hi (n - k).
Proof.
  intros. destruct (Z_lt_ge_dec n 0); [|apply testbit_cat; lia].
  rewrite !Z.testbit_neg_r by lia. destruct (n <? k); reflexivity.
Qed.
Lemma tb_even x n : Z.testbit (x - x mod 2) n = (0 <? n) && Z.testbit x n.
Proof.
  intros. destruct (Z_lt_ge_dec n 0); [|apply testbit_even; lia].
  rewrite !Z.testbit_neg_r by lia. apply eq_sym, andb_false_r.
Qed.

Lemma word_ex x : word x -> exists y, x = to_word y.
Proof. intros H. exists x. symmetry. apply Z.mod_small. exact H. Qed.

Ltac conc := first [ assumption | split; [discriminate|reflexivity] | discriminate | reflexivity
  | (apply fld_range; split; discriminate)
  | match goal with |- 0 <= fld ?h ?l ?x < _ => apply (fld_range h l x); split; discriminate end
  | (unfold word, reg in *; lia) ].

Ltac tb :=
  repeat first
  [ rewrite Z.lor_spec | rewrite Z.land_spec | rewrite Z.lxor_spec
  | rewrite tb_wmul_bit by conc | rewrite tb_shl32 by conc | rewrite tb_shr32
  | rewrite tb_to_word | rewrite tb_u32 | rewrite tb_signed by conc
  | rewrite tb_fld by conc | rewrite tb_cat by conc | rewrite tb_even | rewrite tb_mod by conc
  | rewrite tb_shiftr | rewrite tb_shiftl by conc ].

Ltac bool_fin :=
  try reflexivity;
  repeat match goal with b : Z -> bool |- context [?b ?n] => destruct (b n) end;
  try reflexivity.

Ltac cases32 n H :=
  let h := fresh in
  assert (h : n = 0 \/ n = 1 \/ n = 2 \/ n = 3 \/ n = 4 \/ n = 5 \/ n = 6 \/ n = 7 \/
    n = 8 \/ n = 9 \/ n = 10 \/ n = 11 \/ n = 12 \/ n = 13 \/ n = 14 \/ n = 15 \/
    n = 16 \/ n = 17 \/ n = 18 \/ n = 19 \/ n = 20 \/ n = 21 \/ n = 22 \/ n = 23 \/
    n = 24 \/ n = 25 \/ n = 26 \/ n = 27 \/ n = 28 \/ n = 29 \/ n = 30 \/ n = 31) by lia;
  clear H;
  repeat (destruct h as [->|h]); [..|subst n].

Ltac open_words :=
  repeat match goal with
  | H : word ?x |- _ =>
      is_var x; let y := fresh x in let e := fresh in
      destruct (word_ex x H) as [y e]; clear H; subst x
  end.

(** goal: an equation of bits at index [n], with [H : 0 <= n < 32] *)
Ltac bit_goal n H :=
  tb;
  repeat match goal with |- context [Z.testbit ?x _] => is_var x; generalize (Z.testbit x); intro end;
  cases32 n H; vm_compute; bool_fin.

Lemma word_testbit_hi x n : word x -> 32 <= n -> Z.testbit x n = false.
Proof. intros. apply (testbit_hi x 32); auto. Qed.

Lemma word_u32 x : word (u32 x).
Proof. unfold word, u32. change (2 ^ 32) with 4294967296. apply Z.mod_pos_bound. lia. Qed.
Lemma word_to_word x : word (to_word x).
Proof. unfold word, to_word. apply Z.mod_pos_bound. lia. Qed.
Lemma word_shl32 x k : word (shl32 x k).
Proof. apply word_u32. Qed.
Lemma word_wmul x y : word (wmul x y).
Proof. apply word_u32. Qed.

Lemma word_of_bits x : 0 <= x -> (forall n, 32 <= n -> Z.testbit x n = false) -> word x.
Proof.
  intros H0 H. unfold word. split; [lia|].
  destruct (Z.eq_dec x 0) as [->|]; [reflexivity|].
  apply Z.log2_lt_pow2; [lia|].
  destruct (Z_lt_ge_dec (Z.log2 x) 32); [lia|].
  specialize (H (Z.log2 x) ltac:(lia)). rewrite Z.bit_log2 in H by lia. discriminate.
Qed.
Lemma word_lor x y : word x -> word y -> word (Z.lor x y).
Proof.
  intros Hx Hy. apply word_of_bits.
  - apply Z.lor_nonneg. unfold word in *. lia.
  - intros. rewrite Z.lor_spec, (testbit_hi x 32), (testbit_hi y 32); auto; unfold word in *; lia.
Qed.
Lemma word_land_l x y : word x -> 0 <= y -> word (Z.land x y).
Proof.
  intros Hx Hy. apply word_of_bits.
  - apply Z.land_nonneg. unfold word in *. lia.
  - intros. rewrite Z.land_spec, (testbit_hi x 32); auto; unfold word in *; lia.
Qed.
Lemma word_land_r x y : word y -> 0 <= x -> word (Z.land x y).
Proof. intros. rewrite Z.land_comm. apply word_land_l; auto. Qed.
Lemma word_lxor x y : word x -> word y -> word (Z.lxor x y).
Proof.
  intros Hx Hy. apply word_of_bits.
  - apply Z.lxor_nonneg. unfold word in *. lia.
  - intros. rewrite Z.lxor_spec, (testbit_hi x 32), (testbit_hi y 32); auto; unfold word in *; lia.
Qed.
Lemma word_shr32 x k : 0 <= k -> word x -> word (shr32 x k).
Proof.
  intros Hk Hx. apply word_of_bits.
  - unfold shr32. apply Z.shiftr_nonneg. unfold word in *; lia.
  - intros. rewrite testbit_shr32 by lia. apply (testbit_hi x 32); unfold word in *; lia.
Qed.
Ltac words :=
  repeat first
  [ assumption | apply word_lor | apply word_shl32 | apply word_wmul | apply word_to_word
  | apply word_u32 | apply word_shr32; [discriminate|] | apply word_lxor
  | apply word_land_l; [|discriminate] | apply word_land_r; [conc|]
  | (unfold word; split; [discriminate|reflexivity]) | match goal with |- word (fld ?h ?l ?x) => let q := fresh in pose proof (fld_range h l x) as q; unfold word; cbv in q |- *; lia end
  | (unfold word in *; lia) ].

(** prove an equation between words bit by bit *)
Ltac blast :=
  apply word_bits_eq; [words|words|
    let n := fresh "n" in let H := fresh "H" in
    intros n H; open_words; bit_goal n H].

(** ** Field algebra *)
Lemma fld_cat_hi h l a k b :
  0 <= a < 2 ^ k -> 0 <= k <= l -> l <= h -> fld h l (cat a k b) = fld (h - k) (l - k) b.
Proof.
  intros Ha Hk Hl. unfold fld, cat. f_equal; [|f_equal; lia].
  replace (2 ^ l) with (2 ^ k * 2 ^ (l - k))
    by (rewrite <- Z.pow_add_r by lia; f_equal; lia).
  rewrite <- Z.div_div by (try apply Z.pow_pos_nonneg; try apply Z.pow_nonzero; lia).
  f_equal. rewrite Z.mul_comm, Z.div_add by (apply Z.pow_nonzero; lia).
  rewrite Z.div_small by lia. lia.
Qed.

Lemma fld_cat_lo h l a k b :
  0 <= a < 2 ^ k -> 0 <= l <= h -> h < k -> fld h l (cat a k b) = fld h l a.
Proof.
  intros Ha Hl Hh. apply Z.bits_inj'. intros n Hn.
  rewrite !testbit_fld by lia. destruct (Z.ltb_spec n (h - l + 1)); [|reflexivity].
  cbn [andb]. rewrite testbit_cat by lia. rewrite (proj2 (Z.ltb_lt _ _)) by lia. reflexivity.
Qed.

Lemma fld_all h x : 0 <= x < 2 ^ (h + 1) -> fld h 0 x = x.
Proof.
  intros. unfold fld. rewrite Z.pow_0_r, Z.div_1_r, Z.sub_0_r. apply Z.mod_small; lia.
Qed.

Lemma fld_const_0 h l : 0 <= h - l + 1 -> fld h l 0 = 0.
Proof.
  intros. unfold fld. rewrite Zdiv_0_l, Zmod_0_l. reflexivity.
Qed.

Lemma cat_fld x l m h :
  0 <= l -> l < m -> m <= h -> cat (fld (m - 1) l x) (m - l) (fld h m x) = fld h l x.
Proof.
  intros. apply Z.bits_inj'. intros n Hn.
  rewrite testbit_cat; [|replace (m - l) with (m - 1 - l + 1) by lia; apply fld_range; lia|lia|lia].
  rewrite (testbit_fld h l) by lia.
  destruct (Z.ltb_spec n (m - l)).
  - rewrite testbit_fld by lia. replace (n <? m - 1 - l + 1) with true by lia.
    replace (n <? h - l + 1) with true by lia. reflexivity.
  - rewrite testbit_fld by lia.
    replace (n - (m - l) + m) with (n + l) by lia. f_equal. lia.
Qed.

Lemma fld_0_low h x : 0 <= h -> fld h 0 x = low (h + 1) x.
Proof. intros. unfold fld, low. rewrite Z.pow_0_r, Z.div_1_r, Z.sub_0_r. reflexivity. Qed.

Lemma signed_low k x : 0 < k -> signed k (low k x) = signed k x.
Proof.
  intros. unfold signed, low. rewrite Z.mod_mod; [reflexivity|]. apply Z.pow_nonzero; lia.
Qed.

Lemma signed_small k x : 0 < k -> - 2 ^ (k - 1) <= x < 2 ^ (k - 1) -> signed k x = x.
Proof.
  intros Hk Hx. unfold signed, low.
  assert (Hp : 2 ^ k = 2 * 2 ^ (k - 1)).
  { rewrite <- Z.pow_succ_r by lia. f_equal. lia. }
  assert (0 < 2 ^ (k - 1)) by (apply Z.pow_pos_nonneg; lia).
  destruct (Z_lt_ge_dec x 0).
  - replace (x mod 2 ^ k) with (x + 2 ^ k).
    + destruct (Z.ltb_spec (x + 2 ^ k) (2 ^ (k - 1))); lia.
    + apply Z.mod_unique with (-1); lia.
  - rewrite Z.mod_small by lia.
    destruct (Z.ltb_spec x (2 ^ (k - 1))); lia.
Qed.

Lemma signed_range k x : 0 < k -> - 2 ^ (k - 1) <= signed k x < 2 ^ (k - 1).
Proof.
  intros Hk. unfold signed, low.
  assert (Hp : 2 ^ k = 2 * 2 ^ (k - 1)).
  { rewrite <- Z.pow_succ_r by lia. f_equal. lia. }
  assert (0 < 2 ^ (k - 1)) by (apply Z.pow_pos_nonneg; lia).
  pose proof (Z.mod_pos_bound x (2 ^ k) ltac:(lia)).
  destruct (Z.ltb_spec (x mod 2 ^ k) (2 ^ (k - 1))); lia.
Qed.

(** [getf] with a field mask is the ISA field. *)
Lemma testbit_bit x n : 0 <= n -> Z.testbit x n = true <-> fld n n x = 1.
Proof.
  intros. unfold fld. rewrite Z.sub_diag. change (2 ^ (0 + 1)) with 2.
  rewrite <- Z.testbit_spec' by lia. destruct (Z.testbit x n); cbn; lia.
Qed.
