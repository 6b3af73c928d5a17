(** * The generated circuits compute the ISA's arithmetic *)
Require Import ZArith NArith Lia Bool List.
Require Import ZifyBool.
From Verif Require Import Word Isa Codec EvalSpec Bdd BddCheck BddFacts CircLui CircJalr CircAuipc CircRamOffset CircPcUpdate.
Import ListNotations.
Open Scope Z_scope.

(** ** input layouts as total functions *)
Definition f2 (a b : Z) (v : N) : bool :=
  if (v <? 32)%N then Z.testbit a (Z.of_N v) else Z.testbit b (Z.of_N (v - 32)).
Lemma inp2_f a b v : (v < 64)%N -> inp2 a b v = Some (f2 a b v).
Proof.
  intros H. unfold inp2, f2. cbn [helper_bit]. unfold word_bit.
  destruct (N.leb_spec 32 v), (N.ltb_spec v 32), (N.leb_spec 0 v); try lia.
  - destruct (N.ltb_spec (v - 32) 32); [reflexivity|lia].
  - rewrite N.sub_0_r. destruct (N.ltb_spec v 32); [reflexivity|lia].
Qed.

Definition fpc (op x y pc imm : Z) (v : N) : bool :=
  if (100 <=? v)%N then Z.testbit imm (Z.of_N (v - 100))
  else if (68 <=? v)%N then Z.testbit pc (Z.of_N (v - 68))
  else if (36 <=? v)%N then Z.testbit y (Z.of_N (v - 36))
  else if (4 <=? v)%N then Z.testbit x (Z.of_N (v - 4))
  else Z.testbit op (Z.of_N v).
Lemma inp_pc_f op x y pc imm v : (v < 120)%N -> inp_pc op x y pc imm v = Some (fpc op x y pc imm v).
Proof.
  intros H. unfold inp_pc, fpc. cbn [helper_bit]. unfold word_bit.
  destruct (N.leb_spec 100 v), (N.leb_spec 68 v), (N.leb_spec 36 v), (N.leb_spec 4 v), (N.leb_spec 0 v); try lia;
    try match goal with |- (if (?a <? ?b)%N then _ else _) = _ => destruct (N.ltb_spec a b); [|lia] end;
    rewrite ?N.sub_0_r; reflexivity.
Qed.

(** ** words determined by their 32 low bits *)
Lemma word_ext a b : word a -> word b ->
  (forall i, (i < 32)%N -> Z.testbit a (Z.of_N i) = Z.testbit b (Z.of_N i)) -> a = b.
Proof.
  intros A B H. apply Z.bits_inj'. intros n Hn.
  destruct (Z.lt_ge_cases n 32) as [L|L].
  - specialize (H (Z.to_N n) ltac:(lia)). now rewrite Z2N.id in H.
  - assert (G : forall z, word z -> Z.testbit z n = false).
    { intros z Hz. destruct (Z.eq_dec z 0) as [->|]; [apply Z.testbit_0_l|].
      apply Z.bits_above_log2; unfold word in Hz; [lia|].
      assert (Z.log2 z < 32) by (apply Z.log2_lt_pow2; lia). lia. }
    now rewrite !G.
Qed.
Lemma val_word f o : word (val f o).
Proof. exact (val_range f o). Qed.
Lemma val_eq f o w : word w ->
  (forall k, (k < 32)%N -> Z.testbit w (Z.of_N k) = opbit f o k) -> val f o = w.
Proof.
  intros W H. apply word_ext; [apply val_word|assumption|].
  intros k Hk. now rewrite val_bit, H by lia.
Qed.
Lemma to_word_range x : word (to_word x).
Proof. unfold word, to_word. apply Z.mod_pos_bound. lia. Qed.
Lemma to_word_bit x i : (i < 32)%N -> Z.testbit (to_word x) (Z.of_N i) = Z.testbit x (Z.of_N i).
Proof. intros. unfold to_word. apply Z.mod_pow2_bits_low. lia. Qed.
Lemma word_total w x : word w ->
  (forall i, (i < 32)%N -> Z.testbit w (Z.of_N i) = Z.testbit x (Z.of_N i)) -> w = to_word x.
Proof.
  intros W H. apply word_ext; [assumption|apply to_word_range|].
  intros. now rewrite to_word_bit, H by lia.
Qed.
Lemma to_word_add_l a b : to_word (to_word a + b) = to_word (a + b).
Proof. unfold to_word. now rewrite Zplus_mod_idemp_l. Qed.
Lemma to_word_add_r a b : to_word (a + to_word b) = to_word (a + b).
Proof. unfold to_word. now rewrite Zplus_mod_idemp_r. Qed.
Lemma to_word_id x : word x -> to_word x = x.
Proof. intros. unfold to_word. apply Z.mod_small. exact H. Qed.

(** operand values *)
Lemma shl12_bits imm k : (k < 32)%N ->
  Z.testbit (to_word (imm * 2 ^ 12)) (Z.of_N k) =
  if (k <? 12)%N then false else Z.testbit imm (Z.of_N (k - 12)).
Proof.
  intros. rewrite to_word_bit, Z.mul_pow2_bits by lia.
  destruct (N.ltb_spec k 12).
  - apply Z.testbit_neg_r. lia.
  - f_equal. lia.
Qed.
Lemma val_zero f : val f zero = 0.
Proof. apply val_eq; [unfold word; lia|]. intros. now rewrite Z.testbit_0_l. Qed.
Lemma val_a a b : word a -> val (f2 a b) (from 0) = a.
Proof.
  intros W. apply val_eq; auto. intros k Hk. unfold opbit, from, f2. rewrite N.add_0_l.
  destruct (N.ltb_spec k 32); [reflexivity|lia].
Qed.
Lemma val_b a b : word b -> val (f2 a b) (from 32) = b.
Proof.
  intros W. apply val_eq; auto. intros k Hk. unfold opbit, from, f2.
  destruct (N.ltb_spec (32 + k) 32); [lia|]. f_equal. lia.
Qed.
Lemma val_sh_a a b : val (f2 a b) (shifted 0 12) = to_word (a * 2 ^ 12).
Proof.
  apply val_eq; [apply to_word_range|]. intros k Hk. rewrite shl12_bits by lia.
  unfold opbit, shifted, f2. destruct (N.ltb_spec k 12); [reflexivity|].
  destruct (N.ltb_spec (0 + (k - 12)) 32); [|lia]. f_equal.
Qed.
Lemma val_sh_b a b : val (f2 a b) (shifted 32 12) = to_word (b * 2 ^ 12).
Proof.
  apply val_eq; [apply to_word_range|]. intros k Hk. rewrite shl12_bits by lia.
  unfold opbit, shifted, f2. destruct (N.ltb_spec k 12); [reflexivity|].
  destruct (N.ltb_spec (32 + (k - 12)) 32); [lia|]. f_equal. lia.
Qed.

(** ** the four two-word circuits *)
Lemma sum_circuit t c a b :
  check no_ctx (GSum t) c = true -> (input_bits c <= 64)%N -> t <> TInd ->
  eval_circuit c (inp2 a b) = Some (to_word (total (f2 a b) t)).
Proof.
  intros H I T.
  destruct (check_ok (f2 a b) no_ctx (GSum t) c (inp2 a b)) as (w & E & R & B); auto.
  - intros v x [].
  - intros v Hv. apply inp2_f. lia.
  - rewrite E. f_equal. apply word_total; [exact R|]. intros i Hi. rewrite B by lia.
    cbn [goal_bit]. unfold sumbit. now destruct t.
Qed.

Lemma lui_ok a b : eval_circuit lui_circuit (inp2 a b) = Some (to_word (a * 2 ^ 12)).
Proof.
  rewrite (sum_circuit TLui); [|vm_compute; reflexivity|vm_compute; discriminate|discriminate].
  unfold total. cbn [spec va vb kc]. rewrite val_sh_a, val_zero, !Z.add_0_r. f_equal.
  apply to_word_id, to_word_range.
Qed.
Lemma jalr_ok a b : word a -> eval_circuit jalr_circuit (inp2 a b) = Some (to_word (a + 4)).
Proof.
  intros. rewrite (sum_circuit TLink); [|vm_compute; reflexivity|vm_compute; discriminate|discriminate].
  unfold total. cbn [spec va vb kc]. rewrite val_a, val_zero, !Z.add_0_r by assumption. reflexivity.
Qed.
Lemma auipc_ok a b : word a -> eval_circuit auipc_circuit (inp2 a b) = Some (to_word (a + b * 2 ^ 12)).
Proof.
  intros. rewrite (sum_circuit TAuipc); [|vm_compute; reflexivity|vm_compute; discriminate|discriminate].
  unfold total. cbn [spec va vb kc]. rewrite val_a, val_sh_b, !Z.add_0_r by assumption.
  now rewrite to_word_add_r.
Qed.
Lemma ram_offset_ok a b : word a -> word b ->
  eval_circuit ram_offset_circuit (inp2 a b) = Some (to_word (a + b - 2 ^ 18)).
Proof.
  intros. rewrite (sum_circuit TRam); [|vm_compute; reflexivity|vm_compute; discriminate|discriminate].
  unfold total. cbn [spec va vb kc]. rewrite val_a, val_b by assumption.
  f_equal. unfold to_word. change 4294705152 with (2 ^ 32 - 2 ^ 18).
  replace (a + b + (2 ^ 32 - 2 ^ 18)) with (a + b - 2 ^ 18 + 1 * 2 ^ 32) by ring.
  apply Z.mod_add. lia.
Qed.

(** ** the next-pc circuit *)
Lemma val_pc op x y pc imm : word pc -> val (fpc op x y pc imm) (from 68) = pc.
Proof.
  intros W. apply val_eq; auto. intros k Hk. unfold opbit, from, fpc.
  destruct (N.leb_spec 100 (68 + k)); [lia|]. destruct (N.leb_spec 68 (68 + k)); [|lia]. f_equal. lia.
Qed.
Lemma val_x op x y pc imm : word x -> val (fpc op x y pc imm) (from 4) = x.
Proof.
  intros W. apply val_eq; auto. intros k Hk. unfold opbit, from, fpc.
  destruct (N.leb_spec 100 (4 + k)); [lia|]. destruct (N.leb_spec 68 (4 + k)); [lia|].
  destruct (N.leb_spec 36 (4 + k)); [lia|]. destruct (N.leb_spec 4 (4 + k)); [|lia]. f_equal. lia.
Qed.
Lemma val_y op x y pc imm : word y -> val (fpc op x y pc imm) (from 36) = y.
Proof.
  intros W. apply val_eq; auto. intros k Hk. unfold opbit, from, fpc.
  destruct (N.leb_spec 100 (36 + k)); [lia|]. destruct (N.leb_spec 68 (36 + k)); [lia|].
  destruct (N.leb_spec 36 (36 + k)); [|lia]. f_equal. lia.
Qed.
Lemma signed_bits n x k : (0 < n)%Z -> 0 <= k ->
  Z.testbit (signed n x) k = Z.testbit x (if k <? n then k else n - 1).
Proof.
  intros Hn Hk. unfold signed, low.
  assert (E : x mod 2 ^ n = x mod 2 ^ (n - 1) + 2 ^ (n - 1) * Z.b2z (Z.testbit x (n - 1))).
  { replace n with (n - 1 + 1) at 1 by lia. apply mod_succ_bit. lia. }
  pose proof (Z.mod_pos_bound x (2 ^ (n - 1)) ltac:(lia)) as B.
  assert (P : 2 ^ n = 2 * 2 ^ (n - 1)).
  { replace n with (Z.succ (n - 1)) at 1 by lia. apply Z.pow_succ_r. lia. }
  destruct (Z.testbit x (n - 1)) eqn:S; cbn [Z.b2z] in E.
  - destruct (Z.ltb_spec (x mod 2 ^ n) (2 ^ (n - 1))); [lia|].
    assert (F : x mod 2 ^ n - 2 ^ n = x mod 2 ^ n + 2 ^ n * (-1)) by ring.
    destruct (Z.ltb_spec k n).
    + rewrite F. rewrite <- (Z.mod_pow2_bits_low _ n) by lia.
      rewrite Z.mul_comm, Z.mod_add, Z.mod_mod by lia. apply Z.mod_pow2_bits_low. lia.
    + rewrite S. rewrite Z.testbit_odd, Z.shiftr_div_pow2 by lia.
      assert (2 ^ n <= 2 ^ k) by (apply Z.pow_le_mono_r; lia).
      replace ((x mod 2 ^ n - 2 ^ n) / 2 ^ k) with (-1); [reflexivity|].
      apply Z.div_unique with (r := x mod 2 ^ n - 2 ^ n + 2 ^ k); lia.
  - destruct (Z.ltb_spec (x mod 2 ^ n) (2 ^ (n - 1))); [|lia].
    destruct (Z.ltb_spec k n).
    + apply Z.mod_pow2_bits_low. lia.
    + rewrite S. apply Z.mod_pow2_bits_high. lia.
Qed.
Lemma val_imm op x y pc imm : val (fpc op x y pc imm) (sxt 100 20) = to_word (signed 20 imm).
Proof.
  apply val_eq; [apply to_word_range|]. intros k Hk.
  rewrite to_word_bit, signed_bits by lia. unfold opbit, sxt, fpc.
  destruct (N.leb_spec 100 (100 + (if (k <? 20)%N then k else 20 - 1)))%N; [|lia].
  f_equal. destruct (N.ltb_spec k 20), (Z.ltb_spec (Z.of_N k) 20); lia.
Qed.

Definition pc_goal (o : pc_op) : goal :=
  match o with
  | PNONE => GSum TNext | PJAL => GSum TRel | PJALR => GSum TInd
  | PBEQ => GBranch false false true false | PBNE => GBranch false true false true
  | PBLT => GBranch true true false false | PBGE => GBranch true false true true
  | PBLTU => GBranch false true false false | PBGEU => GBranch false false true true
  end.
Definition pc_ctx (o : pc_op) : ctx :=
  match o with PJALR => jalr_ctx | _ => op_ctx (pc_id o) end.
Lemma pc_checked o : check (pc_ctx o) (pc_goal o) pc_update_circuit = true.
Proof. destruct o; vm_compute; reflexivity. Qed.
Lemma pc_known o : known (pc_ctx o) = op_known (pc_id o).
Proof. now destruct o. Qed.

Lemma total_next op x y pc imm : word pc -> total (fpc op x y pc imm) TNext = pc + 4.
Proof. intros. unfold total. cbn [spec va vb kc]. rewrite val_pc, val_zero by assumption. ring. Qed.
Lemma total_rel op x y pc imm : word pc -> total (fpc op x y pc imm) TRel = pc + to_word (signed 20 imm).
Proof. intros. unfold total. cbn [spec va vb kc]. rewrite val_pc, val_imm by assumption. ring. Qed.
Lemma total_ind op x y pc imm : word x -> total (fpc op x y pc imm) TInd = x + to_word (signed 20 imm).
Proof. intros. unfold total. cbn [spec va vb kc]. rewrite val_x, val_imm by assumption. ring. Qed.

Lemma signed20_s32 imm : s32 (to_word (signed 20 imm)) = signed 20 imm.
Proof.
  unfold s32, signed, low, to_word. change (2 ^ (20 - 1)) with 524288. change (2 ^ (32 - 1)) with 2147483648.
  change (2 ^ 32) with 4294967296. change (2 ^ 20) with 1048576.
  pose proof (Z.mod_pos_bound imm 1048576 ltac:(lia)). rewrite Z.mod_mod by lia.
  destruct (Z.ltb_spec (imm mod 1048576) 524288).
  - rewrite Z.mod_small by lia. destruct (Z.ltb_spec (imm mod 1048576) 2147483648); lia.
  - replace ((imm mod 1048576 - 1048576) mod 4294967296) with (imm mod 1048576 - 1048576 + 4294967296).
    2: { apply Z.mod_unique with (q := -1); lia. }
    destruct (Z.ltb_spec (imm mod 1048576 - 1048576 + 4294967296) 2147483648); lia.
Qed.
Lemma s32_sgn x : word x -> s32 x = sgn32 x.
Proof.
  intros W. unfold s32, signed, low, sgn32. rewrite Z.mod_small by exact W. reflexivity.
Qed.

Lemma pc_update_ok o x y pc imm : word x -> word y -> word pc ->
  eval_circuit pc_update_circuit (inp_pc (pc_id o) x y pc imm) =
  Some (pc_spec o (to_word (signed 20 imm)) x y pc).
Proof.
  intros Wx Wy Wp. set (f := fpc (pc_id o) x y pc imm).
  destruct (check_ok f (pc_ctx o) (pc_goal o) pc_update_circuit (inp_pc (pc_id o) x y pc imm))
    as (w & E & R & B).
  - rewrite pc_known. intros v b H. unfold op_known in H. cbn [map In] in H.
    unfold f, fpc. intuition; match goal with H : (_, _) = (_, _) |- _ => injection H as <- <- end; reflexivity.
  - intros v Hv. apply inp_pc_f. exact Hv.
  - apply pc_checked.
  - rewrite E. f_equal.
    assert (S32 : s32 (to_word (signed 20 imm)) = signed 20 imm) by apply signed20_s32.
    assert (NX : (forall i, (i < 32)%N -> Z.testbit w (Z.of_N i) = Z.testbit (total f TNext) (Z.of_N i)) ->
                 w = to_word (pc + 4)).
    { intros G. unfold f in G. rewrite total_next in G by assumption. now apply word_total. }
    assert (RL : (forall i, (i < 32)%N -> Z.testbit w (Z.of_N i) = Z.testbit (total f TRel) (Z.of_N i)) ->
                 w = to_word (pc + signed 20 imm)).
    { intros G. unfold f in G. rewrite total_rel in G by assumption. rewrite <- to_word_add_r. now apply word_total. }
    assert (BR : forall sgn lt eq gt, pc_goal o = GBranch sgn lt eq gt ->
       w = if choose lt eq gt (rel f sgn 32) then to_word (pc + signed 20 imm) else to_word (pc + 4)).
    { intros sgn lt eq gt G. rewrite G in B. cbn [goal_bit] in B.
      destruct (choose lt eq gt (rel f sgn 32)); cbn [side sumbit] in B; auto. }
    assert (RU : rel f false 32 = (x ?= y)).
    { unfold rel, f. cbn [andb]. rewrite val_x, val_y by assumption.
      change (2 ^ Z.of_N 32) with (2 ^ 32). now rewrite !Z.mod_small by assumption. }
    assert (RS : rel f true 32 = (s32 x ?= s32 y)).
    { unfold rel, f. cbn [andb N.eqb Pos.eqb]. rewrite val_x, val_y by assumption.
      now rewrite !s32_sgn by assumption. }
    destruct o; cbn [pc_spec]; rewrite ?S32.
    + apply NX. exact B.
    + apply RL. exact B.
    + cbn [pc_goal goal_bit sumbit] in B. unfold f in B. rewrite total_ind in B by assumption.
      rewrite <- to_word_add_r. set (u := x + to_word (signed 20 imm)) in *.
      apply word_ext; [exact R| |].
      * pose proof (to_word_range u) as W. pose proof (Z.mod_pos_bound (to_word u) 2 ltac:(lia)).
        assert (to_word u mod 2 <= to_word u) by (apply Z.mod_le; unfold word in W; lia).
        unfold word in *. lia.
      * intros i Hi. rewrite B by lia.
        replace (to_word u - to_word u mod 2) with (to_word u / 2 * 2 ^ 1).
        2: { rewrite (Z.div_mod (to_word u) 2) at 2 by lia. change (2 ^ 1) with 2. ring. }
        rewrite Z.mul_pow2_bits by lia. destruct (N.eqb_spec i 0) as [->|].
        { symmetry. apply Z.testbit_neg_r. lia. }
        cbn [negb andb]. change 2 with (2 ^ 1) at 1. rewrite <- Z.shiftr_div_pow2, Z.shiftr_spec by lia.
        rewrite Z.sub_add. symmetry. now apply to_word_bit.
    + rewrite (BR _ _ _ _ eq_refl), RU. cbn [taken]. unfold choose.
      destruct (Z.compare_spec x y), (Z.eqb_spec x y); try lia; reflexivity.
    + rewrite (BR _ _ _ _ eq_refl), RU. cbn [taken]. unfold choose.
      destruct (Z.compare_spec x y), (Z.eqb_spec x y); try lia; reflexivity.
    + rewrite (BR _ _ _ _ eq_refl), RS. cbn [taken]. unfold choose.
      destruct (Z.compare_spec (s32 x) (s32 y)), (Z.ltb_spec (s32 x) (s32 y)); try lia; reflexivity.
    + rewrite (BR _ _ _ _ eq_refl), RS. cbn [taken]. unfold choose.
      destruct (Z.compare_spec (s32 x) (s32 y)), (Z.leb_spec (s32 y) (s32 x)); try lia; reflexivity.
    + rewrite (BR _ _ _ _ eq_refl), RU. cbn [taken]. unfold choose.
      destruct (Z.compare_spec x y), (Z.ltb_spec x y); try lia; reflexivity.
    + rewrite (BR _ _ _ _ eq_refl), RU. cbn [taken]. unfold choose.
      destruct (Z.compare_spec x y), (Z.leb_spec y x); try lia; reflexivity.
Qed.

Lemma signed20_id off : - 2 ^ 19 <= off < 2 ^ 19 -> signed 20 off = off.
Proof.
  intros H. unfold signed, low. change (2 ^ (20 - 1)) with 524288. change (2 ^ 20) with 1048576.
  change (2 ^ 19) with 524288 in H. destruct (Z.lt_ge_cases off 0).
  - replace (off mod 1048576) with (off + 1048576) by (apply Z.mod_unique with (q := -1); lia).
    destruct (Z.ltb_spec (off + 1048576) 524288); lia.
  - rewrite Z.mod_small by lia. destruct (Z.ltb_spec off 524288); lia.
Qed.
Lemma signed20_word off : signed 20 (to_word off) = signed 20 off.
Proof.
  unfold signed, low, to_word. change (2 ^ 32) with (2 ^ 20 * 2 ^ 12).
  rewrite Z.rem_mul_r by lia. rewrite (Z.mul_comm (2 ^ 20)), Z.mod_add, Z.mod_mod by lia. reflexivity.
Qed.

(** JAL: right exactly for the offsets that fit in 20 bits. *)
Lemma jal_exact pc off x y : word x -> word y -> word pc -> legal (JAL 0 off) ->
  (eval_circuit pc_update_circuit (inp_pc (pc_id PJAL) x y pc (to_word off)) = Some (to_word (pc + off))
   <-> - 2 ^ 19 <= off < 2 ^ 19).
Proof.
  intros Wx Wy Wp (_ & L & _). rewrite pc_update_ok by assumption. cbn [pc_spec].
  rewrite signed20_s32, signed20_word. split.
  - intros E. injection E as E. unfold to_word in E.
    assert (D : signed 20 off = off \/ signed 20 off = off - 2 ^ 20 \/ signed 20 off = off + 2 ^ 20).
    { unfold signed, low. change (2 ^ (20 - 1)) with 524288. change (2 ^ 20) with 1048576 in *.
      destruct (Z.lt_ge_cases off 0).
      - replace (off mod 1048576) with (off + 1048576) by (apply Z.mod_unique with (q := -1); lia).
        destruct (Z.ltb_spec (off + 1048576) 524288); lia.
      - rewrite Z.mod_small by lia. destruct (Z.ltb_spec off 524288); lia. }
    assert (D2 : - 2 ^ 19 <= signed 20 off < 2 ^ 19).
    { unfold signed, low. pose proof (Z.mod_pos_bound off (2 ^ 20) ltac:(lia)).
      change (2 ^ (20 - 1)) with (2 ^ 19). destruct (Z.ltb_spec (off mod 2 ^ 20) (2 ^ 19)); lia. }
    assert (Q : (pc + signed 20 off - (pc + off)) mod 2 ^ 32 = 0).
    { rewrite Zminus_mod, E, Z.sub_diag. apply Z.mod_0_l. lia. }
    destruct D as [D|[D|D]]; rewrite D in *; [assumption| |].
    + replace (pc + (off - 2 ^ 20) - (pc + off)) with (- 2 ^ 20) in Q by ring. vm_compute in Q. discriminate.
    + replace (pc + (off + 2 ^ 20) - (pc + off)) with (2 ^ 20) in Q by ring. vm_compute in Q. discriminate.
  - intros H. now rewrite signed20_id.
Qed.

(** ** structure *)
Definition circuits : list circuit :=
  [lui_circuit; jalr_circuit; auipc_circuit; ram_offset_circuit; pc_update_circuit].
Lemma all_sound : forallb (fun c => forallb (sound_bit (input_bits c)) (bits_out c)) circuits = true.
Proof. vm_compute. reflexivity. Qed.
