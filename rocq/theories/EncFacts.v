(** Proofs about [EncEval]. *)
Require Import ZArith List Bool Lia.
Require Import Verif.Word Verif.Isa Verif.Bits Verif.Codec Verif.EvalSpec Verif.EvalPlain Verif.EvalFacts Verif.ListFacts
  Verif.DebugVM Verif.DebugFacts Verif.DebugStep Verif.Bdd Verif.BddFacts Verif.CircFacts Verif.Glwe Verif.GlweFacts Verif.Par Verif.ParFacts Verif.EncMem
  Verif.MemSpec Verif.MemFacts Verif.MemOps Verif.MemClient Verif.Prepare Verif.PrepFacts Verif.EncEval Verif.EncVM Verif.EncSpec.
Import ListNotations.
Ltac Zify.zify_post_hook ::= idtac.
Open Scope Z_scope.

Lemma is_word_word w : is_word w <-> word w.
Proof. unfold is_word, word. change (2 ^ 32) with 4294967296. tauto. Qed.

Lemma testbit_ext_words a b : is_word a -> is_word b ->
  (forall i, (i < 32)%nat -> Z.testbit a (Z.of_nat i) = Z.testbit b (Z.of_nat i)) -> a = b.
Proof.
  intros Ha Hb H. apply is_word_word in Ha, Hb. apply Z.bits_inj'. intros n Hn.
  destruct (Z_lt_le_dec n 32) as [L|L].
  - rewrite <- (Z2Nat.id n) by lia. apply H. lia.
  - now rewrite !word_testbit_hi.
Qed.

Lemma pack_word l : length l = 32%nat -> is_word (pack_bits l).
Proof. intro L. pose proof (pack_range l) as R. rewrite L in R. unfold is_word. change (2 ^ Z.of_nat 32) with 4294967296 in R. lia. Qed.
Lemma prepared_word l w : prepared l w -> is_word w.
Proof. intros [L <-]. now apply pack_word. Qed.
Lemma prepared_nth l w i : prepared l w -> nth i l false = Z.testbit w (Z.of_nat i).
Proof. intros [L <-]. now rewrite pack_testbit. Qed.
Lemma prepared_intro l w : is_word w -> length l = 32%nat ->
  (forall i, (i < 32)%nat -> nth i l false = Z.testbit w (Z.of_nat i)) -> prepared l w.
Proof.
  intros W L H. split; auto. apply testbit_ext_words; auto; [now apply pack_word|].
  intros i Hi. rewrite pack_testbit. auto.
Qed.

Lemma nat_testbit a i : Nat.testbit a i = Z.testbit (Z.of_nat a) (Z.of_nat i).
Proof.
  pose proof (Nat.testbit_spec' a i) as H. apply (f_equal Z.of_nat) in H.
  rewrite Nat2Z.inj_mod, Nat2Z.inj_div, Nat2Z.inj_pow in H. change (Z.of_nat 2) with 2 in H.
  rewrite <- Z.testbit_spec' in H by lia.
  destruct (Nat.testbit a i), (Z.testbit (Z.of_nat a) (Z.of_nat i)); cbn in H; auto; discriminate.
Qed.
Lemma boot_b2z b : boot (Z.b2z b) = b.
Proof. now destruct b. Qed.
Lemma enc_boot c w i : enc_of c w -> (i < 32)%nat -> boot (nth i c 0) = Z.testbit w (Z.of_nat i).
Proof. intros (_ & _ & H) Hi. rewrite H by auto. apply boot_b2z. Qed.
Lemma enc_decrypt c w : enc_of c w -> decrypt_word c = w.
Proof.
  intro H. pose proof H as (W & L & B). unfold decrypt_word.
  assert (P : prepared (map boot c) w).
  { apply prepared_intro; auto; [now rewrite map_length|]. intros i Hi.
    change false with (boot 0). rewrite map_nth. now apply enc_boot. }
  apply P.
Qed.
Lemma map_seq_nth (f : nat -> Z) i : (i < 32)%nat -> nth i (map f (seq 0 32)) 0 = f i.
Proof. intro H. apply nth_error_nth. rewrite nth_error_map, nth_error_seq by auto. reflexivity. Qed.
Lemma map_seq_nth_b (f : nat -> bool) i : (i < 32)%nat -> nth i (map f (seq 0 32)) false = f i.
Proof. intro H. apply nth_error_nth. rewrite nth_error_map, nth_error_seq by auto. reflexivity. Qed.
Lemma enc_word w : is_word w -> enc_of (fhe_of_word w) w.
Proof.
  intro W. split; auto. split; [reflexivity|]. intros i Hi. unfold fhe_of_word. now rewrite map_seq_nth.
Qed.
Lemma enc_zero : enc_of (repeat 0 32) 0.
Proof. split; [apply is_word_0|]. split; [reflexivity|]. intros i Hi. now rewrite nth_repeat, Z.testbit_0_l. Qed.
Lemma enc_ident l w : prepared l w -> enc_of (map Z.b2z l) w.
Proof.
  intro H. split; [eapply prepared_word; eauto|]. pose proof H as [L _]. split; [now rewrite map_length|].
  intros i Hi. change 0 with (Z.b2z false). rewrite map_nth. f_equal. now apply prepared_nth.
Qed.

Section Log.
Variable log : nat.
Notation I := (Ideal log).

Lemma word_mod w n : is_word w -> is_word (w mod 2 ^ Z.of_nat n).
Proof.
  unfold is_word. intro H. assert (0 < 2 ^ Z.of_nat n) by (apply Z.pow_pos_nonneg; lia).
  pose proof (Z.mod_pos_bound w (2 ^ Z.of_nat n) ltac:(lia)).
  pose proof (Z.mod_le w (2 ^ Z.of_nat n) ltac:(lia) ltac:(lia)). lia.
Qed.
Lemma prepare_prepared c w n : enc_of c w -> prepared (prepare_custom I c n) (w mod 2 ^ Z.of_nat n).
Proof.
  intro H. pose proof H as (W & _). apply prepared_intro; [now apply word_mod|reflexivity|].
  intros i Hi. unfold prepare_custom. rewrite map_seq_nth_b by auto. cbn [a_boot a_pzero Ideal].
  rewrite testbit_mod by lia. destruct (Nat.ltb_spec i n) as [L|L].
  - rewrite (proj2 (Z.ltb_lt _ _)) by lia. cbn [andb]. now apply enc_boot.
  - rewrite (proj2 (Z.ltb_ge _ _)) by lia. reflexivity.
Qed.
Lemma prepare_all c w : enc_of c w -> prepared (prepare_custom I c 32) w.
Proof.
  intro H. pose proof H as (W & _). pose proof (prepare_prepared c w 32 H) as P.
  rewrite Z.mod_small in P; [exact P|apply W].
Qed.
Lemma refresh c w : enc_of c w -> enc_of (a_ident I (prepare_custom I c 32)) w.
Proof. intro H. apply enc_ident, prepare_all, H. Qed.

(** ** selection *)
Lemma bits_val_pack bs : Z.of_nat (bits_val bs) = pack_bits bs.
Proof.
  induction bs as [|b bs IH]; [reflexivity|]. rewrite bits_val_cons. cbn [pack_bits fold_right]. fold (pack_bits bs).
  rewrite <- IH. destruct b; cbn [Z.b2z]; lia.
Qed.
Lemma pack_window l w r k : prepared l w -> (r + k <= 32)%nat ->
  pack_bits (firstn k (skipn r l)) = (w / 2 ^ Z.of_nat r) mod 2 ^ Z.of_nat k.
Proof.
  intros H Hk. apply Z.bits_inj'. intros n Hn. rewrite <- (Z2Nat.id n) by lia. set (i := Z.to_nat n).
  rewrite pack_testbit, testbit_mod by lia. rewrite <- Z.shiftr_div_pow2, Z.shiftr_spec by lia.
  destruct (Z.ltb_spec (Z.of_nat i) (Z.of_nat k)) as [L|L]; cbn [andb].
  - rewrite <- Nat2Z.inj_add, Nat.add_comm, <- (prepared_nth l w) by auto.
    destruct H as [LL _].
    assert (HN : nth_error (firstn k (skipn r l)) i = nth_error l (r + i)) by (apply nth_error_window; lia).
    destruct (nth_error_lt _ l (r + i)) as [b Hb]; [lia|].
    rewrite (nth_error_nth _ _ false Hb). apply nth_error_nth. congruence.
  - rewrite nth_overflow; auto. rewrite firstn_length. lia.
Qed.
Lemma select_ok m l w r k : prepared l w -> (r + k <= 32)%nat ->
  blind_select I m l r k =
  Some (match find_key (Z.to_nat ((w / 2 ^ Z.of_nat r) mod 2 ^ Z.of_nat k)) m with Some c => c | None => repeat 0 32 end).
Proof.
  intros H Hk. unfold blind_select. pose proof H as [L _]. rewrite L, (proj2 (Nat.leb_le _ _) Hk).
  cbn [a_select Ideal]. do 2 f_equal. rewrite <- (pack_window l w r k H Hk), <- bits_val_pack, Nat2Z.id. reflexivity.
Qed.
Lemma addr_ok l w r k : prepared l w -> (r + k <= 32)%nat ->
  addresses l r k (Z.to_nat ((w / 2 ^ Z.of_nat r) mod 2 ^ Z.of_nat k)).
Proof.
  intros H Hk. pose proof H as [L _].
  assert (P : 0 < 2 ^ Z.of_nat k) by (apply Z.pow_pos_nonneg; lia).
  pose proof (Z.mod_pos_bound (w / 2 ^ Z.of_nat r) _ P).
  split; [lia|]. split.
  - apply Nat2Z.inj_lt. rewrite Z2Nat.id, Nat2Z.inj_pow by lia. change (Z.of_nat 2) with 2. lia.
  - intros i Hi. rewrite (prepared_nth l w) by auto.
    rewrite nat_testbit, Z2Nat.id by lia.
    rewrite testbit_mod, (proj2 (Z.ltb_lt _ _)) by lia. cbn [andb].
    rewrite <- Z.shiftr_div_pow2, Z.shiftr_spec by lia. f_equal. lia.
Qed.

(** ** RD operations *)
Lemma circ_ok k a b x y v : prepared a x -> prepared b y -> circ2_word k x y = Some v -> is_word v ->
  enc_of (a_circ2 I k a b) v.
Proof. intros [_ Ha] [_ Hb] E W. cbn [a_circ2 Ideal]. rewrite Ha, Hb, E. now apply enc_word. Qed.

Lemma u32_word x : is_word (u32 x).
Proof. apply is_word_word, word_u32. Qed.

Definition unsigned_lb (o : rd_op) : rd_op := match o with RLB => RLBU | _ => o end.
Lemma in_unsigned o : In o RD_RV32I -> In (unsigned_lb o) RD_RV32I.
Proof. destruct o; cbn; tauto. Qed.
Lemma rd_enc_some o imm x y pc ram : In o RD_RV32I -> exists v, rd_enc o imm x y pc ram = Some v.
Proof.
  intro H. apply in_unsigned in H. unfold rd_enc. fold (unsigned_lb o).
  apply (rv32i_list_spec _ imm x y pc ram) in H. destruct (rd_spec (unsigned_lb o) imm x y pc ram); [eauto|congruence].
Qed.

Lemma zero_byte_nth k c i : (i < 32)%nat -> nth i (zero_byte k c) 0 = if (i / 8 =? k)%nat then 0 else nth i c 0.
Proof. intro H. unfold zero_byte. now rewrite map_seq_nth. Qed.
Lemma sext_byte_nth k c i : (i < 32)%nat ->
  nth i (sext_byte k c) 0 = if (i / 8 <=? k)%nat then nth i c 0 else nth (8 * k + 7) c 0.
Proof. intro H. unfold sext_byte. now rewrite map_seq_nth. Qed.


Lemma enc_intro c w : is_word w -> length c = 32%nat ->
  (forall i, (i < 32)%nat -> nth i c 0 = Z.b2z (Z.testbit w (Z.of_nat i))) -> enc_of c w.
Proof. intros. split; auto. Qed.
Lemma enc_nth c w i : enc_of c w -> (i < 32)%nat -> nth i c 0 = Z.b2z (Z.testbit w (Z.of_nat i)).
Proof. intros (_ & _ & H). apply H. Qed.
Ltac by8 i := pose proof (Nat.div_mod i 8 ltac:(lia)); pose proof (Nat.mod_upper_bound i 8 ltac:(lia)).
Lemma zero_321 c w : enc_of c w -> enc_of (zero_byte 3 (zero_byte 2 (zero_byte 1 c))) (w mod 2 ^ 8).
Proof.
  intro H. pose proof H as (W & _). apply enc_intro; [apply (word_mod w 8 W)|reflexivity|].
  intros i Hi. rewrite !zero_byte_nth by auto. rewrite testbit_mod by lia. by8 i.
  destruct (Nat.eqb_spec (i / 8) 3), (Nat.eqb_spec (i / 8) 2), (Nat.eqb_spec (i / 8) 1), (Z.ltb_spec (Z.of_nat i) 8);
    try lia; auto. cbn [andb]. now apply enc_nth.
Qed.
Lemma zero_32 c w : enc_of c w -> enc_of (zero_byte 3 (zero_byte 2 c)) (w mod 2 ^ 16).
Proof.
  intro H. pose proof H as (W & _). apply enc_intro; [apply (word_mod w 16 W)|reflexivity|].
  intros i Hi. rewrite !zero_byte_nth by auto. rewrite testbit_mod by lia. by8 i.
  destruct (Nat.eqb_spec (i / 8) 3), (Nat.eqb_spec (i / 8) 2), (Z.ltb_spec (Z.of_nat i) 16);
    try lia; auto. cbn [andb]. now apply enc_nth.
Qed.
Lemma sext_1 c w : enc_of c w -> enc_of (sext_byte 1 c) (to_word (signed 16 w)).
Proof.
  intro H. pose proof H as (W & _). apply enc_intro; [apply is_word_word, to_word_range|reflexivity|].
  intros i Hi. rewrite !sext_byte_nth by auto. unfold to_word. rewrite testbit_mod, signed_bits by lia.
  rewrite (proj2 (Z.ltb_lt _ 32)) by lia. cbn [andb]. by8 i.
  destruct (Nat.leb_spec (i / 8) 1), (Z.ltb_spec (Z.of_nat i) 16); try lia.
  - now apply enc_nth.
  - apply (enc_nth c w (8 * 1 + 7) H). lia.
Qed.

Lemma rd_enc_ok o rs1 rs2 imm pc x y im p c ram : In o RD_RV32I ->
  prepared rs1 x -> prepared rs2 y -> prepared imm im -> prepared pc p -> enc_of c ram ->
  exists r v, rd_eval_enc I o rs1 rs2 imm pc c = Some r /\ rd_enc o im x y p ram = Some v /\ enc_of r v.
Proof.
  intros Ho P1 P2 Pi Pp Hc.
  pose proof (prepared_word _ _ P1) as W1. pose proof (prepared_word _ _ P2) as W2.
  pose proof (prepared_word _ _ Pi) as Wi. pose proof (prepared_word _ _ Pp) as Wp.
  pose proof Hc as (Wr & Lc & Bc).
  apply is_word_word in W1, W2, Wi, Wp, Wr.
  destruct (rd_enc_some o im x y p ram Ho) as [v Hv].
  assert (Wv : is_word v) by (apply is_word_word; exact (word_rd_spec _ _ _ _ _ _ _ W1 W2 Wr Hv)).
  pose proof Hv as Hv'. unfold rd_enc in Hv'. apply rd_eval_rv32i in Hv'; auto.
  destruct o; cbn in Ho; try (exfalso; intuition discriminate); clear Ho; cbn [rd_eval] in Hv';
    eexists _, v; (split; [reflexivity|]; split; [exact Hv|]);
    try (eapply circ_ok; eauto; fail); unfold rd_enc in Hv; cbn [rd_spec] in Hv; injection Hv as <-.
  - exact enc_zero.
  - eapply circ_ok; eauto. apply lui_ok.
  - eapply circ_ok; eauto. now apply auipc_ok.
  - rewrite byte_0. now apply zero_321.
  - rewrite byte_0. now apply zero_321.
  - apply sext_1. now apply zero_32.
  - now apply zero_32.
  - exact Hc.
  - eapply circ_ok; eauto. now apply jalr_ok.
  - eapply circ_ok; eauto. now apply jalr_ok.
Qed.

(** ** RAM operations *)
Lemma bit_of_byte w i : 0 <= i -> Z.testbit w i = Z.testbit (byte (i / 8) w) (i mod 8).
Proof.
  intro H. pose proof (Z.mod_pos_bound i 8 ltac:(lia)). pose proof (Z.div_mod i 8 ltac:(lia)).
  assert (0 <= i / 8) by (apply Z.div_pos; lia).
  rewrite testbit_byte, (proj2 (Z.ltb_lt _ _)) by lia. cbn [andb]. f_equal. lia.
Qed.
Lemma ram_eval_bit o y ram off i : word y -> word ram -> 0 <= off < 4 -> aligned o off -> 0 <= i < 32 ->
  Z.testbit (ram_eval o y ram off) i =
  if in_store o off (i / 8) then Z.testbit y (i - 8 * off) else Z.testbit ram i.
Proof.
  intros Wy Wr Ho Ha Hi. pose proof (Z.mod_pos_bound i 8 ltac:(lia)). pose proof (Z.div_mod i 8 ltac:(lia)).
  rewrite bit_of_byte, ram_eval_bytes by (auto; lia). rewrite (bit_of_byte ram) by lia.
  destruct (in_store o off (i / 8)) eqn:E; auto. unfold in_store in E. apply andb_true_iff in E as [E1%Z.leb_le _].
  rewrite testbit_byte, (proj2 (Z.ltb_lt _ _)) by lia. cbn [andb]. f_equal. lia.
Qed.
Lemma splice_nth size dst a b i : (i < 32)%nat ->
  nth i (splice size dst 0 a b) 0 = if (i / size =? dst)%nat then nth (i - dst * size + 0 * size) b 0 else nth i a 0.
Proof. intro H. unfold splice. now rewrite map_seq_nth. Qed.
Lemma div8_Z i : Z.of_nat i / 8 = Z.of_nat (i / 8).
Proof. now rewrite Nat2Z.inj_div. Qed.

Lemma splice8_ok k a b ram y : (k < 4)%nat -> enc_of a ram -> enc_of b y ->
  enc_of (splice 8 k 0 a b) (ram_eval MSB y ram (Z.of_nat k)).
Proof.
  intros Hk Ha Hb. pose proof Ha as (Wr & _). pose proof Hb as (Wy & _). apply is_word_word in Wr, Wy.
  apply enc_intro; [apply is_word_word, word_ram_eval; auto|reflexivity|].
  intros i Hi. rewrite splice_nth, ram_eval_bit by (cbn [aligned]; auto; lia). unfold in_store. cbn [store_size].
  rewrite div8_Z. by8 i.
  destruct (Nat.eqb_spec (i / 8) k), (Z.leb_spec (Z.of_nat k) (Z.of_nat (i / 8))), (Z.ltb_spec (Z.of_nat (i / 8)) (Z.of_nat k + 1));
    try lia; cbn [andb]; try now apply enc_nth.
  rewrite (enc_nth b y) by (auto; lia). do 2 f_equal. lia.
Qed.
Lemma splice16_ok k a b ram y : (k < 2)%nat -> enc_of a ram -> enc_of b y ->
  enc_of (splice 16 k 0 a b) (ram_eval MSH y ram (Z.of_nat (2 * k))).
Proof.
  intros Hk Ha Hb. pose proof Ha as (Wr & _). pose proof Hb as (Wy & _). apply is_word_word in Wr, Wy.
  assert (Hal : aligned MSH (Z.of_nat (2 * k))) by (cbn [aligned]; destruct k as [|[|]]; [reflexivity|reflexivity|lia]).
  apply enc_intro; [apply is_word_word, word_ram_eval; auto|reflexivity|].
  intros i Hi. rewrite splice_nth, ram_eval_bit by (auto; lia). unfold in_store. cbn [store_size].
  rewrite div8_Z. by8 i.
  pose proof (Nat.div_mod i 16 ltac:(lia)). pose proof (Nat.mod_upper_bound i 16 ltac:(lia)).
  destruct (Nat.eqb_spec (i / 16) k), (Z.leb_spec (Z.of_nat (2 * k)) (Z.of_nat (i / 8))),
    (Z.ltb_spec (Z.of_nat (i / 8)) (Z.of_nat (2 * k) + 2));
    try lia; cbn [andb]; try now apply enc_nth.
  rewrite (enc_nth b y) by (auto; lia). do 2 f_equal. lia.
Qed.

Lemma ram_enc_ok o rs2 loaded pa y ram addr : enc_of rs2 y -> enc_of loaded ram -> prepared pa addr ->
  exists r, ram_eval_enc I o rs2 loaded pa = Some r /\ enc_of r (ram_eval o y ram (addr mod 4)).
Proof.
  intros Hy Hr Hp. pose proof (prepared_word _ _ Hp) as [Wa _].
  pose proof (Z.mod_pos_bound addr 4 ltac:(lia)) as Hm.
  assert (Hs : addr / 2 ^ Z.of_nat 0 mod 2 ^ Z.of_nat 2 = addr mod 4) by (change (2 ^ Z.of_nat 0) with 1; now rewrite Z.div_1_r).
  assert (Hc : addr mod 4 = 0 \/ addr mod 4 = 1 \/ addr mod 4 = 2 \/ addr mod 4 = 3) by lia.
  destruct o; cbn [ram_eval_enc].
  - eexists. split; [reflexivity|exact Hr].
  - rewrite (select_ok _ pa addr) by (auto; lia). rewrite Hs. eexists. split; [reflexivity|].
    destruct Hc as [-> |[-> |[-> | ->]]]; cbn [map seq find_key].
    + exact (splice8_ok 0 loaded rs2 ram y ltac:(lia) Hr Hy).
    + exact (splice8_ok 1 loaded rs2 ram y ltac:(lia) Hr Hy).
    + exact (splice8_ok 2 loaded rs2 ram y ltac:(lia) Hr Hy).
    + exact (splice8_ok 3 loaded rs2 ram y ltac:(lia) Hr Hy).
  - rewrite (select_ok _ pa addr) by (auto; lia). rewrite Hs. eexists. split; [reflexivity|].
    destruct Hc as [-> |[-> |[-> | ->]]]; cbn [map seq find_key].
    + exact (splice16_ok 0 loaded rs2 ram y ltac:(lia) Hr Hy).
    + exact enc_zero.
    + exact (splice16_ok 1 loaded rs2 ram y ltac:(lia) Hr Hy).
    + exact enc_zero.
  - eexists. split; [reflexivity|exact Hy].
Qed.

(** ** selection over the evaluated table *)
Lemma eval_all_ok {O} (id : O -> Z) (ev : O -> option (list Z)) (P : O -> list Z -> Prop) ops :
  (forall o, In o ops -> exists r, ev o = Some r /\ P o r) ->
  exists m, eval_all id ev ops = Some m /\
    Forall2 (fun o e => fst e = Z.to_nat (id o) /\ P o (snd e)) ops m.
Proof.
  induction ops as [|o ops IH]; intro H.
  - exists []. auto.
  - destruct (H o (or_introl eq_refl)) as (r & E & Hr).
    destruct IH as (m & Em & Hm); [intros; apply H; now right|].
    exists ((Z.to_nat (id o), r) :: m). cbn [eval_all]. rewrite E, Em. split; auto.
Qed.
Lemma find_key_ok {O} (id : O -> Z) (P : O -> list Z -> Prop) ops m k :
  Forall2 (fun o e => fst e = Z.to_nat (id o) /\ P o (snd e)) ops m ->
  (forall o, In o ops -> 0 <= id o) -> 0 <= k -> NoDup (map id ops) ->
  match by_id id k ops with
  | Some o => exists r, find_key (Z.to_nat k) m = Some r /\ P o r
  | None => find_key (Z.to_nat k) m = None
  end.
Proof.
  intros F Hid Hk ND. induction F as [|o [k' c] ops m [Hf Hs] F IH]; [reflexivity|].
  cbn [fst snd] in Hf, Hs. subst k'. unfold by_id. cbn [find]. fold (by_id id k ops).
  cbn [map] in ND. inversion ND as [|? ? Hn ND' EE]; subst.
  specialize (IH (fun o H => Hid o (or_intror H)) ND').
  pose proof (Hid o (or_introl eq_refl)) as H0.
  destruct (Z.eqb_spec (id o) k) as [Eq|Ne].
  - assert (HN : by_id id k ops = None).
    { destruct (by_id id k ops) as [o'|] eqn:E; auto. exfalso. apply Hn. unfold by_id in E.
      apply find_some in E as [Hin Hk']. apply Z.eqb_eq in Hk'. rewrite Eq, <- Hk'. now apply in_map. }
    rewrite HN in IH. exists c. cbn [find_key]. rewrite IH, Eq, Nat.eqb_refl. auto.
  - cbn [find_key]. destruct (by_id id k ops) as [o'|].
    + destruct IH as (r & E & Hr). exists r. rewrite E. auto.
    + rewrite IH. destruct (Nat.eqb_spec (Z.to_nat k) (Z.to_nat (id o))); auto. lia.
Qed.

Lemma rd_ids o : In o RD_RV32I -> 0 <= rd_id o.
Proof. intros _. destruct o; cbn; lia. Qed.
Lemma ram_ids o : In o RAM_LIST -> 0 <= ram_id o.
Proof. intros _. destruct o; cbn; lia. Qed.

Lemma rd_select rs1 rs2 imm pc x y im p c ram q k :
  prepared rs1 x -> prepared rs2 y -> prepared imm im -> prepared pc p -> enc_of c ram -> prepared q k ->
  exists m r, eval_all rd_id (fun o => rd_eval_enc I o rs1 rs2 imm pc c) RD_RV32I = Some m /\
    bit_len_pred (Z.of_nat (length RD_RV32I)) = Some 5%nat /\
    blind_select I m q 0 5 = Some r /\ enc_of r (rd_sel (k mod 32) im x y p ram).
Proof.
  intros P1 P2 Pi Pp Hc Pq.
  destruct (eval_all_ok rd_id (fun o => rd_eval_enc I o rs1 rs2 imm pc c)
    (fun o r => exists v, rd_enc o im x y p ram = Some v /\ enc_of r v) RD_RV32I) as (m & Em & Hm).
  { intros o Ho. destruct (rd_enc_ok o rs1 rs2 imm pc x y im p c ram) as (r & v & E & E' & H); eauto. }
  pose proof (prepared_word _ _ Pq) as [Wk _]. pose proof (Z.mod_pos_bound k 32 ltac:(lia)).
  exists m. eexists. split; [exact Em|]. split; [reflexivity|]. rewrite (select_ok _ q k) by (auto; lia).
  split; [reflexivity|]. change (2 ^ Z.of_nat 0) with 1. rewrite Z.div_1_r. change (2 ^ Z.of_nat 5) with 32.
  pose proof (find_key_ok rd_id (fun o r => exists v, rd_enc o im x y p ram = Some v /\ enc_of r v) RD_RV32I m (k mod 32) Hm rd_ids ltac:(lia) nodup_rd) as F.
  unfold rd_sel. destruct (by_id rd_id (k mod 32) RD_RV32I) as [o|].
  - destruct F as (r & -> & v & -> & Hr). exact Hr.
  - rewrite F. exact enc_zero.
Qed.
Lemma ram_select rs2 loaded pa y ram addr q k :
  enc_of rs2 y -> enc_of loaded ram -> prepared pa addr -> prepared q k ->
  exists m r, eval_all ram_id (fun o => ram_eval_enc I o rs2 loaded pa) RAM_LIST = Some m /\
    bit_len_pred (Z.of_nat (length RAM_LIST)) = Some 2%nat /\
    blind_select I m q 0 2 = Some r /\ enc_of r (ram_sel (k mod 4) y ram (addr mod 4)).
Proof.
  intros Hy Hr Hp Pq.
  destruct (eval_all_ok ram_id (fun o => ram_eval_enc I o rs2 loaded pa)
    (fun o r => enc_of r (ram_eval o y ram (addr mod 4))) RAM_LIST) as (m & Em & Hm).
  { intros o Ho. now apply ram_enc_ok. }
  pose proof (prepared_word _ _ Pq) as [Wk _]. pose proof (Z.mod_pos_bound k 4 ltac:(lia)).
  exists m. eexists. split; [exact Em|]. split; [reflexivity|]. rewrite (select_ok _ q k) by (auto; lia).
  split; [reflexivity|]. change (2 ^ Z.of_nat 0) with 1. rewrite Z.div_1_r. change (2 ^ Z.of_nat 2) with 4.
  pose proof (find_key_ok ram_id (fun o r => enc_of r (ram_eval o y ram (addr mod 4))) RAM_LIST m (k mod 4) Hm ram_ids ltac:(lia) nodup_ram) as F.
  unfold ram_sel. destruct (by_id ram_id (k mod 4) RAM_LIST) as [o|].
  - destruct F as (r & -> & Hr'). exact Hr'.
  - rewrite F. exact enc_zero.
Qed.

(** ** pc *)
Lemma pc_sel_ok rs1 rs2 pc imm q x y p im k :
  prepared rs1 x -> prepared rs2 y -> prepared pc p -> prepared imm im -> prepared q (k mod 16) ->
  In (k mod 16) (map pc_id PC_LIST) ->
  enc_of (update_pc_enc I rs1 rs2 pc imm q) (pc_sel (k mod 16) im x y p).
Proof.
  intros P1 P2 Pp Pi Pq Hin.
  pose proof (prepared_word _ _ P1) as W1. pose proof (prepared_word _ _ P2) as W2. pose proof (prepared_word _ _ Pp) as Wp.
  apply is_word_word in W1, W2, Wp. destruct P1 as [_ E1], P2 as [_ E2], Pp as [_ Ep], Pi as [_ Ei], Pq as [_ Eq].
  unfold update_pc_enc. cbn [a_pcup Ideal]. rewrite E1, E2, Ep, Ei, Eq.
  apply in_map_iff in Hin as (o & Ho & _). rewrite <- Ho, pc_update_ok by auto. cbn [fhe_of_option].
  unfold pc_sel. replace (by_id pc_id (pc_id o) PC_LIST) with (Some o) by (now destruct o).
  apply enc_word, is_word_word. unfold pc_spec. cbv zeta. destruct o;
    repeat match goal with |- context [if ?b then _ else _] => destruct b end; try apply to_word_range.
  pose proof (to_word_range (x + s32 (to_word (signed 20 im)))) as R. unfold word in *.
  pose proof (Z.mod_pos_bound (to_word (x + s32 (to_word (signed 20 im)))) 2 ltac:(lia)).
  pose proof (Z.mod_le (to_word (x + s32 (to_word (signed 20 im)))) 2 ltac:(lia) ltac:(lia)). lia.
Qed.
End Log.
