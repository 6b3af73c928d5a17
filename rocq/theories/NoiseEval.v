(** Preparation, circuits and selection with noise. *)
Require Import ZArith List Bool Lia.
Require Import Verif.Word Verif.Isa Verif.Bits Verif.Codec Verif.EvalSpec Verif.EvalPlain Verif.EvalFacts Verif.ListFacts Verif.DebugVM Verif.DebugFacts Verif.DebugStep
  Verif.Bdd Verif.BddFacts Verif.CircFacts Verif.CircPcUpdate Verif.Glwe Verif.GlweFacts Verif.Par Verif.EncMem
  Verif.MemSpec Verif.MemFacts Verif.MemOps Verif.Prepare Verif.PrepFacts Verif.EncEval Verif.EncVM Verif.EncSpec
  Verif.EncFacts Verif.Noise Verif.NoiseFacts Verif.NoiseMem.
Import ListNotations.
Ltac Zify.zify_post_hook ::= idtac.
Open Scope Z_scope.

Section Impl.
Context {C P F : Type}.
Variables (log : nat) (t : torus) (z : noise).
Variables (phase : C -> poly) (fphase : F -> list Z) (pbit : P -> bool) (N : alg C P F).
Hypothesis HN : noisy log t z phase fphase pbit N.
Notation q := (t_q t).
Notation d := (t_delta t).
Notation I := (Ideal log).
Notation nenc := (nenc t fphase).
Notation nprepared := (nprepared pbit).
Notation fnear := (fnear t).

(** an encrypted integer decodes to an ideal one with the same error for every
    coefficientwise operation; [enc_of] facts about ideal operations carry over *)
Lemma nenc_enc b f w : nenc b f w -> enc_of (fhe_of_word w) w.
Proof. intros [W _]. now apply enc_word. Qed.
Lemma nenc_of b f c w : enc_of c w -> (forall i, (i < 32)%nat -> tnear q b (nth i (fphase f) 0) (d * nth i c 0)) -> nenc b f w.
Proof. intros (W & _ & E) H. apply nenc_intro; auto. intros i Hi. rewrite <- E by auto. auto. Qed.

Lemma boot_ok b f w i : nenc b f w -> b <= t_tau t -> (i < 32)%nat -> pbit (a_boot N f i) = Z.testbit w (Z.of_nat i).
Proof.
  intros H B Hi. apply (y_boot _ _ _ _ _ _ _ HN); auto. eapply tnear_mono; [|exact B]. eapply nenc_at; eauto.
Qed.
Lemma n_prepare b f w n : nenc b f w -> b <= t_tau t -> nprepared (prepare_custom N f n) (w mod 2 ^ Z.of_nat n).
Proof.
  intros H B. pose proof (nenc_word _ _ _ _ _ H) as W. unfold Noise.nprepared.
  apply prepared_intro; [now apply word_mod|unfold prepare_custom; now rewrite !map_length, seq_length|].
  intros i Hi. unfold prepare_custom. rewrite map_map, map_seq_nth_b by auto.
  rewrite testbit_mod by lia. destruct (Nat.ltb_spec i n) as [L|L].
  - rewrite (proj2 (Z.ltb_lt _ _)) by lia. cbn [andb]. eapply boot_ok; eauto.
  - rewrite (proj2 (Z.ltb_ge _ _)) by lia. apply (y_pzero _ _ _ _ _ _ _ HN).
Qed.
Lemma n_prepare_all b f w : nenc b f w -> b <= t_tau t -> nprepared (prepare_custom N f 32) w.
Proof.
  intros H B. pose proof (nenc_word _ _ _ _ _ H) as W. pose proof (n_prepare b f w 32 H B) as Q.
  rewrite Z.mod_small in Q; [exact Q|apply W].
Qed.
Lemma n_refresh b f w : nenc b f w -> b <= t_tau t -> nenc (n_fresh z) (a_ident N (prepare_custom N f 32)) w.
Proof.
  intros H B. pose proof (n_prepare_all _ _ _ H B) as Pr.
  eapply nenc_of; [exact (enc_ident _ _ Pr)|]. intros i Hi.
  assert (L : length (prepare_custom N f 32) = 32%nat) by (unfold prepare_custom; now rewrite map_length, seq_length).
  pose proof (y_ident _ _ _ _ _ _ _ HN (prepare_custom N f 32) L i Hi) as Y.
  rewrite <- nth_scale, !map_map. exact Y.
Qed.

Lemma nprepared_word ps w : nprepared ps w -> is_word w.
Proof. apply prepared_word. Qed.
Lemma nprepared_len ps w : nprepared ps w -> length ps = 32%nat.
Proof. intros [L _]. now rewrite map_length in L. Qed.

(** ** selection *)
Lemma n_select_ok m ps w r k : nprepared ps w -> (r + k <= 32)%nat ->
  exists f, blind_select N m ps r k = Some f /\
    fnear (n_select z) (fphase f)
      (match find_key (Z.to_nat ((w / 2 ^ Z.of_nat r) mod 2 ^ Z.of_nat k)) m with Some c => fphase c | None => repeat 0 32 end).
Proof.
  intros H Hk. unfold blind_select. rewrite (nprepared_len _ _ H), (proj2 (Nat.leb_le _ _) Hk).
  eexists; split; [reflexivity|].
  pose proof (y_select _ _ _ _ _ _ _ HN m (firstn k (skipn r ps))) as Y.
  rewrite <- firstn_map, <- skipn_map in Y.
  replace (bits_val (firstn k (skipn r (map pbit ps)))) with (Z.to_nat (w / 2 ^ Z.of_nat r mod 2 ^ Z.of_nat k)) in Y; auto.
  rewrite <- (pack_window _ _ _ _ H Hk), <- bits_val_pack. apply Nat2Z.id.
Qed.
Lemma n_zero_enc b f : fnear b (fphase f) (repeat 0 32) -> nenc b f 0.
Proof.
  intro H. apply nenc_intro; [apply is_word_0|]. intros i Hi. rewrite Z.testbit_0_l. cbn [Z.b2z]. rewrite Z.mul_0_r.
  specialize (H i Hi). rewrite nth_repeat in H. exact H.
Qed.
Lemma n_select_enc b f c w : nenc b c w -> fnear (n_select z) (fphase f) (fphase c) -> nenc (b + n_select z) f w.
Proof.
  intros H S. apply nenc_intro; [eapply nenc_word; eauto|]. intros i Hi. rewrite Z.add_comm.
  eapply tnear_trans; [now apply S|]. eapply nenc_at; eauto.
Qed.

(** ** RD operations *)
Lemma n_circ k a b x y v : nprepared a x -> nprepared b y -> circ2_word k x y = Some v -> is_word v ->
  nenc (n_fresh z) (a_circ2 N k a b) v.
Proof. intros [_ Ha] [_ Hb] E W. split; auto. apply (y_circ2 _ _ _ _ _ _ _ HN). now rewrite Ha, Hb. Qed.

(** coefficientwise operations *)
Lemma n_map b f w (g : list Z -> list Z) h :
  (forall c, nenc b f w -> enc_of c w -> enc_of (g c) h) ->
  (forall x y : list Z, (forall i, (i < 32)%nat -> tnear q b (nth i x 0) (nth i y 0)) -> forall i, (i < 32)%nat -> tnear q b (nth i (g x) 0) (nth i (g y) 0)) ->
  (forall y i, nth i (g (map (Z.mul d) y)) 0 = d * nth i (g y) 0) ->
  forall e f', nenc b f w -> fnear e (fphase f') (g (fphase f)) -> nenc (b + e) f' h.
Proof.
  intros G1 G2 G3 e f' H E. pose proof (G1 _ H (nenc_enc _ _ _ H)) as En.
  eapply nenc_of; [exact En|]. intros i Hi. rewrite Z.add_comm. eapply tnear_trans; [now apply E|].
  rewrite <- G3. apply G2; auto. destruct H as [_ H]. exact H.
Qed.
Lemma scale_nth32 (g : nat -> Z) y i : nth i (map g (seq 0 32)) 0 = d * nth i (map y (seq 0 32)) 0 <->
  ((i < 32)%nat -> g i = d * y i).
Proof.
  destruct (le_lt_dec 32 i) as [L|L].
  - rewrite !nth_overflow by (rewrite map_length, seq_length; auto). split; intros; lia.
  - rewrite !map_seq_nth by auto. tauto.
Qed.

Lemma near_zero_byte b k x y : 0 <= b -> (forall i, (i < 32)%nat -> tnear q b (nth i x 0) (nth i y 0)) ->
  forall i, (i < 32)%nat -> tnear q b (nth i (zero_byte k x) 0) (nth i (zero_byte k y) 0).
Proof.
  intros B H i Hi. rewrite !zero_byte_nth by auto. destruct (_ =? _)%nat; auto.
  eapply tnear_mono; [apply tnear_exact|auto].
Qed.
Lemma near_sext b x y : (forall i, (i < 32)%nat -> tnear q b (nth i x 0) (nth i y 0)) ->
  forall i, (i < 32)%nat -> tnear q b (nth i (sext_byte 1 x) 0) (nth i (sext_byte 1 y) 0).
Proof. intros H i Hi. rewrite !sext_byte_nth by auto. destruct (_ <=? _)%nat; apply H; lia. Qed.
Lemma near_splice b size k x y u v : (forall i, (i < 32)%nat -> tnear q b (nth i x 0) (nth i y 0)) ->
  (forall i, (i < 32)%nat -> tnear q b (nth i u 0) (nth i v 0)) ->
  forall i, (i < 32)%nat -> tnear q b (nth i (splice size k 0 x u) 0) (nth i (splice size k 0 y v) 0).
Proof. intros H G i Hi. rewrite !splice_nth by auto. destruct (_ =? _)%nat; [apply G|apply H]; lia. Qed.
Lemma scale_zero_byte k y i : nth i (zero_byte k (map (Z.mul d) y)) 0 = d * nth i (zero_byte k y) 0.
Proof. unfold zero_byte. apply scale_nth32. intro. rewrite nth_scale. destruct (_ =? _)%nat; lia. Qed.
Lemma scale_sext y i : nth i (sext_byte 1 (map (Z.mul d) y)) 0 = d * nth i (sext_byte 1 y) 0.
Proof. unfold sext_byte. apply scale_nth32. intro. rewrite !nth_scale. destruct (_ <=? _)%nat; lia. Qed.
Lemma scale_splice size k x y i : nth i (splice size k 0 (map (Z.mul d) x) (map (Z.mul d) y)) 0 = d * nth i (splice size k 0 x y) 0.
Proof. unfold splice. apply scale_nth32. intro. rewrite !nth_scale. destruct (_ =? _)%nat; lia. Qed.

(** an integer whose coefficients are near scaled ones, whatever they are *)
Definition lin (b : Z) (f : F) (c : list Z) : Prop := forall i, (i < 32)%nat -> tnear q b (nth i (fphase f) 0) (nth i (map (Z.mul d) c) 0).
Lemma lin_pos b f c : lin b f c -> 0 <= b.
Proof. intro H. specialize (H 0%nat ltac:(lia)). eapply tnear_pos; eauto. Qed.
Lemma lin_word b f w : nenc b f w -> lin b f (fhe_of_word w).
Proof. now intros [_ H]. Qed.
Lemma lin_enc b f c w : lin b f c -> enc_of c w -> nenc b f w.
Proof. intros H E. eapply nenc_of; eauto. intros i Hi. rewrite <- nth_scale. auto. Qed.
Lemma lin_zero_byte b f c k : lin b f c -> lin (b + n_bytes z) (a_zero_byte N k f) (zero_byte k c).
Proof.
  intros H i Hi. rewrite Z.add_comm. eapply tnear_trans; [apply (y_zero_byte _ _ _ _ _ _ _ HN); auto|].
  rewrite nth_scale, <- scale_zero_byte. apply near_zero_byte; auto. eapply lin_pos; eauto.
Qed.
Lemma lin_sext b f c : lin b f c -> lin (b + n_bytes z) (a_sext N 1 f) (sext_byte 1 c).
Proof.
  intros H i Hi. rewrite Z.add_comm. eapply tnear_trans; [apply (y_sext _ _ _ _ _ _ _ HN); auto|].
  rewrite nth_scale, <- scale_sext. apply near_sext; auto.
Qed.
Lemma lin_mono b b' f c : lin b f c -> b <= b' -> lin b' f c.
Proof. intros H B i Hi. eapply tnear_mono; eauto. Qed.
Lemma lin_splice8 b f c g e k : lin b f c -> lin b g e -> lin (b + n_bytes z) (a_splice8 N k 0 f g) (splice 8 k 0 c e).
Proof.
  intros H G i Hi. rewrite Z.add_comm. eapply tnear_trans; [apply (y_splice8 _ _ _ _ _ _ _ HN); auto|].
  rewrite nth_scale, <- scale_splice. apply near_splice; auto.
Qed.
Lemma lin_splice16 b f c g e k : lin b f c -> lin b g e -> lin (b + n_bytes z) (a_splice16 N k 0 f g) (splice 16 k 0 c e).
Proof.
  intros H G i Hi. rewrite Z.add_comm. eapply tnear_trans; [apply (y_splice16 _ _ _ _ _ _ _ HN); auto|].
  rewrite nth_scale, <- scale_splice. apply near_splice; auto.
Qed.

Lemma n_rd o rs1 rs2 imm pc x y im p c ram b B : In o RD_RV32I ->
  nprepared rs1 x -> nprepared rs2 y -> nprepared imm im -> nprepared pc p -> nenc b c ram ->
  n_fresh z <= B -> b + 3 * n_bytes z <= B ->
  exists r v, rd_eval_enc N o rs1 rs2 imm pc c = Some r /\ rd_enc o im x y p ram = Some v /\ nenc B r v.
Proof.
  intros Ho P1 P2 Pi Pp Hc B1 B2.
  pose proof (nprepared_word _ _ P1) as W1. pose proof (nprepared_word _ _ P2) as W2.
  pose proof (nprepared_word _ _ Pi) as Wi. pose proof (nprepared_word _ _ Pp) as Wp.
  pose proof (nenc_word _ _ _ _ _ Hc) as Wr. pose proof (lin_word _ _ _ Hc) as Lc. pose proof (enc_word _ Wr) as Ec.
  pose proof (y_pos _ _ _ _ _ _ _ HN) as ZP. unfold noise_pos in ZP.
  apply is_word_word in W1, W2, Wi, Wp, Wr.
  destruct (rd_enc_some o im x y p ram Ho) as [v Hv].
  assert (Wv : is_word v) by (apply is_word_word; exact (word_rd_spec _ _ _ _ _ _ _ W1 W2 Wr Hv)).
  pose proof Hv as Hv'. unfold rd_enc in Hv'. apply rd_eval_rv32i in Hv'; auto.
  destruct o; cbn in Ho; try (exfalso; intuition discriminate); clear Ho; cbn [rd_eval] in Hv';
    eexists _, v; (split; [reflexivity|]; split; [exact Hv|]);
    try (eapply nenc_mono; [eapply n_circ; eauto|lia]; fail); unfold rd_enc in Hv; cbn [rd_spec] in Hv; injection Hv as <-.
  - eapply nenc_mono; [apply n_zero_enc, (y_fzero _ _ _ _ _ _ _ HN)|]. lia.
  - eapply nenc_mono; [eapply n_circ; eauto; apply lui_ok|lia].
  - eapply nenc_mono; [eapply n_circ; eauto; now apply auipc_ok|lia].
  - rewrite byte_0. eapply nenc_mono; [eapply lin_enc; [|apply zero_321; exact Ec]|].
    + apply lin_zero_byte, lin_zero_byte, lin_zero_byte, Lc.
    + lia.
  - rewrite byte_0. eapply nenc_mono; [eapply lin_enc; [|apply zero_321; exact Ec]|].
    + apply lin_zero_byte, lin_zero_byte, lin_zero_byte, Lc.
    + lia.
  - eapply nenc_mono; [eapply lin_enc; [|apply sext_1, zero_32; exact Ec]|].
    + apply lin_sext, lin_zero_byte, lin_zero_byte, Lc.
    + lia.
  - eapply nenc_mono; [eapply lin_enc; [|apply zero_32; exact Ec]|].
    + apply lin_zero_byte, lin_zero_byte, Lc.
    + lia.
  - eapply nenc_mono; eauto. lia.
  - eapply nenc_mono; [eapply n_circ; eauto; now apply jalr_ok|lia].
  - eapply nenc_mono; [eapply n_circ; eauto; now apply jalr_ok|lia].
Qed.

(** ** RAM operations *)
Lemma n_ram o rs2 loaded pa y ram addr b B : nenc b rs2 y -> nenc b loaded ram -> nprepared pa addr ->
  b + n_bytes z + n_select z <= B ->
  exists r, ram_eval_enc N o rs2 loaded pa = Some r /\ nenc B r (ram_eval o y ram (addr mod 4)).
Proof.
  intros Hy Hr Hp BB. pose proof (nprepared_word _ _ Hp) as [Wa _].
  pose proof (y_pos _ _ _ _ _ _ _ HN) as ZP. unfold noise_pos in ZP.
  pose proof (Z.mod_pos_bound addr 4 ltac:(lia)) as Hm.
  pose proof (lin_word _ _ _ Hy) as Ly. pose proof (lin_word _ _ _ Hr) as Lr.
  pose proof (nenc_enc _ _ _ Hy) as Ey. pose proof (nenc_enc _ _ _ Hr) as Er.
  pose proof (lin_pos _ _ _ Ly) as Bp.
  assert (Hs : addr / 2 ^ Z.of_nat 0 mod 2 ^ Z.of_nat 2 = addr mod 4) by (change (2 ^ Z.of_nat 0) with 1; now rewrite Z.div_1_r).
  assert (Hc : addr mod 4 = 0 \/ addr mod 4 = 1 \/ addr mod 4 = 2 \/ addr mod 4 = 3) by lia.
  destruct o; cbn [ram_eval_enc].
  - eexists. split; [reflexivity|]. eapply nenc_mono; eauto. lia.
  - match goal with |- context [blind_select N ?m pa 0 2] => destruct (n_select_ok m pa addr 0 2 Hp ltac:(lia)) as (f & -> & Hf) end.
    rewrite Hs in Hf. eexists. split; [reflexivity|].
    assert (K : forall k, (k < 4)%nat -> nenc (b + n_bytes z) (a_splice8 N k 0 loaded rs2) (ram_eval MSB y ram (Z.of_nat k))).
    { intros k Hk. eapply lin_enc; [apply lin_splice8; [exact Lr|exact Ly]|]. now apply splice8_ok. }
    eapply nenc_mono; [|exact BB].
    destruct Hc as [E|[E|[E|E]]]; rewrite E in *; cbn [map seq] in Hf.
    + exact (n_select_enc _ _ _ _ (K 0%nat ltac:(lia)) Hf).
    + exact (n_select_enc _ _ _ _ (K 1%nat ltac:(lia)) Hf).
    + exact (n_select_enc _ _ _ _ (K 2%nat ltac:(lia)) Hf).
    + exact (n_select_enc _ _ _ _ (K 3%nat ltac:(lia)) Hf).
  - match goal with |- context [blind_select N ?m pa 0 2] => destruct (n_select_ok m pa addr 0 2 Hp ltac:(lia)) as (f & -> & Hf) end.
    rewrite Hs in Hf. eexists. split; [reflexivity|].
    assert (K : forall k, (k < 2)%nat -> nenc (b + n_bytes z) (a_splice16 N k 0 loaded rs2) (ram_eval MSH y ram (Z.of_nat (2 * k)))).
    { intros k Hk. eapply lin_enc; [apply lin_splice16; [exact Lr|exact Ly]|]. now apply splice16_ok. }
    eapply nenc_mono; [|exact BB].
    destruct Hc as [E|[E|[E|E]]]; rewrite E in *; cbn [map seq] in Hf.
    + exact (n_select_enc _ _ _ _ (K 0%nat ltac:(lia)) Hf).
    + eapply nenc_mono; [apply n_zero_enc; exact Hf|lia].
    + exact (n_select_enc _ _ _ _ (K 1%nat ltac:(lia)) Hf).
    + eapply nenc_mono; [apply n_zero_enc; exact Hf|lia].
  - eexists. split; [reflexivity|]. eapply nenc_mono; eauto. lia.
Qed.

(** ** selection over the evaluated table *)
Lemma n_eval_all {O} (id : O -> Z) (ev : O -> option F) (Q : O -> F -> Prop) ops :
  (forall o, In o ops -> exists r, ev o = Some r /\ Q o r) ->
  exists m, eval_all id ev ops = Some m /\
    Forall2 (fun o e => fst e = Z.to_nat (id o) /\ Q o (snd e)) ops m.
Proof.
  induction ops as [|o ops IH]; intro H.
  - exists []. auto.
  - destruct (H o (or_introl eq_refl)) as (r & E & Hr).
    destruct IH as (m & Em & Hm); [intros; apply H; now right|].
    exists ((Z.to_nat (id o), r) :: m). cbn [eval_all]. rewrite E, Em. split; auto.
Qed.
Lemma n_find_key {O} (id : O -> Z) (Q : O -> F -> Prop) ops m k :
  Forall2 (fun o e => fst e = Z.to_nat (id o) /\ Q o (snd e)) ops m ->
  (forall o, In o ops -> 0 <= id o) -> 0 <= k -> NoDup (map id ops) ->
  match by_id id k ops with
  | Some o => exists r, find_key (Z.to_nat k) m = Some r /\ Q o r
  | None => find_key (Z.to_nat k) m = None
  end.
Proof.
  intros FF Hid Hk ND. induction FF as [|o [k' c] ops m [Hf Hs] FF IH]; [reflexivity|].
  cbn [fst snd] in Hf, Hs. subst k'. unfold by_id. cbn [find]. fold (by_id id k ops).
  cbn [map] in ND. inversion ND as [|? ? Hn ND' EE]; subst.
  specialize (IH (fun o H => Hid o (or_intror H)) ND').
  pose proof (Hid o (or_introl eq_refl)) as H0.
  destruct (Z.eqb_spec (id o) k) as [Eq|Ne].
  - assert (HNn : by_id id k ops = None).
    { destruct (by_id id k ops) as [o'|] eqn:E; auto. exfalso. apply Hn. unfold by_id in E.
      apply find_some in E as [Hin Hk']. apply Z.eqb_eq in Hk'. rewrite Eq, <- Hk'. now apply in_map. }
    rewrite HNn in IH. exists c. cbn [find_key]. rewrite IH, Eq, Nat.eqb_refl. auto.
  - cbn [find_key]. destruct (by_id id k ops) as [o'|].
    + destruct IH as (r & E & Hr). exists r. rewrite E. auto.
    + rewrite IH. destruct (Nat.eqb_spec (Z.to_nat k) (Z.to_nat (id o))); auto. lia.
Qed.

Lemma n_rd_select rs1 rs2 imm pc x y im p c ram ps k b B :
  nprepared rs1 x -> nprepared rs2 y -> nprepared imm im -> nprepared pc p -> nenc b c ram -> nprepared ps k ->
  n_fresh z <= B -> b + 3 * n_bytes z <= B ->
  exists m r, eval_all rd_id (fun o => rd_eval_enc N o rs1 rs2 imm pc c) RD_RV32I = Some m /\
    bit_len_pred (Z.of_nat (length RD_RV32I)) = Some 5%nat /\
    blind_select N m ps 0 5 = Some r /\ nenc (B + n_select z) r (rd_sel (k mod 32) im x y p ram).
Proof.
  intros P1 P2 Pi Pp Hc Pq B1 B2.
  destruct (n_eval_all rd_id (fun o => rd_eval_enc N o rs1 rs2 imm pc c)
    (fun o r => exists v, rd_enc o im x y p ram = Some v /\ nenc B r v) RD_RV32I) as (m & Em & Hm).
  { intros o Ho. destruct (n_rd o rs1 rs2 imm pc x y im p c ram b B) as (r & v & E & E' & H); eauto. }
  pose proof (nprepared_word _ _ Pq) as [Wk _]. pose proof (Z.mod_pos_bound k 32 ltac:(lia)).
  pose proof (y_pos _ _ _ _ _ _ _ HN) as ZP. unfold noise_pos in ZP.
  destruct (n_select_ok m ps k 0 5 Pq ltac:(lia)) as (f & Ef & Hf).
  exists m, f. split; [exact Em|]. split; [reflexivity|]. split; [exact Ef|].
  change (2 ^ Z.of_nat 0) with 1 in Hf. rewrite Z.div_1_r in Hf. change (2 ^ Z.of_nat 5) with 32 in Hf.
  pose proof (n_find_key rd_id (fun o r => exists v, rd_enc o im x y p ram = Some v /\ nenc B r v) RD_RV32I m (k mod 32) Hm rd_ids ltac:(lia) nodup_rd) as FK.
  unfold rd_sel. destruct (by_id rd_id (k mod 32) RD_RV32I) as [o|].
  - destruct FK as (r & Er & v & -> & Hr). rewrite Er in Hf. exact (n_select_enc _ _ _ _ Hr Hf).
  - rewrite FK in Hf. eapply nenc_mono; [apply n_zero_enc; exact Hf|]. lia.
Qed.
Lemma n_ram_select rs2 loaded pa y ram addr ps k b B :
  nenc b rs2 y -> nenc b loaded ram -> nprepared pa addr -> nprepared ps k -> b + n_bytes z + n_select z <= B ->
  exists m r, eval_all ram_id (fun o => ram_eval_enc N o rs2 loaded pa) RAM_LIST = Some m /\
    bit_len_pred (Z.of_nat (length RAM_LIST)) = Some 2%nat /\
    blind_select N m ps 0 2 = Some r /\ nenc (B + n_select z) r (ram_sel (k mod 4) y ram (addr mod 4)).
Proof.
  intros Hy Hr Hp Pq BB.
  destruct (n_eval_all ram_id (fun o => ram_eval_enc N o rs2 loaded pa)
    (fun o r => nenc B r (ram_eval o y ram (addr mod 4))) RAM_LIST) as (m & Em & Hm).
  { intros o Ho. eapply n_ram; eauto. }
  pose proof (nprepared_word _ _ Pq) as [Wk _]. pose proof (Z.mod_pos_bound k 4 ltac:(lia)).
  pose proof (y_pos _ _ _ _ _ _ _ HN) as ZP. unfold noise_pos in ZP.
  pose proof (lin_pos _ _ _ (lin_word _ _ _ Hy)) as Bp.
  destruct (n_select_ok m ps k 0 2 Pq ltac:(lia)) as (f & Ef & Hf).
  exists m, f. split; [exact Em|]. split; [reflexivity|]. split; [exact Ef|].
  change (2 ^ Z.of_nat 0) with 1 in Hf. rewrite Z.div_1_r in Hf. change (2 ^ Z.of_nat 2) with 4 in Hf.
  pose proof (n_find_key ram_id (fun o r => nenc B r (ram_eval o y ram (addr mod 4))) RAM_LIST m (k mod 4) Hm ram_ids ltac:(lia) nodup_ram) as FK.
  unfold ram_sel. destruct (by_id ram_id (k mod 4) RAM_LIST) as [o|].
  - destruct FK as (r & Er & Hr'). rewrite Er in Hf. exact (n_select_enc _ _ _ _ Hr' Hf).
  - rewrite FK in Hf. eapply nenc_mono; [apply n_zero_enc; exact Hf|]. lia.
Qed.

(** ** pc *)
Lemma n_pc rs1 rs2 pc imm ps x y p im k :
  nprepared rs1 x -> nprepared rs2 y -> nprepared pc p -> nprepared imm im -> nprepared ps (k mod 16) ->
  In (k mod 16) (map pc_id PC_LIST) ->
  nenc (n_fresh z) (update_pc_enc N rs1 rs2 pc imm ps) (pc_sel (k mod 16) im x y p).
Proof.
  intros P1 P2 Pp Pi Pq Hin.
  pose proof (pc_sel_ok log _ _ _ _ _ _ _ _ _ _ P1 P2 Pp Pi Pq Hin) as E.
  pose proof E as (W & _). pose proof (nprepared_word _ _ P1) as W1. pose proof (nprepared_word _ _ P2) as W2.
  pose proof (nprepared_word _ _ Pp) as Wp. apply is_word_word in W1, W2, Wp.
  split; auto. unfold update_pc_enc. apply (y_pcup _ _ _ _ _ _ _ HN).
  destruct P1 as [_ ->], P2 as [_ ->], Pp as [_ ->], Pi as [_ ->], Pq as [_ ->].
  apply in_map_iff in Hin as (o & Ho & _). rewrite <- Ho, pc_update_ok by auto. f_equal.
  unfold pc_sel. now replace (by_id pc_id (pc_id o) PC_LIST) with (Some o) by (now destruct o).
Qed.
End Impl.
