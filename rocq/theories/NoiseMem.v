(** Proofs about encrypted memory with noise: each operation succeeds when the
    ideal one does, and its results are encryptions of the ideal ones. *)
Require Import ZArith List Bool Lia.
Require Import Verif.Word Verif.ListFacts Verif.Bdd Verif.Glwe Verif.GlweFacts Verif.Par Verif.ParFacts
  Verif.EncMem Verif.MemSpec Verif.MemFacts Verif.MemOps Verif.EncSpec Verif.EncFacts Verif.Noise Verif.NoiseFacts.
Import ListNotations.
Ltac Zify.zify_post_hook ::= idtac.
Open Scope Z_scope.

Lemma Forall2_len A B (R : A -> B -> Prop) xs ys : Forall2 R xs ys -> length xs = length ys.
Proof. induction 1; cbn; congruence. Qed.
Lemma Forall2_nth A B (R : A -> B -> Prop) xs ys i y : Forall2 R xs ys -> nth_error ys i = Some y ->
  exists x, nth_error xs i = Some x /\ R x y.
Proof. intro H; revert i; induction H; intros [|i] E; cbn in *; try discriminate; eauto. injection E as <-. eauto. Qed.
Lemma Forall2_map_r A B B' (R : A -> B' -> Prop) (f : B -> B') xs ys : Forall2 (fun x y => R x (f y)) xs ys -> Forall2 R xs (map f ys).
Proof. induction 1; cbn; constructor; auto. Qed.
Lemma Forall2_set_nth A B (R : A -> B -> Prop) xs ys n x y zs : Forall2 R xs ys -> R x y -> set_nth ys n y = Some zs ->
  exists us, set_nth xs n x = Some us /\ Forall2 R us zs.
Proof.
  intro H; revert n zs; induction H as [|a b xs ys Hab H IH]; intros [|n] zs Hx E; cbn in *; try discriminate.
  - injection E as <-. eauto.
  - destruct (set_nth ys n y) as [l|] eqn:El; [|discriminate]. injection E as <-.
    destruct (IH _ _ Hx El) as (us & -> & Hus). eauto.
Qed.
Lemma mapi_o_rel A B A' B' (R : A -> A' -> Prop) (S : B -> B' -> Prop) (g : nat -> A -> option B) (h : nat -> A' -> option B') :
  (forall i x y w, R x y -> h i y = Some w -> exists u, g i x = Some u /\ S u w) ->
  forall xs ys, Forall2 R xs ys -> forall k ws, mapi_o h k ys = Some ws -> exists us, mapi_o g k xs = Some us /\ Forall2 S us ws.
Proof.
  intros H xs ys F. induction F as [|x y xs ys Hxy F IH]; intros k ws E; cbn [mapi_o] in *.
  - injection E as <-. eauto.
  - destruct (h k y) as [w|] eqn:Eh; [|discriminate]. destruct (mapi_o h (Datatypes.S k) ys) as [ws'|] eqn:Em; [|discriminate].
    injection E as <-. destruct (H _ _ _ _ Hxy Eh) as (u & -> & Hu). destruct (IH _ _ Em) as (us & -> & Hus). eauto.
Qed.
Lemma all_written_rel A B (R : A -> B -> Prop) xs ys ws :
  Forall2 (fun a b => match b with Some w => exists u, a = Some u /\ R u w | None => True end) xs ys ->
  all_written ys = Some ws -> exists us, all_written xs = Some us /\ Forall2 R us ws.
Proof.
  intro F. revert ws. induction F as [|a b xs ys H F IH]; intros ws E; cbn [all_written] in *.
  - injection E as <-. eauto.
  - destruct b as [w|]; [|discriminate]. destruct (all_written ys) as [ws'|]; [|discriminate]. injection E as <-.
    destruct H as (u & -> & Hu). destruct (IH _ eq_refl) as (us & -> & Hus). eauto.
Qed.

Section Impl.
Context {C P F : Type}.
Variables (log : nat) (t : torus) (z : noise).
Variables (phase : C -> poly) (fphase : F -> list Z) (pbit : P -> bool) (N : alg C P F).
Hypothesis HN : noisy log t z phase fphase pbit N.
Notation q := (t_q t).
Notation d := (t_delta t).
Notation I := (Ideal log).
Notation cnear := (cnear log t phase).
Notation pnear := (pnear log t).
Notation fnear := (fnear t).
Notation banear := (banear log t phase).
Notation mnear := (mnear log t phase).
Notation nholds := (nholds log t phase).
Notation nenc := (nenc t fphase).
Notation nprepared := (nprepared pbit).
Notation cols := (cols log).
Notation rows := (rows log).
Notation e_read := (e_read log z).
Notation e_move := (e_move log z).
Notation e_put := (e_put z).
Notation e_clear := (e_clear z).

Lemma zpos : noise_pos z. Proof. apply (y_pos _ _ _ _ _ _ _ HN). Qed.
Lemma N_log : log_n N = log. Proof. apply (y_log _ _ _ _ _ _ _ HN). Qed.

Lemma cnear_list_mono b b' cs ms : Forall2 (cnear b) cs ms -> b <= b' -> Forall2 (cnear b') cs ms.
Proof. intros H B. induction H; constructor; auto. eapply cnear_mono; eauto. Qed.
Lemma banear_mono b b' x y : banear b x y -> b <= b' -> banear b' x y.
Proof. intros [E H] B. split; auto. eapply cnear_list_mono; eauto. Qed.
Lemma mnear_mono b b' x y : mnear b x y -> b <= b' -> mnear b' x y.
Proof.
  intros (E1 & E2 & E3 & H) B. repeat (split; auto). induction H; constructor; auto. eapply banear_mono; eauto.
Qed.
Lemma nholds_mono b b' m ws : nholds b m ws -> b <= b' -> nholds b' m ws.
Proof. intros (y & H & M) B. exists y. split; auto. eapply mnear_mono; eauto. Qed.

(** ** one plane *)
Lemma retrieve_near b addr cs ms rsh m : Forall2 (cnear b) cs ms -> 0 <= b ->
  blind_retrieve I ms (map pbit addr) rsh = Some m -> Forall (fun p : poly => length p = ring log) ms ->
  exists c, blind_retrieve N cs addr rsh = Some c /\ cnear (b + n_retrieve z) c m.
Proof.
  intros H B E FL. unfold blind_retrieve in *. rewrite map_length in E. rewrite (Forall2_len _ _ _ _ _ H).
  destruct (_ || _); [|discriminate]. injection E as <-. eexists; split; [reflexivity|].
  set (k := Nat.log2_up (length ms)). cbn [a_retrieve Ideal].
  pose proof (y_retrieve _ _ _ _ _ _ _ HN (firstn k (skipn rsh addr)) cs) as Y.
  rewrite <- firstn_map, <- skipn_map in Y. set (j := bits_val (firstn k (skipn rsh (map pbit addr)))) in *.
  destruct (nth_error ms j) as [m|] eqn:Em.
  - rewrite (nth_error_nth _ _ _ Em). destruct (Forall2_nth _ _ _ _ _ _ _ H Em) as (c & Ec & Hc).
    assert (Ep : nth j (map phase cs) [] = phase c).
    { apply nth_error_nth. rewrite nth_error_map, Ec. reflexivity. }
    rewrite Ep in Y. split; [eapply cnear_len; eauto|]. intros i Hi. rewrite Z.add_comm.
    eapply tnear_trans; [now apply Y|]. now apply Hc.
  - assert (Ec : nth_error cs j = None).
    { apply nth_error_None. apply nth_error_None in Em. rewrite (Forall2_len _ _ _ _ _ H). auto. }
    rewrite nth_overflow by (now apply nth_error_None). rewrite nth_overflow in Y by (rewrite map_length; now apply nth_error_None).
    apply cnear_intro; [apply repeat_length|]. intros i Hi. unfold zero_poly. rewrite nth_repeat, Z.mul_0_r.
    specialize (Y i Hi). replace (nth i [] 0) with 0 in Y by now destruct i.
    eapply tnear_mono; [exact Y|]. lia.
Qed.

Lemma stateless_near b x y addr off m : banear b x y -> 0 <= b -> Forall (fun p : poly => length p = ring log) (ba_data y) ->
  ba_read_stateless I y (map pbit addr) off = Some m ->
  exists c, ba_read_stateless N x addr off = Some c /\ cnear (b + n_retrieve z + cols (ba_bits y) * n_crot z) c m.
Proof.
  intros [Eb H] B FL E. unfold ba_read_stateless in *. cbn [log_n Ideal] in E. rewrite N_log, Eb.
  destruct (blind_retrieve I (ba_data y) (map pbit addr) (off + log)) as [m1|] eqn:E1; [|discriminate].
  destruct (retrieve_near b addr _ _ _ _ H B E1 FL) as (c1 & -> & H1).
  exact (blind_rotate_near log t z phase fphase pbit N HN _ _ _ _ _ _ _ _ H1 E).
Qed.

Lemma gather_near b x y addr off ms : banear b x y -> ba_gather I y (map pbit addr) off = Some ms ->
  exists cs, ba_gather N x addr off = Some cs /\ Forall2 (cnear (b + rows (ba_bits y) * n_cswap z)) cs ms.
Proof.
  intros [Eb H] E. unfold ba_gather in *. cbn [log_n Ideal] in E. rewrite N_log, Eb. unfold Noise.rows.
  pose proof zpos as ZP.
  destruct (Nat.ltb_spec log (ba_bits y)) as [L|L].
  - unfold retrieval_statefull in *. rewrite map_length in E. destruct (_ <=? _)%nat; [|discriminate]. injection E as <-.
    eexists; split; [reflexivity|]. apply lnear_Forall2. apply lnear_Forall2 in H.
    pose proof (net_near log t z phase fphase pbit N HN b addr (off + log) (rev (seq 0 (ba_bits y - log))) _ _ H) as HH.
    now rewrite rev_length, seq_length in HH.
  - injection E as <-. eexists; split; [reflexivity|]. eapply cnear_list_mono; eauto.
    unfold noise_pos in ZP. replace (ba_bits y - log)%nat with 0%nat by lia. lia.
Qed.
Lemma scatter_near b bits cs ms addr off ms' : Forall2 (cnear b) cs ms -> ba_scatter I bits ms (map pbit addr) off = Some ms' ->
  exists cs', ba_scatter N bits cs addr off = Some cs' /\ Forall2 (cnear (b + rows bits * n_cswap z)) cs' ms'.
Proof.
  intros H E. unfold ba_scatter in *. cbn [log_n Ideal] in E. rewrite N_log. unfold Noise.rows.
  pose proof zpos as ZP.
  destruct (Nat.ltb_spec log bits) as [L|L].
  - unfold retrieval_statefull_rev in *. rewrite map_length in E. destruct (_ <=? _)%nat; [|discriminate]. injection E as <-.
    eexists; split; [reflexivity|]. apply lnear_Forall2. apply lnear_Forall2 in H.
    pose proof (net_near log t z phase fphase pbit N HN b addr (off + log) (seq 0 (bits - log)) _ _ H) as HH.
    now rewrite seq_length in HH.
  - injection E as <-. eexists; split; [reflexivity|]. eapply cnear_list_mono; eauto.
    unfold noise_pos in ZP. replace (bits - log)%nat with 0%nat by lia. lia.
Qed.

Lemma e_move_pos bits : 0 <= e_move bits.
Proof. pose proof zpos as ZP. unfold noise_pos in ZP. unfold Noise.e_move, Noise.rows, Noise.cols. nia. Qed.

Lemma statefull_near b x y addr off y' m : banear b x y -> 0 <= b ->
  ba_read_statefull I y (map pbit addr) off = Some (y', m) ->
  exists x' c, ba_read_statefull N x addr off = Some (x', c) /\ banear (b + e_move (ba_bits y)) x' y' /\
    cnear (b + e_move (ba_bits y)) c m /\ ba_bits y' = ba_bits y.
Proof.
  intros H B E. pose proof H as [Eb _]. unfold ba_read_statefull in *. cbn [log_n Ideal] in E. rewrite N_log, Eb.
  pose proof zpos as ZP. unfold noise_pos in ZP.
  destruct (ba_gather I y (map pbit addr) off) as [ms|] eqn:E1; [|discriminate].
  destruct (gather_near _ _ _ _ _ _ H E1) as (cs & -> & H1).
  destruct (nth_error ms 0) as [m0|] eqn:E2; [|discriminate].
  destruct (Forall2_nth _ _ _ _ _ _ _ H1 E2) as (c0 & -> & H2).
  destruct (blind_rotate I false (map pbit addr) off (min log (ba_bits y)) m0) as [m1|] eqn:E3; [|discriminate].
  destruct (blind_rotate_near log t z phase fphase pbit N HN _ _ _ _ _ _ _ _ H2 E3) as (c1 & -> & H3).
  destruct (set_nth ms 0 m1) as [ms'|] eqn:E4; [|discriminate]. injection E as <- <-.
  fold (cols (ba_bits y)) in H3.
  assert (H3' : cnear (b + e_move (ba_bits y)) c1 m1) by (eapply cnear_mono; eauto; unfold Noise.e_move; lia).
  assert (H1' : Forall2 (cnear (b + e_move (ba_bits y))) cs ms).
  { eapply cnear_list_mono; eauto. unfold Noise.e_move, Noise.cols. nia. }
  destruct (Forall2_set_nth _ _ _ _ _ _ _ _ _ H1' H3' E4) as (cs' & -> & H4).
  eexists _, _. split; [reflexivity|]. split; [split; auto|]. auto.
Qed.

Lemma put_near b bw c m w wm : cnear b c m -> cnear bw w wm ->
  cnear (b + (n_trace z + n_sub z + n_add z + bw)) (a_add N (a_sub N c (a_trace N c)) w)
    (a_add I (a_sub I m (a_trace I m)) wm).
Proof.
  intros H W. cbn [a_add a_sub a_trace Ideal].
  pose proof (erase_near log t z phase fphase pbit N HN _ _ _ H) as H1.
  eapply cnear_mono; [exact (add_near log t z phase fphase pbit N HN _ _ _ _ _ _ H1 W)|]. lia.
Qed.

Lemma rev_near b bw x y w wm addr off y' : banear b x y -> 0 <= b -> 0 <= bw -> cnear bw w wm ->
  ba_read_statefull_rev I y wm (map pbit addr) off = Some y' ->
  exists x', ba_read_statefull_rev N x w addr off = Some x' /\
    banear (b + (n_trace z + n_sub z + n_add z + bw) + e_move (ba_bits y)) x' y'.
Proof.
  intros H B Bw W E. pose proof H as [Eb Hd]. unfold ba_read_statefull_rev in *. cbn [log_n] in E.
  change (log_n I) with log in E. rewrite N_log, Eb.
  pose proof zpos as ZP. unfold noise_pos in ZP.
  destruct (nth_error (ba_data y) 0) as [m0|] eqn:E1; [|discriminate].
  destruct (Forall2_nth _ _ _ _ _ _ _ Hd E1) as (c0 & -> & H1). cbv zeta in E |- *.
  pose proof (put_near _ _ _ _ _ _ H1 W) as H2.
  set (m1 := a_add I (a_sub I m0 (a_trace I m0)) wm) in *.
  destruct (blind_rotate I true (map pbit addr) off (min log (ba_bits y)) m1) as [m2|] eqn:E2; [|discriminate].
  destruct (blind_rotate_near log t z phase fphase pbit N HN _ _ _ _ _ _ _ _ H2 E2) as (c2 & -> & H3).
  fold (cols (ba_bits y)) in H3.
  destruct (set_nth (ba_data y) 0 m2) as [ms|] eqn:E3; [|discriminate].
  assert (Hd' : Forall2 (cnear (b + (n_trace z + n_sub z + n_add z + bw) + cols (ba_bits y) * n_crot z)) (ba_data x) (ba_data y)).
  { eapply cnear_list_mono; eauto. unfold Noise.cols. nia. }
  destruct (Forall2_set_nth _ _ _ _ _ _ _ _ _ Hd' H3 E3) as (cs & -> & H4).
  destruct (ba_scatter I (ba_bits y) ms (map pbit addr) off) as [ms'|] eqn:E4; [|discriminate]. injection E as <-.
  destruct (scatter_near _ _ _ _ _ _ _ H4 E4) as (cs' & -> & H5).
  eexists. split; [reflexivity|]. split; auto. cbn [ba_data]. eapply cnear_list_mono; eauto. unfold Noise.e_move. lia.
Qed.

Lemma write_near b bw x y w wm addr off y' : banear b x y -> 0 <= b -> 0 <= bw -> cnear bw w wm ->
  ba_write I y wm (map pbit addr) off = Some y' ->
  exists x', ba_write N x w addr off = Some x' /\
    banear (b + (n_trace z + n_sub z + n_add z + bw) + 2 * e_move (ba_bits y)) x' y'.
Proof.
  intros H B Bw W E. pose proof H as [Eb Hd]. unfold ba_write in *.
  change (log_n I) with log in E. rewrite N_log, Eb.
  pose proof zpos as ZP. unfold noise_pos in ZP.
  destruct (ba_gather I y (map pbit addr) off) as [ms|] eqn:E1; [|discriminate].
  destruct (gather_near _ _ _ _ _ _ H E1) as (cs & -> & H1).
  destruct (nth_error ms 0) as [m0|] eqn:E2; [|discriminate].
  destruct (Forall2_nth _ _ _ _ _ _ _ H1 E2) as (c0 & -> & H2).
  destruct (blind_rotate I false (map pbit addr) off (min log (ba_bits y)) m0) as [m1|] eqn:E3; [|discriminate].
  destruct (blind_rotate_near log t z phase fphase pbit N HN _ _ _ _ _ _ _ _ H2 E3) as (c1 & -> & H3).
  fold (cols (ba_bits y)) in H3. cbv zeta in E |- *.
  pose proof (put_near _ _ _ _ _ _ H3 W) as H4.
  set (m2 := a_add I (a_sub I m1 (a_trace I m1)) wm) in *.
  destruct (blind_rotate I true (map pbit addr) off (min log (ba_bits y)) m2) as [m3|] eqn:E4; [|discriminate].
  destruct (blind_rotate_near log t z phase fphase pbit N HN _ _ _ _ _ _ _ _ H4 E4) as (c3 & -> & H5).
  fold (cols (ba_bits y)) in H5.
  destruct (set_nth ms 0 m3) as [ms'|] eqn:E5; [|discriminate].
  assert (H1' : Forall2 (cnear (b + rows (ba_bits y) * n_cswap z + cols (ba_bits y) * n_crot z +
    (n_trace z + n_sub z + n_add z + bw) + cols (ba_bits y) * n_crot z)) cs ms).
  { eapply cnear_list_mono; eauto. unfold Noise.cols. nia. }
  destruct (Forall2_set_nth _ _ _ _ _ _ _ _ _ H1' H5 E5) as (cs' & -> & H6).
  destruct (ba_scatter I (ba_bits y) ms' (map pbit addr) off) as [ms2|] eqn:E6; [|discriminate]. injection E as <-.
  destruct (scatter_near _ _ _ _ _ _ _ H6 E6) as (cs2 & -> & H7).
  eexists. split; [reflexivity|]. split; auto. cbn [ba_data]. eapply cnear_list_mono; eauto. unfold Noise.e_move. lia.
Qed.

Lemma zero_near b x y a y' : banear b x y -> 0 <= b -> ba_zero I a y = Some y' ->
  exists x', ba_zero N a x = Some x' /\ banear (b + e_clear) x' y'.
Proof.
  intros H B E. pose proof H as [Eb Hd]. unfold ba_zero, zero_idx_of, zero_poly_of in *.
  change (log_n I) with log in E. rewrite N_log, Eb.
  pose proof zpos as ZP. unfold noise_pos in ZP. cbv zeta in E |- *.
  destruct (nth_error (ba_data y) (a / ring log)) as [m0|] eqn:E1; [|discriminate].
  destruct (Forall2_nth _ _ _ _ _ _ _ Hd E1) as (c0 & -> & H1).
  cbn [a_rot a_sub a_trace Ideal] in E.
  set (k := Z.of_nat ((a / ring log) mod ring log)) in *.
  pose proof (rot_near log t z phase fphase pbit N HN _ _ _ (- k) H1) as H2.
  pose proof (erase_near log t z phase fphase pbit N HN _ _ _ H2) as H3.
  pose proof (rot_near log t z phase fphase pbit N HN _ _ _ k H3) as H4.
  match type of E with match set_nth _ _ ?m with _ => _ end = _ => destruct (set_nth (ba_data y) (a / ring log) m) as [ms|] eqn:E2; [|discriminate] end.
  injection E as <-.
  assert (H4' : Forall2 (cnear (b + n_rot z + (n_trace z + n_sub z) + n_rot z)) (ba_data x) (ba_data y)).
  { eapply cnear_list_mono; eauto. lia. }
  destruct (Forall2_set_nth _ _ _ _ _ _ _ _ _ H4' H4 E2) as (cs & -> & H5).
  eexists; split; [reflexivity|]. split; auto. cbn [ba_data]. eapply cnear_list_mono; eauto. unfold Noise.e_clear. lia.
Qed.

(** ** all planes *)
Lemma mnear_nonempty b x y : mnear b x y -> nonempty y = true -> nonempty x = true.
Proof.
  intros (_ & _ & _ & H). unfold nonempty. destruct H as [|bx b0 xs ys [_ Hb] H]; auto.
  destruct Hb; auto.
Qed.
Lemma mnear_planes b x y ws : holds log y ws -> mnear b x y -> length (m_planes x) = 32%nat.
Proof. intros (_ & _ & _ & _ & L & _) (_ & _ & _ & H). rewrite (Forall2_len _ _ _ _ _ H). auto. Qed.
Lemma holds_data y ws : holds log y ws -> Forall (fun b => Forall (fun p : poly => length p = ring log) (ba_data b) /\ ba_bits b = m_bits y) (m_planes y).
Proof.
  intro H. apply Forall_forall. intros b Hb. apply In_nth_error in Hb as [i Hi].
  split; [|eapply shape_bits; eauto]. destruct H as (_ & _ & _ & _ & _ & H). destruct (H _ _ Hi) as [(_ & _ & Hf) _]. auto.
Qed.

Lemma nenc_word b f w : nenc b f w -> is_word w.
Proof. now intros [W _]. Qed.
Lemma nenc_at b f w i : nenc b f w -> (i < 32)%nat -> tnear q b (nth i (fphase f) 0) (d * Z.b2z (Z.testbit w (Z.of_nat i))).
Proof. intros [W H] Hi. specialize (H i Hi). rewrite nth_scale in H. unfold fhe_of_word in H. now rewrite map_seq_nth in H by auto. Qed.
Lemma nenc_intro b f w : is_word w ->
  (forall i, (i < 32)%nat -> tnear q b (nth i (fphase f) 0) (d * Z.b2z (Z.testbit w (Z.of_nat i)))) -> nenc b f w.
Proof. intros W H. split; auto. intros i Hi. rewrite nth_scale. unfold fhe_of_word. rewrite map_seq_nth by auto. auto. Qed.
Lemma nenc_mono b b' f w : nenc b f w -> b <= b' -> nenc b' f w.
Proof. intros [W H] B. split; auto. intros i Hi. eapply tnear_mono; eauto. Qed.

Lemma pack_near b cs (ms : list poly) w : Forall2 (cnear b) cs ms -> length ms = 32%nat -> enc_of (a_pack I ms) w ->
  nenc (b + n_pack z) (a_pack N cs) w.
Proof.
  intros H L (W & _ & E). pose proof (ring_pos log). apply nenc_intro; auto. intros i Hi. rewrite <- E by auto. rewrite Z.add_comm.
  eapply tnear_trans; [apply (y_pack _ _ _ _ _ _ _ HN); [rewrite (Forall2_len _ _ _ _ _ H)|]; auto|].
  cbn [a_pack Ideal]. destruct (nth_error_lt _ ms i) as [m Hm]; [lia|].
  destruct (Forall2_nth _ _ _ _ _ _ _ H Hm) as (c & Hc & Hn).
  rewrite (nth_error_nth (map _ cs) i 0 (x := nth 0 (phase c) 0)) by (now rewrite nth_error_map, Hc).
  rewrite (nth_error_nth (map _ ms) i 0 (x := nth 0 m 0)) by (now rewrite nth_error_map, Hm).
  eapply cnear_at; eauto.
Qed.
Lemma bit_near b f w i : nenc b f w -> (i < 32)%nat ->
  cnear (b + n_bit z) (a_bit N f i) (const_poly log (Z.b2z (Z.testbit w (Z.of_nat i)))).
Proof.
  intros H Hi. apply cnear_intro; [apply const_poly_length|]. intros j Hj. rewrite Z.add_comm.
  eapply tnear_trans; [apply (y_bit _ _ _ _ _ _ _ HN); auto|]. rewrite !const_poly_nth.
  pose proof (nenc_at _ _ _ _ H Hi) as T. destruct (j =? 0)%nat; auto.
  rewrite Z.mul_0_r. eapply tnear_mono; [apply tnear_exact|]. eapply tnear_pos; eauto.
Qed.

Definition onear (b : Z) (a : bitarray C * option C) (y : bitarray poly * option poly) : Prop :=
  banear b (fst a) (fst y) /\ match snd y with Some m => exists c, snd a = Some c /\ cnear b c m | None => True end.
Lemma onear_pack b cells' cells w : Forall2 (fun a y => match snd y with Some m => exists c, snd a = Some c /\ cnear b c m | None => True end) cells' cells ->
  length cells = 32%nat ->
  forall r, pack_out I cells = Some r -> enc_of r w ->
  exists f : F, @pack_out C P F N cells' = Some f /\ nenc (b + n_pack z) f w.
Proof.
  intros H L r E W. unfold pack_out in *.
  destruct (all_written (map snd cells)) as [ms|] eqn:Ew; [|discriminate]. injection E as <-.
  destruct (all_written_rel _ _ (cnear b) (map snd cells') (map snd cells) ms) as (cs & -> & Hc); auto.
  { clear - H. induction H; cbn [map]; constructor; auto. }
  assert (LM : length ms = length cells).
  { clear - Ew. revert ms Ew. induction cells as [|[x o] l IH]; intros ms E; cbn [map all_written snd] in E.
    - injection E as <-. reflexivity.
    - destruct o; [|discriminate]. destruct (all_written (map snd l)); [|discriminate]. injection E as <-. cbn. f_equal. auto. }
  eexists; split; [reflexivity|]. eapply pack_near; eauto. lia.
Qed.
Lemma Forall2_imp A B (R S : A -> B -> Prop) xs ys : (forall x y, R x y -> S x y) -> Forall2 R xs ys -> Forall2 S xs ys.
Proof. intros H F0. induction F0; constructor; auto. Qed.
Lemma Forall2_Forall_r A B (R : A -> B -> Prop) (Q : B -> Prop) xs ys : Forall2 R xs ys -> Forall Q ys -> Forall2 (fun x y => R x y /\ Q y) xs ys.
Proof. induction 1; intro G; inversion G; subst; constructor; auto. Qed.

Lemma with_out_rel x y b (Q : bitarray poly -> Prop) : Forall2 (banear b) (m_planes x) (m_planes y) -> Forall Q (m_planes y) ->
  Forall2 (fun a c => banear b (fst a) (fst c) /\ Q (fst c)) (with_out x) (with_out y).
Proof. intros H G. unfold with_out. induction H; inversion G; subst; constructor; cbn [fst]; auto. Qed.
Lemma nholds_pos b m ws : nholds b m ws -> 0 <= b.
Proof.
  intros (y & H & M). pose proof H as (_ & _ & _ & _ & L & _). destruct M as (_ & _ & _ & Hp).
  destruct (nth_error_lt _ (m_planes y) 0) as [b0 E0]; [lia|].
  destruct (Forall2_nth _ _ _ _ _ _ _ Hp E0) as (bx & _ & _ & Hd).
  destruct (shape_cap log y ws 0 b0 H E0) as (Q & _).
  destruct Hd as [|c m0 cs ms Hc _]; [cbn in Q; lia|].
  apply cnear_at with (i := 0%nat) in Hc; [|apply ring_pos]. eapply tnear_pos; eauto.
Qed.
Lemma nholds_words b m ws : nholds b m ws -> Forall is_word ws.
Proof. intros (y & (_ & _ & _ & H & _) & _). auto. Qed.
Lemma nholds_bits b m ws k : nholds b m ws -> bit_len_pred (Z.of_nat (length ws)) = Some k -> m_bits m = k.
Proof. intros (y & (_ & H & _) & (_ & E & _)) B. congruence. Qed.

Lemma n_stateless threads order b m ws addr off a : nholds b m ws -> par_order threads 32 order ->
  addresses (map pbit addr) off (m_bits m) a ->
  exists m' f, mem_read_stateless N threads order m addr off = Some (m', f) /\ nholds b m' ws /\
    nenc (b + e_read (m_bits m)) f (nth a ws 0).
Proof.
  intros HH Po A. pose proof (nholds_pos _ _ _ HH) as B. destruct HH as (y & H & M). pose proof M as (M1 & M2 & M3 & M4).
  rewrite M2 in A. destruct (stateless_ok log threads order y ws _ off a H Po A) as (r & E & Er).
  pose proof H as (_ & _ & Hst & _ & HL & _). pose proof zpos as ZP. unfold noise_pos in ZP.
  unfold mem_read_stateless in *. rewrite (holds_nonempty _ _ _ H) in E. rewrite (mnear_nonempty _ _ _ M (holds_nonempty _ _ _ H)).
  rewrite M3. rewrite Hst in E |- *. cbn [negb] in E |- *.
  pose proof (Forall2_len _ _ _ _ _ M4) as LL.
  rewrite region_eq in E by (unfold with_out; now rewrite map_length, HL).
  rewrite region_eq by (unfold with_out; now rewrite map_length, LL, HL).
  match type of E with match ?x with _ => _ end = _ => destruct x as [cells|] eqn:Ec; [|discriminate] end.
  pose proof (with_out_rel _ _ _ _ M4 (holds_data _ _ H)) as W0.
  match type of W0 with Forall2 ?R _ _ => set (Rc := R) in * end.
  set (b1 := b + n_retrieve z + cols (m_bits y) * n_crot z).
  destruct (mapi_o_rel _ _ _ _ Rc (fun (u : bitarray C * option C) (w : bitarray poly * option poly) =>
      banear b (fst u) (fst w) /\ match snd w with Some m0 => exists c, snd u = Some c /\ cnear b1 c m0 | None => True end)
    (fun _ c => do r <- ba_read_stateless N (fst c) addr off; Some (fst c, Some r))
    (fun _ c => do r <- ba_read_stateless I (fst c) (map pbit addr) off; Some (fst c, Some r))) with (3 := Ec) (xs := with_out m)
    as (cells' & Ec' & Hc).
  2:{ exact W0. }
  { intros _ u v w [Hu [Hl Hb]] Ew. destruct (ba_read_stateless I (fst v) (map pbit addr) off) as [m0|] eqn:Em; [|discriminate].
    injection Ew as <-. destruct (stateless_near _ _ _ _ _ _ Hu B Hl Em) as (c & -> & Hcn). rewrite Hb in Hcn.
    eexists; split; [reflexivity|]. cbn [fst snd]. split; auto. eexists; split; [reflexivity|exact Hcn]. }
  rewrite Ec'.
  destruct (pack_out I cells) as [r'|] eqn:Ep; [|discriminate].
  assert (Er' : r' = r) by congruence. subst r'.
  assert (Ey : Memory (map fst cells) (m_size y) (m_bits y) false = y) by congruence.
  destruct (mapi_o_nth _ _ _ _ _ _ Ec) as [Lc _]. unfold with_out in Lc. rewrite map_length, HL in Lc.
  destruct (onear_pack b1 cells' cells (nth a ws 0)) with (r := r) as (f & -> & Hf); auto.
  { eapply Forall2_imp; [|exact Hc]. intros u w [_ G]. exact G. }
  eexists _, f. split; [reflexivity|]. split.
  - exists y. split; auto. rewrite <- Ey. split; [exact M1|]. split; [exact M2|]. split; [reflexivity|]. cbn [m_planes].
    clear - Hc. induction Hc as [|? ? ? ? [G _]]; cbn [map]; constructor; auto.
  - eapply nenc_mono; eauto. rewrite M2. unfold b1, Noise.e_read. lia.
Qed.

Lemma n_statefull threads order b m ws addr off a : nholds b m ws -> (a < length ws)%nat -> par_order threads 32 order ->
  addresses (map pbit addr) off (m_bits m) a ->
  exists m1 f, mem_read_statefull N threads order m addr off = Some (m1, f) /\
    nenc (b + e_move (m_bits m) + n_pack z) f (nth a ws 0) /\
    forall threads' order' bw w v, par_order threads' 32 order' -> 0 <= bw -> nenc bw w v ->
      exists m2, mem_read_statefull_rev N threads' order' m1 w addr off = Some m2 /\
        nholds (b + 2 * e_move (m_bits m) + (n_trace z + n_sub z + n_add z + (bw + n_bit z))) m2 (put_word ws a v).
Proof.
  intros HH Ha Po A. pose proof (nholds_pos _ _ _ HH) as B. destruct HH as (y & H & M). pose proof M as (M1 & M2 & M3 & M4).
  rewrite M2 in A. destruct (statefull_ok log threads order y ws _ off a H Ha Po A) as (y1 & r & E & Er & Est & Hrev).
  pose proof H as (_ & _ & Hst & _ & HL & _). pose proof zpos as ZP. unfold noise_pos in ZP.
  unfold mem_read_statefull in *. rewrite (holds_nonempty _ _ _ H) in E. rewrite (mnear_nonempty _ _ _ M (holds_nonempty _ _ _ H)).
  rewrite M3. rewrite Hst in E |- *. cbn [negb] in E |- *.
  pose proof (Forall2_len _ _ _ _ _ M4) as LL.
  rewrite region_eq in E by (unfold with_out; now rewrite map_length, HL).
  rewrite region_eq by (unfold with_out; now rewrite map_length, LL, HL).
  match type of E with match ?x with _ => _ end = _ => destruct x as [cells|] eqn:Ec; [|discriminate] end.
  pose proof (with_out_rel _ _ _ _ M4 (holds_data _ _ H)) as W0.
  match type of W0 with Forall2 ?R _ _ => set (Rc := R) in * end.
  set (b1 := b + e_move (m_bits y)).
  destruct (mapi_o_rel _ _ _ _ Rc (fun (u : bitarray C * option C) (w : bitarray poly * option poly) =>
      (banear b1 (fst u) (fst w) /\ ba_bits (fst w) = m_bits y) /\ match snd w with Some m0 => exists c, snd u = Some c /\ cnear b1 c m0 | None => True end)
    (fun _ c => do (b, r) <- ba_read_statefull N (fst c) addr off; Some (b, Some r))
    (fun _ c => do (b, r) <- ba_read_statefull I (fst c) (map pbit addr) off; Some (b, Some r))) with (3 := Ec) (xs := with_out m)
    as (cells' & Ec' & Hc).
  2:{ exact W0. }
  { intros _ u v w [Hu [Hl Hb]] Ew. destruct (ba_read_statefull I (fst v) (map pbit addr) off) as [[v1 m0]|] eqn:Em; [|discriminate].
    injection Ew as <-. destruct (statefull_near _ _ _ _ _ _ _ Hu B Em) as (u1 & c & -> & Hu1 & Hcn & Hb1). rewrite Hb in Hcn, Hu1.
    eexists; split; [reflexivity|]. cbn [fst snd]. split; [split; [exact Hu1|congruence]|]. eexists; split; [reflexivity|exact Hcn]. }
  rewrite Ec'.
  destruct (pack_out I cells) as [r'|] eqn:Ep; [|discriminate].
  assert (Er' : r' = r) by congruence. subst r'.
  assert (Ey : y1 = Memory (map fst cells) (m_size y) (m_bits y) true) by congruence.
  destruct (mapi_o_nth _ _ _ _ _ _ Ec) as [Lc _]. unfold with_out in Lc. rewrite map_length, HL in Lc.
  destruct (onear_pack b1 cells' cells (nth a ws 0)) with (r := r) as (f & -> & Hf); auto.
  { eapply Forall2_imp; [|exact Hc]. intros u w [_ G]. exact G. }
  eexists _, f. split; [reflexivity|]. split.
  { rewrite M2. exact Hf. }
  intros threads' order' bw w v Po' Bw Hw.
  destruct (Hrev threads' order' (fhe_of_word v) v Po' (enc_word v (nenc_word _ _ _ Hw))) as (y2 & E2 & H2).
  rewrite Ey in E2. unfold mem_read_statefull_rev in *. cbn [m_state m_planes m_size m_bits] in E2 |- *.
  pose proof (Forall2_len _ _ _ _ _ Hc) as LC.
  destruct (nonempty (Memory (map fst cells) (m_size y) (m_bits y) true)) eqn:NE; [|discriminate].
  assert (MN : Forall2 (banear b1) (map fst cells') (map fst cells)).
  { clear - Hc. induction Hc as [|? ? ? ? [[G _] _]]; cbn [map]; constructor; auto. }
  assert (MB : Forall (fun c => ba_bits c = m_bits y) (map fst cells)).
  { clear - Hc. induction Hc as [|? ? ? ? [[_ G] _]]; cbn [map]; constructor; auto. }
  assert (NE' : nonempty (Memory (map fst cells') (m_size m) (m_bits m) true) = true).
  { eapply (mnear_nonempty b1); [|exact NE]. split; [exact M1|]. split; [exact M2|]. split; [reflexivity|exact MN]. }
  rewrite NE'.
  rewrite region_eq in E2 by (now rewrite map_length, Lc).
  rewrite region_eq by (now rewrite map_length, LC, Lc).
  match type of E2 with match ?x with _ => _ end = _ => destruct x as [bs|] eqn:Eb; [|discriminate] end.
  assert (Ey2 : y2 = Memory bs (m_size y) (m_bits y) false) by congruence.
  (* the index of a plane is below 32 *)
  assert (G : exists bs', mapi_o (fun i c => ba_read_statefull_rev N c (a_bit N w i) addr off) 0 (map fst cells') = Some bs' /\
     Forall2 (banear (b1 + (n_trace z + n_sub z + n_add z + (bw + n_bit z)) + e_move (m_bits y))) bs' bs).
  { assert (IX : forall k xs ys, Forall2 (banear b1) xs ys -> Forall (fun c => ba_bits c = m_bits y) ys -> (k + length ys <= 32)%nat ->
      forall out, mapi_o (fun i c => ba_read_statefull_rev I c (a_bit I (fhe_of_word v) i) (map pbit addr) off) k ys = Some out ->
      exists out', mapi_o (fun i c => ba_read_statefull_rev N c (a_bit N w i) addr off) k xs = Some out' /\
        Forall2 (banear (b1 + (n_trace z + n_sub z + n_add z + (bw + n_bit z)) + e_move (m_bits y))) out' out).
    { intros k xs ys FF. revert k. induction FF as [|x1 y3 xs ys Hxy FF IH]; intros k FB Hk out Eo; cbn [mapi_o] in *.
      - injection Eo as <-. eauto.
      - inversion FB as [|? ? FB1 FB2]; subst.
        match type of Eo with match ?g with _ => _ end = _ => destruct g as [o1|] eqn:Eo1; [|discriminate] end.
        match type of Eo with match ?g with _ => _ end = _ => destruct g as [o2|] eqn:Eo2; [|discriminate] end.
        injection Eo as <-. cbn [length] in Hk.
        assert (Hk' : (k < 32)%nat) by lia.
        pose proof (bit_near _ _ _ k Hw Hk') as HB.
        assert (Ebit : a_bit I (fhe_of_word v) k = const_poly log (Z.b2z (Z.testbit v (Z.of_nat k)))).
        { cbn [a_bit Ideal]. f_equal. unfold fhe_of_word. now rewrite map_seq_nth. }
        rewrite Ebit in Eo1.
        destruct (rev_near b1 (bw + n_bit z) _ _ _ _ _ _ _ Hxy ltac:(unfold b1; pose proof (e_move_pos (m_bits y)); lia) ltac:(lia) HB Eo1) as (o1' & -> & Ho1).
        destruct (IH (S k) FB2 ltac:(lia) _ Eo2) as (o2' & -> & Ho2). rewrite FB1 in Ho1. eauto. }
    apply (IX 0%nat _ _ MN MB); [rewrite map_length; lia|exact Eb]. }
  destruct G as (bs' & -> & Hbs). eexists; split; [reflexivity|].
  exists y2. split; auto. rewrite Ey2. split; [exact M1|]. split; [exact M2|]. split; [reflexivity|]. cbn [m_planes].
  eapply Forall2_imp; [|exact Hbs]. intros u w0 G. eapply banear_mono; [exact G|]. rewrite M2. unfold b1. lia.
Qed.

Lemma n_write threads order b bw m ws addr off a w v : nholds b m ws -> (a < length ws)%nat -> par_order threads 32 order ->
  addresses (map pbit addr) off (m_bits m) a -> 0 <= bw -> nenc bw w v ->
  exists m', mem_write N threads order m w addr off = Some m' /\
    nholds (b + (n_trace z + n_sub z + n_add z + (bw + n_bit z)) + 2 * e_move (m_bits m)) m' (put_word ws a v).
Proof.
  intros HH Ha Po A Bw Hw. pose proof (nholds_pos _ _ _ HH) as B. destruct HH as (y & H & M). pose proof M as (M1 & M2 & M3 & M4).
  rewrite M2 in A. destruct (write_ok log threads order y ws _ off a (fhe_of_word v) v H Ha Po A (enc_word v (nenc_word _ _ _ Hw))) as (y2 & E & H2).
  pose proof H as (_ & _ & Hst & _ & HL & _). pose proof zpos as ZP. unfold noise_pos in ZP.
  unfold mem_write in *. rewrite (holds_nonempty _ _ _ H) in E. rewrite (mnear_nonempty _ _ _ M (holds_nonempty _ _ _ H)).
  rewrite M3. rewrite Hst in E |- *. cbn [negb] in E |- *.
  pose proof (Forall2_len _ _ _ _ _ M4) as LL.
  rewrite region_eq in E by (now rewrite HL). rewrite region_eq by (now rewrite LL, HL).
  match type of E with match ?x with _ => _ end = _ => destruct x as [bs|] eqn:Eb; [|discriminate] end.
  assert (Ey2 : y2 = Memory bs (m_size y) (m_bits y) false) by congruence.
  assert (IX : forall k xs ys, Forall2 (banear b) xs ys -> Forall (fun c => ba_bits c = m_bits y) ys -> (k + length ys <= 32)%nat ->
    forall out, mapi_o (fun i c => ba_write I c (a_bit I (fhe_of_word v) i) (map pbit addr) off) k ys = Some out ->
    exists out', mapi_o (fun i c => ba_write N c (a_bit N w i) addr off) k xs = Some out' /\
      Forall2 (banear (b + (n_trace z + n_sub z + n_add z + (bw + n_bit z)) + 2 * e_move (m_bits y))) out' out).
  { intros k xs ys FF. revert k. induction FF as [|x1 y3 xs ys Hxy FF IH]; intros k FB Hk out Eo; cbn [mapi_o] in *.
    - injection Eo as <-. eauto.
    - inversion FB as [|? ? FB1 FB2]; subst.
      match type of Eo with match ?g with _ => _ end = _ => destruct g as [o1|] eqn:Eo1; [|discriminate] end.
      match type of Eo with match ?g with _ => _ end = _ => destruct g as [o2|] eqn:Eo2; [|discriminate] end.
      injection Eo as <-. cbn [length] in Hk.
      assert (Hk' : (k < 32)%nat) by lia.
      pose proof (bit_near _ _ _ k Hw Hk') as HB.
      assert (Ebit : a_bit I (fhe_of_word v) k = const_poly log (Z.b2z (Z.testbit v (Z.of_nat k)))).
      { cbn [a_bit Ideal]. f_equal. unfold fhe_of_word. now rewrite map_seq_nth. }
      rewrite Ebit in Eo1.
      destruct (write_near b (bw + n_bit z) _ _ _ _ _ _ _ Hxy B ltac:(lia) HB Eo1) as (o1' & -> & Ho1).
      destruct (IH (S k) FB2 ltac:(lia) _ Eo2) as (o2' & -> & Ho2). rewrite FB1 in Ho1. eauto. }
  assert (MB : Forall (fun c => ba_bits c = m_bits y) (m_planes y)).
  { eapply Forall_impl; [|apply (holds_data _ _ H)]. cbn. tauto. }
  destruct (IX 0%nat _ _ M4 MB ltac:(lia) _ Eb) as (bs' & -> & Hbs). eexists; split; [reflexivity|].
  exists y2. split; auto. rewrite Ey2. split; [exact M1|]. split; [exact M2|]. split; [reflexivity|]. cbn [m_planes].
  rewrite M2. exact Hbs.
Qed.

Lemma n_zero threads order b m ws a : nholds b m ws -> (a < length ws)%nat -> par_order threads 32 order ->
  exists m', mem_zero N threads order m a = Some m' /\
    nholds (b + e_clear) m' (if (cleared log a <? length ws)%nat then put_word ws (cleared log a) 0 else ws).
Proof.
  intros HH Ha Po. pose proof (nholds_pos _ _ _ HH) as B. destruct HH as (y & H & M). pose proof M as (M1 & M2 & M3 & M4).
  destruct (zero_ok log threads order y ws a H Ha Po) as (y2 & E & H2).
  pose proof H as (_ & _ & Hst & _ & HL & _).
  unfold mem_zero in *. rewrite (holds_nonempty _ _ _ H) in E. rewrite (mnear_nonempty _ _ _ M (holds_nonempty _ _ _ H)).
  pose proof (Forall2_len _ _ _ _ _ M4) as LL.
  rewrite region_eq in E by (now rewrite HL). rewrite region_eq by (now rewrite LL, HL).
  match type of E with match ?x with _ => _ end = _ => destruct x as [bs|] eqn:Eb; [|discriminate] end.
  assert (Ey2 : y2 = Memory bs (m_size y) (m_bits y) (m_state y)) by congruence.
  destruct (mapi_o_rel _ _ _ _ (banear b) (banear (b + e_clear)) (fun _ c => ba_zero N a c) (fun _ c => ba_zero I a c)) with (3 := Eb) (xs := m_planes m)
    as (bs' & -> & Hbs); auto.
  { intros _ u v w Hu Ew. exact (zero_near _ _ _ _ _ Hu B Ew). }
  eexists; split; [reflexivity|].
  exists y2. split; auto. rewrite Ey2. split; [exact M1|]. split; [exact M2|]. split; [exact M3|]. exact Hbs.
Qed.

(** ** decryption *)
Lemma map_cnear_decode b c m : torus_ok t -> 2 * b < d -> cnear b c m -> Forall (fun x => x = 0 \/ x = 1) m ->
  map (decode t) (phase c) = m.
Proof.
  intros T B H FB. pose proof (cnear_len _ _ _ _ _ _ H) as L.
  assert (Lp : length (phase c) = ring log) by apply (y_len _ _ _ _ _ _ _ HN).
  apply nth_ext with (d := decode t 0) (d' := 0); [rewrite map_length; congruence|].
  rewrite map_length. intros i Hi. rewrite map_nth. eapply decode_ok; eauto.
  - rewrite Forall_forall in FB. apply FB, nth_In. lia.
  - eapply cnear_at; eauto. lia.
Qed.
Lemma holds_bin y ws : holds log y ws -> Forall (fun b => Forall (Forall (fun x => x = 0 \/ x = 1)) (ba_data b)) (m_planes y).
Proof.
  intro H. apply Forall_forall. intros b Hb. apply In_nth_error in Hb as [i Hi].
  destruct H as (_ & _ & _ & _ & _ & H). destruct (H _ _ Hi) as [(_ & _ & Hf) Hc].
  apply Forall_forall. intros p Hp. apply Forall_forall. intros x Hx.
  apply In_nth_error in Hp as [k Hk]. apply In_nth_error in Hx as [j Hj].
  pose proof (nth_error_Forall _ _ _ _ _ Hf Hk) as Lp. cbn in Lp.
  pose proof (nth_error_Some_lt _ _ _ _ Hj) as Lj. pose proof (nth_error_Some_lt _ _ _ _ Hk) as Lk. pose proof (ring_pos log) as RP.
  assert (Hlt : (ring log * k + j < ring log * length (ba_data b))%nat) by nia.
  specialize (Hc _ Hlt). unfold coef in Hc.
  assert (D1 : ((ring log * k + j) / ring log = k)%nat) by (symmetry; apply Nat.div_unique with j; lia).
  assert (D2 : ((ring log * k + j) mod ring log = j)%nat) by (symmetry; apply Nat.mod_unique with k; lia).
  rewrite D1, D2, (nth_error_nth _ _ _ Hk), (nth_error_nth _ _ _ Hj) in Hc. subst x. destruct (Z.testbit _ _); cbn; auto.
Qed.
Lemma open_mem_ok b m ws : torus_ok t -> 2 * b < d -> nholds b m ws -> holds log (open_mem t phase m) ws.
Proof.
  intros T B (y & H & (M1 & M2 & M3 & M4)).
  assert (E : open_mem t phase m = y).
  { destruct y as [ps sz bi st]. unfold open_mem. cbn [m_size m_bits m_state m_planes] in *. subst sz bi st. f_equal.
    pose proof (holds_bin _ _ H) as HB. cbn [m_planes] in HB. clear - M4 HB T B HN.
    induction M4 as [|u v us vs [Eb Hd] _ IH]; [reflexivity|]. inversion HB as [|? ? HB1 HB2]; subst. cbn [map]. f_equal; auto.
    destruct v as [dv bv]. unfold open_ba. cbn [ba_data ba_bits] in *. subst bv. f_equal. clear - Hd HB1 T B HN.
    induction Hd as [|c p cs ps Hc _ IH]; [reflexivity|]. inversion HB1 as [|? ? HB HB']; subst. cbn [map]. f_equal; auto.
    eapply map_cnear_decode; eauto. }
  now rewrite E.
Qed.
Lemma open_fu_ok b f w : torus_ok t -> 2 * b < d -> nenc b f w -> enc_of (map (decode t) (fphase f)) w.
Proof.
  intros T B H. pose proof (y_flen _ _ _ _ _ _ _ HN f) as L. apply enc_intro; [eapply nenc_word; eauto|now rewrite map_length|].
  intros i Hi. rewrite (nth_indep _ 0 (decode t 0)) by (rewrite map_length; lia). rewrite map_nth.
  eapply decode_ok; eauto; [|eapply nenc_at; eauto]. destruct (Z.testbit _ _); cbn; auto.
Qed.
End Impl.
