(** Proofs about noisy ciphertexts: the torus, polynomials, swap networks. *)
Require Import ZArith List Bool Lia.
Require Import Verif.Word Verif.ListFacts Verif.Bdd Verif.Glwe Verif.GlweFacts Verif.Par Verif.ParFacts
  Verif.EncMem Verif.MemSpec Verif.Noise.
Import ListNotations.
Ltac Zify.zify_post_hook ::= idtac.
Open Scope Z_scope.

(** ** the torus *)
Lemma tnear_exact q x : tnear q 0 x x.
Proof. exists 0. replace (x - x - 0 * q) with 0 by lia. reflexivity. Qed.
Lemma tnear_mono q b b' x y : tnear q b x y -> b <= b' -> tnear q b' x y.
Proof. intros [k H] L. exists k. lia. Qed.
Lemma tnear_trans q a b x y w : tnear q a x y -> tnear q b y w -> tnear q (a + b) x w.
Proof.
  intros [k H] [j J]. exists (k + j). rewrite Z.mul_add_distr_r.
  replace (x - w - (k * q + j * q)) with ((x - y - k * q) + (y - w - j * q)) by lia. lia.
Qed.
Lemma tnear_opp q b x y : tnear q b x y -> tnear q b (- x) (- y).
Proof. intros [k H]. exists (- k). replace (- x - - y - - k * q) with (- (x - y - k * q)) by lia. now rewrite Z.abs_opp. Qed.
Lemma tnear_add q a b x y u v : tnear q a x y -> tnear q b u v -> tnear q (a + b) (x + u) (y + v).
Proof.
  intros [k H] [j J]. exists (k + j). rewrite Z.mul_add_distr_r.
  replace (x + u - (y + v) - (k * q + j * q)) with ((x - y - k * q) + (u - v - j * q)) by lia. lia.
Qed.
Lemma tnear_sub q a b x y u v : tnear q a x y -> tnear q b u v -> tnear q (a + b) (x - u) (y - v).
Proof. intros H J. apply tnear_opp in J. exact (tnear_add _ _ _ _ _ _ _ H J). Qed.
Lemma tnear_pos q b x y : tnear q b x y -> 0 <= b.
Proof. intros [k H]. lia. Qed.

Lemma nth_scale d (m : list Z) i : nth i (map (Z.mul d) m) 0 = d * nth i m 0.
Proof. replace 0 with (d * 0) at 1 by lia. apply map_nth. Qed.

Lemma decode_ok t b x m : torus_ok t -> 2 * b < t_delta t -> m = 0 \/ m = 1 ->
  tnear (t_q t) b x (t_delta t * m) -> decode t x = m.
Proof.
  intros (D & Q & M & _) B Hm [k H]. unfold decode. set (d := t_delta t) in *. set (q := t_q t) in *.
  assert (Eq : q = d * (q / d)) by (apply Z.div_exact; lia).
  set (p := q / d) in *.
  assert (P2 : 2 <= p) by nia.
  set (r := x - d * m - k * q) in *.
  assert (Ed : d / 2 * 2 <= d < d / 2 * 2 + 2).
  { pose proof (Z.div_mod d 2 ltac:(lia)). pose proof (Z.mod_pos_bound d 2 ltac:(lia)). lia. }
  assert (R : 0 <= r + d / 2 < d) by lia.
  assert (Ex : x + d / 2 = (r + d / 2) + (m + k * p) * d).
  { unfold r. rewrite Eq. ring. }
  rewrite Ex, Z.div_add, (Z.div_small (r + d / 2)) by lia. cbn [Z.add].
  rewrite Z.mod_add by lia. apply Z.mod_small. lia.
Qed.

(** ** polynomials *)
Lemma const_poly_0 log i : nth i (const_poly log 0) 0 = 0.
Proof. rewrite const_poly_nth. now destruct (i =? 0)%nat. Qed.
Lemma tnear_cf q b n x y j : (0 < n)%nat -> (forall i, (i < n)%nat -> tnear q b (nth i x 0) (nth i y 0)) ->
  tnear q b (cf n x j) (cf n y j).
Proof.
  intros Hn H. unfold cf. cbv zeta. pose proof (Z.mod_pos_bound j (2 * Z.of_nat n) ltac:(lia)).
  destruct (Z.ltb_spec (j mod (2 * Z.of_nat n)) (Z.of_nat n)).
  - apply H. lia.
  - apply tnear_opp, H. lia.
Qed.
Lemma cf_scale n d m j : cf n (map (Z.mul d) m) j = d * cf n m j.
Proof. unfold cf. cbv zeta. rewrite !nth_scale. destruct (_ <? _); lia. Qed.

Section Impl.
Context {C P F : Type}.
Variables (log : nat) (t : torus) (z : noise).
Variables (phase : C -> poly) (fphase : F -> list Z) (pbit : P -> bool) (N : alg C P F).
Hypothesis HN : noisy log t z phase fphase pbit N.
Notation q := (t_q t).
Notation d := (t_delta t).
Notation I := (Ideal log).
Notation cnear := (cnear log t phase).
Notation pnear := (pnear log t).

Lemma cnear_at b c m i : cnear b c m -> (i < ring log)%nat -> tnear q b (nth i (phase c) 0) (d * nth i m 0).
Proof. intros [_ H] Hi. rewrite <- nth_scale. now apply H. Qed.
Lemma cnear_len b c m : cnear b c m -> length m = ring log.
Proof. now intros [L _]. Qed.
Lemma cnear_intro b c m : length m = ring log ->
  (forall i, (i < ring log)%nat -> tnear q b (nth i (phase c) 0) (d * nth i m 0)) -> cnear b c m.
Proof. intros L H. split; auto. intros i Hi. rewrite nth_scale. auto. Qed.
Lemma cnear_mono b b' c m : cnear b c m -> b <= b' -> cnear b' c m.
Proof. intros [L H] B. split; auto. intros i Hi. eapply tnear_mono; eauto. Qed.

(** *** rotation, under a bit or not *)
Lemma rotate_near b c m k : cnear b c m -> pnear b (rotate log k (phase c)) (map (Z.mul d) (rotate log k m)).
Proof.
  intros H i Hi. rewrite nth_scale, !rotate_nth by auto. rewrite <- cf_scale. apply tnear_cf; [apply ring_pos|].
  intros j Hj. rewrite nth_scale. now apply cnear_at.
Qed.
Lemma rot_near b c m k : cnear b c m -> cnear (b + n_rot z) (a_rot N k c) (rotate log k m).
Proof.
  intro H. split; [apply rotate_length|]. intros i Hi. rewrite Z.add_comm.
  eapply tnear_trans; [apply (y_rot _ _ _ _ _ _ _ HN); auto|]. now apply rotate_near.
Qed.
Lemma crot_near b c m k p : cnear b c m ->
  cnear (b + n_crot z) (a_crot N p k c) (if pbit p then rotate log k m else m).
Proof.
  intro H. split; [destruct (pbit p); [apply rotate_length|now apply cnear_len in H]|]. intros i Hi. rewrite Z.add_comm.
  eapply tnear_trans; [apply (y_crot _ _ _ _ _ _ _ HN); auto|]. destruct (pbit p).
  - now apply rotate_near.
  - apply H; auto.
Qed.

(** *** replacing the constant coefficient *)
Lemma erase_near b c m : cnear b c m ->
  cnear (b + (n_trace z + n_sub z)) (a_sub N c (a_trace N c)) (psub m (const_poly log (nth 0 m 0))).
Proof.
  intro H. pose proof (cnear_len _ _ _ H) as L. pose proof (ring_pos log) as RP.
  assert (L1 : length m = length (const_poly log (nth 0 m 0))) by now rewrite const_poly_length.
  apply cnear_intro; [now rewrite psub_length|].
  intros i Hi. replace (b + (n_trace z + n_sub z)) with (n_sub z + (n_trace z + b)) by lia.
  eapply tnear_trans; [apply (y_sub _ _ _ _ _ _ _ HN); auto|].
  rewrite psub_nth by now rewrite !(y_len _ _ _ _ _ _ _ HN).
  rewrite psub_nth, const_poly_nth by auto.
  pose proof (y_trace _ _ _ _ _ _ _ HN c i Hi) as T. rewrite const_poly_nth in T.
  destruct (Nat.eqb_spec i 0) as [E|E].
  - rewrite E in *. replace (d * (nth 0 m 0 - nth 0 m 0)) with (nth 0 (phase c) 0 - nth 0 (phase c) 0) by ring.
    eapply tnear_mono; [apply tnear_sub; [apply tnear_exact|exact T]|]. apply cnear_at with (i := 0%nat) in H; [|lia].
    apply tnear_pos in H. lia.
  - replace (d * (nth i m 0 - 0)) with (d * nth i m 0 - 0) by ring. rewrite (Z.add_comm (n_trace z)).
    apply tnear_sub; auto. now apply cnear_at.
Qed.
Lemma add_near a b c m e n : cnear a c m -> cnear b e n -> cnear (a + b + n_add z) (a_add N c e) (padd m n).
Proof.
  intros H J. pose proof (cnear_len _ _ _ H) as L. pose proof (cnear_len _ _ _ J) as M.
  apply cnear_intro; [rewrite padd_length; congruence|]. intros i Hi. rewrite Z.add_comm.
  eapply tnear_trans; [apply (y_add _ _ _ _ _ _ _ HN); auto|].
  rewrite padd_nth by now rewrite !(y_len _ _ _ _ _ _ _ HN). rewrite padd_nth by congruence.
  rewrite Z.mul_add_distr_l. apply tnear_add; now apply cnear_at.
Qed.

(** *** blind rotation *)
Lemma nth_pbit ps i : nth i (map pbit ps) false = pbit (nth i ps (a_pzero N)).
Proof. rewrite <- (y_pzero _ _ _ _ _ _ _ HN) at 1. apply map_nth. Qed.
Lemma blind_rotate_near b sign addr rsh mask c m m' : cnear b c m ->
  blind_rotate I sign (map pbit addr) rsh mask m = Some m' ->
  exists c', blind_rotate N sign addr rsh mask c = Some c' /\ cnear (b + Z.of_nat mask * n_crot z) c' m'.
Proof.
  intros H E. unfold blind_rotate in *. rewrite map_length in E. destruct (_ <=? _)%nat; [|discriminate].
  injection E as <-. eexists; split; [reflexivity|].
  induction mask as [|k IH].
  - cbn [seq fold_left]. eapply cnear_mono; eauto. lia.
  - rewrite !seq_S, !fold_left_app. cbn [plus fold_left].
    replace (b + Z.of_nat (S k) * n_crot z) with (b + Z.of_nat k * n_crot z + n_crot z) by lia.
    change (a_pzero I) with false. rewrite nth_pbit.
    exact (crot_near _ _ _ (if sign then 2 ^ Z.of_nat k else - 2 ^ Z.of_nat k) (nth (rsh + k) addr (a_pzero N)) IH).
Qed.

(** *** the swap network: one swap per ciphertext and level *)
Definition lnear (bd : nat -> Z) (cs : list C) (ms : list poly) : Prop :=
  length cs = length ms /\ forall k c m, nth_error cs k = Some c -> nth_error ms k = Some m -> cnear (bd k) c m.
Lemma lnear_Forall2 b cs ms : lnear (fun _ => b) cs ms <-> Forall2 (cnear b) cs ms.
Proof.
  split.
  - intros [L H]. revert ms L H. induction cs as [|c cs IH]; intros [|m ms] L H; try discriminate; constructor.
    + exact (H 0%nat c m eq_refl eq_refl).
    + apply IH; [now injection L|]. intros k. exact (H (S k)).
  - induction 1 as [|c m cs ms H _ [L IH]]; [split; auto; intros [|k]; discriminate|].
    split; [cbn; congruence|]. intros [|k] x y; cbn; eauto. congruence.
Qed.
Lemma lnear_mono bd bd' cs ms : lnear bd cs ms -> (forall k, (k < length cs)%nat -> bd k <= bd' k) -> lnear bd' cs ms.
Proof.
  intros [L H] B. split; auto. intros k c m Hc Hm. eapply cnear_mono; eauto. apply B. apply nth_error_Some_lt in Hc. auto.
Qed.

Lemma swap_near bd B p i j cs ms : lnear bd cs ms -> i <> j -> bd i <= B -> bd j <= B ->
  lnear (fun k => if (k =? i)%nat || (k =? j)%nat then B + n_cswap z else bd k)
    (swap N p i j cs) (swap I (pbit p) i j ms).
Proof.
  intros H Hij Bi Bj. pose proof H as [L HH]. unfold swap.
  assert (Zc : 0 <= n_cswap z) by (apply (y_pos _ _ _ _ _ _ _ HN)).
  assert (Skip : lnear (fun k => if (k =? i)%nat || (k =? j)%nat then B + n_cswap z else bd k) cs ms).
  { eapply lnear_mono; eauto. intros k _. destruct (Nat.eqb_spec k i), (Nat.eqb_spec k j); subst; cbn [orb]; lia. }
  destruct (nth_error cs i) as [x|] eqn:Ei.
  2:{ apply nth_error_None in Ei. rewrite (proj2 (nth_error_None ms i)) by lia. exact Skip. }
  assert (Li : (i < length cs)%nat) by (apply nth_error_Some_lt in Ei; auto).
  destruct (nth_error_lt _ ms i) as [u Hu]; [lia|]. rewrite Hu.
  destruct (nth_error cs j) as [y|] eqn:Ej.
  2:{ apply nth_error_None in Ej. rewrite (proj2 (nth_error_None ms j)) by lia. exact Skip. }
  assert (Lj : (j < length cs)%nat) by (apply nth_error_Some_lt in Ej; auto).
  destruct (nth_error_lt _ ms j) as [v Hv]; [lia|]. rewrite Hv.
  pose proof (HH _ _ _ Ei Hu) as Nx. pose proof (HH _ _ _ Ej Hv) as Ny.
  pose proof (y_cswap1 _ _ _ _ _ _ _ HN p x y) as Y1. pose proof (y_cswap2 _ _ _ _ _ _ _ HN p x y) as Y2.
  destruct (a_cswap N p x y) as [x' y']. cbn [fst snd] in Y1, Y2.
  assert (E : a_cswap I (pbit p) u v = (if pbit p then v else u, if pbit p then u else v))
    by (cbn [a_cswap Ideal]; destruct (pbit p); reflexivity). rewrite E.
  assert (Nx' : cnear (B + n_cswap z) x' (if pbit p then v else u)).
  { split; [destruct (pbit p); eapply cnear_len; eauto|]. intros k Hk. rewrite Z.add_comm.
    eapply tnear_trans; [now apply Y1|]. destruct (pbit p).
    - apply (cnear_mono _ B _ _ Ny); auto.
    - apply (cnear_mono _ B _ _ Nx); auto. }
  assert (Ny' : cnear (B + n_cswap z) y' (if pbit p then u else v)).
  { split; [destruct (pbit p); eapply cnear_len; eauto|]. intros k Hk. rewrite Z.add_comm.
    eapply tnear_trans; [now apply Y2|]. destruct (pbit p).
    - apply (cnear_mono _ B _ _ Nx); auto.
    - apply (cnear_mono _ B _ _ Ny); auto. }
  split; [rewrite !upd_length; auto|].
  intros k c m. rewrite !upd_nth_error, !upd_length.
  rewrite (proj2 (Nat.ltb_lt j (length cs))), (proj2 (Nat.ltb_lt j (length ms))),
    (proj2 (Nat.ltb_lt i (length cs))), (proj2 (Nat.ltb_lt i (length ms))) by lia.
  destruct (Nat.eqb_spec k j) as [Kj|Kj]; [rewrite orb_true_r; intros; congruence|].
  destruct (Nat.eqb_spec k i) as [Ki|Ki]; cbn [orb]; intros; [congruence|eauto].
Qed.

Lemma swap_level_near b p s cs ms : lnear (fun _ => b) cs ms ->
  lnear (fun _ => b + n_cswap z) (swap_level N p s cs) (swap_level I (pbit p) s ms).
Proof.
  intro H. assert (Zc : 0 <= n_cswap z) by (apply (y_pos _ _ _ _ _ _ _ HN)).
  unfold swap_level.
  set (bd := fun (r k : nat) => if (k <? r)%nat || ((s <=? k)%nat && (k <? s + r)%nat) then b + n_cswap z else b).
  assert (G : forall r, (r <= s)%nat -> lnear (bd r)
    (fold_left (fun l j => if (j + s <? length l)%nat then swap N p j (j + s) l else l) (seq 0 r) cs)
    (fold_left (fun l j => if (j + s <? length l)%nat then swap I (pbit p) j (j + s) l else l) (seq 0 r) ms)).
  { induction r as [|r IH]; intro Hr.
    - cbn [seq fold_left]. eapply lnear_mono; eauto. intros k _. unfold bd. destruct (_ || _); lia.
    - specialize (IH ltac:(lia)). rewrite !seq_S, !fold_left_app. cbn [plus fold_left].
      match goal with |- lnear _ (if (_ <? length ?x)%nat then _ else _) (if (_ <? length ?y)%nat then _ else _) =>
        set (x0 := x) in *; set (y0 := y) in * end.
      pose proof IH as [L _]. rewrite L. destruct (Nat.ltb_spec (r + s) (length y0)) as [B|B].
      + assert (B1 : bd r r = b).
        { unfold bd. rewrite (proj2 (Nat.ltb_ge r r)), (proj2 (Nat.leb_gt s r)) by lia. reflexivity. }
        assert (B2 : bd r (r + s)%nat = b).
        { unfold bd. rewrite (proj2 (Nat.ltb_ge (r + s) r)), (proj2 (Nat.ltb_ge (r + s) (s + r))), andb_false_r by lia. reflexivity. }
        eapply lnear_mono; [apply (swap_near (bd r) b p r (r + s) x0 y0 IH); lia|].
        intros k _. unfold bd. destruct (Nat.eqb_spec k r), (Nat.eqb_spec k (r + s)), (Nat.ltb_spec k r), (Nat.ltb_spec k (S r)),
          (Nat.leb_spec s k), (Nat.ltb_spec k (s + r)), (Nat.ltb_spec k (s + S r)); cbn [andb orb]; lia.
      + eapply lnear_mono; [exact IH|]. intros k _. unfold bd.
        destruct (Nat.ltb_spec k r), (Nat.ltb_spec k (S r)), (Nat.leb_spec s k), (Nat.ltb_spec k (s + r)),
          (Nat.ltb_spec k (s + S r)); cbn [andb orb]; lia. }
  eapply lnear_mono; [apply (G s); lia|]. intros k _. unfold bd. destruct (_ || _); lia.
Qed.

Lemma net_near b addr rsh ls cs ms : lnear (fun _ => b) cs ms ->
  lnear (fun _ => b + Z.of_nat (length ls) * n_cswap z) (net N addr rsh ls cs) (net I (map pbit addr) rsh ls ms).
Proof.
  unfold net. revert b cs ms. induction ls as [|i ls IH]; intros b cs ms H.
  - cbn [fold_left length]. eapply lnear_mono; eauto. intros; cbn; lia.
  - cbn [fold_left]. change (a_pzero I) with false. rewrite nth_pbit.
    eapply lnear_mono; [apply IH, swap_level_near, H|]. intros k _. cbn [length]. lia.
Qed.
End Impl.
